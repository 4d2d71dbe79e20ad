(** Editing a value in place: replacing a part by another whose bytes have the same
    length changes just these bytes. *)
From Coq Require Import ZArith List Bool String Lia ZifyBool ZifyNat.
From Verif Require Import Base Str Types Versions Text Props File Spec BaseFacts Induct.
Import ListNotations.
Open Scope Z_scope.

(** A part of a file: a property written with or without its header, or a bare
    struct value. *)
Inductive part := PartP (hdr : bool) (p : property) | PartV (v : svalue).
Definition part_bytes (vs : list (guid * Z)) (x : part) : out :=
  match x with PartP hdr p => w_prop vs hdr p | PartV v => w_sval vs v end.

(** [edit x x' y y']: [y'] is [y] with one occurrence of the part [x], however
    deep, replaced by [x']. *)
Inductive edit (x x' : part) : part -> part -> Prop :=
| EditHere : edit x x' x x'
| EditSet : forall hdr ty fl l1 l2 p p', edit x x' (PartP false p) (PartP false p') ->
    edit x x' (PartP hdr (PSet ty fl (l1 ++ p :: l2))) (PartP hdr (PSet ty fl (l1 ++ p' :: l2)))
| EditArray : forall hdr ty l1 l2 p p', edit x x' (PartP false p) (PartP false p') ->
    edit x x' (PartP hdr (PArray (AProps ty (l1 ++ p :: l2)))) (PartP hdr (PArray (AProps ty (l1 ++ p' :: l2))))
| EditStructs : forall hdr f t g l1 l2 v v', edit x x' (PartV v) (PartV v') ->
    edit x x' (PartP hdr (PArray (AStructs f t g (l1 ++ v :: l2))))
              (PartP hdr (PArray (AStructs f t g (l1 ++ v' :: l2))))
| EditKey : forall hdr kt vt fl l1 l2 k k' v, edit x x' (PartP false k) (PartP false k') ->
    edit x x' (PartP hdr (PMap (MGen kt vt fl (l1 ++ (k, v) :: l2))))
              (PartP hdr (PMap (MGen kt vt fl (l1 ++ (k', v) :: l2))))
| EditValue : forall hdr kt vt fl l1 l2 k v v', edit x x' (PartP false v) (PartP false v') ->
    edit x x' (PartP hdr (PMap (MGen kt vt fl (l1 ++ (k, v) :: l2))))
              (PartP hdr (PMap (MGen kt vt fl (l1 ++ (k, v') :: l2))))
| EditNamed : forall hdr kk vt l1 l2 k v v', edit x x' (PartP false v) (PartP false v') ->
    edit x x' (PartP hdr (PMap (MProp kk vt (l1 ++ (k, v) :: l2))))
              (PartP hdr (PMap (MProp kk vt (l1 ++ (k, v') :: l2))))
| EditStruct : forall hdr g ty v v', edit x x' (PartV v) (PartV v') ->
    edit x x' (PartP hdr (PStruct g ty v)) (PartP hdr (PStruct g ty v'))
| EditBare : forall v v', edit x x' (PartV v) (PartV v') ->
    edit x x' (PartP false (PSValue v)) (PartP false (PSValue v'))
| EditField : forall k ps1 ps2 l1 l2 p p', edit x x' (PartP true p) (PartP true p') ->
    edit x x' (PartV (SCustom (l1 ++ (k, ps1 ++ p :: ps2) :: l2)))
              (PartV (SCustom (l1 ++ (k, ps1 ++ p' :: ps2) :: l2))).

(** ** Proof *)
Section Patch.
Context (bx bx' : list byte).
Hypothesis Hlen : len bx' = len bx.

(** [w'] writes the bytes of [w] with one [bx] replaced. *)
Definition patched (w w' : out) : Prop :=
  forall b n, w = Ok (b, n) ->
  exists pre suf n', b = pre ++ bx ++ suf /\ w' = Ok (pre ++ bx' ++ suf, n').

Lemma p_left w w' r : patched w w' -> patched (w +> r) (w' +> r).
Proof.
  intros H b n E. unfold seq in E. destruct w as [[x i]|]; [|discriminate]. destruct r as [[y j]|]; [|discriminate].
  injection E as <- <-. destruct (H x i eq_refl) as (pre & suf & n' & -> & ->).
  exists pre, (suf ++ y), (n' + j). unfold seq. rewrite !app_assoc. auto.
Qed.
Lemma p_right w r r' : patched r r' -> patched (w +> r) (w +> r').
Proof.
  intros H b n E. unfold seq in E. destruct w as [[x i]|]; [|discriminate]. destruct r as [[y j]|]; [|discriminate].
  injection E as <- <-. destruct (H y j eq_refl) as (pre & suf & n' & -> & ->).
  exists (x ++ pre), suf, (i + n'). unfold seq. rewrite !app_assoc. auto.
Qed.
Lemma p_seqs {A} (f : A -> out) l1 l2 a a' : patched (f a) (f a') ->
  patched (seqs f (l1 ++ a :: l2)) (seqs f (l1 ++ a' :: l2)).
Proof.
  intros H. induction l1 as [|c l1 IH]; cbn [app seqs]; [now apply p_left|now apply p_right].
Qed.
Lemma patched_len w w' b n : patched w w' -> w = Ok (b, n) -> exists b' n', w' = Ok (b', n') /\ len b' = len b.
Proof.
  intros H E. destruct (H b n E) as (pre & suf & n' & -> & E'). do 2 eexists. split; [exact E'|].
  rewrite !len_app. lia.
Qed.
(** A size field in front, then the bytes. *)
Lemma p_sized (g : Z -> out) w w' : patched w w' ->
  patched (match w with Ok (b, n) => g (len b) +> emit b n | Fail f => Fail f end)
          (match w' with Ok (b, n) => g (len b) +> emit b n | Fail f => Fail f end).
Proof.
  intros H. destruct w as [[x i]|f]; [|intros b n E; discriminate].
  destruct (patched_len _ _ _ _ H eq_refl) as (b' & n' & E' & L). destruct w' as [[x' i']|]; [|discriminate].
  injection E' as -> ->. rewrite L. apply p_right. intros b n E. injection E as <- <-.
  destruct (H x i eq_refl) as (pre & suf & k & -> & E). injection E as -> ->. exists pre, suf, k. auto.
Qed.
Lemma seq_assoc a b c : (a +> b) +> c = a +> (b +> c).
Proof.
  destruct a as [[x n]|]; [|reflexivity]. destruct b as [[y m]|]; [|reflexivity]. destruct c as [[z k]|]; [|reflexivity].
  cbn [seq]. now rewrite app_assoc, Z.add_assoc.
Qed.
Lemma p_ext w1 w2 w1' w2' : w1 = w2 -> w1' = w2' -> patched w2 w2' -> patched w1 w1'.
Proof. now intros -> ->. Qed.
Lemma p_header hdr name counted idx extra w w' : patched w w' ->
  patched (with_header hdr name counted idx extra w) (with_header hdr name counted idx extra w').
Proof.
  intros H. unfold with_header. destruct hdr; [|exact H].
  eapply p_ext; [| |apply (p_sized (fun n => (if counted then w_string name else emit (str_bytes name) 0)
      +> w_u32 n +> w_u32 idx +> extra +> w_u8 0) _ _ H)].
  - destruct w as [[x n]|]; [|reflexivity]. now rewrite !seq_assoc.
  - destruct w' as [[x n]|]; [|reflexivity]. now rewrite !seq_assoc.
Qed.
Lemma len_mid {A} (l1 l2 : list A) a a' : len (l1 ++ a' :: l2) = len (l1 ++ a :: l2).
Proof. rewrite !len_app, !len_cons. reflexivity. Qed.

Context (vs : list (guid * Z)) (x x' : part).
Context (k k' : Z).
Hypothesis Wx : part_bytes vs x = Ok (bx, k).
Hypothesis Wx' : part_bytes vs x' = Ok (bx', k').

Lemma edit_patched y y' : edit x x' y y' -> patched (part_bytes vs y) (part_bytes vs y').
Proof.
  induction 1; cbn [part_bytes] in *; cbn [w_prop w_sval w_array w_map array_type map_key_type map_value_type];
    repeat match goal with |- context [len (?l1 ++ ?b :: ?l2)] =>
      match goal with |- context [len (l1 ++ ?a :: l2)] => tryif constr_eq a b then fail else rewrite (len_mid l1 l2 b a) end end;
    try (apply p_header).
  - intros b n E. rewrite Wx in E. injection E as <- <-. exists [], [], k'. rewrite app_nil_r, Wx'. cbn [app].
    now rewrite app_nil_r.
  - apply p_right, p_right, p_seqs. assumption.
  - apply p_right, p_seqs. assumption.
  - eapply p_ext; [| |apply (p_sized (fun n => w_u32 (len (l1 ++ v :: l2)) +> w_string f +> w_string (kind_name KStruct) +> w_u64 n
      +> w_string t +> w_guid g +> w_u8 0)); apply (p_seqs (w_sval vs) l1 l2); exact IHedit].
    + destruct (seqs (w_sval vs) (l1 ++ v :: l2)) as [[z n]|]; [|reflexivity]. now rewrite !seq_assoc.
    + destruct (seqs (w_sval vs) (l1 ++ v' :: l2)) as [[z n]|]; [|reflexivity]. now rewrite !seq_assoc.
  - apply p_right, p_right, p_seqs. now apply p_left.
  - apply p_right, p_right, p_seqs. now apply p_right.
  - apply p_right, p_right, p_seqs. now apply p_right.
  - assumption.
  - assumption.
  - apply p_left, p_seqs, p_seqs. now apply p_right.
Qed.
End Patch.

Lemma patch_part vs x x' bx k bx' k' : part_bytes vs x = Ok (bx, k) -> part_bytes vs x' = Ok (bx', k') ->
  len bx' = len bx -> forall y y' b n, edit x x' y y' -> part_bytes vs y = Ok (b, n) ->
  exists pre suf n', b = pre ++ bx ++ suf /\ part_bytes vs y' = Ok (pre ++ bx' ++ suf, n').
Proof. intros W W' L y y' b n H. exact (edit_patched bx bx' L vs x x' k k' W W' y y' H b n). Qed.
Lemma patch_file h l1 l2 name p p' x x' bx k bx' k' :
  part_bytes (h_versions h) x = Ok (bx, k) -> part_bytes (h_versions h) x' = Ok (bx', k') -> len bx' = len bx ->
  edit x x' (PartP true p) (PartP true p') ->
  forall b, save_plain (h, l1 ++ (name, p) :: l2) = Ok b ->
  exists pre suf, b = pre ++ bx ++ suf /\ save_plain (h, l1 ++ (name, p') :: l2) = Ok (pre ++ bx' ++ suf).
Proof.
  intros W W' L H b E. unfold save_plain in E.
  assert (P : patched bx bx' (w_file (h, l1 ++ (name, p) :: l2)) (w_file (h, l1 ++ (name, p') :: l2))).
  { unfold w_file. cbn [fst snd]. apply p_right, p_left, p_seqs, p_right.
    exact (edit_patched bx bx' L _ x x' k k' W W' _ _ H). }
  destruct (w_file (h, l1 ++ (name, p) :: l2)) as [[c n]|] eqn:F; [|discriminate]. injection E as ->.
  destruct (P b n eq_refl) as (pre & suf & n' & -> & E). exists pre, suf. unfold save_plain. rewrite E. auto.
Qed.

(** ** The properties of a file are written one after the other *)
Lemma tail_bytes : exists t n, (w_string s_none +> w_int 4 0) = Ok (t, n).
Proof. eexists. eexists. vm_compute. reflexivity. Qed.
Lemma segments h : exists H T, forall ps b, save_plain (h, ps) = Ok b <->
  exists segs, Forall2 (fun e s => save_plain (h, [e]) = Ok (H ++ s ++ T)) ps segs
    /\ b = H ++ List.concat segs ++ T.
Proof.
  destruct tail_bytes as (T & n & ET).
  assert (EH : exists H k, w_header h = Ok (H, k)).
  { assert (W : forall l, exists b k, seqs w_version l = Ok (b, k)).
    { induction l as [|e l (b & k & E)]; cbn [seqs]; [exists [], 0; reflexivity|]. rewrite E. cbn. eauto. }
    destruct (W (h_versions h)) as (b & k & E). unfold w_header. rewrite E. destruct (h_ue5 h); cbn; eauto. }
  destruct EH as (H & k & EH). exists H, T.
  set (w := fun e : str * property => let '(name, p) := e in w_string name +> w_prop (h_versions h) true p).
  assert (S : forall ps, save_plain (h, ps) = match seqs w ps with Ok (c, _) => Ok (H ++ c ++ T) | Fail f => Fail f end).
  { intros ps. unfold save_plain, w_file. cbn [fst snd]. rewrite EH, ET. fold w. destruct (seqs w ps) as [[c m]|]; reflexivity. }
  assert (S1 : forall e s, save_plain (h, [e]) = Ok (H ++ s ++ T) <-> exists m, w e = Ok (s, m)).
  { intros e s. rewrite S. cbn [seqs]. destruct (w e) as [[c m]|]; cbn [seq skip emit].
    - rewrite app_nil_r. split; [|intros (m' & E); injection E as -> ->; reflexivity].
      intros E. injection E as E. apply app_inv_head, app_inv_tail in E. subst. eauto.
    - split; [discriminate|]. intros (m & E). discriminate. }
  intros ps b. rewrite S. clear S.
  assert (S2 : forall c, (exists m, seqs w ps = Ok (c, m)) <->
      exists segs, Forall2 (fun e s => save_plain (h, [e]) = Ok (H ++ s ++ T)) ps segs /\ c = List.concat segs).
  { induction ps as [|e ps IH]; intros c; cbn [seqs].
    - split.
      + intros (m & E). injection E as <- <-. exists []. split; [constructor|reflexivity].
      + intros (segs & F & ->). inversion F. exists 0. reflexivity.
    - split.
      + intros (m & E). unfold seq in E. destruct (w e) as [[s i]|] eqn:Ee; [|discriminate].
        destruct (seqs w ps) as [[c' j]|]; [|discriminate]. injection E as <- <-.
        destruct (proj1 (IH c') (ex_intro _ j eq_refl)) as (segs & F & ->). exists (s :: segs). split; [|reflexivity].
        constructor; [apply S1; eauto|exact F].
      + intros (segs & F & ->). inversion F as [|? s ? ss E F']. subst. apply S1 in E. destruct E as (m & E). rewrite E.
        destruct (proj2 (IH (List.concat ss)) (ex_intro _ ss (conj F' eq_refl))) as (j & E'). rewrite E'.
        exists (m + j). reflexivity. }
  destruct (seqs w ps) as [[c m]|].
  - split.
    + intros E. injection E as <-. destruct (proj1 (S2 c) (ex_intro _ m eq_refl)) as (segs & F & ->). eauto.
    + intros (segs & F & ->). destruct (proj2 (S2 (List.concat segs)) (ex_intro _ segs (conj F eq_refl))) as (m' & E).
      injection E as -> ->. reflexivity.
  - split; [discriminate|]. intros (segs & F & ->).
    destruct (proj2 (S2 (List.concat segs)) (ex_intro _ segs (conj F eq_refl))) as (m' & E). discriminate.
Qed.
