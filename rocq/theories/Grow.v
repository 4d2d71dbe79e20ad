(** Editing a value when the new part has another length: besides the part only the
    size fields around it change. *)
From Coq Require Import ZArith List Bool String Lia ZifyBool ZifyNat.
From Verif Require Import Base Str Types Versions Text Props File Spec BaseFacts Induct Patch.
Import ListNotations.
Open Scope Z_scope.

(** [resized x x' n b b']: [b'] is [b] with one [x] replaced by [x'] and with [n] size
    fields, one inside the reach of the other, adjusted.  A size field of four or eight
    bytes is followed by some unchanged bytes and then by as many bytes as it says. *)
Inductive resized (x x' : list byte) : nat -> list byte -> list byte -> Prop :=
| RHere : resized x x' 0 x x'
| RAround : forall n pre suf b b', resized x x' n b b' -> resized x x' n (pre ++ b ++ suf) (pre ++ b' ++ suf)
| RSize : forall n w pre mid b b', w = 4%nat \/ w = 8%nat -> resized x x' n b b' ->
    resized x x' (S n) (pre ++ le_bytes w (len b) ++ mid ++ b) (pre ++ le_bytes w (len b') ++ mid ++ b').

(** [enclosed x x' n y y']: [y'] is [y] with one occurrence of the part [x] replaced by
    [x'], as [edit] (Patch.v), with [n] size fields around that occurrence: one for each
    property with a header and one more for an array of structs. *)
Definition own (hdr : bool) (n : nat) : nat := if hdr then S n else n.
Inductive enclosed (x x' : part) : nat -> part -> part -> Prop :=
| EncHere : enclosed x x' 0 x x'
| EncSet : forall n hdr ty fl l1 l2 p p', enclosed x x' n (PartP false p) (PartP false p') ->
    enclosed x x' (own hdr n) (PartP hdr (PSet ty fl (l1 ++ p :: l2))) (PartP hdr (PSet ty fl (l1 ++ p' :: l2)))
| EncArray : forall n hdr ty l1 l2 p p', enclosed x x' n (PartP false p) (PartP false p') ->
    enclosed x x' (own hdr n) (PartP hdr (PArray (AProps ty (l1 ++ p :: l2)))) (PartP hdr (PArray (AProps ty (l1 ++ p' :: l2))))
| EncStructs : forall n hdr f t g l1 l2 v v', enclosed x x' n (PartV v) (PartV v') ->
    enclosed x x' (own hdr (S n)) (PartP hdr (PArray (AStructs f t g (l1 ++ v :: l2))))
              (PartP hdr (PArray (AStructs f t g (l1 ++ v' :: l2))))
| EncKey : forall n hdr kt vt fl l1 l2 k k' v, enclosed x x' n (PartP false k) (PartP false k') ->
    enclosed x x' (own hdr n) (PartP hdr (PMap (MGen kt vt fl (l1 ++ (k, v) :: l2))))
              (PartP hdr (PMap (MGen kt vt fl (l1 ++ (k', v) :: l2))))
| EncValue : forall n hdr kt vt fl l1 l2 k v v', enclosed x x' n (PartP false v) (PartP false v') ->
    enclosed x x' (own hdr n) (PartP hdr (PMap (MGen kt vt fl (l1 ++ (k, v) :: l2))))
              (PartP hdr (PMap (MGen kt vt fl (l1 ++ (k, v') :: l2))))
| EncNamed : forall n hdr kk vt l1 l2 k v v', enclosed x x' n (PartP false v) (PartP false v') ->
    enclosed x x' (own hdr n) (PartP hdr (PMap (MProp kk vt (l1 ++ (k, v) :: l2))))
              (PartP hdr (PMap (MProp kk vt (l1 ++ (k, v') :: l2))))
| EncStruct : forall n hdr g ty v v', enclosed x x' n (PartV v) (PartV v') ->
    enclosed x x' (own hdr n) (PartP hdr (PStruct g ty v)) (PartP hdr (PStruct g ty v'))
| EncBare : forall n v v', enclosed x x' n (PartV v) (PartV v') ->
    enclosed x x' n (PartP false (PSValue v)) (PartP false (PSValue v'))
| EncField : forall n k ps1 ps2 l1 l2 p p', enclosed x x' n (PartP true p) (PartP true p') ->
    enclosed x x' n (PartV (SCustom (l1 ++ (k, ps1 ++ p :: ps2) :: l2)))
              (PartV (SCustom (l1 ++ (k, ps1 ++ p' :: ps2) :: l2))).

(** ** Proofs *)

Lemma enclosed_edit x x' y y' : edit x x' y y' <-> exists n, enclosed x x' n y y'.
Proof.
  split.
  - induction 1; try (destruct IHedit as [i IH]); eexists; econstructor; eassumption.
  - intros [n H]. induction H; econstructor; eassumption.
Qed.

(** The whole changes its length by as much as the part. *)
Lemma resized_len x x' n b b' : resized x x' n b b' -> len b' - len b = len x' - len x.
Proof.
  induction 1 as [|n pre suf b b' _ IH|n w pre mid b b' W _ IH]; [lia| |]; rewrite !len_app, ?len_le_bytes; lia.
Qed.
(** With equal lengths no other byte changes. *)
Lemma resized_same x x' n b b' : resized x x' n b b' -> len x' = len x -> exists pre suf, b = pre ++ x ++ suf /\ b' = pre ++ x' ++ suf.
Proof.
  intros H L. induction H as [|n pre suf b b' _ IH|n w pre mid b b' W HR IH].
  - exists [], []. now rewrite !app_nil_r.
  - destruct IH as (p & s & -> & ->). exists (pre ++ p), (s ++ suf). now rewrite !app_assoc.
  - pose proof (resized_len _ _ _ _ _ HR) as E. destruct IH as (p & s & -> & ->).
    replace (len (p ++ x' ++ s)) with (len (p ++ x ++ s)) by lia.
    exists (pre ++ le_bytes w (len (p ++ x ++ s)) ++ mid ++ p), s. now rewrite !app_assoc.
Qed.

Section Grow.
Context (bx bx' : list byte).
(** [w'] writes what [w] writes with one [bx] replaced. *)
Definition grown (i : nat) (w w' : out) : Prop :=
  forall b n, w = Ok (b, n) -> exists b' n', w' = Ok (b', n') /\ resized bx bx' i b b'.

Lemma g_left i w w' r : grown i w w' -> grown i (w +> r) (w' +> r).
Proof.
  intros H b n E. unfold seq in E. destruct w as [[x n1]|]; [|discriminate]. destruct r as [[y n2]|]; [|discriminate].
  injection E as <- <-. destruct (H x n1 eq_refl) as (b' & n' & -> & R).
  exists (b' ++ y), (n' + n2). split; [reflexivity|]. exact (RAround _ _ i [] y _ _ R).
Qed.
Lemma g_right i w r r' : grown i r r' -> grown i (w +> r) (w +> r').
Proof.
  intros H b n E. unfold seq in E. destruct w as [[x n1]|]; [|discriminate]. destruct r as [[y n2]|]; [|discriminate].
  injection E as <- <-. destruct (H y n2 eq_refl) as (b' & n' & -> & R).
  exists (x ++ b'), (n1 + n'). split; [reflexivity|]. pose proof (RAround _ _ i x [] _ _ R) as Q. now rewrite !app_nil_r in Q.
Qed.
Lemma g_seqs {A} i (f : A -> out) l1 l2 a a' : grown i (f a) (f a') ->
  grown i (seqs f (l1 ++ a :: l2)) (seqs f (l1 ++ a' :: l2)).
Proof.
  intros H. induction l1 as [|c l1 IH]; cbn [app seqs]; [now apply g_left|now apply g_right].
Qed.
(** Something, a size field, something, the bytes. *)
Lemma g_sized i (a m : out) (s : nat) w w' : s = 4%nat \/ s = 8%nat -> grown i w w' ->
  grown (S i) (match w with Ok (b, n) => a +> emit (le_bytes s (len b)) (Z.of_nat s) +> m +> emit b n | Fail f => Fail f end)
        (match w' with Ok (b, n) => a +> emit (le_bytes s (len b)) (Z.of_nat s) +> m +> emit b n | Fail f => Fail f end).
Proof.
  intros S H. destruct w as [[x n1]|f]; [|intros b n E; discriminate].
  destruct (H x n1 eq_refl) as (b' & n' & -> & R). intros b n E.
  destruct a as [[y j]|]; [|discriminate]. destruct m as [[z k]|]; [|discriminate]. cbn [seq emit] in *.
  injection E as <- <-. do 2 eexists. split; [reflexivity|]. exact (RSize _ _ i s y z _ _ S R).
Qed.
Lemma g_ext i w1 w2 w1' w2' : w1 = w2 -> w1' = w2' -> grown i w2 w2' -> grown i w1 w1'.
Proof. now intros -> ->. Qed.
Lemma g_header i hdr name counted idx extra w w' : grown i w w' ->
  grown (own hdr i) (with_header hdr name counted idx extra w) (with_header hdr name counted idx extra w').
Proof.
  intros H. unfold with_header. destruct hdr; [|exact H].
  eapply g_ext; [| |apply (g_sized i (if counted then w_string name else emit (str_bytes name) 0)
      (w_u32 idx +> extra +> w_u8 0) 4 _ _ (or_introl eq_refl) H)].
  - destruct w as [[x n]|]; [|reflexivity]. now rewrite !seq_assoc.
  - destruct w' as [[x n]|]; [|reflexivity]. now rewrite !seq_assoc.
Qed.

Context (vs : list (guid * Z)) (x x' : part).
Context (k k' : Z).
Hypothesis Wx : part_bytes vs x = Ok (bx, k).
Hypothesis Wx' : part_bytes vs x' = Ok (bx', k').

Lemma edit_grown i y y' : enclosed x x' i y y' -> grown i (part_bytes vs y) (part_bytes vs y').
Proof.
  induction 1; cbn [part_bytes] in *; cbn [w_prop w_sval w_array w_map array_type map_key_type map_value_type];
    repeat match goal with |- context [len (?l1 ++ ?b :: ?l2)] =>
      match goal with |- context [len (l1 ++ ?a :: l2)] => tryif constr_eq a b then fail else rewrite (len_mid l1 l2 b a) end end;
    try (apply g_header).
  - intros b n E. rewrite Wx in E. injection E as <- <-. do 2 eexists. split; [exact Wx'|]. constructor.
  - apply g_right, g_right, g_seqs. assumption.
  - apply g_right, g_seqs. assumption.
  - eapply g_ext; [| |apply (g_sized n (w_u32 (len (l1 ++ v :: l2)) +> w_string f +> w_string (kind_name KStruct))
      (w_string t +> w_guid g +> w_u8 0) 8 (seqs (w_sval vs) (l1 ++ v :: l2)) (seqs (w_sval vs) (l1 ++ v' :: l2)) (or_intror eq_refl)); apply (g_seqs n (w_sval vs) l1 l2); exact IHenclosed].
    + destruct (seqs (w_sval vs) (l1 ++ v :: l2)) as [[z n1]|]; [|reflexivity]. now rewrite !seq_assoc.
    + destruct (seqs (w_sval vs) (l1 ++ v' :: l2)) as [[z n1]|]; [|reflexivity]. now rewrite !seq_assoc.
  - apply g_right, g_right, g_seqs. now apply g_left.
  - apply g_right, g_right, g_seqs. now apply g_right.
  - apply g_right, g_right, g_seqs. now apply g_right.
  - assumption.
  - assumption.
  - apply g_left, g_seqs, g_seqs. now apply g_right.
Qed.
End Grow.

Lemma grow_part vs x x' bx k bx' k' : part_bytes vs x = Ok (bx, k) -> part_bytes vs x' = Ok (bx', k') ->
  forall i y y' b n, enclosed x x' i y y' -> part_bytes vs y = Ok (b, n) ->
  exists b' n', part_bytes vs y' = Ok (b', n') /\ resized bx bx' i b b'.
Proof. intros W W' i y y' b n H. exact (edit_grown bx bx' vs x x' k k' W W' i y y' H b n). Qed.
Lemma grow_file h l1 l2 name p p' x x' bx k bx' k' :
  part_bytes (h_versions h) x = Ok (bx, k) -> part_bytes (h_versions h) x' = Ok (bx', k') ->
  forall i, enclosed x x' i (PartP true p) (PartP true p') ->
  forall b, save_plain (h, l1 ++ (name, p) :: l2) = Ok b ->
  exists b', save_plain (h, l1 ++ (name, p') :: l2) = Ok b' /\ resized bx bx' i b b'.
Proof.
  intros W W' i H b E. unfold save_plain in E.
  assert (P : grown bx bx' i (w_file (h, l1 ++ (name, p) :: l2)) (w_file (h, l1 ++ (name, p') :: l2))).
  { unfold w_file. cbn [fst snd]. apply g_right, g_left, g_seqs, g_right.
    exact (edit_grown bx bx' _ x x' k k' W W' _ _ _ H). }
  destruct (w_file (h, l1 ++ (name, p) :: l2)) as [[c n]|] eqn:F; [|discriminate]. injection E as ->.
  destruct (P b n eq_refl) as (b' & n' & E & R). exists b'. unfold save_plain. rewrite E. auto.
Qed.
