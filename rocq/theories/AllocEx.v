(** Requests that the input cannot back: every level of nesting can ask for as much as a count
    can express. *)
From Coq Require Import ZArith List Bool String Lia ZifyBool ZifyNat.
From Verif Require Import Base Str Types Versions Text Props File Spec BaseFacts ReaderFacts StrFacts Decode DecodeProp
  DecodeFile Sane Samples BoundThm Alloc AllocThm.
Import ListNotations.
Open Scope Z_scope.

(** The number of requests for 2^32-1 items of a known type. *)
Fixpoint huge (l : list req) : Z :=
  match l with
  | [] => 0
  | q :: r => (if (q_count q =? 4294967295) && negb (opaque_elements (q_room q)) then 1 else 0) + huge r
  end.
(** An array of 2^32-1 structs, up to the first field of the first one; it is not continued, or
    continued with another such array as that field. *)
Definition level : list byte :=
  str_bytes (s2z "a") ++ str_bytes (s2z "ArrayProperty") ++ le_bytes 4 0 ++ le_bytes 4 0 ++ str_bytes (s2z "StructProperty")
  ++ le_bytes 1 0 ++ le_bytes 4 4294967295 ++ str_bytes (s2z "a") ++ str_bytes (s2z "StructProperty") ++ le_bytes 8 0
  ++ str_bytes (s2z "S") ++ repeat Byte.x00 16 ++ le_bytes 1 0.
Fixpoint levels (k : nat) : list byte := match k with O => [] | S k' => level ++ levels k' end.
Definition tower (k : nat) : list byte := match w_header tiny with Ok (h, _) => h ++ levels k | Fail _ => [] end.

Lemma huge_app a b : huge (a ++ b) = huge a + huge b.
Proof. induction a as [|q a IH]; cbn [app huge]; lia. Qed.
Lemma huge_nonneg l : 0 <= huge l.
Proof. induction l as [|q l IH]; cbn [huge]; [lia|]. destruct (_ && _); lia. Qed.
Definition atleast (n : Z) {A} (a : areader A) (t : list byte) : Prop :=
  forall p st, n <= huge (fst (a (Cur p t st))).
Lemma al_bind n {A B} (a : areader A) r (k : A -> areader B) bs x t : erases a r -> (forall st, decodes st r bs x) ->
  atleast n (k x) t -> atleast n (abind a k) (bs ++ t).
Proof.
  intros E D H p st. specialize (E (Cur p (bs ++ t) st)). rewrite (D st p t) in E. unfold abind.
  destruct (a (Cur p (bs ++ t) st)) as [l y]. cbn [snd] in E. subst y. specialize (H (p + len bs) st).
  destruct (k x _) as [l' y]. cbn [fst] in *. rewrite huge_app. pose proof (huge_nonneg l). lia.
Qed.
Lemma al_request n w {B} (k : unit -> areader B) t : opaque_elements w = false ->
  atleast n (k tt) t -> atleast (n + 1) (abind (request w 4294967295) k) t.
Proof.
  intros W H p st. specialize (H p st). unfold abind, request. destruct (k tt _) as [l y]. cbn [fst app huge q_count q_room] in *.
  rewrite W, Z.eqb_refl. cbn [andb negb]. lia.
Qed.
Lemma al_left n {A B} (a : areader A) (k : A -> areader B) t : atleast n a t -> atleast n (abind a k) t.
Proof.
  intros H p st. specialize (H p st). unfold abind. destruct (a _) as [l [[x c]|f]]; cbn [fst] in *; [|exact H].
  destruct (k x c) as [l' y]. cbn [fst]. rewrite huge_app. pose proof (huge_nonneg l'). lia.
Qed.
Lemma al_pos n {A B} (r : reader A) (k : A -> areader B) t : (forall c, exists x, r c = Ok (x, c)) ->
  (forall x, atleast n (k x) t) -> atleast n (abind (lift r) k) t.
Proof.
  intros R H p st. unfold abind, lift. destruct (R (Cur p t st)) as [x ->]. specialize (H x p st).
  destruct (k x _) as [l' y]. exact H.
Qed.
Lemma al_scoped n s {A} (a : areader A) t : atleast n a t -> atleast n (ascoped s a) t.
Proof.
  intros H p st. pose proof (al_left n a (fun x => lift pop ;+ aret x) t H p (s :: st)) as L.
  unfold ascoped. unfold abind at 1, lift at 1, push. cbn [pos rest stk].
  destruct (abind a (fun x => lift pop ;+ aret x) (Cur p t (s :: st))) as [l y]. exact L.
Qed.
Lemma al_rep n q {A} (a : areader A) t : atleast n a t -> atleast n (arep (Z.pos q) a) t.
Proof.
  intros H. cbn [arep]. induction q; cbn [arep_pos]; apply al_left; assumption.
Qed.
Ltac alift := eapply al_bind; [apply er_lift| |].
Ltac astr := eapply al_bind; [apply er_string|intros; apply dec_string; reflexivity|].
Lemma al_prop o vs n k : atleast (Z.of_nat k) (a_custom (S n) o (a_prop n o vs) []) (levels k) ->
  atleast (Z.of_nat (S k)) (a_prop (S n) o vs (s2z "ArrayProperty") true None)
    (skipn 24 level ++ levels k).
Proof.
  intros H. cbn [a_prop]. apply al_scoped. unfold a_body. change (kind_of (s2z "ArrayProperty")) with KArray. cbv iota.
  replace (skipn 24 level) with (le_bytes 4 0 ++ le_bytes 4 0 ++ str_bytes (s2z "StructProperty")
    ++ le_bytes 1 0 ++ le_bytes 4 4294967295 ++ str_bytes (s2z "a") ++ str_bytes (s2z "StructProperty") ++ le_bytes 8 0
    ++ str_bytes (s2z "S") ++ repeat Byte.x00 16 ++ le_bytes 1 0) by (vm_compute; reflexivity).
  rewrite <- !app_assoc. unfold aheaded. alift; [intros; apply dec_u32; lia|]. alift; [intros; apply dec_index0|]. astr.
  alift; [intros; apply dec_term|]. unfold asized. apply al_pos; [intros; eexists; reflexivity|intros start].
  apply al_left. unfold a_array. alift; [intros; apply dec_u32; lia|].
  replace (Z.of_nat (S k)) with (Z.of_nat k + 1) by lia. apply al_request; [reflexivity|].
  change (kind_of (s2z "StructProperty")) with KStruct. cbv iota. apply al_left. unfold a_struct_array.
  astr. astr. change (negb _) with false. cbv iota.
  alift; [intros; apply (dec_uint _ 8); reflexivity|]. astr. alift; [intros; apply (dec_take_n _ 16); reflexivity|].
  alift; [intros; apply dec_term|]. apply al_pos; [intros; eexists; reflexivity|intros start']. apply al_left. apply al_rep.
  apply al_left. unfold a_sval. change (skind_of (s2z "S")) with SkCustom. cbv zeta. cbn [fixed_of]. apply al_left. exact H.
Qed.
Lemma level_split : level = str_bytes (s2z "a") ++ str_bytes (s2z "ArrayProperty") ++ skipn 24 level.
Proof. reflexivity. Qed.
Lemma al_custom o vs k : forall n acc, (k <= n)%nat ->
  atleast (Z.of_nat k) (a_custom (S n) o (a_prop n o vs) acc) (levels k).
Proof.
  induction k as [|k IH]; intros n acc L; [intros p st; apply huge_nonneg|]. destruct n as [|n]; [lia|].
  remember (S n) as n1 eqn:N1. cbn [levels a_custom]. subst n1. rewrite level_split, <- !app_assoc. astr. change (str_eqb _ s_none) with false. cbv iota.
  astr. apply al_left. apply al_scoped. apply al_prop. apply IH. lia.
Qed.
Lemma al_entries o vs k n m : (k <= m)%nat -> atleast (Z.of_nat k) (a_entries (S n) m o vs) (levels k).
Proof.
  destruct k as [|k]; intros L; [intros p st; apply huge_nonneg|]. destruct m as [|m]; [lia|].
  remember (S m) as m1 eqn:N1. cbn [levels a_entries]. subst m1. rewrite level_split, <- !app_assoc. astr. change (str_eqb _ s_none) with false. cbv iota.
  astr. apply al_left. apply al_scoped. apply al_prop. apply al_custom. lia.
Qed.
Lemma tower_bytes k : exists h, tower k = h ++ levels k /\ len h = 40 /\ forall st, decodes st r_header h tiny.
Proof.
  unfold tower. destruct (w_header tiny) as [[h n]|f] eqn:E; [|discriminate E]. exists h. split; [reflexivity|].
  split; [vm_compute in E; injection E as <- <-; reflexivity|].
  intros st. apply (e_header (len h + 1) st tiny eq_refl h n E). lia.
Qed.
Lemma levels_len k : len (levels k) = 112 * Z.of_nat k.
Proof. induction k; cbn [levels]; [reflexivity|]. rewrite len_app, IHk. change (len level) with 112. lia. Qed.
Lemma tower_len k : len (tower k) = 40 + 112 * Z.of_nat k.
Proof. destruct (tower_bytes k) as (h & -> & H & _). rewrite len_app, levels_len. lia. Qed.
Lemma tower_asks o k : Z.of_nat k <= huge (fst (a_parse o (tower k))).
Proof.
  unfold a_parse. assert (L : (k <= List.length (tower k))%nat) by (pose proof (tower_len k); unfold len in *; lia).
  destruct (tower_bytes k) as (h & E & _ & D). rewrite E in *.
  eassert (H : atleast (Z.of_nat k) (a_file _ o) (h ++ levels k)); [|apply (H 0 [])].
  unfold a_file. eapply al_bind; [apply er_header|exact D|]. apply al_left. apply al_entries. lia.
Qed.
Lemma huge_asked l : Forall in_range l -> 4294967295 * huge l <= asked l.
Proof.
  induction 1 as [|q l H _ IH]; cbn [huge asked]; [lia|]. unfold in_range in H.
  destruct (opaque_elements (q_room q)); cbn [negb]; rewrite ?andb_false_r, ?andb_true_r; [lia|].
  destruct (q_count q =? 4294967295) eqn:E; lia.
Qed.
Lemma tower_rejected o k : (0 < k)%nat -> forall f, load_plain o (tower k) <> Ok f.
Proof.
  intros K f E. unfold load_plain in E. destruct (parse o (tower k)) as [[g c]|] eqn:P; [|discriminate].
  destruct (parse_asks o (tower k) g c P) as (A & B & _). pose proof (tower_asks o k) as T.
  pose proof (huge_asked _ (proj1 (parse_any o (tower k)))). rewrite tower_len in B. lia.
Qed.

(** Twelve bytes of a container that ask for room for 2^32-1 unpacked bytes. *)
Definition hollow_box (c : ctype) : list byte :=
  le_bytes 4 4294967295 ++ le_bytes 4 0 ++ plz_magic ++ le_bytes 1 (ctype_z c).
Lemma box_asks z o : a_load z o GPalworld (hollow_box CNone) = ([Req RUnpacked 4294967295 0], Fail (Err EEof)).
Proof. reflexivity. Qed.
Lemma box_zlib z o : fst (inflate z []) = [] -> exists e, a_load z o GPalworld (hollow_box CZlib) = ([Req RUnpacked 4294967295 0], Fail (Err e)).
Proof.
  intros Z. unfold a_load.
  assert (P : exists e, a_palworld z (Cur 0 (hollow_box CZlib) []) = ([Req RUnpacked 4294967295 0], Fail (Err e))).
  { exists (match snd (inflate z []) with ZBad => EIo | _ => EEof end). destruct z as [df inf]. cbn [inflate] in *.
    assert (X : zread_exact 4294967295 (inf []) = Fail (Err (match snd (inf []) with ZBad => EIo | _ => EEof end))).
    { unfold zread_exact. now rewrite Z. }
    change (a_palworld _ _) with ([Req RUnpacked 4294967295 0], match zread_exact 4294967295 (inf []) with
      | Ok d => Ok ((CZlib, d), Cur 12 [] []) | Fail f => Fail f end). now rewrite X. }
  destruct P as [e ->]. now exists e.
Qed.
