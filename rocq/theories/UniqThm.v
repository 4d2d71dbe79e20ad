(** Representable values have unique keys (C32). *)
From Coq Require Import ZArith List Bool String Lia ZifyBool ZifyNat Permutation.
From Verif Require Import Base Str Types Versions Text Props File Spec BaseFacts Decode Induct Accept AcceptProp AcceptAll
  AcceptFile EqFacts EqSym Hash HashFacts.
Import ListNotations.
Open Scope Z_scope.

Lemma all_imp {A} (u w : A -> bool) l : Forall (fun a => w a = true -> u a = true) l ->
  forallb w l = true -> forallb u l = true.
Proof.
  intros F H. rewrite forallb_forall in *. rewrite Forall_forall in F. auto.
Qed.
Lemma text_uniq vs :
  (forall t, text_ok vs t = true -> uniq_text t = true)
  /\ (forall h, hist_ok vs h = true -> uniq_hist h = true)
  /\ (forall a, arg_ok vs a = true -> uniq_arg a = true).
Proof.
  assert (N : forall (l : list (str * farg)), Forall (fun e => arg_ok vs (snd e) = true -> uniq_arg (snd e) = true) l ->
    forallb (fun '(k, v) => str_ok k && arg_ok vs v) l = true -> forallb (fun e => uniq_arg (snd e)) l = true).
  { intros l F. apply all_imp. eapply Forall_impl; [|exact F]. intros [k v] H X. cbn [snd] in *. andbs. auto. }
  apply text_all; intros; rewrite ?u_named, ?u_ordered, ?u_argument; cbn [text_ok hist_ok arg_ok uniq_text uniq_hist uniq_arg] in *;
    try reflexivity; andbs; auto.
  - rewrite H by auto. cbn [andb]. apply andb_true_iff. split; auto.
  - rewrite H by auto. cbn [andb]. eapply all_imp; eauto.
  - rewrite H by auto. cbn [andb]. apply andb_true_iff. split; auto.
Qed.
Lemma wf_uniq o vs :
  (forall p hdr path, wf_prop o vs eqv hdr path p = true -> uniq p = true)
  /\ (forall v path ty, wf_sval o vs eqv path ty v = true -> uniq_sval v = true)
  /\ (forall a path, wf_array o vs eqv path a = true -> uniq_array a = true)
  /\ (forall m path, wf_map o vs eqv path m = true -> uniq_map m = true).
Proof.
  assert (L : forall (l : list property) hdr path (g : property -> bool),
    Forall (fun p => forall hdr path, wf_prop o vs eqv hdr path p = true -> uniq p = true) l ->
    (forall p, g p = true -> wf_prop o vs eqv hdr path p = true) -> forallb g l = true -> forallb uniq l = true).
  { intros l hdr path g F I. apply all_imp. eapply Forall_impl; [|exact F]. intros p H X. eapply H. eapply I, X. }
  apply prop_all; intros; try reflexivity;
    rewrite ?wf_aprops, ?wf_astructs, ?wf_scustom, ?wf_pset, ?wf_parray, ?wf_pmap, ?wf_pstruct, ?wf_psvalue, ?wf_mprop,
      ?wf_mgen in *; rewrite ?u_pset, ?u_scustom, ?u_astructs, ?u_aprops, ?u_mprop, ?u_mgen.
  - cbn [wf_prop uniq] in *. now apply (proj1 (text_uniq vs)) in H.
  - cbn [uniq]. andbs. eauto.
  - andbs. eapply (L _ _ _ _ H); [|eassumption]. cbv beta. intros p X. andbs. eassumption.
  - cbn [uniq]. andbs. eauto.
  - cbn [uniq]. andbs. eauto.
  - cbn [uniq]. andbs. destruct (hints o _) as [ty|]; [|discriminate]. eauto.
  - andbs. apply andb_true_iff. split; [assumption|].
    match goal with H1 : forallb _ l = true |- _ => revert H1 end. apply all_imp.
    eapply Forall_impl; [|exact H]. intros [k ps] F X. cbn [snd] in *. andbs.
    eapply (L _ _ _ _ F); [|eassumption]. intros p Y. exact Y.
  - andbs. match goal with H1 : forallb _ l = true |- _ => revert H1 end. apply all_imp.
    eapply Forall_impl; [|exact H]. intros v F X. eapply F, X.
  - andbs. eapply (L _ _ _ _ H); [|eassumption]. cbv beta. intros p X. andbs. eassumption.
  - cbn [wf_map uniq_map] in *. andbs. assumption.
  - cbn [wf_map uniq_map] in *. andbs. assumption.
  - andbs. apply andb_true_iff. split; [assumption|].
    match goal with H1 : forallb _ l = true |- _ => revert H1 end. apply all_imp.
    eapply Forall_impl; [|exact H]. intros [k1 v1] F X. cbn [snd] in *. andbs. eapply F; eassumption.
  - cbn [wf_map uniq_map] in *. andbs. assumption.
  - andbs. apply andb_true_iff. split; [assumption|].
    match goal with H1 : forallb _ l = true |- _ => revert H1 end. apply all_imp.
    eapply Forall_impl; [|exact H]. intros [k1 v1] [F G] X. cbn [fst snd] in *. andbs.
    apply andb_true_iff. split; [eapply F; eassumption|eapply G; eassumption].
Qed.

(** ** What equality of struct fields means *)
Definition same_field (e e' : str * list property) : Prop :=
  fst e = fst e' /\ Forall2 (fun p q => eqv p q = true) (snd e) (snd e').
Lemma list_eqb_forall2 {A} (f : A -> A -> bool) l : forall l',
  list_eqb f l l' = true <-> Forall2 (fun a b => f a b = true) l l'.
Proof.
  induction l as [|a l IH]; intros [|b l']; cbn [list_eqb].
  - split; [constructor|reflexivity].
  - split; [discriminate|intros H; inversion H].
  - split; [discriminate|intros H; inversion H].
  - rewrite andb_true_iff, IH. split; [intros []; now constructor|intros H; inversion H; auto].
Qed.
Lemma forall2_length {A B} (P : A -> B -> Prop) l l' : Forall2 P l l' -> List.length l = List.length l'.
Proof. induction 1; cbn; congruence. Qed.
Lemma fields_match l : forall l', distinct str_eqb l = true -> List.length l = List.length l' ->
  (forall e, In e l -> exists e', In e' l' /\ same_field e e') ->
  exists l'', Permutation l'' l' /\ Forall2 same_field l l''.
Proof.
  induction l as [|[k v] l IH]; intros l' D L H.
  - destruct l'; [|discriminate]. exists []. split; constructor.
  - destruct (H (k, v) (or_introl eq_refl)) as ([k' v'] & I & E). apply in_split in I as (a & b & ->).
    pose proof (proj1 E) as Ek. cbn [fst] in Ek. subst k'. cbn [distinct] in D. andbs.
    destruct (IH (a ++ b)) as (l'' & P & F); [assumption| | |].
    + rewrite !app_length in *. cbn [List.length] in L. lia.
    + intros e He. destruct (H e (or_intror He)) as (e' & I & Ee). exists e'. split; [|exact Ee].
      apply in_app_or in I as [I|[<-|I]]; [apply in_or_app; now left| |apply in_or_app; now right].
      exfalso. rewrite forallb_forall in *.
      match goal with H : forall x, In x l -> _ = true |- _ => specialize (H e He) end.
      destruct e as [k1 v1]. destruct Ee as [Ek _]. cbn [fst] in Ek. subst k1.
      match goal with H : negb _ = true |- _ => rewrite str_eqb_refl in H; discriminate H end.
    + exists ((k, v') :: l''). split; [|now constructor].
      rewrite P. apply Permutation_middle.
Qed.
Lemma custom_eq_iff l l' : distinct str_eqb l = true ->
  eqv (PSValue (SCustom l)) (PSValue (SCustom l')) = true <->
  exists l'', Permutation l'' l' /\ Forall2 same_field l l''.
Proof.
  intros D. unfold eqv. rewrite q_psvalue, q_scustom. unfold map_eqb.
  rewrite andb_true_iff, Z.eqb_eq, submap_iff.
  assert (X : forall e e', str_eqb (fst e) (fst e') = true /\ list_eqb (prop_eqb false) (snd e) (snd e') = true
    <-> same_field e e').
  { intros e e'. unfold same_field. rewrite str_eqb_eq, list_eqb_forall2. reflexivity. }
  split.
  - intros [L H]. apply fields_match; [exact D|unfold len in L; lia|].
    intros e He. destruct (H e He) as (e' & I & E). exists e'. split; [exact I|]. now apply X.
  - intros (l'' & P & F). split.
    + apply forall2_length in F. apply Permutation_length in P. unfold len. lia.
    + intros e He. clear D. assert (G : exists e', In e' l'' /\ same_field e e').
      { clear P. induction F as [|a b r q Hab F IH]; [contradiction|]. destruct He as [<-|He].
        - exists b. split; [now left|exact Hab].
        - destruct (IH He) as (e' & I & E). exists e'. split; [now right|exact E]. }
      destruct G as (e' & I & E). exists e'. split; [now apply (Permutation_in _ P)|]. now apply X.
Qed.
(** ** Floats *)
Definition nan32 (z : Z) : Prop := (z / 2 ^ 23) mod 2 ^ 8 = 255 /\ z mod 2 ^ 23 <> 0.
Definition zero32 (z : Z) : Prop := z = 0 \/ z = 2 ^ 31.
Definition nan64 (z : Z) : Prop := (z / 2 ^ 52) mod 2 ^ 11 = 2047 /\ z mod 2 ^ 52 <> 0.
Definition zero64 (z : Z) : Prop := z = 0 \/ z = 2 ^ 63.
Lemma f32_nan_iff z : 0 <= z < 2 ^ 32 -> f32_nan z = true <-> nan32 z.
Proof.
  intros H. unfold f32_nan, nan32. rewrite Z.ltb_lt.
  change (2 ^ 23) with 8388608. change (2 ^ 8) with 256. change (2 ^ 32) with 4294967296 in H. lia.
Qed.
Lemma f64_nan_iff z : 0 <= z < 2 ^ 64 -> f64_nan z = true <-> nan64 z.
Proof.
  intros H. unfold f64_nan, nan64. rewrite Z.ltb_lt.
  change (2 ^ 52) with 4503599627370496. change (2 ^ 11) with 2048. change (2 ^ 64) with 18446744073709551616 in H. lia.
Qed.
Lemma f32_eq_iff x y : 0 <= x < 2 ^ 32 -> 0 <= y < 2 ^ 32 ->
  eqv (PNum F32 x) (PNum F32 y) = true <-> (nan32 x /\ nan32 y) \/ x = y \/ (zero32 x /\ zero32 y).
Proof.
  intros Hx Hy. unfold eqv. cbn [prop_eqb num_same num_eqb andb]. unfold f32_eqb.
  rewrite !orb_true_iff, !andb_true_iff, !f32_nan_iff by assumption. rewrite !Z.eqb_eq.
  change (2 ^ 32) with 4294967296 in *. unfold zero32. change (2 ^ 31) with 2147483648.
  assert (Zx : x mod 2147483648 = 0 <-> x = 0 \/ x = 2147483648) by lia.
  assert (Zy : y mod 2147483648 = 0 <-> y = 0 \/ y = 2147483648) by lia. tauto.
Qed.
Lemma f64_eq_iff x y : 0 <= x < 2 ^ 64 -> 0 <= y < 2 ^ 64 ->
  eqv (PNum F64 x) (PNum F64 y) = true <-> (nan64 x /\ nan64 y) \/ x = y \/ (zero64 x /\ zero64 y).
Proof.
  intros Hx Hy. unfold eqv. cbn [prop_eqb num_same num_eqb andb]. unfold f64_eqb.
  rewrite !orb_true_iff, !andb_true_iff, !f64_nan_iff by assumption. rewrite !Z.eqb_eq.
  change (2 ^ 64) with 18446744073709551616 in *. unfold zero64. change (2 ^ 63) with 9223372036854775808.
  assert (Zx : x mod 9223372036854775808 = 0 <-> x = 0 \/ x = 9223372036854775808) by lia.
  assert (Zy : y mod 9223372036854775808 = 0 <-> y = 0 \/ y = 9223372036854775808) by lia. tauto.
Qed.
