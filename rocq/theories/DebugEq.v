(** Values that print alike are equal for [==], and finite values that print alike are the same (C70). *)
From Coq Require Import ZArith List Bool String Lia ZifyBool ZifyNat.
From Verif Require Import Base Str Types Versions Text Props File Spec BaseFacts Decode Induct EqFacts JsonSpec Message DebugSpec.
From Verif Require DebugTree MessageThm Numeral.
Import ListNotations.
Open Scope Z_scope.

Definition near {A} (f : A -> A -> bool) (g : A -> A) (x : A) : Prop := f x (g x) = true /\ f (g x) x = true.
Lemma near_num k z : near (num_eqb k) (quiet_num k) z.
Proof.
  destruct k; split; cbn [num_eqb quiet_num]; try apply Z.eqb_refl.
  - destruct (f32_nan z) eqn:E; [|apply f32_refl]. unfold f32_eqb. now rewrite E.
  - destruct (f32_nan z) eqn:E; [|apply f32_refl]. unfold f32_eqb. now rewrite E.
  - destruct (f64_nan z) eqn:E; [|apply f64_refl]. unfold f64_eqb. now rewrite E.
  - destruct (f64_nan z) eqn:E; [|apply f64_refl]. unfold f64_eqb. now rewrite E.
Qed.
Lemma near_nums ks : forall l, near (nums_eqb ks) (quiet_nums ks) l.
Proof.
  induction ks as [|k ks IH]; intros [|z l]; cbn [quiet_nums]; try (split; apply nums_refl).
  unfold near. cbn [nums_eqb quiet_nums]. destruct (near_num k z), (IH l). unfold near in *. split; apply andb_true_intro; auto.
Qed.
Lemma near_list {A} (f : A -> A -> bool) g l : Forall (near f g) l -> near (list_eqb f) (map g) l.
Proof.
  induction 1 as [|x l [A1 A2] _ [I1 I2]]; [split; reflexivity|]. split; cbn [map list_eqb]; apply andb_true_intro; auto.
Qed.
Lemma near_map {K V} (keq : K -> K -> bool) (veq : V -> V -> bool) (g : K * V -> K * V) s l :
  Forall (fun e => keq (fst e) (fst (g e)) = true /\ veq (snd e) (snd (g e)) = true
    /\ keq (fst (g e)) (fst e) = true /\ veq (snd (g e)) (snd e) = true) l -> near (map_eqb keq veq s) (map g) l.
Proof.
  intros F. destruct s; unfold near, map_eqb.
  - induction F as [|[k v] l H F [I1 I2]]; [split; reflexivity|]. destruct (g (k, v)) as [k' v'] eqn:E. cbn [map entries_eqb]. rewrite E.
    cbn [fst snd] in H. destruct H as (A & B & C & D). rewrite A, B, C, D, I1, I2. auto.
  - assert (L : (len l =? len (map g l)) = true) by (apply Z.eqb_eq; unfold len; now rewrite map_length).
    rewrite (Z.eqb_sym (len (map g l))), L. rewrite Forall_forall in F. cbn [andb]. split; apply submap_iff.
    + intros e I. exists (g e). destruct (F _ I) as (A & B & _). split; [now apply in_map|auto].
    + intros e I. apply in_map_iff in I as (e' & <- & I). exists e'. destruct (F _ I) as (_ & _ & A & B). auto.
Qed.

Section S.
Context (s : bool).
Lemma near_text :
  (forall t, near (text_eqb s) quiet_text t) /\ (forall h, near (hist_eqb s) quiet_hist h) /\ (forall a, near (arg_eqb s) quiet_arg a).
Proof.
  destruct (text_refl s) as (RT & RH & RA).
  assert (M : forall l : list (str * farg), Forall (fun e => near (arg_eqb s) quiet_arg (snd e)) l ->
    near (map_eqb str_eqb (arg_eqb s) s) (map (fun e => (fst e, quiet_arg (snd e)))) l).
  { intros l F. apply near_map. eapply Forall_impl; [|exact F]. cbv beta. cbn [fst snd]. intros e [A B]. rewrite str_eqb_refl. auto. }
  apply text_all; intros; try (split; first [apply RH|apply RA]); try specialize (M _ H0); unfold near in *; cbn [quiet_text quiet_hist quiet_arg]; qrwg.
  - destruct H. rewrite Z.eqb_refl. auto.
  - destruct H, M. split; sub2; auto.
  - destruct H, (near_list _ _ _ H0). split; sub2; auto.
  - destruct H, M. split; sub2; auto.
  - destruct H. split; sub2; auto with eqrefl.
  - destruct H. split; sub2; auto with eqrefl.
  - destruct H. split; sub2; auto with eqrefl.
  - destruct H. split; sub2; auto with eqrefl.
  - exact (near_num F32 z).
  - exact (near_num F64 z).
  - exact H.
Qed.
Lemma near_prop :
  (forall p, near (prop_eqb s) quiet p) /\ (forall v, near (sval_eqb s) quiet_sval v)
  /\ (forall a, near (array_eqb s) quiet_array a) /\ (forall m, near (mapp_eqb s) quiet_map m).
Proof.
  destruct (prop_refl s) as (RP & RS & RA & RM).
  apply prop_all; intros; try (split; first [apply RP|apply RS|apply RA|apply RM]); unfold near in *; cbn [quiet quiet_sval quiet_array quiet_map]; qrwg.
  - cbn [prop_eqb]. destruct (near_num k z). split; sub2; auto with eqrefl.
  - exact (proj1 near_text t).
  - exact H.
  - destruct (near_list _ _ _ H). split; sub2; auto with eqrefl.
  - exact H.
  - destruct H. split; sub2; auto with eqrefl.
  - exact H.
  - cbn [sval_eqb]. destruct (near_nums (layout x) l). split; sub2; auto with eqrefl.
  - assert (N : near (map_eqb str_eqb (list_eqb (prop_eqb s)) s) (map (fun e => (fst e, map quiet (snd e)))) l); [|exact N].
    apply near_map. eapply Forall_impl; [|exact H]. cbv beta. cbn [fst snd]. intros e F. destruct (near_list _ _ _ F). rewrite str_eqb_refl. auto.
  - cbn [array_eqb]. apply (near_list f32_eqb (quiet_num F32)), Forall_any. apply (near_num F32).
  - destruct (near_list _ _ _ H). split; sub2; auto with eqrefl.
  - destruct (near_list _ _ _ H). split; sub2; auto with eqrefl.
  - assert (N : near (map_eqb str_eqb (prop_eqb s) s) (map (fun e => (fst e, quiet (snd e)))) l).
    { apply near_map. eapply Forall_impl; [|exact H]. cbv beta. cbn [fst snd]. intros e [A B]. rewrite str_eqb_refl. auto. }
    destruct N. split; sub2; auto with eqrefl.
  - assert (N : near (map_eqb (prop_eqb s) (prop_eqb s) s) (map (fun e => (quiet (fst e), quiet (snd e)))) l).
    { apply near_map. eapply Forall_impl; [|exact H]. cbv beta. cbn [fst snd]. intros e [[A B] [C D]]. auto. }
    destruct N. split; sub2; auto with eqrefl.
Qed.
Lemma quiet_equal p q : quiet p = quiet q -> prop_eqb s p q = true.
Proof.
  intros E. destruct (prop_trans s) as (T & _). destruct (proj1 near_prop p) as [A _], (proj1 near_prop q) as [_ B]. rewrite <- E in B. eapply T; eauto.
Qed.
End S.

(** ** Finite values *)
Lemma top_bits a b z : 0 < a -> 0 < b -> a * (b - 1) < z mod (a * b) -> z / a mod b = b - 1.
Proof.
  intros A B H. pose proof (Z.mod_pos_bound z (a * b) ltac:(nia)) as R. set (m := z mod (a * b)) in *.
  assert (E : z = m + (b * (z / (a * b))) * a) by (subst m; rewrite Z.mod_eq; nia).
  assert (Q : m / a = b - 1) by (symmetry; apply (Z.div_unique m a (b - 1) (m - a * (b - 1))); nia).
  rewrite E at 1. rewrite Z.div_add, Q, (Z.mul_comm b), Z.mod_add by lia. apply Z.mod_small. lia.
Qed.
Lemma finite_quiet k z : finite_num k z = true -> quiet_num k z = z.
Proof.
  destruct k; cbn [finite_num quiet_num]; try reflexivity; intros F.
  - unfold f32_nan. destruct (2139095040 <? z mod 2147483648) eqn:E; [|reflexivity]. exfalso. apply Z.ltb_lt in E. unfold finite32 in F. change (2 ^ 23) with 8388608 in F.
    rewrite (top_bits 8388608 256) in F; [discriminate F|lia|lia|]. change (8388608 * 256) with 2147483648. change (8388608 * (256 - 1)) with 2139095040. exact E.
  - unfold f64_nan. destruct (9218868437227405312 <? z mod 9223372036854775808) eqn:E; [|reflexivity]. exfalso. apply Z.ltb_lt in E. unfold finite64 in F.
    change (2 ^ 52) with 4503599627370496 in F.
    rewrite (top_bits 4503599627370496 2048) in F; [discriminate F|lia|lia|]. change (4503599627370496 * 2048) with 9223372036854775808.
    change (4503599627370496 * (2048 - 1)) with 9218868437227405312. exact E.
Qed.
Lemma finite_nums_quiet ks : forall l, finite_nums ks l = true -> quiet_nums ks l = l.
Proof.
  induction ks as [|k ks IH]; intros [|z l] F; cbn [quiet_nums]; try reflexivity. cbn [finite_nums] in F. apply andb_prop in F as [A B].
  now rewrite finite_quiet, IH.
Qed.
Lemma map_same {A} (g : A -> A) l : (forall x, In x l -> g x = x) -> map g l = l.
Proof. intros H. rewrite <- (map_id l) at 2. now apply map_ext_in. Qed.
Ltac inb I := match type of I with In ?x ?l => match goal with H : forallb _ l = true |- _ =>
  let K := fresh "K" in pose proof (proj1 (forallb_forall _ _) H x I) as K; cbv beta iota in K end end.
Ltac inF I := match type of I with In ?x ?l => match goal with H : Forall _ l |- _ =>
  let K := fresh "Q" in pose proof (proj1 (Forall_forall _ _) H x I) as K; cbv beta iota in K; cbn [fst snd] in K end end.
Lemma finite_text :
  (forall t, fin_text t = true -> quiet_text t = t) /\ (forall h, fin_hist h = true -> quiet_hist h = h) /\ (forall a, fin_arg a = true -> quiet_arg a = a).
Proof.
  apply text_all; intros; try reflexivity; cbn [quiet_text quiet_hist quiet_arg]; cbn [fin_text fin_hist fin_arg] in *; andbs; f_equal; auto.
  - apply map_same. intros [k v] I. inb I. inF I. cbn [fst snd]. f_equal. auto.
  - apply map_same. intros v I. inb I. inF I. auto.
  - apply map_same. intros [k v] I. inb I. inF I. cbn [fst snd]. f_equal. auto.
  - now apply (finite_quiet F32).
  - now apply (finite_quiet F64).
Qed.
Lemma finite_prop :
  (forall p, fin_prop p = true -> quiet p = p) /\ (forall v, fin_sval v = true -> quiet_sval v = v)
  /\ (forall a, fin_array a = true -> quiet_array a = a) /\ (forall m, fin_map m = true -> quiet_map m = m).
Proof.
  apply prop_all; intros; try reflexivity; cbn [quiet quiet_sval quiet_array quiet_map]; cbn [fin_prop fin_sval fin_array fin_map] in *; f_equal; auto.
  - now apply finite_quiet.
  - now apply (proj1 finite_text).
  - apply map_same. intros v I. inb I. inF I. auto.
  - now apply finite_nums_quiet.
  - apply map_same. intros [k v] I. inb I. inF I. cbn [fst snd]. f_equal. apply map_same. intros x J. inb J. inF J. auto.
  - apply map_same. intros v I. inb I. now apply (finite_quiet F32).
  - apply map_same. intros v I. inb I. inF I. auto.
  - apply map_same. intros v I. inb I. inF I. auto.
  - apply map_same. intros [a b] I. inb I. inF I. cbn [fst snd]. f_equal. auto.
  - apply map_same. intros [k v] I. inb I. inF I. cbn [fst snd]. andbs. match goal with Q : _ /\ _ |- _ => destruct Q end. f_equal; auto.
Qed.
Lemma finite_file f : fin_file f = true -> quiet_file f = f.
Proof.
  unfold fin_file, quiet_file. intros H. destruct f as [v h l]. cbn [g_version g_header g_props] in *. f_equal. apply map_same. intros [k p] I. inb I.
  cbn [fst snd]. f_equal. now apply (proj1 finite_prop).
Qed.

(** ** A way of printing floats *)
Lemma bits_ok : float_texts bits_text.
Proof.
  assert (W : forall z, word (signed z)).
  { intros z. destruct (DebugTree.signed_word z). split; assumption. }
  assert (N : word (s2z "NaN")) by (apply DebugTree.word_b; reflexivity).
  assert (M : forall z, signed z <> s2z "NaN").
  { intros z E. destruct (W z) as [_ F]. pose proof (MessageThm.signed_ok z) as O. unfold signed in E. destruct (z <? 0) eqn:L; [discriminate E|].
    destruct (Numeral.decimal_numeral z ltac:(lia)) as (_ & D & _). rewrite E in D. inversion D as [|c r H _]. unfold Numeral.digit in H. lia. }
  intros s k a b [->| ->] A B; unfold num_ok, u_ok, in_range in *; cbn [num_signed num_width] in *; cbn [bits_text quiet_num].
  - split; [destruct (f32_nan a); auto|]. destruct (f32_nan a) eqn:NA, (f32_nan b) eqn:NB.
    + tauto.
    + split; intros E; [now destruct (M b)|]. subst b. discriminate NB.
    + split; intros E; [now destruct (M a)|]. subst a. discriminate NA.
    + split; [apply MessageThm.signed_inj|congruence].
  - split; [destruct (f64_nan a); auto|]. destruct (f64_nan a) eqn:NA, (f64_nan b) eqn:NB.
    + tauto.
    + split; intros E; [now destruct (M b)|]. subst b. discriminate NB.
    + split; intros E; [now destruct (M a)|]. subst a. discriminate NA.
    + split; [apply MessageThm.signed_inj|congruence].
Qed.
