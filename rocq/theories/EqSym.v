(** Symmetry of the equality of property values. *)
From Coq Require Import ZArith List Bool String Lia ZifyBool ZifyNat.
From Verif Require Import Base Str Types Versions BaseFacts Spec Decode Induct EqFacts.
Import ListNotations.
Open Scope Z_scope.

(** ** Pigeonhole *)
Fixpoint excl {A} (R : A -> A -> Prop) (l : list A) : Prop :=
  match l with [] => True | x :: r => (forall y, In y r -> ~ R x y) /\ excl R r end.
Lemma pigeon {A B} (R : A -> B -> Prop) l1 : forall l2,
  len l1 = len l2 -> (forall x, In x l1 -> exists y, In y l2 /\ R x y) ->
  excl (fun x x' => exists y, R x y /\ R x' y) l1 ->
  forall y, In y l2 -> exists x, In x l1 /\ R x y.
Proof.
  induction l1 as [|x r IH]; intros l2 L H E y I.
  - symmetry in L. apply len_0 in L. subst. contradiction.
  - destruct E as [E1 E2].
    destruct (H x (or_introl eq_refl)) as (y0 & I0 & R0).
    apply in_split in I0 as (a & b & ->).
    assert (L' : len r = len (a ++ b)) by (rewrite len_app in *; rewrite !len_cons in L; lia).
    assert (H' : forall x', In x' r -> exists y', In y' (a ++ b) /\ R x' y').
    { intros x' I'. destruct (H x' (or_intror I')) as (y' & J & R').
      apply in_app_or in J as [J|[<-|J]].
      - exists y'. split; auto. apply in_or_app; auto.
      - exfalso. apply (E1 x' I'). exists y0. auto.
      - exists y'. split; auto. apply in_or_app; auto. }
    specialize (IH (a ++ b) L' H' E2).
    apply in_app_or in I as [I|[<-|I]].
    + destruct (IH y) as (x' & ? & ?); [apply in_or_app; auto|]. exists x'. cbn; auto.
    + exists x. cbn; auto.
    + destruct (IH y) as (x' & ? & ?); [apply in_or_app; auto|]. exists x'. cbn; auto.
Qed.

(** ** Leaves *)
Lemma f32_sym a b : f32_eqb a b = f32_eqb b a.
Proof. apply Bool.eq_iff_eq_true. rewrite !f32_iff. intuition. Qed.
Lemma f64_sym a b : f64_eqb a b = f64_eqb b a.
Proof. apply Bool.eq_iff_eq_true. rewrite !f64_iff. intuition. Qed.
Lemma num_sym k a b : num_eqb k a b = num_eqb k b a.
Proof. destruct k; cbn [num_eqb]; auto using f32_sym, f64_sym, Z.eqb_sym. Qed.
Lemma nums_sym a : forall ks b, nums_eqb ks a b = nums_eqb ks b a.
Proof.
  induction a as [|x a IH]; intros ks [|y b]; cbn [nums_eqb]; auto.
  destruct ks; rewrite IH; f_equal; auto using num_sym, Z.eqb_sym.
Qed.
Lemma list_sym {A} (f : A -> A -> bool) l :
  Forall (fun x => forall y, f x y = true -> f y x = true) l ->
  forall l2, list_eqb f l l2 = true -> list_eqb f l2 l = true.
Proof.
  induction 1 as [|x l H _ IH]; intros [|y l2]; cbn [list_eqb]; try discriminate; auto.
  intros; andbs; sub2; auto.
Qed.
Lemma entries_sym {K V} (keq : K -> K -> bool) (veq : V -> V -> bool) l :
  Forall (fun e => (forall y, keq (fst e) y = true -> keq y (fst e) = true)
    /\ (forall y, veq (snd e) y = true -> veq y (snd e) = true)) l ->
  forall l2, entries_eqb keq veq l l2 = true -> entries_eqb keq veq l2 l = true.
Proof.
  induction 1 as [|[k v] l [A B] _ IH]; intros [|[k2 v2] l2];
      cbn [entries_eqb fst snd] in *; try discriminate; auto.
  intros; andbs; sub2; auto.
Qed.
Lemma map_sym {K V} (keq : K -> K -> bool) (veq : V -> V -> bool) s l :
  (forall x y z, keq x y = true -> keq y z = true -> keq x z = true) ->
  Forall (fun e => (forall y, keq (fst e) y = true -> keq y (fst e) = true)
    /\ (forall y, veq (snd e) y = true -> veq y (snd e) = true)) l ->
  s = true \/ distinct keq l = true ->
  forall l2, map_eqb keq veq s l l2 = true -> map_eqb keq veq s l2 l = true.
Proof.
  intros T F D. destruct s; unfold map_eqb; [apply entries_sym, F|].
  destruct D as [|D]; [discriminate|].
  intros l2 H. andbs. rewrite @submap_iff in *. rewrite andb_true_iff. split; [lia|].
  apply submap_iff. rewrite Forall_forall in F.
  pose proof (pigeon (fun e e' => keq (fst e) (fst e') = true /\ veq (snd e) (snd e') = true) l l2
    ltac:(lia) ltac:(assumption)) as P.
  assert (E : excl (fun x x' => exists y, (keq (fst x) (fst y) = true /\ veq (snd x) (snd y) = true)
    /\ (keq (fst x') (fst y) = true /\ veq (snd x') (snd y) = true)) l).
  { clear - T F D. induction l as [|[k v] r IH]; cbn [excl]; auto.
    cbn [distinct] in D. andbs. split.
    - intros y I (z & (A & _) & B & _). rewrite forallb_forall in *.
      match goal with H : forall _, In _ r -> negb _ = true |- _ => specialize (H y I) end.
      destruct (F (k, v) (or_introl eq_refl)) as [F1 _].
      rewrite (T (fst y) (fst z) k) in *; auto; discriminate.
    - apply IH; auto. intros x I; apply F; now right. }
  specialize (P E). intros e' I'. destruct (P e' I') as (e & I & A & B).
  exists e. destruct (F e I) as [F1 F2]. auto.
Qed.
Lemma str_symT a b : str_eqb a b = true -> str_eqb b a = true.
Proof. now rewrite str_eqb_sym. Qed.
Lemma guid_symT a b : guid_eqb a b = true -> guid_eqb b a = true.
Proof. rewrite !guid_eqb_eq. congruence. Qed.
Lemma byte_symT a b : Byte.eqb a b = true -> Byte.eqb b a = true.
Proof. rewrite !byte_eqb_eq. congruence. Qed.
Lemma bool_symT a b : Bool.eqb a b = true -> Bool.eqb b a = true.
Proof. rewrite !Bool.eqb_true_iff. congruence. Qed.
Lemma z_symT a b : (a =? b) = true -> (b =? a) = true.
Proof. now rewrite Z.eqb_sym. Qed.
Lemma opt_symT {A} (f : A -> A -> bool) a b :
  (forall x y, f x y = true -> f y x = true) -> opt_eqb f a b = true -> opt_eqb f b a = true.
Proof. destruct a, b; cbn; auto. Qed.
Lemma ostr_symT a b : opt_eqb str_eqb a b = true -> opt_eqb str_eqb b a = true.
Proof. apply opt_symT, str_symT. Qed.
Lemma numfmt_symT a b : numfmt_eqb a b = true -> numfmt_eqb b a = true.
Proof. unfold numfmt_eqb. intros; andbs; sub2; auto using z_symT, bool_symT. Qed.
Lemma onumfmt_symT a b : opt_eqb numfmt_eqb a b = true -> opt_eqb numfmt_eqb b a = true.
Proof. apply opt_symT, numfmt_symT. Qed.
Lemma bytev_symT a b : bytev_eqb a b = true -> bytev_eqb b a = true.
Proof. destruct a, b; cbn; auto using byte_symT, str_symT. Qed.
Lemma pair_symT {A B} (f : A -> A -> bool) (g : B -> B -> bool) x y :
  (forall x y, f x y = true -> f y x = true) -> (forall x y, g x y = true -> g y x = true) ->
  pair_eqb f g x y = true -> pair_eqb f g y x = true.
Proof. unfold pair_eqb. intros; andbs; sub2; auto. Qed.
Lemma keyk_symT a b : keyk_same a b = true -> keyk_same b a = true.
Proof. rewrite !keyk_eq. congruence. Qed.
Lemma f32_symT a b : f32_eqb a b = true -> f32_eqb b a = true.
Proof. now rewrite f32_sym. Qed.
Lemma f64_symT a b : f64_eqb a b = true -> f64_eqb b a = true.
Proof. now rewrite f64_sym. Qed.
Lemma num_symT k a b : num_eqb k a b = true -> num_eqb k b a = true.
Proof. now rewrite num_sym. Qed.
Lemma nums_symT k a b : nums_eqb k a b = true -> nums_eqb k b a = true.
Proof. now rewrite nums_sym. Qed.
Create HintDb eqsym.
Global Hint Resolve f32_symT f64_symT num_symT nums_symT ostr_symT onumfmt_symT byte_symT bytev_symT
  keyk_symT str_symT guid_symT z_symT bool_symT : eqsym.

(** ** Unfolding of [uniq] *)
Lemma u_named t l : uniq_hist (HNamed t l)
  = uniq_text t && distinct str_eqb l && forallb (fun e => uniq_arg (snd e)) l.
Proof. reflexivity. Qed.
Lemma u_argument t l : uniq_hist (HArgument t l)
  = uniq_text t && distinct str_eqb l && forallb (fun e => uniq_arg (snd e)) l.
Proof. reflexivity. Qed.
Lemma u_ordered t l : uniq_hist (HOrdered t l) = uniq_text t && forallb uniq_arg l.
Proof. reflexivity. Qed.
Lemma u_pset t f l : uniq (PSet t f l) = forallb uniq l. Proof. reflexivity. Qed.
Lemma u_scustom l : uniq_sval (SCustom l) = distinct str_eqb l && forallb (fun e => forallb uniq (snd e)) l.
Proof. reflexivity. Qed.
Lemma u_astructs f t g l : uniq_array (AStructs f t g l) = forallb uniq_sval l. Proof. reflexivity. Qed.
Lemma u_aprops t l : uniq_array (AProps t l) = forallb uniq l. Proof. reflexivity. Qed.
Lemma u_mprop k t l : uniq_map (MProp k t l) = distinct str_eqb l && forallb (fun e => uniq (snd e)) l.
Proof. reflexivity. Qed.
Lemma u_mgen k t f l : uniq_map (MGen k t f l)
  = distinct eqv l && forallb (fun e => uniq (fst e) && uniq (snd e)) l.
Proof. reflexivity. Qed.

Lemma Forall_impb {A} (P : A -> Prop) (u : A -> bool) l :
  Forall (fun x => u x = true -> P x) l -> forallb u l = true -> Forall P l.
Proof. rewrite !Forall_forall, forallb_forall. auto. Qed.

(** ** Values.  [s = true] needs no uniqueness. *)
Lemma text_sym s :
  (forall a, s || uniq_text a = true -> forall b, text_eqb s a b = true -> text_eqb s b a = true)
  /\ (forall a, s || uniq_hist a = true -> forall b, hist_eqb s a b = true -> hist_eqb s b a = true)
  /\ (forall a, s || uniq_arg a = true -> forall b, arg_eqb s a b = true -> arg_eqb s b a = true).
Proof.
  assert (SL : forall {A} (u : A -> bool) (P : A -> Prop) l, Forall (fun x => s || u x = true -> P x) l ->
     s || forallb u l = true -> Forall P l).
  { intros A u P l F H. destruct s; cbn [orb] in *; [rewrite Forall_forall in *; auto|].
    eapply Forall_impb; eassumption. }
  assert (SM : forall l l', Forall (fun e : str * farg => s || uniq_arg (snd e) = true ->
      forall b, arg_eqb s (snd e) b = true -> arg_eqb s b (snd e) = true) l ->
    s || (distinct str_eqb l && forallb (fun e => uniq_arg (snd e)) l) = true ->
    map_eqb str_eqb (arg_eqb s) s l l' = true -> map_eqb str_eqb (arg_eqb s) s l' l = true).
  { intros l l' F H. apply map_sym; [exact str_trans| |].
    - eapply Forall_impl; [|eapply (SL _ (fun e => uniq_arg (snd e))); [exact F|]].
      + cbv beta. auto using str_symT.
      + destruct s; auto. cbn [orb] in *. andbs; auto.
    - destruct s; auto. cbn [orb] in *. andbs; auto. }
  apply text_all; intros; match goal with H : _ s _ ?b = true |- _ => is_var b; destruct b; try discriminate H end; auto;
  repeat match goal with H : _ = true |- _ => progress qrw H end; qrwg;
     rewrite ?u_named, ?u_argument, ?u_ordered in *; cbn [hist_eqb arg_eqb uniq_text uniq_arg uniq_hist] in *;
     try match goal with H : s || (?a && ?b && ?c) = true |- _ =>
       assert (s || a = true) by (destruct s; cbn [orb] in *; andbs; auto);
       assert (s || (b && c) = true) by (destruct s; cbn [orb] in *; andbs; sub2; auto); clear H end;
     try match goal with H : s || (?a && forallb ?b ?c) = true |- _ =>
       lazymatch a with distinct _ _ => fail | _ => idtac end;
       assert (s || a = true) by (destruct s; cbn [orb] in *; andbs; auto);
       assert (s || forallb b c = true) by (destruct s; cbn [orb] in *; andbs; sub2; auto); clear H end;
     andbs; sub2; auto with eqsym.
  eapply list_sym; [|eassumption]. eapply (SL _ uniq_arg); eassumption.
Qed.

Lemma prop_sym s :
  (forall a, s || uniq a = true -> forall b, prop_eqb s a b = true -> prop_eqb s b a = true)
  /\ (forall a, s || uniq_sval a = true -> forall b, sval_eqb s a b = true -> sval_eqb s b a = true)
  /\ (forall a, s || uniq_array a = true -> forall b, array_eqb s a b = true -> array_eqb s b a = true)
  /\ (forall a, s || uniq_map a = true -> forall b, mapp_eqb s a b = true -> mapp_eqb s b a = true).
Proof.
  pose proof (proj1 (text_sym s)) as TS. pose proof (proj1 (prop_trans s)) as PT.
  assert (SL : forall {A} (u : A -> bool) (P : A -> Prop) l, Forall (fun x => s || u x = true -> P x) l ->
     s || forallb u l = true -> Forall P l).
  { intros A u P l F H. destruct s; cbn [orb] in *; [rewrite Forall_forall in *; auto|].
    eapply Forall_impb; eassumption. }
  assert (SK : forall V (veq : V -> V -> bool) l l', (forall x y, veq x y = true -> veq y x = true) ->
    s || distinct str_eqb l = true ->
    map_eqb str_eqb veq s l l' = true -> map_eqb str_eqb veq s l' l = true).
  { intros V veq l l' F H. apply map_sym; [exact str_trans| |].
    - apply Forall_any. auto using str_symT.
    - destruct s; auto. }
  apply prop_all; intros; match goal with H : _ s _ ?b = true |- _ => is_var b; destruct b; try discriminate H end;
  repeat match goal with H : _ = true |- _ => progress qrw H end; qrwg; eauto;
     rewrite ?u_pset, ?u_scustom, ?u_astructs, ?u_aprops, ?u_mprop, ?u_mgen in *;
     cbn [prop_eqb sval_eqb array_eqb mapp_eqb uniq uniq_sval uniq_array uniq_map] in *;
     try match goal with H : s || (?a && forallb ?b ?c) = true |- _ =>
       assert (s || a = true) by (destruct s; cbn [orb] in *; andbs; auto);
       assert (s || forallb b c = true) by (destruct s; cbn [orb] in *; andbs; sub2; auto); clear H end;
     andbs;
     repeat match goal with H : num_same _ _ = true |- _ => apply numk_eq in H; subst
     | H : fixed_same _ _ = true |- _ => apply fixed_eq in H; subst end;
     sub2; rewrite ?numk_refl, ?fixed_refl; auto with eqsym.
  all: try (eapply list_sym; [|eassumption]; apply Forall_any; solve [auto with eqsym | intros; apply pair_symT; auto with eqsym]).
  all: try (eapply list_sym; [|eassumption]; eapply SL; eassumption).
  all: try (eapply SK; eauto with eqsym; fail).
  - eapply map_sym; [apply str_trans| | |eassumption].
    + eapply Forall_impl; [|eapply (SL _ (fun e => forallb uniq (snd e)) (fun e => Forall
        (fun x => forall b, prop_eqb s x b = true -> prop_eqb s b x = true) (snd e))); [|eassumption]].
      * cbv beta. intros e F. split; [auto using str_symT|]. intros y. now apply list_sym.
      * eapply Forall_impl; [|eassumption]. cbv beta. intros e F U. eapply SL; eassumption.
    + destruct s; auto.
  - eapply map_sym; [apply str_trans| | |eassumption].
    + eapply Forall_impl; [|eapply (SL _ (fun e => uniq (snd e)) (fun e =>
        forall b, prop_eqb s (snd e) b = true -> prop_eqb s b (snd e) = true)); eassumption].
      cbv beta. auto using str_symT.
    + destruct s; auto.
  - eapply map_sym; [apply PT| | |eassumption].
    + eapply (SL _ (fun e => uniq (fst e) && uniq (snd e))); [|eassumption].
      eapply Forall_impl; [|eassumption]. cbv beta. intros e [HK HV] U.
      split; [apply HK|apply HV]; destruct s; auto; cbn [orb] in *; andbs; auto.
    + destruct s; auto.
Qed.
