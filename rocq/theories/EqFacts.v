(** Facts about the equality of property values. *)
From Coq Require Import ZArith List Bool String Lia ZifyBool ZifyNat.
From Verif Require Import Base Str Types Versions BaseFacts Spec Decode Induct.
Import ListNotations.
Open Scope Z_scope.

(** ** Unfolding *)
Section Unfold.
Context (s : bool).
Lemma q_text f h f' h' : text_eqb s (FText f h) (FText f' h') = (f =? f') && hist_eqb s h h'.
Proof. reflexivity. Qed.
Lemma q_named t l t' l' : hist_eqb s (HNamed t l) (HNamed t' l')
  = text_eqb s t t' && map_eqb str_eqb (arg_eqb s) s l l'.
Proof. reflexivity. Qed.
Lemma q_argument t l t' l' : hist_eqb s (HArgument t l) (HArgument t' l')
  = text_eqb s t t' && map_eqb str_eqb (arg_eqb s) s l l'.
Proof. reflexivity. Qed.
Lemma q_ordered t l t' l' : hist_eqb s (HOrdered t l) (HOrdered t' l')
  = text_eqb s t t' && list_eqb (arg_eqb s) l l'.
Proof. reflexivity. Qed.
Lemma q_number v o c v' o' c' : hist_eqb s (HNumber v o c) (HNumber v' o' c')
  = arg_eqb s v v' && opt_eqb numfmt_eqb o o' && opt_eqb str_eqb c c'.
Proof. reflexivity. Qed.
Lemma q_percent v o c v' o' c' : hist_eqb s (HPercent v o c) (HPercent v' o' c')
  = arg_eqb s v v' && opt_eqb numfmt_eqb o o' && opt_eqb str_eqb c c'.
Proof. reflexivity. Qed.
Lemma q_currency d v o c d' v' o' c' : hist_eqb s (HCurrency d v o c) (HCurrency d' v' o' c')
  = opt_eqb str_eqb d d' && arg_eqb s v v' && opt_eqb numfmt_eqb o o' && opt_eqb str_eqb c c'.
Proof. reflexivity. Qed.
Lemma q_transform t x t' x' : hist_eqb s (HTransform t x) (HTransform t' x')
  = text_eqb s t t' && (x =? x').
Proof. reflexivity. Qed.
Lemma q_atext t t' : arg_eqb s (AText t) (AText t') = text_eqb s t t'.
Proof. reflexivity. Qed.
Lemma q_ptext t t' : prop_eqb s (PText t) (PText t') = text_eqb s t t'.
Proof. reflexivity. Qed.
Lemma q_parray a a' : prop_eqb s (PArray a) (PArray a') = array_eqb s a a'.
Proof. reflexivity. Qed.
Lemma q_pmap m m' : prop_eqb s (PMap m) (PMap m') = mapp_eqb s m m'.
Proof. reflexivity. Qed.
Lemma q_pset t f l t' f' l' : prop_eqb s (PSet t f l) (PSet t' f' l')
  = str_eqb t t' && (f =? f') && list_eqb (prop_eqb s) l l'.
Proof. reflexivity. Qed.
Lemma q_pstruct g t v g' t' v' : prop_eqb s (PStruct g t v) (PStruct g' t' v')
  = guid_eqb g g' && str_eqb t t' && sval_eqb s v v'.
Proof. reflexivity. Qed.
Lemma q_psvalue v v' : prop_eqb s (PSValue v) (PSValue v') = sval_eqb s v v'.
Proof. reflexivity. Qed.
Lemma q_scustom l l' : sval_eqb s (SCustom l) (SCustom l')
  = map_eqb str_eqb (list_eqb (prop_eqb s)) s l l'.
Proof. reflexivity. Qed.
Lemma q_astructs f t g l f' t' g' l' : array_eqb s (AStructs f t g l) (AStructs f' t' g' l')
  = str_eqb f f' && str_eqb t t' && guid_eqb g g' && list_eqb (sval_eqb s) l l'.
Proof. reflexivity. Qed.
Lemma q_aprops t l t' l' : array_eqb s (AProps t l) (AProps t' l')
  = str_eqb t t' && list_eqb (prop_eqb s) l l'.
Proof. reflexivity. Qed.
Lemma q_mbool k l k' l' : mapp_eqb s (MBool k l) (MBool k' l')
  = keyk_same k k' && map_eqb str_eqb Bool.eqb s l l'.
Proof. reflexivity. Qed.
Lemma q_mint k l k' l' : mapp_eqb s (MInt k l) (MInt k' l')
  = keyk_same k k' && map_eqb str_eqb Z.eqb s l l'.
Proof. reflexivity. Qed.
Lemma q_mstr l l' : mapp_eqb s (MStrStr l) (MStrStr l')
  = map_eqb str_eqb (opt_eqb str_eqb) s l l'.
Proof. reflexivity. Qed.
Lemma q_mprop k t l k' t' l' : mapp_eqb s (MProp k t l) (MProp k' t' l')
  = keyk_same k k' && str_eqb t t' && map_eqb str_eqb (prop_eqb s) s l l'.
Proof. reflexivity. Qed.
Lemma q_mgen kt vt f l kt' vt' f' l' : mapp_eqb s (MGen kt vt f l) (MGen kt' vt' f' l')
  = str_eqb kt kt' && str_eqb vt vt' && (f =? f') && map_eqb (prop_eqb s) (prop_eqb s) s l l'.
Proof. reflexivity. Qed.
End Unfold.
Ltac qrw H := rewrite ?q_text, ?q_named, ?q_argument, ?q_ordered, ?q_number, ?q_percent, ?q_currency,
  ?q_transform, ?q_atext, ?q_ptext, ?q_parray, ?q_pmap, ?q_pset, ?q_pstruct, ?q_psvalue, ?q_scustom,
  ?q_astructs, ?q_aprops, ?q_mbool, ?q_mint, ?q_mstr, ?q_mprop, ?q_mgen in H.
Ltac qrwg := rewrite ?q_text, ?q_named, ?q_argument, ?q_ordered, ?q_number, ?q_percent, ?q_currency,
  ?q_transform, ?q_atext, ?q_ptext, ?q_parray, ?q_pmap, ?q_pset, ?q_pstruct, ?q_psvalue, ?q_scustom,
  ?q_astructs, ?q_aprops, ?q_mbool, ?q_mint, ?q_mstr, ?q_mprop, ?q_mgen.

(** ** Lists and maps *)
Lemma submap_iff {K V} (keq : K -> K -> bool) (veq : V -> V -> bool) l1 l2 :
  submap_eqb keq veq l1 l2 = true <->
  forall e, In e l1 -> exists e', In e' l2 /\ keq (fst e) (fst e') = true /\ veq (snd e) (snd e') = true.
Proof.
  induction l1 as [|[k v] r IH]; cbn [submap_eqb].
  - split; [intros _ e []|auto].
  - rewrite andb_true_iff, IH, existsb_exists. split.
    + intros [(e' & I & H) H2] e [<-|J]; [|auto]. apply andb_prop in H. exists e'. tauto.
    + intros H. split; [|intros e J; apply H; now right].
      destruct (H (k, v) (or_introl eq_refl)) as (e' & I & A & B).
      exists e'. cbn [fst snd] in *. now rewrite A, B.
Qed.
Lemma entries_in {K V} (keq : K -> K -> bool) (veq : V -> V -> bool) l1 : forall l2,
  entries_eqb keq veq l1 l2 = true ->
  len l1 = len l2 /\
  forall e, In e l1 -> exists e', In e' l2 /\ keq (fst e) (fst e') = true /\ veq (snd e) (snd e') = true.
Proof.
  induction l1 as [|[k v] r IH]; intros [|[k' v'] q]; cbn [entries_eqb]; try discriminate.
  - intros _; split; [reflexivity|intros e []].
  - intros H; andbs. destruct (IH q ltac:(assumption)) as [L I]. split.
    + rewrite !len_cons. lia.
    + intros e [<-|J].
      * exists (k', v'). cbn; auto.
      * destruct (I e J) as (e' & ? & ?). exists e'. cbn; auto.
Qed.
Lemma list_mono {A} (f g : A -> A -> bool) l1 :
  Forall (fun x => forall y, f x y = true -> g x y = true) l1 ->
  forall l2, list_eqb f l1 l2 = true -> list_eqb g l1 l2 = true.
Proof.
  induction 1 as [|x l H _ IH]; intros [|y q]; cbn [list_eqb]; auto.
  intros X; andbs. rewrite (H y), (IH q); auto.
Qed.
Lemma map_mono {K V} (keq keq' : K -> K -> bool) (veq veq' : V -> V -> bool) l1 :
  Forall (fun e => (forall y, keq (fst e) y = true -> keq' (fst e) y = true)
                   /\ (forall y, veq (snd e) y = true -> veq' (snd e) y = true)) l1 ->
  forall l2, map_eqb keq veq true l1 l2 = true -> map_eqb keq' veq' false l1 l2 = true.
Proof.
  intros F l2 H. unfold map_eqb in *. apply entries_in in H as [L I].
  rewrite andb_true_iff. split; [lia|]. apply submap_iff.
  intros e J. destruct (I e J) as (e' & J' & A & B). exists e'. rewrite Forall_forall in F.
  destruct (F e J) as [F1 F2]. auto.
Qed.
Lemma Forall_any {A} (P : A -> Prop) l : (forall x, P x) -> Forall P l.
Proof. intros H. rewrite Forall_forall. auto. Qed.

(** ** [same] implies [eqv] *)
Ltac sub2 := match goal with |- _ && _ = true => apply andb_true_intro; split; sub2 | _ => idtac end.
Lemma text_mono :
  (forall a b, text_eqb true a b = true -> text_eqb false a b = true)
  /\ (forall a b, hist_eqb true a b = true -> hist_eqb false a b = true)
  /\ (forall a b, arg_eqb true a b = true -> arg_eqb false a b = true).
Proof.
  apply text_all; try (intros; match goal with |- _ = true => idtac end;
    match goal with H : _ ?a ?b = true |- _ => destruct b; try discriminate H; try exact H end; fail).
  all: intros; try match goal with H : _ _ _ ?b = true |- _ => destruct b; try discriminate H; try exact H end.
  all: match goal with H : _ = true |- _ => qrw H end; qrwg; andbs; sub2; auto.
  all: try (eapply map_mono; [|eassumption]; eapply Forall_impl; [|eassumption]; cbv beta; auto).
  eapply list_mono; eassumption.
Qed.
Lemma prop_mono :
  (forall a b, prop_eqb true a b = true -> prop_eqb false a b = true)
  /\ (forall a b, sval_eqb true a b = true -> sval_eqb false a b = true)
  /\ (forall a b, array_eqb true a b = true -> array_eqb false a b = true)
  /\ (forall a b, mapp_eqb true a b = true -> mapp_eqb false a b = true).
Proof.
  apply prop_all; intros;
    match goal with H : _ _ _ ?b = true |- _ => destruct b; try discriminate H; try exact H end.
  all: match goal with H : _ = true |- _ => qrw H end; qrwg; andbs; sub2; auto.
  all: try (eapply map_mono; [|eassumption]; first
    [ eapply Forall_impl; [|eassumption]; cbv beta; intros ? []; auto; fail
    | eapply Forall_impl; [|eassumption]; cbv beta; intros; split; auto; intros; eapply list_mono; eassumption
    | eapply Forall_impl; [|eassumption]; cbv beta; auto
    | apply Forall_any; auto ]).
  all: try (eapply list_mono; eassumption).
  now apply text_mono.
Qed.
Lemma same_eqv a b : same a b = true -> eqv a b = true.
Proof. apply prop_mono. Qed.

(** ** Reflexivity *)
Lemma f32_refl a : f32_eqb a a = true.
Proof. unfold f32_eqb. rewrite Z.eqb_refl, orb_true_r. reflexivity. Qed.
Lemma f64_refl a : f64_eqb a a = true.
Proof. unfold f64_eqb. rewrite Z.eqb_refl, orb_true_r. reflexivity. Qed.
Lemma num_refl k a : num_eqb k a a = true.
Proof. destruct k; cbn [num_eqb]; auto using f32_refl, f64_refl, Z.eqb_refl. Qed.
Lemma nums_refl l : forall ks, nums_eqb ks l l = true.
Proof.
  induction l as [|a l IH]; intros ks; cbn [nums_eqb]; auto.
  destruct ks; rewrite IH; [rewrite Z.eqb_refl|rewrite num_refl]; auto.
Qed.
Lemma list_refl {A} (f : A -> A -> bool) l : Forall (fun x => f x x = true) l -> list_eqb f l l = true.
Proof. induction 1 as [|x l H _ IH]; cbn [list_eqb]; auto. now rewrite H, IH. Qed.
Lemma map_refl {K V} (keq : K -> K -> bool) (veq : V -> V -> bool) s l :
  Forall (fun e => keq (fst e) (fst e) = true /\ veq (snd e) (snd e) = true) l ->
  map_eqb keq veq s l l = true.
Proof.
  intros F. destruct s; unfold map_eqb.
  - induction F as [|[k v] l [A B] _ IH]; cbn [entries_eqb fst snd] in *; auto. now rewrite A, B, IH.
  - rewrite Z.eqb_refl. cbn [andb]. apply submap_iff. intros e I. exists e.
    rewrite Forall_forall in F. specialize (F e I). tauto.
Qed.
Lemma opt_refl {A} (f : A -> A -> bool) o : (forall x, f x x = true) -> opt_eqb f o o = true.
Proof. destruct o; cbn; auto. Qed.
Lemma ostr_refl o : opt_eqb str_eqb o o = true.
Proof. apply opt_refl, str_eqb_refl. Qed.
Lemma numfmt_refl f : numfmt_eqb f f = true.
Proof. unfold numfmt_eqb. now rewrite !Bool.eqb_reflx, !Z.eqb_refl. Qed.
Lemma onumfmt_refl o : opt_eqb numfmt_eqb o o = true.
Proof. apply opt_refl, numfmt_refl. Qed.
Lemma byte_refl b : Byte.eqb b b = true.
Proof. now apply byte_eqb_eq. Qed.
Lemma bytev_refl v : bytev_eqb v v = true.
Proof. destruct v; cbn; auto using byte_refl, str_eqb_refl. Qed.
Lemma keyk_refl k : keyk_same k k = true. Proof. now destruct k. Qed.
Lemma fixed_refl k : fixed_same k k = true. Proof. now destruct k. Qed.
Lemma numk_refl k : num_same k k = true. Proof. now destruct k. Qed.
Lemma pair_refl {A B} (f : A -> A -> bool) (g : B -> B -> bool) x :
  (forall a, f a a = true) -> (forall b, g b b = true) -> pair_eqb f g x x = true.
Proof. intros F G. unfold pair_eqb. now rewrite F, G. Qed.
Create HintDb eqrefl.
Global Hint Resolve f32_refl f64_refl num_refl nums_refl ostr_refl onumfmt_refl byte_refl bytev_refl
  keyk_refl fixed_refl numk_refl str_eqb_refl guid_eqb_refl Z.eqb_refl Bool.eqb_reflx : eqrefl.
Ltac qrefl1 := first [ solve [auto with eqrefl] | apply list_refl, Forall_any; intros; solve [auto with eqrefl]
  | apply list_refl; eassumption
  | apply list_refl, Forall_any; intros; apply pair_refl; solve [auto with eqrefl]
  | apply map_refl, Forall_any; intros; solve [auto with eqrefl]
  | apply map_refl; eapply Forall_impl; [|eassumption]; cbv beta; intros; split; auto with eqrefl;
    try (apply list_refl; assumption); tauto ].

Lemma text_refl s :
  (forall a, text_eqb s a a = true) /\ (forall a, hist_eqb s a a = true) /\ (forall a, arg_eqb s a a = true).
Proof.
  apply text_all; intros; qrwg; cbn [hist_eqb arg_eqb]; sub2; qrefl1.
Qed.
Lemma prop_refl s :
  (forall a, prop_eqb s a a = true) /\ (forall a, sval_eqb s a a = true)
  /\ (forall a, array_eqb s a a = true) /\ (forall a, mapp_eqb s a a = true).
Proof.
  pose proof (proj1 (text_refl s)).
  apply prop_all; intros; qrwg; auto; cbn [prop_eqb sval_eqb array_eqb mapp_eqb]; sub2; qrefl1.
Qed.

(** ** Transitivity *)
Lemma f32_iff a b : f32_eqb a b = true <->
  (2139095040 < a mod 2147483648 /\ 2139095040 < b mod 2147483648) \/ a = b
  \/ (a mod 2147483648 = 0 /\ b mod 2147483648 = 0).
Proof.
  unfold f32_eqb, f32_nan.
  rewrite !orb_true_iff, !andb_true_iff, !Z.ltb_lt, !Z.eqb_eq. tauto.
Qed.
Lemma f64_iff a b : f64_eqb a b = true <->
  (9218868437227405312 < a mod 9223372036854775808 /\ 9218868437227405312 < b mod 9223372036854775808)
  \/ a = b \/ (a mod 9223372036854775808 = 0 /\ b mod 9223372036854775808 = 0).
Proof.
  unfold f64_eqb, f64_nan.
  rewrite !orb_true_iff, !andb_true_iff, !Z.ltb_lt, !Z.eqb_eq. tauto.
Qed.
Lemma f32_trans a b c : f32_eqb a b = true -> f32_eqb b c = true -> f32_eqb a c = true.
Proof.
  rewrite !f32_iff.
  generalize (a mod 2147483648) (b mod 2147483648) (c mod 2147483648)
    (fun e => f_equal (fun x => x mod 2147483648) e : a mod 2147483648 = b mod 2147483648)
    (fun e => f_equal (fun x => x mod 2147483648) e : b mod 2147483648 = c mod 2147483648).
  intros x y z E1 E2 [[]|[H|[]]] [[]|[H'|[]]]; try (specialize (E1 H)); try (specialize (E2 H')); lia.
Qed.
Lemma f64_trans a b c : f64_eqb a b = true -> f64_eqb b c = true -> f64_eqb a c = true.
Proof.
  rewrite !f64_iff.
  generalize (a mod 9223372036854775808) (b mod 9223372036854775808) (c mod 9223372036854775808)
    (fun e => f_equal (fun x => x mod 9223372036854775808) e : a mod 9223372036854775808 = b mod 9223372036854775808)
    (fun e => f_equal (fun x => x mod 9223372036854775808) e : b mod 9223372036854775808 = c mod 9223372036854775808).
  intros x y z E1 E2 [[]|[H|[]]] [[]|[H'|[]]]; try (specialize (E1 H)); try (specialize (E2 H')); lia.
Qed.
Lemma zeq_trans a b c : (a =? b) = true -> (b =? c) = true -> (a =? c) = true.
Proof. rewrite !Z.eqb_eq. congruence. Qed.
Lemma num_trans k a b c : num_eqb k a b = true -> num_eqb k b c = true -> num_eqb k a c = true.
Proof. destruct k; cbn [num_eqb]; eauto using f32_trans, f64_trans, zeq_trans. Qed.
Lemma nums_trans a : forall ks b c, nums_eqb ks a b = true -> nums_eqb ks b c = true -> nums_eqb ks a c = true.
Proof.
  induction a as [|x a IH]; intros ks [|y b] [|z c] H1 H2; cbn [nums_eqb] in *; try discriminate; auto.
  destruct ks; andbs; sub2; eauto using num_trans, zeq_trans.
Qed.
Lemma list_trans {A} (f : A -> A -> bool) l :
  Forall (fun x => forall y z, f x y = true -> f y z = true -> f x z = true) l ->
  forall l2 l3, list_eqb f l l2 = true -> list_eqb f l2 l3 = true -> list_eqb f l l3 = true.
Proof.
  induction 1 as [|x l H _ IH]; intros [|y l2] [|z l3]; cbn [list_eqb]; try discriminate; auto.
  intros; andbs; sub2; eauto.
Qed.
Lemma map_trans {K V} (keq : K -> K -> bool) (veq : V -> V -> bool) s l :
  Forall (fun e => (forall y z, keq (fst e) y = true -> keq y z = true -> keq (fst e) z = true)
    /\ (forall y z, veq (snd e) y = true -> veq y z = true -> veq (snd e) z = true)) l ->
  forall l2 l3, map_eqb keq veq s l l2 = true -> map_eqb keq veq s l2 l3 = true ->
    map_eqb keq veq s l l3 = true.
Proof.
  intros F. destruct s; unfold map_eqb.
  - induction F as [|[k v] l [A B] _ IH]; intros [|[k2 v2] l2] [|[k3 v3] l3];
      cbn [entries_eqb fst snd] in *; try discriminate; auto.
    intros; andbs; sub2; eauto.
  - intros l2 l3 H1 H2. andbs. rewrite @submap_iff in *. rewrite andb_true_iff. split; [lia|].
    apply submap_iff. intros e I. rewrite Forall_forall in F. destruct (F e I) as [F1 F2].
    match goal with H : forall _, In _ l -> _ |- _ => destruct (H e I) as (e2 & I2 & A & B) end.
    match goal with H : forall _, In _ l2 -> _ |- _ => destruct (H e2 I2) as (e3 & I3 & A' & B') end.
    exists e3. eauto.
Qed.
Lemma str_trans a b c : str_eqb a b = true -> str_eqb b c = true -> str_eqb a c = true.
Proof. rewrite !str_eqb_eq. congruence. Qed.
Lemma guid_trans a b c : guid_eqb a b = true -> guid_eqb b c = true -> guid_eqb a c = true.
Proof. rewrite !guid_eqb_eq. congruence. Qed.
Lemma byte_trans a b c : Byte.eqb a b = true -> Byte.eqb b c = true -> Byte.eqb a c = true.
Proof. rewrite !byte_eqb_eq. congruence. Qed.
Lemma bool_trans a b c : Bool.eqb a b = true -> Bool.eqb b c = true -> Bool.eqb a c = true.
Proof. rewrite !Bool.eqb_true_iff. congruence. Qed.
Lemma opt_trans {A} (f : A -> A -> bool) a b c :
  (forall x y z, f x y = true -> f y z = true -> f x z = true) ->
  opt_eqb f a b = true -> opt_eqb f b c = true -> opt_eqb f a c = true.
Proof. destruct a, b, c; cbn; eauto; discriminate. Qed.
Lemma ostr_trans a b c : opt_eqb str_eqb a b = true -> opt_eqb str_eqb b c = true -> opt_eqb str_eqb a c = true.
Proof. apply opt_trans, str_trans. Qed.
Lemma numfmt_trans a b c : numfmt_eqb a b = true -> numfmt_eqb b c = true -> numfmt_eqb a c = true.
Proof. unfold numfmt_eqb. intros; andbs; sub2; eauto using zeq_trans, bool_trans. Qed.
Lemma onumfmt_trans a b c : opt_eqb numfmt_eqb a b = true -> opt_eqb numfmt_eqb b c = true -> opt_eqb numfmt_eqb a c = true.
Proof. apply opt_trans, numfmt_trans. Qed.
Lemma bytev_trans a b c : bytev_eqb a b = true -> bytev_eqb b c = true -> bytev_eqb a c = true.
Proof. destruct a, b, c; cbn; eauto using byte_trans, str_trans; discriminate. Qed.
Lemma pair_trans {A B} (f : A -> A -> bool) (g : B -> B -> bool) x y z :
  (forall x y z, f x y = true -> f y z = true -> f x z = true) ->
  (forall x y z, g x y = true -> g y z = true -> g x z = true) ->
  pair_eqb f g x y = true -> pair_eqb f g y z = true -> pair_eqb f g x z = true.
Proof. unfold pair_eqb. intros; andbs; sub2; eauto. Qed.
Lemma keyk_eq a b : keyk_same a b = true <-> a = b.
Proof. destruct a, b; cbn; split; congruence. Qed.
Lemma fixed_eq a b : fixed_same a b = true <-> a = b.
Proof. destruct a, b; cbn; split; congruence. Qed.
Lemma numk_eq a b : num_same a b = true <-> a = b.
Proof. destruct a, b; cbn; split; congruence. Qed.
Lemma keyk_trans a b c : keyk_same a b = true -> keyk_same b c = true -> keyk_same a c = true.
Proof. rewrite !keyk_eq. congruence. Qed.
Create HintDb eqtrans.
Global Hint Resolve f32_trans f64_trans num_trans nums_trans ostr_trans onumfmt_trans byte_trans bytev_trans
  keyk_trans str_trans guid_trans zeq_trans bool_trans : eqtrans.
Ltac qtrans1 := first [ solve [eauto with eqtrans]
  | eapply list_trans; [|eassumption|eassumption]; apply Forall_any; intros; solve [eauto with eqtrans]
  | eapply list_trans; [|eassumption|eassumption]; eassumption
  | eapply list_trans; [|eassumption|eassumption]; apply Forall_any; intros;
    eapply pair_trans; [| |eassumption|eassumption]; solve [eauto with eqtrans]
  | eapply map_trans; [|eassumption|eassumption]; apply Forall_any; intros; split; intros; solve [eauto with eqtrans]
  | eapply map_trans; [|eassumption|eassumption]; eapply Forall_impl; [|eassumption]; cbv beta; intros;
    first [ tauto | split; [solve [eauto with eqtrans]|]; auto; intros; eapply list_trans; eassumption ] ].
Ltac qdes := match goal with H : _ _ _ ?b = true |- _ => is_var b; destruct b; try discriminate H end.

Lemma text_trans s :
  (forall a b c, text_eqb s a b = true -> text_eqb s b c = true -> text_eqb s a c = true)
  /\ (forall a b c, hist_eqb s a b = true -> hist_eqb s b c = true -> hist_eqb s a c = true)
  /\ (forall a b c, arg_eqb s a b = true -> arg_eqb s b c = true -> arg_eqb s a c = true).
Proof.
  apply text_all; intros; match goal with H : _ s (_ _) ?b = true |- _ => destruct b; try discriminate H
    | H : _ s HEmpty ?b = true |- _ => destruct b; try discriminate H end;
  match goal with H : _ s (_ _) ?c = true |- _ => is_var c; destruct c; try discriminate H
    | H : _ s HEmpty ?b = true |- _ => is_var b; destruct b; try discriminate H end; auto.
  all: repeat match goal with H : _ = true |- _ => progress qrw H end; qrwg;
   cbn [hist_eqb arg_eqb] in *; andbs; sub2; qtrans1.
Qed.
Lemma prop_trans s :
  (forall a b c, prop_eqb s a b = true -> prop_eqb s b c = true -> prop_eqb s a c = true)
  /\ (forall a b c, sval_eqb s a b = true -> sval_eqb s b c = true -> sval_eqb s a c = true)
  /\ (forall a b c, array_eqb s a b = true -> array_eqb s b c = true -> array_eqb s a c = true)
  /\ (forall a b c, mapp_eqb s a b = true -> mapp_eqb s b c = true -> mapp_eqb s a c = true).
Proof.
  pose proof (proj1 (text_trans s)) as TT.
  apply prop_all; intros; match goal with H : _ s (_ _) ?b = true |- _ => is_var b; destruct b; try discriminate H end;
  match goal with H : _ s (_ _) ?c = true |- _ => is_var c; destruct c; try discriminate H end.
  all: repeat match goal with H : _ = true |- _ => progress qrw H end; qrwg; eauto;
   cbn [prop_eqb sval_eqb array_eqb mapp_eqb] in *; andbs.
  all: repeat match goal with H : num_same _ _ = true |- _ => apply numk_eq in H; subst
     | H : fixed_same _ _ = true |- _ => apply fixed_eq in H; subst end.
  all: sub2; rewrite ?numk_refl, ?fixed_refl; auto; try qtrans1.
Qed.
