(** Hashing against equality. *)
From Coq Require Import ZArith List Bool String Lia ZifyBool ZifyNat Permutation.
From Verif Require Import Base Str Types Versions Guid Hash BaseFacts Spec StrFacts Decode Induct EqFacts.
Import ListNotations.
Open Scope Z_scope.

(** ** Values that are [same] feed the same bytes to the hasher *)
Lemma h_f32_eq a b : f32_eqb a b = true -> h_f32 a = h_f32 b.
Proof.
  rewrite f32_iff. unfold h_f32, canon32, f32_nan. intros [[A B]|[->|[A B]]]; [|auto|].
  - apply Z.ltb_lt in A, B. now rewrite A, B.
  - now rewrite A, B.
Qed.
Lemma h_f64_eq a b : f64_eqb a b = true -> h_f64 a = h_f64 b.
Proof.
  rewrite f64_iff. unfold h_f64, canon64, f64_nan. intros [[A B]|[->|[A B]]]; [|auto|].
  - apply Z.ltb_lt in A, B. now rewrite A, B.
  - now rewrite A, B.
Qed.
Lemma h_num_eq k a b : num_eqb k a b = true -> h_num k a = h_num k b.
Proof.
  destruct k; cbn [num_eqb h_num]; auto using h_f32_eq, h_f64_eq; rewrite Z.eqb_eq; congruence.
Qed.
Lemma h_nums_eq a : forall ks b, nums_eqb ks a b = true -> h_nums ks a = h_nums ks b.
Proof.
  induction a as [|x a IH]; intros ks [|y b]; cbn [nums_eqb]; try discriminate; auto.
  destruct ks; cbn [h_nums]; intros; andbs; f_equal; auto using h_num_eq.
  f_equal. now apply Z.eqb_eq.
Qed.
Lemma list_hash {A} (f : A -> A -> bool) (h : A -> list byte) l :
  Forall (fun x => forall y, f x y = true -> h x = h y) l ->
  forall l2, list_eqb f l l2 = true -> h_vec h l = h_vec h l2.
Proof.
  intros F l2 H.
  assert (len l = len l2 /\ flat_map h l = flat_map h l2) as [L E].
  { revert l2 H. induction F as [|x l Hx _ IH]; intros [|y l2]; cbn [list_eqb]; try discriminate; auto.
    intros; andbs. destruct (IH l2) as [L E]; auto. rewrite !len_cons. split; [lia|].
    cbn [flat_map]. now rewrite (Hx y), E. }
  unfold h_vec. now rewrite L, E.
Qed.
Lemma map_hash {K V} (keq : K -> K -> bool) (veq : V -> V -> bool) (f : K -> list byte) (g : V -> list byte) l :
  Forall (fun e => (forall y, keq (fst e) y = true -> f (fst e) = f y)
    /\ (forall y, veq (snd e) y = true -> g (snd e) = g y)) l ->
  forall l2, map_eqb keq veq true l l2 = true -> h_map f g l = h_map f g l2.
Proof.
  intros F l2 H. unfold map_eqb in H. revert l2 H.
  induction F as [|[k v] l [A B] _ IH]; intros [|[k2 v2] l2]; cbn [entries_eqb fst snd] in *; try discriminate; auto.
  intros; andbs. unfold h_map in *. cbn [flat_map fst snd]. rewrite (A k2), (B v2), (IH l2); auto.
Qed.
Lemma h_str_eq a b : str_eqb a b = true -> h_str a = h_str b.
Proof. rewrite str_eqb_eq. congruence. Qed.
Lemma h_guid_eq a b : guid_eqb a b = true -> h_guid a = h_guid b.
Proof. rewrite guid_eqb_eq. congruence. Qed.
Lemma h_byte_eq a b : Byte.eqb a b = true -> [a] = [b].
Proof. rewrite byte_eqb_eq. congruence. Qed.
Lemma h_bool_eq a b : Bool.eqb a b = true -> h_bool a = h_bool b.
Proof. rewrite Bool.eqb_true_iff. congruence. Qed.
Lemma h_int_eq w a b : (a =? b) = true -> h_int w a = h_int w b.
Proof. rewrite Z.eqb_eq. congruence. Qed.
Lemma h_opt_eq {A} (f : A -> A -> bool) (h : A -> list byte) a b :
  (forall x y, f x y = true -> h x = h y) -> opt_eqb f a b = true -> h_opt h a = h_opt h b.
Proof. destruct a, b; cbn [opt_eqb h_opt]; try discriminate; auto. intros H X. now rewrite (H _ _ X). Qed.
Lemma h_ostr_eq a b : opt_eqb str_eqb a b = true -> h_opt h_str a = h_opt h_str b.
Proof. apply h_opt_eq, h_str_eq. Qed.
Lemma h_numfmt_eq a b : numfmt_eqb a b = true -> h_numfmt a = h_numfmt b.
Proof.
  unfold numfmt_eqb, h_numfmt. intros; andbs.
  repeat match goal with H : (_ =? _) = true |- _ => apply Z.eqb_eq in H; rewrite H; clear H
  | H : Bool.eqb _ _ = true |- _ => apply Bool.eqb_prop in H; rewrite H; clear H end. reflexivity.
Qed.
Lemma h_onumfmt_eq a b : opt_eqb numfmt_eqb a b = true -> h_opt h_numfmt a = h_opt h_numfmt b.
Proof. apply h_opt_eq, h_numfmt_eq. Qed.
Lemma h_bytev_eq a b : bytev_eqb a b = true -> h_bytev a = h_bytev b.
Proof.
  destruct a, b; cbn [bytev_eqb]; try discriminate; [rewrite byte_eqb_eq|rewrite str_eqb_eq]; congruence.
Qed.
Create HintDb eqhash.
Global Hint Resolve h_f32_eq h_f64_eq h_num_eq h_nums_eq h_str_eq h_guid_eq h_byte_eq h_bool_eq h_int_eq h_ostr_eq
  h_onumfmt_eq h_bytev_eq : eqhash.

Lemma hh_text f h : h_text (FText f h) = h_int 4 f ++ h_hist h. Proof. reflexivity. Qed.
Lemma hh_named t l : h_hist (HNamed t l) = h_disc 3 ++ h_text t ++ h_map h_str h_arg l. Proof. reflexivity. Qed.
Lemma hh_ordered t l : h_hist (HOrdered t l) = h_disc 4 ++ h_text t ++ h_vec h_arg l. Proof. reflexivity. Qed.
Lemma hh_argument t l : h_hist (HArgument t l) = h_disc 5 ++ h_text t ++ h_map h_str h_arg l.
Proof. reflexivity. Qed.
Lemma hh_pset t f l : h_prop (PSet t f l) = h_disc 17 ++ h_str t ++ h_int 4 f ++ h_vec h_prop l.
Proof. reflexivity. Qed.
Lemma hh_parray a : h_prop (PArray a) = h_disc 0 ++ h_array a. Proof. reflexivity. Qed.
Lemma hh_pmap a : h_prop (PMap a) = h_disc 10 ++ h_mapp a. Proof. reflexivity. Qed.
Lemma hh_pstruct g t v : h_prop (PStruct g t v) = h_disc 19 ++ h_guid g ++ h_str t ++ h_sval v.
Proof. reflexivity. Qed.
Lemma hh_psvalue v : h_prop (PSValue v) = h_disc 20 ++ h_sval v. Proof. reflexivity. Qed.
Lemma hh_scustom l : h_sval (SCustom l) = h_disc 14 ++ h_map h_str (h_vec h_prop) l. Proof. reflexivity. Qed.
Lemma hh_astructs f t g l : h_array (AStructs f t g l)
  = h_disc 7 ++ h_str f ++ h_str t ++ h_guid g ++ h_vec h_sval l.
Proof. reflexivity. Qed.
Lemma hh_aprops t l : h_array (AProps t l) = h_disc 8 ++ h_str t ++ h_vec h_prop l. Proof. reflexivity. Qed.
Lemma hh_mprop k t l : h_mapp (MProp k t l) = h_disc (keyk_disc k + 2) ++ h_str t ++ h_map h_str h_prop l.
Proof. reflexivity. Qed.
Lemma hh_mgen kt vt f l : h_mapp (MGen kt vt f l)
  = h_disc 6 ++ h_str kt ++ h_str vt ++ h_int 4 f ++ h_map h_prop h_prop l.
Proof. reflexivity. Qed.
Ltac hrw := rewrite ?hh_text, ?hh_named, ?hh_ordered, ?hh_argument, ?hh_pset, ?hh_parray, ?hh_pmap, ?hh_pstruct,
  ?hh_psvalue, ?hh_scustom, ?hh_astructs, ?hh_aprops, ?hh_mprop, ?hh_mgen.
Ltac happ := match goal with |- ?a ++ ?b = ?c ++ ?d =>
    let H := fresh in enough (a = c /\ b = d) as [H ?]; [congruence|split; [|happ]] | _ => idtac end.

Lemma text_hash :
  (forall a b, text_eqb true a b = true -> h_text a = h_text b)
  /\ (forall a b, hist_eqb true a b = true -> h_hist a = h_hist b)
  /\ (forall a b, arg_eqb true a b = true -> h_arg a = h_arg b).
Proof.
  apply text_all; intros; match goal with H : _ true _ ?b = true |- _ => is_var b; destruct b; try discriminate H end; auto;
  repeat match goal with H : _ = true |- _ => progress qrw H end; hrw;
     cbn [hist_eqb arg_eqb] in *; andbs;
     try (cbn [h_hist h_arg]; happ; auto with eqhash; fail).
  all: happ; auto with eqhash.
  all: try (eapply map_hash; [|eassumption]; eapply Forall_impl; [|eassumption]; cbv beta; auto with eqhash).
  eapply list_hash; eassumption.
Qed.
Lemma prop_hash :
  (forall a b, prop_eqb true a b = true -> h_prop a = h_prop b)
  /\ (forall a b, sval_eqb true a b = true -> h_sval a = h_sval b)
  /\ (forall a b, array_eqb true a b = true -> h_array a = h_array b)
  /\ (forall a b, mapp_eqb true a b = true -> h_mapp a = h_mapp b).
Proof.
  pose proof (proj1 text_hash) as TS.
  apply prop_all; intros; match goal with H : _ true _ ?b = true |- _ => is_var b; destruct b; try discriminate H end;
  repeat match goal with H : _ = true |- _ => progress qrw H end; hrw;
     cbn [prop_eqb sval_eqb array_eqb mapp_eqb] in *; andbs;
     repeat match goal with H : num_same _ _ = true |- _ => apply numk_eq in H; subst
     | H : fixed_same _ _ = true |- _ => apply fixed_eq in H; subst
     | H : keyk_same _ _ = true |- _ => apply keyk_eq in H; subst
     | H : Bool.eqb _ _ = true |- h_prop (PMulti _ _) = _ => apply Bool.eqb_prop in H; subst end.
  all: try (cbn [h_prop h_sval h_array h_mapp]; happ; auto with eqhash; fail).
  all: cbn [h_prop h_sval h_array h_mapp]; happ; auto with eqhash.
  all: try (eapply list_hash; [|eassumption]; first [eassumption | apply Forall_any; solve [auto with eqhash]]).
  all: try (eapply map_hash; [|eassumption]; first
    [ apply Forall_any; solve [auto with eqhash]
    | eapply Forall_impl; [|eassumption]; cbv beta; solve [auto with eqhash | intros; tauto] ]).
  - eapply list_hash; [|eassumption]. apply Forall_any. unfold pair_eqb.
    intros x y H'; andbs. f_equal; auto with eqhash.
  - eapply map_hash; [|eassumption]. eapply Forall_impl; [|eassumption]. cbv beta.
    intros e F. split; [auto with eqhash|]. intros y. now apply list_hash.
Qed.

(** ** Field order changes what is hashed *)
Lemma byte_ff z : 0 <= z < 255 -> z2b z <> Byte.xff.
Proof. intros H E. apply (f_equal b2z) in E. rewrite b2z_z2b in E. change (b2z Byte.xff) with 255 in E. lia. Qed.
Lemma utf8_no_ff s : is_str s = true -> Forall (fun b => b <> Byte.xff) (utf8_bytes s).
Proof.
  induction s as [|c s IH]; [constructor|]. rewrite is_str_cons, utf8_bytes_cons. intros H; andbs.
  apply Forall_app. split; [|auto].
  match goal with H : scalar c = true |- _ => apply scalar_iff in H as Hc end.
  unfold utf8_char. destruct (Z.ltb_spec c 128); [|destruct (Z.ltb_spec c 2048); [|destruct (Z.ltb_spec c 65536)]];
    cbn [map]; repeat (constructor; [apply byte_ff; lia|]); constructor.
Qed.
Lemma split_ff a : forall a' x y, Forall (fun b => b <> Byte.xff) a -> Forall (fun b => b <> Byte.xff) a' ->
  a ++ Byte.xff :: x = a' ++ Byte.xff :: y -> a = a' /\ x = y.
Proof.
  induction a as [|b a IH]; intros [|b' a'] x y F F' E; cbn [app] in E; inversion F; inversion F'; subst.
  - injection E. auto.
  - exfalso. congruence.
  - exfalso. congruence.
  - injection E as -> E. destruct (IH a' x y) as [-> ->]; auto.
Qed.
Lemma h_str_split s s' x y : is_str s = true -> is_str s' = true ->
  h_str s ++ x = h_str s' ++ y -> s = s' /\ x = y.
Proof.
  intros H H' E. unfold h_str in E. rewrite <- !app_assoc in E. cbn [app] in E.
  apply split_ff in E as [E ->]; try (now apply utf8_no_ff). split; auto.
  pose proof (utf8_dec_enc s H) as D. unfold utf8_bytes in D. rewrite E in D.
  pose proof (utf8_dec_enc s' H') as D'. unfold utf8_bytes in D'. congruence.
Qed.

Lemma distinct_lookup {V} (l : list (str * V)) k v v' :
  distinct str_eqb l = true -> In (k, v) l -> In (k, v') l -> v = v'.
Proof.
  induction l as [|[k0 v0] r IH]; cbn [distinct]; [contradiction|]. intros D; andbs.
  rewrite forallb_forall in *.
  assert (N : forall w, In (k0, w) r -> False).
  { intros w I. match goal with H : forall _, In _ r -> _ |- _ => specialize (H _ I) end.
    cbn [fst] in *. rewrite str_eqb_refl in *. discriminate. }
  intros [E|I] [E'|I']; auto; try congruence; exfalso.
  - apply (N v'). congruence.
  - apply (N v). congruence.
Qed.
Lemma h_map_order {V} (g : V -> list byte) (l : list (str * V)) : forall l',
  forallb (fun e => is_str (fst e)) l = true -> distinct str_eqb l = true ->
  Permutation l l' -> h_map h_str g l = h_map h_str g l' -> l = l'.
Proof.
  induction l as [|[k v] r IH]; intros l' S0 D P E.
  - apply Permutation_nil in P. now subst.
  - destruct l' as [|[k' v'] r']; [apply Permutation_sym, Permutation_nil in P; discriminate|].
    assert (In (k', v') ((k, v) :: r)) as I by (eapply Permutation_in; [apply Permutation_sym, P|now left]).
    unfold h_map in E. cbn [flat_map fst snd] in E. rewrite <- !app_assoc in E.
    assert (S' : is_str k' = true).
    { rewrite forallb_forall in S0. apply (S0 (k', v') I). }
    cbn [forallb fst] in S0. andbs.
    apply h_str_split in E as [<- E]; auto.
    assert (v = v') as <- by (eapply (distinct_lookup ((k, v) :: r)); [exact D|now left|exact I]).
    apply app_inv_head in E. f_equal. apply IH; auto.
    + cbn [distinct] in D. now andbs.
    + now apply Permutation_cons_inv in P.
Qed.
Lemma custom_order l l' :
  forallb (fun e => is_str (fst e)) l = true -> distinct str_eqb l = true -> Permutation l l' -> l <> l' ->
  h_prop (PSValue (SCustom l)) <> h_prop (PSValue (SCustom l')).
Proof.
  intros S0 D P N E. apply N. rewrite !hh_psvalue, !hh_scustom in E. apply app_inv_head, app_inv_head in E.
  eapply h_map_order; eassumption.
Qed.
Lemma perm_eqv l l' : Permutation l l' -> eqv (PSValue (SCustom l)) (PSValue (SCustom l')) = true.
Proof.
  intros P. unfold eqv. rewrite q_psvalue, q_scustom. unfold map_eqb.
  assert (L : len l = len l') by (unfold len; now rewrite (Permutation_length P)).
  rewrite L, Z.eqb_refl. cbn [andb]. apply submap_iff. intros e I.
  exists e. split; [now apply (Permutation_in _ P)|]. split; [apply str_eqb_refl|].
  apply list_refl, Forall_any. intros x. apply prop_refl.
Qed.
