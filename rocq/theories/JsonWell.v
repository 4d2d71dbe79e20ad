(** The JSON form of a typed value is one that serde_json can hold: no repeated keys,
    integers in range, floats finite. *)
From Coq Require Import ZArith List Bool String Lia ZifyBool ZifyNat.
From Verif Require Import Base Str Types Versions Text Props File Spec BaseFacts Decode Induct
  DecodeProp EqFacts Guid GuidThm Accept Json JsonSpec JsonFloat JsonText JsonProp JsonFile JsonTyped.
Import ListNotations.
Open Scope Z_scope.

(** ** Floats stay in range *)
Lemma round_nonneg m s : 0 <= m -> 0 <= round_shift m s.
Proof.
  intros H. unfold round_shift. destruct (s <=? 0) eqn:E.
  - pose proof (Z.pow_nonneg 2 (- s)). nia.
  - pose proof (Z.div_pos m (2 ^ s) H ltac:(apply Z.pow_pos_nonneg; lia)).
    destruct (_ || _); lia.
Qed.
Lemma make_range f neg m e : 0 < f_prec f -> 0 <= f_inf f -> 0 <= f_sign f -> 0 <= m ->
  0 <= f_make f neg m e <= f_sign f + f_inf f.
Proof.
  intros P I S H. unfold f_make. destruct (m =? 0); [destruct neg; lia|].
  set (t := Z.max _ _). pose proof (round_nonneg m (t - e) H).
  pose proof (Z.pow_nonneg 2 (f_prec f - 1)). assert (f_emin f <= t) by lia.
  assert (0 <= (t - f_emin f) * 2 ^ (f_prec f - 1)) by nia. destruct neg; lia.
Qed.
Lemma split_nonneg f b m e : 0 < f_sign f -> f_split f b = (m, e) -> 0 <= m.
Proof.
  intros S. unfold f_split. pose proof (Z.mod_pos_bound b (f_sign f) S).
  pose proof (Z.pow_nonneg 2 (f_prec f - 1)).
  destruct (_ =? 0); intros X; injection X as <- <-; [lia|].
  destruct (Z.eq_dec (2 ^ (f_prec f - 1)) 0) as [->|N]; [rewrite Zmod_0_r; lia|].
  pose proof (Z.mod_pos_bound (b mod f_sign f) (2 ^ (f_prec f - 1))). lia.
Qed.
Lemma cast_range f g b : 0 < f_prec g -> 0 <= f_inf g -> 0 <= f_sign g -> 0 < f_sign f ->
  0 <= f_cast f g b <= f_sign g + f_inf g.
Proof.
  intros P I S Sf. unfold f_cast. destruct (f_split f b) as [m e] eqn:E.
  apply make_range; auto. eapply split_nonneg; eauto.
Qed.
Lemma cast32_u b : u_ok 4 (f_cast fmt64 fmt32 b) = true.
Proof.
  pose proof (cast_range fmt64 fmt32 b ltac:(reflexivity) ltac:(discriminate) ltac:(discriminate) ltac:(reflexivity)).
  unfold fmt32 in *. cbn [f_sign f_inf] in *. unfold u_ok, in_range. change (2 ^ (8 * 4) - 1) with 4294967295. lia.
Qed.
Lemma int32_u z : u_ok 4 (f_int fmt32 z) = true.
Proof.
  pose proof (make_range fmt32 (z <? 0) (Z.abs z) 0 ltac:(reflexivity) ltac:(discriminate) ltac:(discriminate) ltac:(lia)).
  unfold f_int, fmt32 in *. cbn [f_sign f_inf] in *. unfold u_ok, in_range. change (2 ^ (8 * 4) - 1) with 4294967295. lia.
Qed.
Lemma int64_u z : u_ok 8 (f_int fmt64 z) = true.
Proof.
  pose proof (make_range fmt64 (z <? 0) (Z.abs z) 0 ltac:(reflexivity) ltac:(discriminate) ltac:(discriminate) ltac:(lia)).
  unfold f_int, fmt64 in *. cbn [f_sign f_inf] in *. unfold u_ok, in_range.
  change (2 ^ (8 * 8) - 1) with 18446744073709551615. lia.
Qed.
Lemma cast64_ok b : u_ok 4 b = true -> finite32 b = true ->
  u_ok 8 (f_cast fmt32 fmt64 b) = true /\ finite64 (f_cast fmt32 fmt64 b) = true.
Proof.
  intros U F. destruct (split32 b U F) as (m & e & E & Hm & He & _ & _ & _).
  unfold f_cast. rewrite E. set (neg := f_neg fmt32 b).
  assert (X : exists B, f_make fmt64 neg m e = (if neg then f_sign fmt64 else 0) + B /\ 0 <= B < f_inf fmt64).
  { unfold f_make. destruct (m =? 0) eqn:M0; [exists 0; split; [lia|split; reflexivity || discriminate]|].
    assert (Hm' : 0 < m) by lia. pose proof (Z.log2_spec m Hm') as [L1 L2].
    set (d := Z.log2 m) in *. assert (Hd : 0 <= d) by apply Z.log2_nonneg.
    assert (Hd' : d < 24) by (apply Z.log2_lt_pow2; lia).
    unfold fmt64 at 2 3 4 5 6 7 8. cbn [f_prec f_emin f_inf].
    assert (Ht : Z.max (e + d + 1 - 53) (-1074) = e + d - 52) by lia. rewrite Ht.
    set (m' := m * 2 ^ (52 - d)).
    assert (Pm : 0 <= m' < 2 ^ 53).
    { unfold m'. replace (2 ^ 53) with (2 ^ Z.succ d * 2 ^ (52 - d)) by (rewrite <- Z.pow_add_r by lia; f_equal; lia).
      pose proof (Z.pow_pos_nonneg 2 (52 - d)). nia. }
    unfold round_shift. replace (e + d - 52 - e <=? 0) with true by lia.
    replace (- (e + d - 52 - e)) with (52 - d) by lia. fold m'. change (2 ^ (53 - 1)) with 4503599627370496.
    change (2 ^ 53) with 9007199254740992 in Pm.
    eexists. split; [reflexivity|]. unfold fmt64; cbn [f_inf]. lia. }
  destruct X as (B & -> & HB). unfold fmt64 in *. cbn [f_sign f_inf] in *.
  unfold u_ok, in_range, finite64. change (2 ^ (8 * 8) - 1) with 18446744073709551615.
  change (2 ^ 52) with 4503599627370496. destruct neg; lia.
Qed.

(** ** Objects *)
Fixpoint once (l : list str) : bool :=
  match l with [] => true | k :: r => negb (existsb (str_eqb k) r) && once r end.
Definition keys_ok (l : list str) : bool := once l && forallb is_str l.
Lemma once_distinct {V} (l : list (str * V)) : distinct str_eqb l = once (map fst l).
Proof.
  induction l as [|[k v] l IH]; [reflexivity|]. cbn [distinct map fst once]. rewrite IH. f_equal.
  clear. induction l as [|[k' v'] l IH]; [reflexivity|]. cbn [forallb map fst existsb].
  rewrite negb_orb, <- IH. f_equal. f_equal. apply eq_true_iff_eq. rewrite !str_eqb_eq. intuition congruence.
Qed.
Lemma obj_ok l : j_ok (JObj l) = keys_ok (map fst l) && forallb j_ok (map snd l).
Proof.
  cbn [j_ok]. rewrite once_distinct. unfold keys_ok. rewrite <- andb_assoc. f_equal.
  induction l as [|[k v] l IH]; [reflexivity|]. cbn [forallb map fst snd]. rewrite IH.
  destruct (is_str k), (j_ok v); cbn [andb]; auto. now rewrite andb_false_r.
Qed.
Lemma map_ok {A} (e : A -> json) (l : list (str * A)) : distinct str_eqb l = true ->
  Forall (fun x => is_str (fst x) = true /\ j_ok (e (snd x)) = true) l ->
  j_ok (JObj (map (fun '(k, a) => (k, e a)) l)) = true.
Proof.
  intros D H. rewrite obj_ok. unfold keys_ok.
  replace (map fst (map (fun '(k, a) => (k, e a)) l)) with (map fst l)
    by (rewrite map_map; apply map_ext; now intros [? ?]).
  rewrite <- once_distinct, D. cbn [andb]. rewrite Forall_forall in H. apply andb_true_iff. split; apply forallb_forall.
  - intros k I. apply in_map_iff in I as (x & <- & I). now apply H.
  - intros j I. rewrite map_map in I. apply in_map_iff in I as ([k a] & <- & I). exact (proj2 (H _ I)).
Qed.
Lemma arr_ok {A} (e : A -> json) l : Forall (fun x => j_ok (e x) = true) l -> j_ok (JArr (map e l)) = true.
Proof.
  intros H. cbn [j_ok]. rewrite forallb_forall. intros j I. apply in_map_iff in I as (x & <- & I).
  rewrite Forall_forall in H. auto.
Qed.

(** ** Scalars *)
Lemma int_ok a b z : -9223372036854775808 <= a -> b <= 18446744073709551615 -> in_range a b z = true ->
  j_ok (JInt z) = true.
Proof. cbn [j_ok]. unfold in_range. lia. Qed.
Lemma u4_ok z : u_ok 4 z = true -> j_ok (JInt z) = true.
Proof. apply int_ok; vm_compute; discriminate. Qed.
Lemma u8_ok z : u_ok 8 z = true -> j_ok (JInt z) = true.
Proof. apply int_ok; vm_compute; discriminate. Qed.
Lemma u2_ok z : u_ok 2 z = true -> j_ok (JInt z) = true.
Proof. apply int_ok; vm_compute; discriminate. Qed.
Lemma s4_ok z : s_ok 4 z = true -> j_ok (JInt z) = true.
Proof. apply int_ok; vm_compute; discriminate. Qed.
Lemma s8_ok z : s_ok 8 z = true -> j_ok (JInt z) = true.
Proof. apply int_ok; vm_compute; discriminate. Qed.
Lemma byte_ok b : j_ok (JInt (b2z b)) = true.
Proof. destruct b; reflexivity. Qed.
Lemma f32_ok z : u_ok 4 z = true -> j_ok (e_f32 z) = true.
Proof.
  intros U. unfold e_f32. rewrite finite32_eq by auto. destruct (finite32 z) eqn:F; [|reflexivity].
  cbn [j_ok]. destruct (cast64_ok z U F) as [-> ->]. reflexivity.
Qed.
Lemma f64_ok z : u_ok 8 z = true -> j_ok (e_f64 z) = true.
Proof.
  intros U. unfold e_f64. rewrite finite64_eq by auto. destruct (finite64 z) eqn:F; [|reflexivity].
  cbn [j_ok]. now rewrite U, F.
Qed.
Lemma enum_ok k z : num_ok k z = true -> j_ok (e_num k z) = true.
Proof.
  destruct k; cbn [e_num]; intros H; try (apply f32_ok; exact H); try (apply f64_ok; exact H);
    revert H; apply int_ok; vm_compute; discriminate.
Qed.
Lemma ostr_json o : ois_str o = true -> j_ok (e_ostr o) = true.
Proof. now destruct o. Qed.
Lemma guid_json g : j_ok (e_guid g) = true.
Proof. apply display_str. Qed.
Lemma hex_digits l : is_str (e_hex l) = true.
Proof.
  induction l as [|b l IH]; [reflexivity|]. unfold e_hex. cbn [flat_map app]. fold (e_hex l).
  unfold is_str in *. cbn [forallb]. rewrite IH. destruct b; reflexivity.
Qed.
Lemma fields_ok names ks l : nums_ok ks l = true -> forallb j_ok (map snd (e_fields names ks l)) = true.
Proof.
  revert ks l. induction names as [|n names IH]; intros [|k ks] [|z l] H; try reflexivity; try discriminate.
  cbn [nums_ok] in H. andbs. cbn [e_fields map snd forallb]. rewrite enum_ok by auto. now apply IH.
Qed.
Lemma name_json l z : forallb is_str l = true -> j_ok (e_name l z) = true.
Proof.
  intros H. unfold e_name. cbn [j_ok]. rewrite forallb_forall in H.
  destruct (nth_in_or_default (Z.to_nat z) l []) as [I| ->]; [auto|reflexivity].
Qed.
Lemma style_json z : j_ok (e_style z) = true.
Proof. now apply name_json. Qed.
Lemma round_json z : j_ok (e_name rounding_names z) = true.
Proof. now apply name_json. Qed.
Lemma trans_json z : j_ok (e_name transform_names z) = true.
Proof. now apply name_json. Qed.
#[export] Hint Resolve u4_ok u8_ok u2_ok s4_ok s8_ok byte_ok f32_ok f64_ok enum_ok ostr_json guid_json
  style_json round_json trans_json : jok.
Lemma ticks_json t : u_ok 8 t = true -> j_ok (e_ticks t) = true.
Proof. intros H. unfold e_ticks. rewrite obj_ok. cbn [map fst snd forallb]. rewrite u8_ok by auto. reflexivity. Qed.
Lemma numfmt_json o : numfmt_ok o = true -> j_ok (e_numfmt o) = true.
Proof.
  unfold numfmt_ok. intros H. andbs. unfold e_numfmt. rewrite obj_ok. cbn [map fst snd forallb].
  rewrite !s4_ok, round_json by auto. reflexivity.
Qed.

(** ** Texts *)
Definition fields_json (pre : list str) (l : list (str * json)) : Prop :=
  keys_ok (pre ++ map fst l) = true /\ forallb j_ok (map snd l) = true.
Lemma drop_key a b l : keys_ok (a :: b :: l) = true -> keys_ok (a :: l) = true /\ keys_ok (b :: l) = true.
Proof.
  unfold keys_ok. cbn [once existsb forallb]. intros H. andbs.
  apply negb_true_iff in H. apply orb_false_iff in H as [? E].
  split; repeat (apply andb_true_iff; split); auto. now rewrite E.
Qed.
Lemma tail_key a l : keys_ok (a :: l) = true -> keys_ok l = true.
Proof. unfold keys_ok. cbn [once forallb]. intros H. andbs. bsplit. Qed.
Lemma obj_of k v l : j_ok v = true -> fields_json [k] l -> j_ok (JObj ((k, v) :: l)) = true /\ j_ok (JObj l) = true.
Proof.
  intros V [K F]. rewrite !obj_ok. cbn [map fst snd forallb app] in *. rewrite K, V, F.
  rewrite (tail_key _ _ K). auto.
Qed.
Ltac lits := match goal with |- keys_ok ?l = true => vm_compute; exact eq_refl end.
Ltac obj := split; [cbn [map fst snd app]; lits|cbn [map snd forallb app]].
Lemma text_well :
  (forall t, t_text t = true -> fields_json [s2z "type"] (e_text t))
  /\ (forall h, t_hist h = true -> fields_json [s2z "type"; s2z "flags"] (e_hist h))
  /\ (forall a, t_arg a = true -> j_ok (e_arg a) = true).
Proof.
  assert (T : forall t, fields_json [s2z "type"] (e_text t) -> j_ok (JObj (e_text t)) = true).
  { intros t H. exact (proj2 (obj_of _ JNull _ eq_refl H)). }
  assert (N : forall l, distinct str_eqb l = true ->
    Forall (fun e => t_arg (snd e) = true -> j_ok (e_arg (snd e)) = true) l ->
    forallb (fun '(k, v) => is_str k && t_arg v) l = true ->
    j_ok (JObj (map (fun '(k, v) => (k, e_arg v)) l)) = true).
  { intros l D F B. apply map_ok; auto. rewrite Forall_forall in *. rewrite forallb_forall in B.
    intros [k v] I. specialize (B _ I). specialize (F _ I). cbn in *. andbs. auto. }
  apply text_all; cbn [t_text t_hist t_arg e_text e_hist e_arg]; intros;
    repeat match goal with H : _ && _ = true |- _ => apply andb_true_iff in H as [? ?] end;
    repeat match goal with H : ?A = true -> _, H' : ?A = true |- _ => specialize (H H') end.
  - destruct H as [K F]; auto. unfold e_nonzero. destruct (f =? 0); cbn [app].
    + split; auto. cbn [app] in *. now apply drop_key in K as [? _].
    + split; auto. cbn [map snd forallb app]. now rewrite u4_ok.
  - obj. reflexivity.
  - destruct s; cbn [e_optstr e_opt option_map]; obj; auto. cbn [ois_str j_ok] in *. now rewrite H.
  - destruct a, b, c; cbn [e_optstr e_opt option_map app ois_str] in *; obj; cbn [j_ok];
      repeat match goal with H : is_str _ = true |- _ => rewrite H end; reflexivity.
  - obj. rewrite T, N; auto.
  - obj. rewrite T by auto. rewrite arr_ok; [reflexivity|]. eapply Forall_typed; eassumption.
  - obj. rewrite T, N; auto.
  - destruct o, c; cbn [e_optstr e_opt option_map app ois_str onumfmt_ok] in *; obj;
      rewrite ?numfmt_json by auto; repeat match goal with H : j_ok _ = true |- _ => rewrite H end;
      cbn [j_ok]; repeat match goal with H : is_str _ = true |- _ => rewrite H end; reflexivity.
  - destruct o, c; cbn [e_optstr e_opt option_map app ois_str onumfmt_ok] in *; obj;
      rewrite ?numfmt_json by auto; repeat match goal with H : j_ok _ = true |- _ => rewrite H end;
      cbn [j_ok]; repeat match goal with H : is_str _ = true |- _ => rewrite H end; reflexivity.
  - destruct d, o, c; cbn [e_optstr e_opt option_map app ois_str onumfmt_ok] in *; obj;
      rewrite ?numfmt_json by auto; repeat match goal with H : j_ok _ = true |- _ => rewrite H end;
      cbn [j_ok]; repeat match goal with H : is_str _ = true |- _ => rewrite H end; reflexivity.
  - obj. rewrite ticks_json, style_json by auto. cbn [j_ok]. repeat match goal with H : is_str _ = true |- _ => rewrite H end; reflexivity.
  - obj. rewrite ticks_json, style_json by auto. cbn [j_ok]. repeat match goal with H : is_str _ = true |- _ => rewrite H end; reflexivity.
  - obj. rewrite ticks_json, !style_json by auto. cbn [j_ok]. repeat match goal with H : is_str _ = true |- _ => rewrite H end; reflexivity.
  - obj. rewrite T, trans_json by auto. reflexivity.
  - obj. cbn [j_ok]. repeat match goal with H : is_str _ = true |- _ => rewrite H end; reflexivity.
  - rewrite obj_ok. cbn [map fst snd forallb]. rewrite s4_ok by auto. reflexivity.
  - rewrite obj_ok. cbn [map fst snd forallb]. rewrite u4_ok by auto. reflexivity.
  - rewrite obj_ok. cbn [map fst snd forallb]. rewrite f32_ok by auto. reflexivity.
  - rewrite obj_ok. cbn [map fst snd forallb]. rewrite f64_ok by auto. reflexivity.
  - rewrite obj_ok. cbn [map fst snd forallb]. rewrite T by auto. reflexivity.
  - rewrite obj_ok. cbn [map fst snd forallb]. rewrite s8_ok by auto. reflexivity.
  - rewrite obj_ok. cbn [map fst snd forallb]. rewrite u8_ok by auto. reflexivity.
Qed.

(** ** Properties *)
Ltac strs := cbn [j_ok]; repeat match goal with H : is_str _ = true |- _ => rewrite H end.
Lemma strs_ok l : forallb is_str l = true -> j_ok (JArr (map JStr l)) = true.
Proof. intros H. apply arr_ok. rewrite Forall_forall, forallb_forall in *. exact H. Qed.
Lemma sval_keys v : is_str (fst (e_sval v)) = true
  /\ keys_ok [s2z "type"; s2z "guid"; s2z "type_name"; fst (e_sval v)] = true.
Proof. destruct v as [x l| | |]; [destruct x| | |]; split; vm_compute; reflexivity. Qed.
Section PropWell.
Context (sep : property -> property -> bool).
Definition P (p : property) := t_prop sep p = true -> j_ok (e_prop p) = true.
Lemma props_ok l : Forall P l -> forallb (t_prop sep) l = true -> j_ok (JArr (map e_prop l)) = true.
Proof. intros F B. apply arr_ok. eapply Forall_typed; eassumption. Qed.
Lemma entries_ok (l : list (str * property)) : distinct str_eqb l = true ->
  Forall (fun e => P (snd e)) l ->
  forallb (fun '(k, p) => is_str k && t_prop sep p) l = true ->
  j_ok (JObj (map (fun '(k, p) => (k, e_prop p)) l)) = true.
Proof.
  intros D F B. apply map_ok; auto. rewrite Forall_forall in *. rewrite forallb_forall in B.
  intros [k v] I. specialize (B _ I). specialize (F _ I). cbn in *. andbs. auto.
Qed.
Ltac top := unfold tagged; rewrite obj_ok; cbn [map fst snd app forallb].
Lemma prop_well :
  (forall p, P p)
  /\ (forall v, t_sval sep v = true -> j_ok (snd (e_sval v)) = true)
  /\ (forall a, t_array sep a = true -> fields_json [s2z "type"] (e_array a))
  /\ (forall m, t_map sep m = true -> fields_json [s2z "type"] (e_map m)).
Proof.
  apply prop_all; unfold P; cbn [t_prop t_sval t_array t_map e_prop e_sval e_array e_map fst snd]; intros;
    repeat match goal with H : _ && _ = true |- _ => apply andb_true_iff in H as [? ?] end;
    repeat match goal with H : ?A = true -> _, H' : ?A = true |- _ => specialize (H H') end.
  - top. rewrite enum_ok by auto. destruct k; reflexivity.
  - reflexivity.
  - destruct n, v; cbn [ois_str t_bytev] in *; top; cbn [e_optstr e_opt option_map e_bytev map fst snd app forallb];
      rewrite ?byte_ok; strs; reflexivity.
  - destruct t; cbn [ois_str] in *; top; cbn [e_optstr e_opt option_map map fst snd app forallb]; strs; reflexivity.
  - destruct v; cbn [ois_str] in *; top; cbn [e_optstr e_opt option_map map fst snd app forallb]; strs; reflexivity.
  - refine (proj1 (obj_of _ _ _ _ (proj1 text_well t ltac:(assumption)))). reflexivity.
  - unfold e_nonzero. destruct (i =? 0), v; cbn [ois_str] in *; top; cbn [e_optstr e_opt option_map map fst snd app forallb];
      rewrite ?u4_ok by auto; strs; reflexivity.
  - top. strs. reflexivity.
  - top. unfold e_delegate. rewrite obj_ok. cbn [map fst snd forallb]. strs. reflexivity.
  - destruct i; top; rewrite obj_ok; cbn [map fst snd forallb]; (rewrite arr_ok; [reflexivity|]);
      rewrite Forall_forall; intros [a b] I; rewrite forallb_forall in H; specialize (H _ I); cbn in H; andbs;
      unfold e_delegate; rewrite obj_ok; cbn [map fst snd forallb]; strs; reflexivity.
  - top. rewrite obj_ok. cbn [map fst snd forallb]. rewrite strs_ok by auto. strs. reflexivity.
  - top. rewrite arr_ok by (apply Forall_forall; intros; apply byte_ok). strs. reflexivity.
  - refine (proj1 (obj_of _ _ _ _ H)). reflexivity.
  - top. rewrite u4_ok by auto. rewrite props_ok by auto. strs. reflexivity.
  - refine (proj1 (obj_of _ _ _ _ H)). reflexivity.
  - pose proof (sval_keys v) as [_ K]. unfold e_optguid. destruct (guid_is_zero g); top; rewrite ?guid_json; strs.
    + change [s2z "type"; s2z "guid"; s2z "type_name"; fst (e_sval v)]
        with (s2z "type" :: [s2z "guid"] ++ [s2z "type_name"; fst (e_sval v)]) in K.
      apply drop_key in K as [-> _]. fold j_ok. rewrite H. reflexivity.
    + rewrite K. rewrite H. reflexivity.
  - pose proof (sval_keys v) as [_ K]. top. do 2 apply drop_key in K as [K _]. rewrite K, H. reflexivity.
  - rewrite obj_ok. rewrite e_fields_names by (auto; now destruct x). rewrite fields_ok by auto.
    destruct x; reflexivity.
  - apply guid_json.
  - now apply strs_ok.
  - apply (map_ok (fun ps => JArr (map e_prop ps))); auto. rewrite Forall_forall in *.
    match goal with B : forallb _ l = true |- _ => rewrite forallb_forall in B; intros [k ps] I;
      specialize (B _ I); specialize (H _ I) end. cbn [fst snd] in *. andbs. split; auto. now apply props_ok.
  - obj. now rewrite arr_ok by (apply Forall_forall; reflexivity).
  - obj. cbn [j_ok]. now rewrite hex_digits.
  - obj. now rewrite strs_ok.
  - obj. rewrite arr_ok; [reflexivity|]. rewrite Forall_forall, forallb_forall in *. auto with jok.
  - obj. rewrite arr_ok; [reflexivity|]. rewrite Forall_forall, forallb_forall in *. auto with jok.
  - obj. rewrite arr_ok; [reflexivity|]. rewrite Forall_forall, forallb_forall in *. auto with jok.
  - obj. rewrite arr_ok; [reflexivity|]. rewrite Forall_forall, forallb_forall in *. auto with jok.
  - assert (X : j_ok (JArr (map (fun v => JObj [e_sval v]) l)) = true).
    { apply arr_ok. eapply Forall_typed; [|eassumption]. eapply Forall_impl; [|exact H].
      intros v Hv T. specialize (Hv T). rewrite obj_ok. cbn [map fst snd forallb]. rewrite Hv.
      pose proof (sval_keys v) as [K _]. unfold keys_ok. cbn [once existsb forallb]. now rewrite K. }
    unfold e_optguid. destruct (guid_is_zero g); obj; rewrite ?guid_json, X; strs; reflexivity.
  - obj. rewrite props_ok by auto. strs. reflexivity.
  - destruct k; obj; rewrite (map_ok JBool); auto; rewrite Forall_forall; rewrite forallb_forall in *;
      intros [s b] I; specialize (H0 _ I); auto.
  - destruct k; obj; rewrite (map_ok JInt); auto; rewrite Forall_forall; rewrite forallb_forall in *;
      intros [s b] I; specialize (H0 _ I); cbn in H0; andbs; cbn [fst snd]; auto with jok.
  - destruct k; obj; rewrite entries_ok; auto; strs; reflexivity.
  - obj; rewrite (map_ok e_ostr); auto; rewrite Forall_forall; rewrite forallb_forall in *;
      intros [s b] I; specialize (H0 _ I); cbn in H0; andbs; cbn [fst snd]; auto with jok.
  - obj. rewrite u4_ok by auto. rewrite arr_ok.
    + strs. reflexivity.
    + rewrite Forall_forall in *. intros [k v] I. specialize (H _ I). cbn [fst snd] in H.
      match goal with B : forallb _ l = true |- _ => rewrite forallb_forall in B; specialize (B _ I); cbn in B end.
      andbs. destruct H as [Hk Hv]. cbn [j_ok forallb]. rewrite Hk, Hv by auto. reflexivity.
Qed.
Lemma file_well g : t_file sep g = true -> j_ok (to_json g) = true.
Proof.
  unfold t_file, t_header. intros H. andbs. destruct g as [v h l]. cbn [g_version g_header g_props] in *.
  assert (E : j_ok (e_engine (h_engine h)) = true).
  { unfold e_engine. rewrite obj_ok. cbn [map fst snd forallb]. rewrite !u2_ok, u4_ok by auto. strs. reflexivity. }
  assert (V : j_ok (JObj (map (fun '(g, v) => (guid_display g, JInt v)) (h_versions h))) = true).
  { replace (map (fun '(g, v) => (guid_display g, JInt v)) (h_versions h))
      with (map (fun '(k, a) => (k, JInt a)) (map (fun '(g, v) => (guid_display g, v)) (h_versions h)))
      by (rewrite map_map; apply map_ext; now intros [? ?]).
    match goal with D0 : distinct guid_eqb _ = true, B0 : forallb _ (h_versions h) = true |- _ =>
      revert D0 B0; generalize (h_versions h); clear; intros vs D B end.
    apply map_ok.
    - induction vs as [|[g v] vs IH]; [reflexivity|]. cbn [map distinct forallb] in *. andbs.
      apply andb_true_iff; split; [|auto]. rewrite forallb_forall in *.
      intros [s w] I. apply in_map_iff in I as ([g' w'] & E & I). injection E as <- <-. cbn [fst].
      repeat match goal with D1 : forall x, In x vs -> _ |- _ => specialize (D1 _ I); cbn [fst] in D1 end. andbs.
      apply negb_true_iff, not_true_is_false. intros E%str_eqb_eq.
      assert (g' = g).
      { assert (X : guid_parse (guid_display g') = guid_parse (guid_display g)) by now rewrite E.
        rewrite !display_parse in X by (unfold guid_ok in *; lia). now injection X. }
      subst g'. match goal with D1 : negb _ = true |- _ => rewrite guid_eqb_refl in D1; discriminate end.
    - apply Forall_forall. intros [s w] I. apply in_map_iff in I as ([g' w'] & E & I). injection E as <- <-.
      cbn [fst snd]. rewrite forallb_forall in B. specialize (B _ I). cbn in B. andbs.
      split; [apply display_str|auto with jok]. }
  assert (Hd : j_ok (e_header h) = true).
  { unfold e_header. destruct (h_ue5 h); cbn [option_map e_opt app]; rewrite obj_ok; cbn [map fst snd forallb];
      rewrite E, V, !u4_ok by auto; strs; reflexivity. }
  assert (L : j_ok (JObj (map (fun '(k, p) => (k, e_prop p)) l)) = true).
  { apply entries_ok; auto. apply Forall_forall. intros. apply (proj1 prop_well). }
  unfold to_json, e_dversion. cbn [g_version g_header g_props].
  destruct v as [|c]; cbn [app]; rewrite obj_ok; cbn [map fst snd forallb]; rewrite Hd, L; [reflexivity|].
  destruct c; reflexivity.
Qed.
End PropWell.
