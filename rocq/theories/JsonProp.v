(** Reading the JSON form of typed properties and files back. *)
From Coq Require Import ZArith List Bool String Lia ZifyBool ZifyNat.
From Verif Require Import Base Str Types Versions Text Props File Spec BaseFacts Decode Induct
  DecodeProp EqFacts Guid GuidThm Json JsonSpec JsonFloat JsonText.
Import ListNotations.
Open Scope Z_scope.

Lemma Forall_typed {A} (T : A -> bool) (B : A -> Prop) l :
  Forall (fun x => T x = true -> B x) l -> forallb T l = true -> Forall B l.
Proof. rewrite !Forall_forall, forallb_forall. auto. Qed.
Lemma Forall_typed2 {K A} (U : K -> bool) (T : A -> bool) (B : A -> Prop) (l : list (K * A)) :
  Forall (fun x => T (snd x) = true -> B (snd x)) l -> forallb (fun '(k, a) => U k && T a) l = true ->
  Forall (fun x => B (snd x)) l.
Proof.
  rewrite !Forall_forall, forallb_forall. intros H F [k a] I. apply (H _ I).
  specialize (F _ I). cbn in F. now andbs.
Qed.

Lemma need_in {A} (f : json -> jres A) n j o : NoDup (map fst o) -> In (n, j) o -> need f n o = f j.
Proof.
  induction o as [|[k v] o IH]; [easy|]. cbn [map fst]. intros D I. inversion D; subst.
  destruct I as [E|I].
  - injection E as -> ->. apply need_hit.
  - rewrite need_miss; auto. apply not_true_is_false. intros E. apply str_eqb_eq in E. subst k.
    apply H1. apply in_map_iff. now exists (n, j).
Qed.
Lemma fields_at o : forall names ks l, nums_ok ks l = true -> List.length names = List.length ks ->
  (forall (f : json -> jres Z) n j, In (n, j) (e_fields names ks l) -> need f n o = f j) ->
  d_fields names ks o = if finite_nums ks l then JOk l else JErr.
Proof.
  induction names as [|n names IH]; intros [|k ks] [|z l] H L G; try discriminate; try reflexivity.
  cbn [nums_ok] in H. andbs. cbn [d_fields e_fields finite_nums] in *.
  rewrite (G _ n (e_num k z)) by now left. rewrite num_j by auto.
  destruct (finite_num k z); [|reflexivity]. cbn [jbind andb].
  rewrite (IH ks l) by (auto; intros; apply G; now right). now destruct (finite_nums ks l).
Qed.
Lemma e_fields_names : forall names ks l, nums_ok ks l = true -> List.length names = List.length ks ->
  map fst (e_fields names ks l) = names.
Proof.
  induction names as [|n names IH]; intros [|k ks] [|z l] H L; try discriminate; try reflexivity.
  cbn [nums_ok] in H. andbs. cbn [e_fields map fst]. f_equal. apply IH; auto.
Qed.
Lemma field_names_once x : NoDup (field_names x).
Proof. destruct x; cbn [field_names map]; repeat constructor; cbn; intuition discriminate. Qed.
Lemma times_none k o : ~ In k (map fst o) -> times k o = O.
Proof.
  induction o as [|[k' v] o IH]; [reflexivity|]. cbn [map fst In times]. intros H.
  destruct (str_eqb k k') eqn:E; [|apply IH; tauto]. apply str_eqb_eq in E. subst. tauto.
Qed.
Lemma times_one k o : NoDup (map fst o) -> (times k o <= 1)%nat.
Proof.
  induction o as [|[k' v] o IH]; [cbn; lia|]. cbn [map fst times]. intros H. inversion H; subst.
  destruct (str_eqb k k') eqn:E; [|apply IH; auto]. apply str_eqb_eq in E. subst.
  rewrite times_none by auto. lia.
Qed.
Lemma distinct_nodup {V} (o : list (str * V)) : distinct str_eqb o = true -> NoDup (map fst o).
Proof.
  induction o as [|[k v] o IH]; [constructor|]. cbn [distinct map fst]. intros H. andbs.
  constructor; auto. intros I. apply in_map_iff in I as ([k' v'] & E & I). cbn [fst] in E. subst k'.
  match goal with F : forallb _ o = true |- _ => rewrite forallb_forall in F; specialize (F _ I) end.
  cbn [fst] in *. now rewrite str_eqb_refl in *.
Qed.
Lemma once_nodup names o : NoDup (map fst o) -> unrepeated names o = true.
Proof. intros H. apply forallb_forall. intros k _. apply Nat.leb_le. now apply times_one. Qed.
Lemma fixed_j dp x l : nums_ok (layout x) l = true ->
  d_svariant dp (fixed_variant x) (JObj (e_fields (field_names x) (layout x) l))
  = Some (if finite_nums (layout x) l then JOk (SFixed x l) else JErr).
Proof.
  intros H.
  replace (d_svariant dp (fixed_variant x) (JObj (e_fields (field_names x) (layout x) l)))
    with (Some (d_once (field_names x) (e_fields (field_names x) (layout x) l)
                 (l <~ d_fields (field_names x) (layout x) (e_fields (field_names x) (layout x) l) ;;
                  JOk (SFixed x l)))) by (now destruct x).
  assert (L : List.length (field_names x) = List.length (layout x)) by now destruct x.
  rewrite d_once_t by (apply once_nodup; rewrite e_fields_names by auto; apply field_names_once).
  f_equal. rewrite (fields_at _ _ _ l); auto.
  - now destruct (finite_nums _ l).
  - intros f n j I. apply need_in; auto. rewrite e_fields_names by auto. apply field_names_once.
Qed.

Lemma d_prop_eq hp n o : need d_pname (s2z "type") o = JOk n -> unrepeated [s2z "type"] o = true ->
  d_prop hp (JObj o) = d_once (prop_fields n) o
    match n with
    | NNum k => z <~ need (d_num k) (s2z "value") o ;; JOk (PNum k z)
    | NBool => b <~ need d_bool (s2z "value") o ;; JOk (PBool b)
    | NByte => n <~ opt d_str (s2z "name") o ;; v <~ flat d_bytev o ;; JOk (PByte n v)
    | NEnum => t <~ opt d_str (s2z "enum_type") o ;; v <~ need d_str (s2z "value") o ;; JOk (PEnum t v)
    | NStr => v <~ opt d_str (s2z "value") o ;; JOk (PStr v)
    | NText => t <~ d_text (JObj o) ;; JOk (PText t)
    | NName =>
      i <~ dflt d_u32 0 (s2z "array_index") o ;; v <~ opt d_str (s2z "value") o ;; JOk (PName i v)
    | NObject => v <~ need d_str (s2z "value") o ;; JOk (PObject v)
    | NDelegate => p <~ need d_delegate (s2z "value") o ;; JOk (PDelegate (fst p) (snd p))
    | NMulti inline => l <~ need d_delegates (s2z "value") o ;; JOk (PMulti inline l)
    | NPath => p <~ need d_path (s2z "value") o ;; JOk (PFieldPath (fst p) (snd p))
    | NUnknown =>
      n <~ need d_str (s2z "property_name") o ;; l <~ need (d_list d_u8byte) (s2z "raw") o ;;
      JOk (PUnknown n l)
    | NArray => a <~ d_array (d_prop hp) o ;; JOk (PArray a)
    | NSet =>
      t <~ need d_str (s2z "property_type") o ;; f <~ need d_u32 (s2z "allocation_flags") o ;;
      l <~ need (d_list (d_prop hp)) (s2z "properties") o ;; JOk (PSet t f l)
    | NMap => m <~ d_mapp hp (d_prop hp) o ;; JOk (PMap m)
    | NStruct =>
      g <~ dflt d_guid no_guid (s2z "guid") o ;; t <~ need d_str (s2z "type_name") o ;;
      v <~ flat (d_svariant (d_prop hp)) o ;; JOk (PStruct g t v)
    | NSValue => v <~ single (besides (d_svariant (d_prop hp)) (s2z "type") o) ;; JOk (PSValue v)
    end.
Proof. intros H O. cbn [d_prop]. rewrite d_once_t by exact O. rewrite H. destruct n; reflexivity. Qed.

Section PropJson.
Context (hp : hashing) (sep : property -> property -> bool).
Hypothesis separate : forall l, distinct sep l = true -> m_insert hp l = l.
Definition j_prop (p : property) : Prop := t_prop sep p = true ->
  d_prop hp (e_prop p) = if fin_prop p then JOk p else JErr.
Definition j_sval (v : svalue) : Prop := t_sval sep v = true ->
  d_svariant (d_prop hp) (fst (e_sval v)) (snd (e_sval v)) = Some (if fin_sval v then JOk v else JErr).
Definition j_array (a : arrayp) : Prop := t_array sep a = true -> forall x,
  d_array (d_prop hp) ((s2z "type", x) :: e_array a) = if fin_array a then JOk a else JErr.
Definition j_map (m : mapp) : Prop := t_map sep m = true -> forall x,
  d_mapp hp (d_prop hp) ((s2z "type", x) :: e_map m) = if fin_map m then JOk m else JErr.

Lemma sval_key v : str_eqb (fst (e_sval v)) (s2z "type") = false.
Proof. destruct v as [x l| | |]; [destruct x| | |]; reflexivity. Qed.
Lemma tagged_eq n ty o : pname_str n = s2z ty -> In n pnames ->
  need d_pname (s2z "type") ((s2z "type", JStr (s2z ty)) :: o) = JOk n.
Proof.
  intros <-. rewrite need_hit. cbn [In pnames].
  intros I. repeat (destruct I as [<-|I]; [reflexivity|]). easy.
Qed.
Lemma hist_distinct h : distinct str_eqb (e_hist h) = true.
Proof. destruct h; repeat match goal with x : option _ |- _ => destruct x end; reflexivity. Qed.
Lemma prop_distinct p : exists o, e_prop p = JObj o /\ distinct str_eqb o = true.
Proof.
  destruct p as [k z|b|n v|t v|v|t|i v|v|a b|i l|l x|n raw|a|t f l|m|g t v|v]; cbn [e_prop];
    (eexists; split; [reflexivity|]).
  all: try reflexivity.
  - destruct n, v; reflexivity.
  - destruct t; reflexivity.
  - destruct v; reflexivity.
  - destruct t as [f h]. cbn [e_text]. unfold e_nonzero.
    destruct (f =? 0); destruct h; repeat match goal with x : option _ |- _ => destruct x end; reflexivity.
  - unfold e_nonzero. destruct (i =? 0), v; reflexivity.
  - destruct a as [| | | | | | |f t g l|]; try reflexivity. cbn [e_array]. unfold e_optguid. destruct (guid_is_zero g); reflexivity.
  - destruct m as [k ?|k ?|k ? ?| |]; try destruct k; reflexivity.
  - unfold e_optguid. destruct (guid_is_zero g); destruct v as [x ?| | |]; try destruct x; reflexivity.
  - destruct v as [x ?| | |]; try destruct x; reflexivity.
Qed.
Lemma prop_nodup p o : e_prop p = JObj o -> NoDup (map fst o).
Proof.
  intros E. destruct (prop_distinct p) as (o' & E' & D). rewrite E in E'. injection E' as <-.
  now apply distinct_nodup.
Qed.
Ltac own p := apply once_nodup; exact (prop_nodup p _ eq_refl).
Ltac prop n p := unfold tagged;
  rewrite (d_prop_eq hp n); [rewrite (d_once_t (prop_fields n)) by own p|reflexivity|own p].

Lemma delegate_j p : d_delegate (e_delegate p) = JOk p.
Proof. now destruct p. Qed.
Lemma pair_back (l : list (property * property)) :
  Forall (fun x => j_prop (fst x) /\ j_prop (snd x)) l ->
  forallb (fun '(k, v) => t_prop sep k && t_prop sep v) l = true ->
  d_list (d_pair (d_prop hp)) (JArr (map (fun '(k, v) => JArr [e_prop k; e_prop v]) l))
  = if forallb (fun '(k, v) => fin_prop k && fin_prop v) l then JOk l else JErr.
Proof.
  intros H F. apply d_list_back. rewrite Forall_forall in *. rewrite forallb_forall in F.
  intros [k v] I. specialize (F _ I). specialize (H _ I). cbn in F. andbs. destruct H as [Hk Hv].
  cbn [fst snd] in *. unfold back. cbn [d_pair]. rewrite Hk by auto.
  destruct (fin_prop k); [|reflexivity]. cbn [jbind andb]. rewrite Hv by auto. now destruct (fin_prop v).
Qed.

Lemma bytev_j v : d_bytev (fst (e_bytev v)) (snd (e_bytev v)) = Some (JOk v).
Proof.
  destruct v as [b|x]; [|reflexivity].
  change (d_bytev (fst (e_bytev (BByte b))) (snd (e_bytev (BByte b))))
    with (Some (c <~ d_u8byte (JInt (b2z b)) ;; JOk (BByte c))). now rewrite u8_j.
Qed.
Lemma flat_hit {A} (f : str -> json -> option (jres A)) e r o : f (fst e) (snd e) = Some r ->
  flat f (e :: o) = r.
Proof. destruct e. cbn [fst snd flat]. now intros ->. Qed.
Lemma flat_miss {A} (f : str -> json -> option (jres A)) k v o : f k v = None ->
  flat f ((k, v) :: o) = flat f o.
Proof. cbn [flat]. now intros ->. Qed.
Lemma bytes_j l : d_list d_u8byte (JArr (map (fun b => JInt (b2z b)) l)) = JOk l.
Proof. apply d_list_plain. intros b _. apply u8_j. Qed.
Lemma optguid_j k g o : guid_ok g = true -> dflt d_guid no_guid k o = JOk no_guid ->
  dflt d_guid no_guid k (e_optguid k g ++ o) = JOk g.
Proof.
  intros H D. unfold e_optguid. destruct (guid_is_zero g) eqn:E; cbn [app].
  - rewrite D. now rewrite (guid_zero g).
  - rewrite dflt_hit. now apply guid_j.
Qed.
Lemma need_guid {A} (f : json -> jres A) k g o : str_eqb k (s2z "guid") = false ->
  need f k (e_optguid (s2z "guid") g ++ o) = need f k o.
Proof. intros E. unfold e_optguid. destruct (guid_is_zero g); cbn [app]; [|rewrite need_miss]; auto. Qed.
Lemma flat_guid dp g o : flat (d_svariant dp) (e_optguid (s2z "guid") g ++ o) = flat (d_svariant dp) o.
Proof. unfold e_optguid. destruct (guid_is_zero g); cbn [app]; [|rewrite flat_miss]; auto. Qed.
Lemma first_err {A} (l : list (jres A)) : first_of (JErr :: l) = first_of l.
Proof. reflexivity. Qed.
Ltac alts := repeat first [rewrite first_err | progress look | progress cbn [jbind]].

Lemma prop_json : (forall p, j_prop p) /\ (forall v, j_sval v) /\ (forall a, j_array a) /\ (forall m, j_map m).
Proof.
  apply prop_all; unfold j_prop, j_sval, j_array, j_map.
  - intros k z H. cbn [e_prop fin_prop t_prop] in *. rewrite (d_prop_eq hp (NNum k)) by now destruct k.
    rewrite (d_once_t (prop_fields (NNum k))) by reflexivity.
    look. rewrite num_j by auto. now destruct (finite_num k z).
  - intros b _. reflexivity.
  - intros n v H. cbn [e_prop fin_prop t_prop] in *. prop NByte (PByte n v).
    destruct n; cbn [e_optstr e_opt option_map app]; look; cbn [d_option d_str jbind].
    + rewrite !flat_miss by reflexivity. now rewrite (flat_hit _ _ _ _ (bytev_j v)).
    + replace (dflt (d_option d_str) None (s2z "name") [e_bytev v]) with (JOk (@None str))
        by now destruct v.
      rewrite !flat_miss by reflexivity. cbn [jbind]. now rewrite (flat_hit _ _ _ _ (bytev_j v)).
  - intros t v _. destruct t; reflexivity.
  - intros v _. destruct v; reflexivity.
  - intros t H. cbn [e_prop fin_prop t_prop] in *. prop NText (PText t).
    rewrite (proj1 (text_tagged _ t H (proj1 (proj2 text_json) _))). now destruct (fin_text t).
  - intros i v H. cbn [e_prop fin_prop t_prop] in *. andbs. prop NName (PName i v). unfold e_nonzero.
    destruct (i =? 0) eqn:E; cbn [app].
    + apply Z.eqb_eq in E. subst i. destruct v; reflexivity.
    + look. rewrite u32_j by auto. destruct v; reflexivity.
  - intros v _. reflexivity.
  - intros a b _. reflexivity.
  - intros i l _. cbn [e_prop fin_prop]. unfold tagged. rewrite (d_prop_eq hp (NMulti i)) by now destruct i.
    rewrite (d_once_t (prop_fields (NMulti i))) by reflexivity.
    look. unfold d_delegates. rewrite d_struct_obj. look. rewrite d_list_plain; [reflexivity|]. intros p _. apply delegate_j.
  - intros l x _. cbn [e_prop fin_prop]. prop NPath (PFieldPath l x). look. unfold d_path. rewrite d_struct_obj. look.
    rewrite d_list_plain; [reflexivity|]. reflexivity.
  - intros n raw _. cbn [e_prop fin_prop]. prop NUnknown (PUnknown n raw). look. cbn [d_str jbind]. look.
    now rewrite bytes_j.
  - intros a Ha H. cbn [e_prop fin_prop t_prop] in *. prop NArray (PArray a). rewrite Ha by auto.
    now destruct (fin_array a).
  - intros t f l Hl H. cbn [e_prop fin_prop t_prop] in *. andbs. prop NSet (PSet t f l). look. cbn [d_str jbind].
    look. rewrite u32_j by auto. cbn [jbind]. look.
    rewrite (d_list_back (d_prop hp) e_prop fin_prop) by (eapply Forall_typed; eassumption).
    now destruct (forallb fin_prop l).
  - intros m Hm H. cbn [e_prop fin_prop t_prop] in *. prop NMap (PMap m). rewrite Hm by auto.
    now destruct (fin_map m).
  - intros g t v Hv H. cbn [e_prop fin_prop t_prop] in *. andbs. prop NStruct (PStruct g t v). look.
    rewrite optguid_j; auto.
    2:{ destruct v as [x l| | |]; [destruct x| | |]; reflexivity. }
    cbn [jbind]. rewrite need_guid by reflexivity. look. cbn [d_str jbind].
    rewrite flat_miss by reflexivity. rewrite flat_guid. rewrite flat_miss by reflexivity.
    rewrite (flat_hit _ _ _ _ (Hv ltac:(assumption))). now destruct (fin_sval v).
  - intros v Hv H. cbn [e_prop fin_prop t_prop] in *. prop NSValue (PSValue v). cbn [besides].
    rewrite str_eqb_refl. pose proof (sval_key v) as K. specialize (Hv H).
    destruct (e_sval v) as [k j]. cbn [fst snd] in *. cbn [besides]. rewrite K, Hv. cbn [single].
    now destruct (fin_sval v).
  - intros x l H. now apply fixed_j.
  - intros g H. cbn [t_sval e_sval fst snd fin_sval] in *.
    change (d_svariant (d_prop hp) (s2z "Guid") (e_guid g))
      with (Some (g <~ d_guid (e_guid g) ;; JOk (SGuid g))). now rewrite guid_j.
  - intros l H. cbn [t_sval e_sval fst snd fin_sval] in *.
    change (d_svariant (d_prop hp) (s2z "GameplayTagContainer") (JArr (map JStr l)))
      with (Some (l <~ d_list d_str (JArr (map JStr l)) ;; JOk (STags l))).
    now rewrite d_list_plain by reflexivity.
  - intros l Hl H. cbn [t_sval e_sval fst snd fin_sval] in *. andbs.
    match goal with |- d_svariant _ _ ?j = _ =>
      change (d_svariant (d_prop hp) (s2z "CustomStruct") j)
        with (Some (l <~ d_map (d_list (d_prop hp)) j ;; JOk (SCustom l))) end.
    f_equal. rewrite (d_map_back (d_list (d_prop hp)) (fun ps => JArr (map e_prop ps)) (forallb fin_prop)); auto.
    + split_if.
    + eapply (Forall_typed2 is_str (forallb (t_prop sep))); [|eassumption].
      rewrite Forall_forall in *. intros [k ps] I F. cbn [snd] in *. unfold back.
      apply d_list_back. eapply Forall_typed; [|exact F]. exact (Hl _ I).
  - intros l _ x. cbn [e_array fin_array]. unfold d_array. alts. now rewrite d_list_plain by reflexivity.
  - intros l _ x. cbn [e_array fin_array]. unfold d_array. alts. cbn [d_hex]. now rewrite hex_j.
  - intros l _ x. cbn [e_array fin_array]. unfold d_array. alts. now rewrite d_list_plain by reflexivity.
  - intros l H x. cbn [e_array fin_array t_array] in *. unfold d_array. alts.
    rewrite (d_list_back d_f32 e_f32 finite32).
    + destruct (forallb finite32 l); reflexivity.
    + rewrite Forall_forall, forallb_forall in *. intros z I. apply f32_back. auto.
  - intros l H x. cbn [e_array fin_array t_array] in *. unfold d_array. alts.
    rewrite d_list_plain; [reflexivity|]. intros z I. rewrite forallb_forall in H. apply i32_j. auto.
  - intros l _ x. cbn [e_array fin_array]. unfold d_array. alts. unfold d_ostr.
    rewrite d_list_plain by (intros; apply d_option_str). reflexivity.
  - intros l _ x. cbn [e_array fin_array]. unfold d_array. alts. unfold d_ostr.
    rewrite d_list_plain by (intros; apply d_option_str). reflexivity.
  - intros f t g l Hl H x. cbn [e_array fin_array t_array] in *. andbs. unfold d_array. cbn [app].
    rewrite !d_once_t
      by (apply once_nodup, distinct_nodup; unfold e_optguid; destruct (guid_is_zero g); reflexivity).
    alts. cbn [d_str jbind]. alts. cbn [d_str jbind]. rewrite !need_guid by reflexivity. alts.
    rewrite optguid_j by auto. cbn [jbind]. rewrite ?need_guid by reflexivity. alts.
    rewrite (d_list_back (d_sval (d_prop hp)) (fun v => JObj [e_sval v]) fin_sval).
    + destruct (forallb fin_sval l); reflexivity.
    + eapply Forall_typed; [|eassumption]. rewrite Forall_forall in *. intros v I Hv.
      unfold back. cbn [d_sval]. specialize (Hl _ I Hv). destruct (e_sval v). cbn [fst snd] in *.
      rewrite Hl. reflexivity.
  - intros t l Hl H x. cbn [e_array fin_array t_array] in *. andbs. unfold d_array.
    alts. cbn [d_str jbind]. alts.
    rewrite (d_list_back (d_prop hp) e_prop fin_prop) by (eapply Forall_typed; eassumption).
    destruct (forallb fin_prop l); reflexivity.
  - intros k l H x. cbn [e_map fin_map t_map] in *. andbs. unfold d_mapp, d_mbool, d_mint, d_mprop.
    destruct k; alts; rewrite d_map_plain; auto.
  - intros k l H x. cbn [e_map fin_map t_map] in *. andbs. unfold d_mapp, d_mbool, d_mint, d_mprop.
    assert (F : forall e, In e l -> d_i32 (JInt (snd e)) = JOk (snd e)).
    { rewrite forallb_forall in *. intros [s z] I. apply i32_j.
      match goal with F : forall x, In x l -> _ |- _ => specialize (F _ I); cbn in F; now andbs end. }
    destruct k; alts; rewrite d_map_plain; auto.
  - intros k vt l Hl H x. cbn [e_map fin_map t_map] in *. andbs. unfold d_mapp, d_mbool, d_mint, d_mprop.
    assert (F : Forall (fun e => back (d_prop hp) e_prop fin_prop (snd e)) l)
      by (eapply (Forall_typed2 is_str (t_prop sep)); eassumption).
    destruct k; alts; cbn [d_str jbind]; alts;
      rewrite (d_map_back (d_prop hp) e_prop fin_prop) by auto;
      match goal with |- context [if ?b then JOk l else _] => destruct b; alts; reflexivity end.
  - intros l H x. cbn [e_map fin_map t_map] in *. andbs. unfold d_mapp, d_mbool, d_mint, d_mprop.
    alts. unfold d_ostr. rewrite d_map_plain; auto. intros. apply d_option_str.
  - intros kt vt f l Hl H x. cbn [e_map fin_map t_map] in *. andbs. unfold d_mapp, d_mbool, d_mint, d_mprop.
    alts. cbn [d_str jbind]. alts. rewrite u32_j by auto. alts.
    rewrite pair_back; auto.
    match goal with |- context [if ?b then JOk l else _] => destruct b; alts end; [|reflexivity].
    now rewrite separate.
Qed.
End PropJson.
