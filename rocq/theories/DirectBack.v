(** Reading back trees whose singles were rounded: the value with its singles replaced.
    Follows JsonText.v, JsonProp.v and JsonFile.v, where the singles are unchanged. *)
From Coq Require Import ZArith List Bool String Lia ZifyBool ZifyNat.
From Verif Require Import Base Str Types Versions Text Props File Spec BaseFacts Decode Induct
  DecodeProp EqFacts Guid GuidThm Accept AcceptFile Json JsonSpec JsonFloat JsonText JsonProp JsonFile JsonDirect Singles.
Import ListNotations.
Open Scope Z_scope.

(** ** Lists and maps *)
Section Collections.
Context {A : Type} (d : json -> jres A) (e : A -> json) (fin : A -> bool) (m : A -> A).
Definition backm (a : A) : Prop := d (e a) = if fin a then JOk (m a) else JErr.
Lemma d_all_backm l : Forall backm l -> d_all d (map e l) = if forallb fin l then JOk (map m l) else JErr.
Proof.
  induction 1 as [|a l H _ IH]; [reflexivity|]. cbn [map d_all forallb]. rewrite H.
  destruct (fin a); cbn [jbind andb]; [|reflexivity]. rewrite IH. now destruct (forallb fin l).
Qed.
Lemma d_list_backm l : Forall backm l -> d_list d (JArr (map e l)) = if forallb fin l then JOk (map m l) else JErr.
Proof. apply d_all_backm. Qed.
Lemma d_entries_backm (l : list (str * A)) : Forall (fun x => backm (snd x)) l ->
  d_entries d (map (fun '(k, a) => (k, e a)) l)
  = if forallb (fun '(_, a) => fin a) l then JOk (map (fun '(k, a) => (k, m a)) l) else JErr.
Proof.
  induction 1 as [|[k a] l H _ IH]; [reflexivity|]. cbn [map d_entries forallb snd] in *. rewrite H.
  destruct (fin a); cbn [jbind andb]; [|reflexivity]. rewrite IH.
  now destruct (forallb _ l).
Qed.
Lemma distinct_map (l : list (str * A)) : distinct str_eqb (map (fun '(k, a) => (k, m a)) l) = distinct str_eqb l.
Proof.
  induction l as [|[k v] l IH]; [reflexivity|]. cbn [map distinct]. rewrite IH. f_equal.
  clear IH. induction l as [|[k' v'] l IH]; [reflexivity|]. cbn [map forallb fst]. now rewrite <- IH.
Qed.
Lemma d_map_backm (l : list (str * A)) : distinct str_eqb l = true -> Forall (fun x => backm (snd x)) l ->
  d_map d (JObj (map (fun '(k, a) => (k, e a)) l))
  = if forallb (fun '(_, a) => fin a) l then JOk (map (fun '(k, a) => (k, m a)) l) else JErr.
Proof.
  intros D H. unfold d_map. rewrite d_entries_backm by auto.
  destruct (forallb _ l); [|reflexivity]. cbn [jbind]. rewrite ins_all_fresh; [reflexivity|].
  rewrite <- distinct_fresh, distinct_map. exact D.
Qed.
End Collections.

Section Rounded.
Context (e32 e64 : Z -> json) (r : Z -> Z) (ins : list (property * property) -> list (property * property)).
Hypothesis (H32 : forall z, u_ok 4 z = true -> d_f32 (e32 z) = if finite32 z then JOk (r z) else JErr)
  (H64 : forall z, u_ok 8 z = true -> d_f64 (e64 z) = if finite64 z then JOk z else JErr).
Ltac refold := fold (s_text e32 e64) (s_hist e32 e64) (s_arg e32 e64) (r_text r) (r_hist r) (r_arg r).
Ltac repropt := fold (s_prop e32 e64) (s_sval e32 e64) (s_array e32 e64) (s_map e32 e64) (r_prop r ins) (r_sval r ins) (r_array r ins) (r_map r ins).
Lemma num_jm k z : num_ok k z = true -> d_num k (s_num e32 e64 k z) = if finite_num k z then JOk (r_num r k z) else JErr.
Proof.
  destruct k; cbn [d_num s_num finite_num r_num]; intros H; try (apply d_int_ok; exact H).
  - now apply H32. - now apply H64.
Qed.
Lemma no_flags h : dflt d_u32 0 (s2z "flags") ((s_hist e32 e64) h) = JOk 0.
Proof.
  destruct h; repeat match goal with x : option _ |- _ => destruct x end; reflexivity.
Qed.
Lemma flags_none h : times (s2z "flags") (s_hist e32 e64 h) = O.
Proof.
  destruct h; repeat match goal with x : option _ |- _ => destruct x end; reflexivity.
Qed.
Lemma flags_once h : unrepeated [s2z "flags"] (s_hist e32 e64 h) = true.
Proof. unfold unrepeated. cbn [forallb]. now rewrite flags_none. Qed.
Definition j_hist (h : fhist) : Prop := t_hist h = true ->
  d_hist d_text d_arg ((s_hist e32 e64) h) = if fin_hist h then JOk (r_hist r h) else JErr.
Definition j_text (t : ftext) : Prop := t_text t = true ->
  d_text (JObj ((s_text e32 e64) t)) = if fin_text t then JOk (r_text r t) else JErr.
Definition j_arg (a : farg) : Prop := t_arg a = true ->
  d_arg ((s_arg e32 e64) a) = if fin_arg a then JOk (r_arg r a) else JErr.

Lemma text_tagged v t : t_text t = true -> j_hist (match t with FText _ h => h end) ->
  d_text (JObj ((s2z "type", v) :: (s_text e32 e64) t)) = (if fin_text t then JOk (r_text r t) else JErr)
  /\ d_text (JObj ((s_text e32 e64) t)) = if fin_text t then JOk (r_text r t) else JErr.
Proof.
  destruct t as [f h]. cbn [t_text fin_text s_text r_text]; refold. intros H J. andbs. rewrite !d_text_eq.
  rewrite hist_type. rewrite dflt_miss by reflexivity.
  unfold e_nonzero. destruct (f =? 0) eqn:E.
  - apply Z.eqb_eq in E. subst f. cbn [app]. rewrite !d_once_t by exact (flags_once h).
    rewrite no_flags. cbn [jbind]. rewrite J by auto.
    destruct (fin_hist h); auto.
  - cbn [app]. rewrite !d_once_t by exact (flags_more (JInt f) _ (flags_none h)). rewrite hist_flags. look. rewrite u32_j by auto. cbn [jbind]. rewrite J by auto.
    destruct (fin_hist h); auto.
Qed.
Lemma text_json : (forall t, j_text t) /\ (forall h, j_hist h) /\ (forall a, j_arg a).
Proof.
  apply text_all; unfold j_text, j_hist, j_arg.
  - intros f h J H. exact (proj2 (text_tagged JNull (FText f h) H J)).
  - reflexivity.
  - intros s _. destruct s; reflexivity.
  - intros a b c _. destruct a, b, c; reflexivity.
  - intros t l Ht Hl H. cbn [t_hist] in H. andbs. cbn [s_hist fin_hist r_hist]; refold. hist NNamed. look.
    rewrite Ht by auto. destruct (fin_text t); ends. look.
    rewrite (d_map_backm d_arg (s_arg e32 e64) fin_arg (r_arg r)); auto.
    + split_if.
    + rewrite Forall_forall in *. intros [k v] I. apply Hl; auto.
      rewrite forallb_forall in *. match goal with F : forall x, In x l -> _ |- _ => specialize (F _ I) end.
      cbn [snd] in *. now andbs.
  - intros t l Ht Hl H. cbn [t_hist] in H. andbs. cbn [s_hist fin_hist r_hist]; refold. hist NOrdered. look.
    rewrite Ht by auto. destruct (fin_text t); ends. look.
    rewrite (d_list_backm d_arg (s_arg e32 e64) fin_arg (r_arg r)); auto.
    + split_if.
    + rewrite Forall_forall in *. intros v I. apply Hl; auto.
      rewrite forallb_forall in *. auto.
  - intros t l Ht Hl H. cbn [t_hist] in H. andbs. cbn [s_hist fin_hist r_hist]; refold. hist NArgument. look.
    rewrite Ht by auto. destruct (fin_text t); ends. look.
    rewrite (d_map_backm d_arg (s_arg e32 e64) fin_arg (r_arg r)); auto.
    + split_if.
    + rewrite Forall_forall in *. intros [k v] I. apply Hl; auto.
      rewrite forallb_forall in *. match goal with F : forall x, In x l -> _ |- _ => specialize (F _ I) end.
      cbn [snd] in *. now andbs.
  - intros v o c Hv H. cbn [t_hist] in H. andbs. cbn [s_hist fin_hist r_hist]; refold.
    opts; hist NNumber; look; cbn [d_option d_str jbind]; look;
      (rewrite Hv by auto; destruct (fin_arg v); ends; look;
       try (rewrite d_option_numfmt by auto; ends; look); reflexivity).
  - intros v o c Hv H. cbn [t_hist] in H. andbs. cbn [s_hist fin_hist r_hist]; refold.
    opts; hist NPercent; look; cbn [d_option d_str jbind]; look;
      (rewrite Hv by auto; destruct (fin_arg v); ends; look;
       try (rewrite d_option_numfmt by auto; ends; look); reflexivity).
  - intros d v o c Hv H. cbn [t_hist] in H. andbs. cbn [s_hist fin_hist r_hist]; refold.
    opts; hist NCurrency; look; cbn [d_option d_str jbind]; look;
      (rewrite Hv by auto; destruct (fin_arg v); ends; look;
       try (rewrite d_option_numfmt by auto; ends; look); reflexivity).
  - intros t s c H. cbn [t_hist] in H. andbs. cbn [s_hist fin_hist r_hist]; refold. hist NDate. look.
    rewrite ticks_j by auto. ends. look. rewrite style_j by auto. reflexivity.
  - intros t s z c H. cbn [t_hist] in H. andbs. cbn [s_hist fin_hist r_hist]; refold. hist NTime. look.
    rewrite ticks_j by auto. ends. look. rewrite style_j by auto. reflexivity.
  - intros t s u z c H. cbn [t_hist] in H. andbs. cbn [s_hist fin_hist r_hist]; refold. hist NDateTime. look.
    rewrite ticks_j by auto. ends. look. rewrite style_j by auto. ends. look.
    rewrite style_j by auto. reflexivity.
  - intros t x Ht H. cbn [t_hist] in H. andbs. cbn [s_hist fin_hist r_hist]; refold. hist NTransform. look.
    rewrite Ht by auto. destruct (fin_text t); ends. look. rewrite transform_j by auto. reflexivity.
  - reflexivity.
  - intros z H. cbn [t_arg s_arg fin_arg r_arg] in *; refold. rewrite d_arg_eq.
    cbn [single]. change (d_argv d_text (s2z "Int") (JInt z)) with (Some (z <~ d_i32 (JInt z) ;; JOk (AInt z))).
    cbn [single]. now rewrite i32_j.
  - intros z H. cbn [t_arg s_arg fin_arg r_arg] in *; refold. rewrite d_arg_eq.
    change (d_argv d_text (s2z "UInt") (JInt z)) with (Some (z <~ d_u32 (JInt z) ;; JOk (AUInt z))).
    cbn [single]. now rewrite u32_j.
  - intros z H. cbn [t_arg s_arg fin_arg r_arg] in *; refold. rewrite d_arg_eq.
    change (d_argv d_text (s2z "Float") (e32 z)) with (Some (z <~ d_f32 (e32 z) ;; JOk (AFloat z))).
    cbn [single]. rewrite H32 by auto. now destruct (finite32 z).
  - intros z H. cbn [t_arg s_arg fin_arg r_arg] in *; refold. rewrite d_arg_eq.
    change (d_argv d_text (s2z "Double") (e64 z)) with (Some (z <~ d_f64 (e64 z) ;; JOk (ADouble z))).
    cbn [single]. rewrite H64 by auto. now destruct (finite64 z).
  - intros t Ht H. cbn [t_arg s_arg fin_arg r_arg] in *; refold. rewrite d_arg_eq.
    change (d_argv d_text (s2z "Text") (JObj ((s_text e32 e64) t)))
      with (Some (t <~ d_text (JObj ((s_text e32 e64) t)) ;; JOk (AText t))).
    cbn [single]. rewrite Ht by auto. now destruct (fin_text t).
  - intros z H. cbn [t_arg s_arg fin_arg r_arg] in *; refold. rewrite d_arg_eq.
    change (d_argv d_text (s2z "Int64") (JInt z)) with (Some (z <~ d_i64 (JInt z) ;; JOk (AInt64 z))).
    cbn [single]. now rewrite i64_j.
  - intros z H. cbn [t_arg s_arg fin_arg r_arg] in *; refold. rewrite d_arg_eq.
    change (d_argv d_text (s2z "UInt64") (JInt z)) with (Some (z <~ d_u64 (JInt z) ;; JOk (AUInt64 z))).
    cbn [single]. now rewrite u64_j.
Qed.
Lemma fields_at o : forall names ks l, nums_ok ks l = true -> List.length names = List.length ks ->
  (forall (f : json -> jres Z) n j, In (n, j) ((s_fields e32 e64) names ks l) -> need f n o = f j) ->
  d_fields names ks o = if finite_nums ks l then JOk (r_nums r ks l) else JErr.
Proof.
  induction names as [|n names IH]; intros [|k ks] [|z l] H L G; try discriminate; try reflexivity.
  cbn [nums_ok] in H. andbs. cbn [d_fields s_fields finite_nums r_nums] in *.
  rewrite (G _ n ((s_num e32 e64) k z)) by now left. rewrite num_jm by auto.
  destruct (finite_num k z); [|reflexivity]. cbn [jbind andb].
  rewrite (IH ks l) by (auto; intros; apply G; now right). now destruct (finite_nums ks l).
Qed.
Lemma e_fields_names : forall names ks l, nums_ok ks l = true -> List.length names = List.length ks ->
  map fst ((s_fields e32 e64) names ks l) = names.
Proof.
  induction names as [|n names IH]; intros [|k ks] [|z l] H L; try discriminate; try reflexivity.
  cbn [nums_ok] in H. andbs. cbn [s_fields map fst r_nums]. f_equal. apply IH; auto.
Qed.
Lemma fixed_j dp x l : nums_ok (layout x) l = true ->
  d_svariant dp (fixed_variant x) (JObj ((s_fields e32 e64) (field_names x) (layout x) l))
  = Some (if finite_nums (layout x) l then JOk (SFixed x (r_nums r (layout x) l)) else JErr).
Proof.
  intros H.
  replace (d_svariant dp (fixed_variant x) (JObj ((s_fields e32 e64) (field_names x) (layout x) l)))
    with (Some (d_once (field_names x) ((s_fields e32 e64) (field_names x) (layout x) l)
                 (l <~ d_fields (field_names x) (layout x) ((s_fields e32 e64) (field_names x) (layout x) l) ;;
                  JOk (SFixed x l)))) by (now destruct x).
  assert (L : List.length (field_names x) = List.length (layout x)) by now destruct x.
  rewrite d_once_t by (apply once_nodup; rewrite e_fields_names by auto; apply field_names_once).
  f_equal. rewrite (fields_at _ _ _ l); auto.
  - now destruct (finite_nums _ l).
  - intros f n j I. apply need_in; auto. rewrite e_fields_names by auto. apply field_names_once.
Qed.

Section PropJson.
Context (hp : hashing) (sep : property -> property -> bool).
Hypothesis inserted : forall l, m_insert hp l = ins l.
Ltac alts := repeat first [rewrite first_err | progress look | progress cbn [jbind]].
Definition j_prop (p : property) : Prop := t_prop sep p = true ->
  d_prop hp ((s_prop e32 e64) p) = if fin_prop p then JOk (r_prop r ins p) else JErr.
Definition j_sval (v : svalue) : Prop := t_sval sep v = true ->
  d_svariant (d_prop hp) (fst ((s_sval e32 e64) v)) (snd ((s_sval e32 e64) v)) = Some (if fin_sval v then JOk (r_sval r ins v) else JErr).
Definition j_array (a : arrayp) : Prop := t_array sep a = true -> forall x,
  d_array (d_prop hp) ((s2z "type", x) :: (s_array e32 e64) a) = if fin_array a then JOk (r_array r ins a) else JErr.
Definition j_map (m : mapp) : Prop := t_map sep m = true -> forall x,
  d_mapp hp (d_prop hp) ((s2z "type", x) :: (s_map e32 e64) m) = if fin_map m then JOk (r_map r ins m) else JErr.

Lemma sval_key v : str_eqb (fst ((s_sval e32 e64) v)) (s2z "type") = false.
Proof. destruct v as [x l| | |]; [destruct x| | |]; reflexivity. Qed.
Lemma prop_distinct p : exists o, s_prop e32 e64 p = JObj o /\ distinct str_eqb o = true.
Proof.
  destruct p as [k z|b|n v|t v|v|t|i v|v|a b|i l|l x|n raw|a|t f l|m|g t v|v]; cbn [s_prop]; repropt;
    (eexists; split; [reflexivity|]).
  all: try reflexivity.
  - destruct n, v; reflexivity.
  - destruct t; reflexivity.
  - destruct v; reflexivity.
  - destruct t as [f h]. cbn [s_text]; refold. unfold e_nonzero.
    destruct (f =? 0); destruct h; repeat match goal with x : option _ |- _ => destruct x end; reflexivity.
  - unfold e_nonzero. destruct (i =? 0), v; reflexivity.
  - destruct a as [| | | | | | |f t g l|]; try reflexivity. cbn [s_array]. unfold e_optguid. destruct (guid_is_zero g); reflexivity.
  - destruct m as [k ?|k ?|k ? ?| |]; try destruct k; reflexivity.
  - unfold e_optguid. destruct (guid_is_zero g); destruct v as [x ?| | |]; try destruct x; reflexivity.
  - destruct v as [x ?| | |]; try destruct x; reflexivity.
Qed.
Lemma prop_nodup p o : s_prop e32 e64 p = JObj o -> NoDup (map fst o).
Proof.
  intros E. destruct (prop_distinct p) as (o' & E' & D). rewrite E in E'. injection E' as <-.
  now apply distinct_nodup.
Qed.
Ltac own p := apply once_nodup; exact (prop_nodup p _ eq_refl).
Ltac prop n p := unfold tagged;
  rewrite (d_prop_eq hp n); [rewrite (d_once_t (prop_fields n)) by own p|reflexivity|own p].

Lemma pair_back (l : list (property * property)) :
  Forall (fun x => j_prop (fst x) /\ j_prop (snd x)) l ->
  forallb (fun '(k, v) => t_prop sep k && t_prop sep v) l = true ->
  d_list (d_pair (d_prop hp)) (JArr (map (fun '(k, v) => JArr [(s_prop e32 e64) k; (s_prop e32 e64) v]) l))
  = if forallb (fun '(k, v) => fin_prop k && fin_prop v) l then JOk (map (fun '(k, v) => (r_prop r ins k, r_prop r ins v)) l) else JErr.
Proof.
  intros H F. apply (d_list_backm (d_pair (d_prop hp)) _ _ (fun '(k, v) => (r_prop r ins k, r_prop r ins v))). rewrite Forall_forall in *. rewrite forallb_forall in F.
  intros [k v] I. specialize (F _ I). specialize (H _ I). cbn in F. andbs. destruct H as [Hk Hv].
  cbn [fst snd] in *. unfold backm. cbn [d_pair]. rewrite Hk by auto.
  destruct (fin_prop k); [|reflexivity]. cbn [jbind andb]. rewrite Hv by auto. now destruct (fin_prop v).
Qed.

Lemma prop_json : (forall p, j_prop p) /\ (forall v, j_sval v) /\ (forall a, j_array a) /\ (forall m, j_map m).
Proof.
  apply prop_all; unfold j_prop, j_sval, j_array, j_map.
  - intros k z H. cbn [s_prop fin_prop t_prop r_prop] in *; repropt. rewrite (d_prop_eq hp (NNum k)) by now destruct k.
    rewrite (d_once_t (prop_fields (NNum k))) by reflexivity.
    look. rewrite num_jm by auto. now destruct (finite_num k z).
  - intros b _. reflexivity.
  - intros n v H. cbn [s_prop fin_prop t_prop r_prop] in *; repropt. prop NByte (PByte n v).
    destruct n; cbn [e_optstr e_opt option_map app]; look; cbn [d_option d_str jbind].
    + rewrite !flat_miss by reflexivity. now rewrite (flat_hit _ _ _ _ (bytev_j v)).
    + replace (dflt (d_option d_str) None (s2z "name") [e_bytev v]) with (JOk (@None str))
        by now destruct v.
      rewrite !flat_miss by reflexivity. cbn [jbind]. now rewrite (flat_hit _ _ _ _ (bytev_j v)).
  - intros t v _. destruct t; reflexivity.
  - intros v _. destruct v; reflexivity.
  - intros t H. cbn [s_prop fin_prop t_prop r_prop] in *; repropt. prop NText (PText t).
    rewrite (proj1 (text_tagged _ t H (proj1 (proj2 text_json) _))). now destruct (fin_text t).
  - intros i v H. cbn [s_prop fin_prop t_prop r_prop] in *; repropt. andbs. prop NName (PName i v). unfold e_nonzero.
    destruct (i =? 0) eqn:E; cbn [app].
    + apply Z.eqb_eq in E. subst i. destruct v; reflexivity.
    + look. rewrite u32_j by auto. destruct v; reflexivity.
  - intros v _. reflexivity.
  - intros a b _. reflexivity.
  - intros i l _. cbn [s_prop fin_prop r_prop]; repropt. unfold tagged. rewrite (d_prop_eq hp (NMulti i)) by now destruct i.
    rewrite (d_once_t (prop_fields (NMulti i))) by reflexivity.
    look. unfold d_delegates. rewrite d_struct_obj. look. rewrite d_list_plain; [reflexivity|]. intros p _. apply delegate_j.
  - intros l x _. cbn [s_prop fin_prop r_prop]; repropt. prop NPath (PFieldPath l x). look. unfold d_path. rewrite d_struct_obj. look.
    rewrite d_list_plain; [reflexivity|]. reflexivity.
  - intros n raw _. cbn [s_prop fin_prop r_prop]; repropt. prop NUnknown (PUnknown n raw). look. cbn [d_str jbind]. look.
    now rewrite bytes_j.
  - intros a Ha H. cbn [s_prop fin_prop t_prop r_prop] in *; repropt. prop NArray (PArray a). rewrite Ha by auto.
    now destruct (fin_array a).
  - intros t f l Hl H. cbn [s_prop fin_prop t_prop r_prop] in *; repropt. andbs. prop NSet (PSet t f l). look. cbn [d_str jbind].
    look. rewrite u32_j by auto. cbn [jbind]. look.
    rewrite (d_list_backm (d_prop hp) (s_prop e32 e64) fin_prop (r_prop r ins)) by (eapply Forall_typed; eassumption).
    now destruct (forallb fin_prop l).
  - intros m Hm H. cbn [s_prop fin_prop t_prop r_prop] in *; repropt. prop NMap (PMap m). rewrite Hm by auto.
    now destruct (fin_map m).
  - intros g t v Hv H. cbn [s_prop fin_prop t_prop r_prop] in *; repropt. andbs. prop NStruct (PStruct g t v). look.
    rewrite optguid_j; auto.
    2:{ destruct v as [x l| | |]; [destruct x| | |]; reflexivity. }
    cbn [jbind]. rewrite need_guid by reflexivity. look. cbn [d_str jbind].
    rewrite flat_miss by reflexivity. rewrite flat_guid. rewrite flat_miss by reflexivity.
    rewrite (flat_hit _ _ _ _ (Hv ltac:(assumption))). now destruct (fin_sval v).
  - intros v Hv H. cbn [s_prop fin_prop t_prop r_prop] in *; repropt. prop NSValue (PSValue v). cbn [besides].
    rewrite str_eqb_refl. pose proof (sval_key v) as K. specialize (Hv H).
    destruct ((s_sval e32 e64) v) as [k j]. cbn [fst snd] in *. cbn [besides]. rewrite K, Hv. cbn [single].
    now destruct (fin_sval v).
  - intros x l H. now apply fixed_j.
  - intros g H. cbn [t_sval s_sval fst snd fin_sval r_sval] in *; repropt.
    change (d_svariant (d_prop hp) (s2z "Guid") (e_guid g))
      with (Some (g <~ d_guid (e_guid g) ;; JOk (SGuid g))). now rewrite guid_j.
  - intros l H. cbn [t_sval s_sval fst snd fin_sval r_sval] in *; repropt.
    change (d_svariant (d_prop hp) (s2z "GameplayTagContainer") (JArr (map JStr l)))
      with (Some (l <~ d_list d_str (JArr (map JStr l)) ;; JOk (STags l))).
    now rewrite d_list_plain by reflexivity.
  - intros l Hl H. cbn [t_sval s_sval fst snd fin_sval r_sval] in *; repropt. andbs.
    match goal with |- d_svariant _ _ ?j = _ =>
      change (d_svariant (d_prop hp) (s2z "CustomStruct") j)
        with (Some (l <~ d_map (d_list (d_prop hp)) j ;; JOk (SCustom l))) end.
    f_equal. rewrite (d_map_backm (d_list (d_prop hp)) (fun ps => JArr (map (s_prop e32 e64) ps)) (forallb fin_prop) (map (r_prop r ins))); auto.
    + split_if.
    + eapply (Forall_typed2 is_str (forallb (t_prop sep))); [|eassumption].
      rewrite Forall_forall in *. intros [k ps] I F. cbn [snd] in *. unfold backm.
      apply d_list_backm. eapply Forall_typed; [|exact F]. exact (Hl _ I).
  - intros l _ x. cbn [s_array fin_array r_array]; repropt. unfold d_array. alts. now rewrite d_list_plain by reflexivity.
  - intros l _ x. cbn [s_array fin_array r_array]; repropt. unfold d_array. alts. cbn [d_hex]. now rewrite hex_j.
  - intros l _ x. cbn [s_array fin_array r_array]; repropt. unfold d_array. alts. now rewrite d_list_plain by reflexivity.
  - intros l H x. cbn [s_array fin_array t_array r_array] in *; repropt. unfold d_array. alts.
    rewrite (d_list_backm d_f32 e32 finite32 r).
    + destruct (forallb finite32 l); reflexivity.
    + rewrite Forall_forall, forallb_forall in *. intros z I. apply H32. auto.
  - intros l H x. cbn [s_array fin_array t_array r_array] in *; repropt. unfold d_array. alts.
    rewrite d_list_plain; [reflexivity|]. intros z I. rewrite forallb_forall in H. apply i32_j. auto.
  - intros l _ x. cbn [s_array fin_array r_array]; repropt. unfold d_array. alts. unfold d_ostr.
    rewrite d_list_plain by (intros; apply d_option_str). reflexivity.
  - intros l _ x. cbn [s_array fin_array r_array]; repropt. unfold d_array. alts. unfold d_ostr.
    rewrite d_list_plain by (intros; apply d_option_str). reflexivity.
  - intros f t g l Hl H x. cbn [s_array fin_array t_array r_array] in *; repropt. andbs. unfold d_array. cbn [app].
    rewrite !d_once_t
      by (apply once_nodup, distinct_nodup; unfold e_optguid; destruct (guid_is_zero g); reflexivity).
    alts. cbn [d_str jbind]. alts. cbn [d_str jbind]. rewrite !need_guid by reflexivity. alts.
    rewrite optguid_j by auto. cbn [jbind]. rewrite ?need_guid by reflexivity. alts.
    rewrite (d_list_backm (d_sval (d_prop hp)) (fun v => JObj [(s_sval e32 e64) v]) fin_sval (r_sval r ins)).
    + destruct (forallb fin_sval l); reflexivity.
    + eapply Forall_typed; [|eassumption]. rewrite Forall_forall in *. intros v I Hv.
      unfold backm. cbn [d_sval]. specialize (Hl _ I Hv). destruct ((s_sval e32 e64) v). cbn [fst snd] in *.
      rewrite Hl. reflexivity.
  - intros t l Hl H x. cbn [s_array fin_array t_array r_array] in *; repropt. andbs. unfold d_array.
    alts. cbn [d_str jbind]. alts.
    rewrite (d_list_backm (d_prop hp) (s_prop e32 e64) fin_prop (r_prop r ins)) by (eapply Forall_typed; eassumption).
    destruct (forallb fin_prop l); reflexivity.
  - intros k l H x. cbn [s_map fin_map t_map r_map] in *; repropt. andbs. unfold d_mapp, d_mbool, d_mint, d_mprop.
    destruct k; alts; rewrite d_map_plain; auto.
  - intros k l H x. cbn [s_map fin_map t_map r_map] in *; repropt. andbs. unfold d_mapp, d_mbool, d_mint, d_mprop.
    assert (F : forall e, In e l -> d_i32 (JInt (snd e)) = JOk (snd e)).
    { rewrite forallb_forall in *. intros [s z] I. apply i32_j.
      match goal with F : forall x, In x l -> _ |- _ => specialize (F _ I); cbn in F; now andbs end. }
    destruct k; alts; rewrite d_map_plain; auto.
  - intros k vt l Hl H x. cbn [s_map fin_map t_map r_map] in *; repropt. andbs. unfold d_mapp, d_mbool, d_mint, d_mprop.
    assert (F : Forall (fun e => backm (d_prop hp) (s_prop e32 e64) fin_prop (r_prop r ins) (snd e)) l)
      by (eapply (Forall_typed2 is_str (t_prop sep)); eassumption).
    destruct k; alts; cbn [d_str jbind]; alts;
      rewrite (d_map_backm (d_prop hp) (s_prop e32 e64) fin_prop (r_prop r ins)) by auto;
      match goal with |- context [if ?b then JOk _ else _] => destruct b; alts; reflexivity end.
  - intros l H x. cbn [s_map fin_map t_map r_map] in *; repropt. andbs. unfold d_mapp, d_mbool, d_mint, d_mprop.
    alts. unfold d_ostr. rewrite d_map_plain; auto. intros. apply d_option_str.
  - intros kt vt f l Hl H x. cbn [s_map fin_map t_map r_map] in *; repropt. andbs. unfold d_mapp, d_mbool, d_mint, d_mprop.
    alts. cbn [d_str jbind]. alts. rewrite u32_j by auto. alts.
    rewrite pair_back; auto.
    match goal with |- context [if ?b then JOk _ else _] => destruct b; alts end; [|reflexivity].
    now rewrite inserted.
Qed.

Lemma propertym p : d_property hp (s_prop e32 e64 p) = d_prop hp (s_prop e32 e64 p).
Proof. destruct p; reflexivity. Qed.
Lemma propsm l : distinct str_eqb l = true ->
  forallb (fun '(k, p) => is_str k && t_prop sep p) l = true ->
  d_map (d_property hp) (JObj (map (fun '(k, p) => (k, s_prop e32 e64 p)) l))
  = if forallb (fun '(_, p) => fin_prop p) l then JOk (map (fun '(k, p) => (k, r_prop r ins p)) l) else JErr.
Proof.
  intros D H. apply d_map_backm; auto. apply (Forall_typed2 is_str (t_prop sep)); auto.
  apply Forall_forall. intros e _ T. unfold backm. rewrite propertym. now apply (proj1 prop_json).
Qed.
Lemma file_rounded g : t_file sep g = true ->
  from_json hp (to_tree e32 e64 g) = if fin_file g then JOk (r_file r ins g) else JErr.
Proof.
  unfold t_file, fin_file. intros H. andbs. unfold to_tree, from_json, e_dversion, r_file. rewrite d_struct_obj.
  destruct g as [v h l]. cbn [g_version g_header g_props] in *.
  destruct v as [|c]; cbn [app]; look.
  - rewrite header_j by auto. cbn [jbind]. look. rewrite propsm by auto. split_if.
  - rewrite dversion_j. cbn [jbind]. look. rewrite header_j by auto. cbn [jbind]. look.
    rewrite propsm by auto. split_if.
Qed.
End PropJson.
End Rounded.
