(** Lemmas for C71. *)
From Coq Require Import ZArith List Bool String Lia ZifyBool ZifyNat.
From Verif Require Import Base Str Guid Types Versions Text Props File Spec BaseFacts Decode Induct Json JsonSpec
  Message Display GuidThm Debug NamesSpec.
Import ListNotations.
Open Scope Z_scope.

(** Looking up names. *)
Definition row_eqb (a b : string * list string) : bool :=
  String.eqb (fst a) (fst b) && if list_eq_dec string_dec (snd a) (snd b) then true else false.
Lemma row_in r : existsb (row_eqb r) declared = true -> In r declared.
Proof.
  intros H. apply existsb_exists in H as ([n l] & I & E). apply andb_prop in E as [A B]. destruct r as [n' l']. cbn [fst snd] in *.
  apply String.eqb_eq in A. destruct (list_eq_dec string_dec l' l); [now subst|discriminate B].
Qed.
Lemma name_in n l : existsb (String.eqb n) l = true -> In n l.
Proof. intros H. apply existsb_exists in H as (m & I & E). apply String.eqb_eq in E. now subst. Qed.
Lemma name_out n l : existsb (String.eqb n) l = false -> ~ In n l.
Proof. intros H I. rewrite <- not_true_iff_false in H. apply H, existsb_exists. exists n. split; [exact I|apply String.eqb_refl]. Qed.
Ltac inl := first [apply row_in; vm_compute; reflexivity|apply name_in; vm_compute; reflexivity|repeat first [left; reflexivity|right]].
Ltac outl := apply name_out; vm_compute; reflexivity.
Ltac names l :=
  lazymatch l with
  | nil => constr:(@nil (string * dtree))
  | cons (s2z ?k, ?d) ?r => let r' := names r in constr:(cons (k, d) r')
  end.
Ltac row :=
  lazymatch goal with
  | |- In (?n, map fst ?m) _ => let f := eval cbn [map fst] in (map fst m) in change (In (n, f) declared); apply row_in; vm_compute; reflexivity
  end.
(** Applies the rule for a struct or a variant with a tag. *)
Ltac struct :=
  lazymatch goal with
  | |- shows _ _ (DStruct (s2z ?n) ?l) =>
    let m := names l in
    first [refine (s_struct _ n _ m _ _ _); [row|outl|]
          |refine (s_tag _ _ n _ m _ _ _ _); [inl|row|inl|]]
  end.

Section T.
Context (fl : bool -> num -> Z -> str) (sep : property -> property -> bool).
Notation shows := (shows fl).
Notation fields := (fields fl).

Lemma sh_opt {A} (g : A -> json) (f : A -> dtree) o : (forall a, shows (g a) (f a)) ->
  shows (match o with Some a => g a | None => JNull end) (dg_opt f o).
Proof. intros H. destruct o; [apply s_some, H|apply s_none]. Qed.
Lemma f_opt {A} (g : A -> json) (f : A -> dtree) k o l m : In k no_value -> (forall a, shows (g a) (f a)) -> fields l m ->
  fields (e_opt (s2z k) (option_map g o) ++ l) ((k, dg_opt f o) :: m).
Proof.
  intros I H F. destruct o as [a|]; cbn [option_map e_opt app dg_opt].
  - apply f_keep; [apply s_some, H|exact F].
  - apply f_left; [now constructor|exact F].
Qed.
Lemma f_opt1 {A} (g : A -> json) (f : A -> dtree) k o : In k no_value -> (forall a, shows (g a) (f a)) ->
  fields (e_opt (s2z k) (option_map g o)) [(k, dg_opt f o)].
Proof. intros I H. rewrite <- (app_nil_r (e_opt _ _)). apply f_opt; [exact I|exact H|constructor]. Qed.
Lemma f_str k o l m : In k no_value -> fields l m -> fields (e_optstr (s2z k) o ++ l) ((k, dg_opt DStr o) :: m).
Proof. intros I F. apply f_opt; [exact I|apply s_str|exact F]. Qed.
Lemma f_str1 k o : In k no_value -> fields (e_optstr (s2z k) o) [(k, dg_opt DStr o)].
Proof. intros I. apply f_opt1; [exact I|apply s_str]. Qed.
Lemma f_nonzero k z l m : In k ["flags"; "array_index"]%string -> fields l m -> fields (e_nonzero (s2z k) z ++ l) ((k, dg_int z) :: m).
Proof.
  intros I F. unfold e_nonzero. destruct (z =? 0) eqn:E; cbn [app].
  - apply Z.eqb_eq in E. subst z. apply f_left; [exact (l_zero k I)|exact F].
  - apply f_keep; [apply s_int|exact F].
Qed.
Lemma f_guid g l m : fields l m -> fields (e_optguid (s2z "guid") g ++ l) (("guid"%string, dg_guid g) :: m).
Proof.
  intros F. unfold e_optguid, dg_guid, e_guid. destruct (guid_is_zero g) eqn:E; cbn [app].
  - unfold guid_display. rewrite E. apply f_left; [exact l_guid|exact F].
  - apply f_keep; [apply s_guid|exact F].
Qed.
Lemma f_flat1 k o d : In k flattened -> shows (JObj o) d -> fields o [(k, d)].
Proof. intros I S. rewrite <- (app_nil_r o). apply f_flat; [exact I|exact S|constructor]. Qed.
Lemma sh_bool b : shows (JBool b) (dg_bool b). Proof. apply s_bool. Qed.
Lemma sh_num k z : shows (e_num k z) (dg_num fl k z).
Proof.
  destruct k; try apply s_int.
  - apply (s_float fl F32 z). unfold float_json. cbn [e_num]. unfold e_f32. destruct (f_finite fmt32 z); eauto.
  - apply (s_float fl F64 z). unfold float_json. cbn [e_num]. unfold e_f64. destruct (f_finite fmt64 z); eauto.
Qed.
Lemma sh_unit names z : shows (e_name names z) (dg_unit names z). Proof. apply s_unit. Qed.
Lemma sh_list {A} (g : A -> json) (f : A -> dtree) l : (forall a, In a l -> shows (g a) (f a)) -> shows (JArr (map g l)) (DList (map f l)).
Proof.
  intros H. apply s_list. induction l as [|a l IH]; constructor; [apply H; now left|]. apply IH. intros x I. apply H. now right.
Qed.
Lemma sh_map {A} (g : A -> json) (f : A -> dtree) (l : list (str * A)) : (forall e, In e l -> shows (g (snd e)) (f (snd e))) ->
  shows (JObj (map (fun '(k, v) => (k, g v)) l)) (dg_hashable (map (fun e => (DStr (fst e), f (snd e))) l)).
Proof.
  intros H. apply s_map. induction l as [|[k v] l IH]; constructor; [split; [now left|]; apply (H (k, v)); now left|].
  apply IH. intros x I. apply H. now right.
Qed.

Ltac fld :=
  lazymatch goal with
  | |- NamesSpec.fields _ [] [] => apply f_nil
  | |- NamesSpec.fields _ (e_optstr (s2z ?k) _ ++ _) _ => apply (f_str k); [inl|fld]
  | |- NamesSpec.fields _ (e_optstr (s2z ?k) _) _ => apply (f_str1 k); inl
  | |- NamesSpec.fields _ (e_opt (s2z ?k) (option_map _ _) ++ _) _ => apply (f_opt _ _ k); [inl| |fld]
  | |- NamesSpec.fields _ (e_opt (s2z ?k) (option_map _ _)) _ => apply (f_opt1 _ _ k); [inl|]
  | |- NamesSpec.fields _ (e_nonzero (s2z ?k) _ ++ _) _ => apply (f_nonzero k); [inl|fld]
  | |- NamesSpec.fields _ (e_optguid _ _ ++ _) _ => apply f_guid; fld
  | |- NamesSpec.fields _ ((s2z ?k, _) :: _) ((?k, _) :: _) => apply (f_keep _ k); [|fld]
  | _ => idtac
  end.
Ltac leaf := first [apply s_str|apply s_int|apply sh_bool|apply sh_unit|apply s_guid|apply sh_num|assumption|idtac].

Lemma nums_cons k ks l : nums_ok (k :: ks) l = true -> exists z l', l = z :: l' /\ nums_ok ks l' = true.
Proof. destruct l as [|z l]; cbn [nums_ok]; intros H; [discriminate H|]. apply andb_prop in H as [_ H]. eauto. Qed.
Lemma nums_nil l : nums_ok [] l = true -> l = [].
Proof. now destruct l. Qed.
Lemma sh_fixed x l : nums_ok (layout x) l = true -> shows (JObj (e_fields (field_names x) (layout x) l)) (dg_fixed fl x l).
Proof.
  intros T. unfold dg_fixed. destruct x; cbn [layout] in *;
  repeat (apply nums_cons in T as (? & ? & -> & T)); apply nums_nil in T; subst;
  cbn [field_names map e_fields dg_fields fixed_variant]; struct; fld; apply sh_num.
Qed.
Lemma sh_ticks t : shows (e_ticks t) (dg_ticks fl t).
Proof. unfold e_ticks, dg_ticks, dg_fixed. cbn [field_names map layout dg_fields fixed_variant dg_num]. struct. fld. apply s_int. Qed.
Lemma sh_numfmt o : shows (e_numfmt o) (dg_numfmt o).
Proof.
  unfold e_numfmt, dg_numfmt. struct. apply (f_keep _ "always_include_sign"); [apply sh_bool|].
  apply (f_keep _ "use_grouping"); [apply sh_bool|].
  refine (f_flat _ "rounding_mode" [(s2z "rounding", e_name rounding_names (nf_round o))] _ _ _ _ _ _); [inl| |fld; leaf].
  apply (s_tag_unit _ "rounding"). inl.
Qed.

Lemma sh_text :
  (forall t, shows (JObj (e_text t)) (dg_text fl t)) /\ (forall h, shows (JObj (e_hist h)) (dg_hist fl h))
  /\ (forall a, shows (e_arg a) (dg_arg fl a)).
Proof.
  apply text_all; intros; cbn [e_text dg_text e_hist dg_hist e_arg dg_arg].
  - struct. fld. apply f_flat1; [inl|assumption].
  - apply (s_tag_unit _ "history"). inl.
  - struct. fld.
  - struct. fld.
  - struct. fld; [assumption|]. apply sh_map. intros e I. rewrite Forall_forall in H0. now apply H0.
  - struct. fld; [assumption|]. apply sh_list. intros e I. rewrite Forall_forall in H0. now apply H0.
  - struct. fld; [assumption|]. apply sh_map. intros e I. rewrite Forall_forall in H0. now apply H0.
  - struct. cbn [app]. fld; [assumption|apply sh_numfmt].
  - struct. cbn [app]. fld; [assumption|apply sh_numfmt].
  - struct. fld; [assumption|apply sh_numfmt].
  - struct. fld; leaf. apply sh_ticks.
  - struct. fld; leaf. apply sh_ticks.
  - struct. fld; leaf. apply sh_ticks.
  - struct. apply (f_keep _ "source_text"); [assumption|]. apply f_flat1; [inl|]. apply (s_tag_unit _ "transform"). inl.
  - struct. fld; leaf.
  - apply (s_variant _ "Int"); [inl|apply s_int].
  - apply (s_variant _ "UInt"); [inl|apply s_int].
  - apply (s_variant _ "Float"); [inl|apply (sh_num F32)].
  - apply (s_variant _ "Double"); [inl|apply (sh_num F64)].
  - apply (s_variant _ "Text"); [inl|assumption].
  - apply (s_variant _ "Int64"); [inl|apply s_int].
  - apply (s_variant _ "UInt64"); [inl|apply s_int].
Qed.
Lemma sh_delegate p : shows (e_delegate p) (dg_delegate p).
Proof. unfold e_delegate, dg_delegate. struct. fld; leaf. Qed.
Lemma sh_bytev v : shows (JObj [e_bytev v]) (dg_bytev v).
Proof. destruct v; [apply (s_variant _ "Byte"); [inl|apply s_int]|apply (s_variant _ "Namespaced"); [inl|apply s_str]]. Qed.
Lemma sh_ostr o : shows (e_ostr o) (dg_opt DStr o).
Proof. unfold e_ostr. apply (sh_opt JStr DStr). apply s_str. Qed.

Ltac payload n := unfold tagged, dg_wrap; apply (s_payload _ n); [inl|].
Ltac at_ H I := rewrite Forall_forall in H; specialize (H _ I).
Ltac typed T I := rewrite forallb_forall in T; specialize (T _ I); cbv beta iota in T.

Lemma sh_props :
  (forall p, t_prop sep p = true -> shows (e_prop p) (dg_prop fl p))
  /\ (forall v, t_sval sep v = true -> shows (JObj [e_sval v]) (dg_sval fl v))
  /\ (forall a, t_array sep a = true -> shows (JObj (e_array a)) (dg_array fl a))
  /\ (forall m, t_map sep m = true -> shows (JObj (e_map m)) (dg_map fl m)).
Proof.
  apply prop_all.
  - intros k z T. cbn [e_prop dg_prop]. unfold debug_num, printed, type_suffix.
    destruct k; cbn [num_name e_num];
      try (match goal with |- NamesSpec.shows _ (JObj [(_, JStr (s2z ?n)); _]) (DTuple _ [DWord (_ ++ s2z ?u)]) => apply (s_number _ n u z); inl end).
    + apply (s_float_property _ F32 "FloatProperty" "f32" z); [inl|]. unfold float_json, e_f32. destruct (f_finite fmt32 z); eauto.
    + apply (s_float_property _ F64 "DoubleProperty" "f64" z); [inl|]. unfold float_json, e_f64. destruct (f_finite fmt64 z); eauto.
  - intros b T. cbn [e_prop dg_prop]. apply s_bool_property.
  - intros n v T. cbn [e_prop dg_prop]. payload "ByteProperty"%string. struct. fld. apply f_flat1; [inl|apply sh_bytev].
  - intros t v T. cbn [e_prop dg_prop]. payload "EnumProperty"%string. struct. fld. leaf.
  - intros v T. cbn [e_prop dg_prop]. payload "StrProperty"%string. struct. fld.
  - intros t T. cbn [e_prop dg_prop]. payload "TextProperty"%string. struct. apply f_flat1; [inl|apply sh_text].
  - intros i v T. cbn [e_prop dg_prop]. payload "NameProperty"%string. struct. fld.
  - intros v T. cbn [e_prop dg_prop]. payload "ObjectProperty"%string. struct. fld. leaf.
  - intros a b T. cbn [e_prop dg_prop]. payload "DelegateProperty"%string. struct. fld. apply (sh_delegate (a, b)).
  - intros i l T. cbn [e_prop dg_prop].
    destruct i; [payload "MulticastInlineDelegateProperty"%string|payload "MulticastSparseDelegateProperty"%string];
      (struct; fld; struct; fld; apply sh_list; intros; apply sh_delegate).
  - intros l s T. cbn [e_prop dg_prop]. payload "FieldPathProperty"%string. struct; fld; struct; fld; leaf. apply sh_list. intros; leaf.
  - intros n r T. cbn [e_prop dg_prop]. payload "UnknownProperty"%string. struct; fld; leaf. apply sh_list. intros; leaf.
  - intros a IH T. cbn [e_prop dg_prop]. payload "ArrayProperty"%string. now apply IH.
  - intros t f l IH T. cbn [e_prop dg_prop]. cbn [t_prop] in T. apply andb_prop in T as [_ T]. payload "SetProperty"%string. struct; fld; leaf.
    apply sh_list. intros a I. at_ IH I. typed T I. auto.
  - intros m IH T. cbn [e_prop dg_prop]. payload "MapProperty"%string. now apply IH.
  - intros g t v IH T. cbn [e_prop dg_prop]. cbn [t_prop] in T. apply andb_prop in T as [_ T]. payload "StructProperty"%string. struct.
    apply f_guid. apply (f_keep _ "type_name"); [leaf|]. apply (f_flat1 "value"); [inl|auto].
  - intros v IH T. cbn [e_prop dg_prop]. payload "StructPropertyValue"%string. now apply IH.
  - intros x l T. cbn [e_sval dg_sval]. cbn [t_sval] in T. pose proof (sh_fixed x l T) as S.
    destruct x; cbn [fixed_variant];
      match goal with |- NamesSpec.shows _ (JObj [(s2z ?n, _)]) _ => apply (s_variant _ n); [inl|exact S] end.
  - intros g T. cbn [e_sval dg_sval]. apply (s_variant _ "Guid"); [inl|apply s_guid].
  - intros l T. cbn [e_sval dg_sval]. apply (s_variant _ "GameplayTagContainer"); [inl|]. apply sh_list. intros; leaf.
  - intros l IH T. cbn [e_sval dg_sval]. cbn [t_sval] in T. apply andb_prop in T as [_ T]. apply (s_variant _ "CustomStruct"); [inl|].
    refine (sh_map (fun ps => JArr (map e_prop ps)) (fun ps => DList (map (dg_prop fl) ps)) l _). intros [k ps] I. cbn [snd]. at_ IH I. typed T I. apply andb_prop in T as [_ T].
    cbn [snd] in IH. apply sh_list. intros a J. at_ IH J. typed T J. auto.
  - intros l T. cbn [e_array dg_array]. struct. fld. apply sh_list. intros; leaf.
  - intros l T. cbn [e_array dg_array]. struct. fld. apply s_hex.
  - intros l T. cbn [e_array dg_array]. struct. fld. apply sh_list. intros; leaf.
  - intros l T. cbn [e_array dg_array]. struct. fld. apply sh_list. intros; apply (sh_num F32).
  - intros l T. cbn [e_array dg_array]. struct. fld. apply sh_list. intros; leaf.
  - intros l T. cbn [e_array dg_array]. struct. fld. apply sh_list. intros; apply sh_ostr.
  - intros l T. cbn [e_array dg_array]. struct. fld. apply sh_list. intros; apply sh_ostr.
  - intros f t g l IH T. cbn [e_array dg_array app]. cbn [t_array] in T. apply andb_prop in T as [_ T]. struct. fld; leaf.
    apply sh_list. intros a I. at_ IH I. typed T I. auto.
  - intros t l IH T. cbn [e_array dg_array]. cbn [t_array] in T. apply andb_prop in T as [_ T]. struct. fld; leaf.
    apply sh_list. intros a I. at_ IH I. typed T I. auto.
  - intros k l T. cbn [e_map dg_map]. unfold map_field, map_prefix, map_variant. destruct k; cbn [append]; struct; fld; apply (sh_map JBool dg_bool); intros; leaf.
  - intros k l T. cbn [e_map dg_map]. unfold map_field, map_prefix, map_variant. destruct k; cbn [append]; struct; fld; apply (sh_map JInt dg_int); intros; leaf.
  - intros k vt l IH T. cbn [e_map dg_map]. cbn [t_map] in T. apply andb_prop in T as [_ T]. unfold map_field, map_prefix, map_variant.
    destruct k; cbn [append]; (struct; fld; [leaf|]; apply (sh_map e_prop (dg_prop fl)); intros [a b] I; at_ IH I; typed T I; apply andb_prop in T as [_ T]; auto).
  - intros l T. cbn [e_map dg_map]. struct. fld. apply (sh_map e_ostr (dg_opt DStr)). intros; apply sh_ostr.
  - intros kt vt f l IH T. cbn [e_map dg_map]. cbn [t_map] in T. apply andb_prop in T as [_ T]. struct. fld; leaf.
    apply s_seq. induction l as [|[a b] l J]; constructor.
    + exists (e_prop a), (e_prop b). cbn [forallb] in T. apply andb_prop in T as [T _]. apply andb_prop in T as [T1 T2].
      inversion IH as [|? ? [A B]]; subst. auto.
    + cbn [forallb] in T. apply andb_prop in T as [_ T]. inversion IH; subst. auto.
Qed.
Lemma sh_header h : shows (e_header h) (dg_header h).
Proof.
  unfold e_header, dg_header.
  assert (V : shows (JObj (map (fun '(g, v) => (guid_display g, JInt v)) (h_versions h)))
                    (dg_hashable (map (fun e => (dg_guid (fst e), dg_int (snd e))) (h_versions h)))).
  { apply s_map. induction (h_versions h) as [|[g v] l IH]; constructor; [split; [now right|apply s_int]|exact IH]. }
  assert (E : shows (e_engine (h_engine h)) (dg_engine (h_engine h))).
  { unfold e_engine, dg_engine. struct. fld; leaf. }
  destruct (h_ue5 h); cbn [e_opt option_map app]; struct; fld; leaf.
Qed.
Lemma sh_file g : t_file sep g = true -> shows (to_json g) (dg_file fl g).
Proof.
  intros T. unfold to_json, dg_file. struct.
  assert (F : fields [(s2z "header", e_header (g_header g)); (s2z "properties", JObj (map (fun '(k, p) => (k, e_prop p)) (g_props g)))]
     [("header"%string, dg_header (g_header g)); ("properties"%string, dg_hashable (map (fun e => (DStr (fst e), dg_prop fl (snd e))) (g_props g)))]).
  { fld; [apply sh_header|]. apply (sh_map e_prop (dg_prop fl)). intros [k p] I. unfold t_file in T. apply andb_prop in T as [_ T]. typed T I.
    apply andb_prop in T as [_ T]. now apply sh_props. }
  destruct (g_version g) as [|c]; cbn [e_dversion app dg_version].
  - apply f_left; [apply l_default|exact F].
  - apply (f_keep _ "deserialized_game_version"); [|exact F]. apply (s_variant _ "Palworld"); [inl|apply s_unit].
Qed.
End T.

Lemma s2z_inj a : forall b, s2z a = s2z b -> a = b.
Proof.
  induction a as [|c a IH]; intros [|d b] E; try discriminate E; [reflexivity|]. cbn [s2z] in E. injection E as E1 E2.
  f_equal; [|now apply IH]. apply (f_equal Z.to_N) in E1. rewrite !N2Z.id in E1.
  rewrite <- (Ascii.ascii_N_embedding c), E1. apply Ascii.ascii_N_embedding.
Qed.
Lemma renamed_not fl s t : ~ shows fl (JObj [(s2z "owner", JStr s)]) (DStruct (s2z "ObjectProperty") [(s2z "value", DStr t)]).
Proof.
  intros H. inversion H as [| | | | | | | | | | | |n l m D T F E1 [E2 E3]|u n l m I D T F E1 [E2 E3]| | | | | |]; subst.
  - match goal with E : s2z n = _ |- _ => apply s2z_inj in E; subst n end.
    destruct m as [|[k x] [|? ?]]; try discriminate. match goal with E : map _ _ = _ |- _ => injection E as K X end.
    change (s2z k = s2z "value") in K. apply s2z_inj in K. subst k x.
    inversion F as [|k j d' l' m' S G K|k d' l' m' L G|k o d' l' m' I S G]; subst.
    + discriminate K.
    + inversion G.
    + inversion S.
  - match goal with E : s2z n = _ |- _ => apply s2z_inj in E; subst n end. cbn in T. intuition discriminate.
Qed.
