(** Trees that differ in their floats, and the texts printed from them. *)
From Coq Require Import ZArith List Bool String Lia ZifyBool ZifyNat.
From Verif Require Import Base Str Types Versions Text Props File Spec BaseFacts Decode Induct Guid MapFacts
  Json JsonBack JsonSyntax JsonDirect JsonGrammar JsonRead JsonComplete JsonPrint JsonSpec.
Import ListNotations.
Open Scope Z_scope.

Lemma tree_json g : to_tree e_f32 e_f64 g = to_json g.
Proof. reflexivity. Qed.

(** ** Replacing floats in a tree *)
Fixpoint jmap (f : Z -> Z) (j : json) : json :=
  match j with
  | JFloat z => JFloat (f z)
  | JArr l => JArr (map (jmap f) l)
  | JObj l => JObj (map (fun '(k, v) => (k, jmap f v)) l)
  | _ => j
  end.
Definition omap (f : Z -> Z) (l : list (str * json)) : list (str * json) := map (fun '(k, v) => (k, jmap f v)) l.
Lemma jmap_obj f l : jmap f (JObj l) = JObj (omap f l).
Proof. reflexivity. Qed.
Lemma omap_app f a b : omap f (a ++ b) = omap f a ++ omap f b.
Proof. apply map_app. Qed.
Lemma brackets_jmap f j : brackets (jmap f j) = brackets j.
Proof.
  remember (S (jsize j)) as n eqn:E. assert (L : (jsize j < n)%nat) by lia. clear E. revert j L.
  induction n as [|n IH]; intros j L; [lia|]. destruct j as [| | | | |l|l]; try reflexivity; cbn [jmap brackets]; do 2 f_equal; rewrite map_map.
  - apply map_ext_in. intros v I. pose proof (arr_smaller v l I). apply IH. lia.
  - apply map_ext_in. intros [k v] I. cbn [snd]. pose proof (obj_smaller k v l I). apply IH. lia.
Qed.
Lemma distinct_omap f l : distinct str_eqb (omap f l) = distinct str_eqb l.
Proof.
  induction l as [|[k v] l IH]; [reflexivity|]. cbn [omap map distinct]. fold (omap f l). rewrite IH. f_equal.
  clear IH. induction l as [|[k' v'] l IH]; [reflexivity|]. cbn [omap map forallb existsb fst]. fold (omap f l). now rewrite <- IH.
Qed.

(** ** Serializing with other floats *)
Section Natural.
Context (sep : property -> property -> bool) (f : Z -> Z) (a b a' b' : Z -> json).
Hypothesis (A : forall z, u_ok 4 z = true -> jmap f (a z) = a' z) (B : forall z, u_ok 8 z = true -> jmap f (b z) = b' z).
Lemma num_natural k z : num_ok k z = true -> jmap f (s_num a b k z) = s_num a' b' k z.
Proof. destruct k; cbn [s_num num_ok]; intros H; try reflexivity; [now apply A|now apply B]. Qed.
Lemma optstr_natural k o : omap f (e_optstr k o) = e_optstr k o.
Proof. now destruct o. Qed.
Lemma nonzero_natural k z : omap f (e_nonzero k z) = e_nonzero k z.
Proof. unfold e_nonzero. now destruct (z =? 0). Qed.
Lemma optguid_natural k g : omap f (e_optguid k g) = e_optguid k g.
Proof. unfold e_optguid. now destruct (guid_is_zero g). Qed.
Lemma numfmt_natural k o : omap f (e_opt k (option_map e_numfmt o)) = e_opt k (option_map e_numfmt o).
Proof. now destruct o. Qed.
Lemma map_natural {X} (e e' : X -> json) (T : X -> bool) l : forallb T l = true ->
  Forall (fun x => T x = true -> jmap f (e x) = e' x) l -> map (jmap f) (map e l) = map e' l.
Proof.
  intros H F. rewrite map_map. apply map_ext_in. intros x I. rewrite Forall_forall in F. rewrite forallb_forall in H. auto.
Qed.
Lemma entries_natural {X} (e e' : X -> json) (T : X -> bool) (U : str -> bool) l : forallb (fun '(k, x) => U k && T x) l = true ->
  Forall (fun x => T (snd x) = true -> jmap f (e (snd x)) = e' (snd x)) l ->
  omap f (map (fun '(k, x) => (k, e x)) l) = map (fun '(k, x) => (k, e' x)) l.
Proof.
  intros H F. unfold omap. rewrite map_map. apply map_ext_in. intros [k x] I. rewrite Forall_forall in F. rewrite forallb_forall in H.
  specialize (H _ I). specialize (F _ I). cbn in H, F. apply andb_true_iff in H as [_ H]. now rewrite F.
Qed.
Lemma map_same {X} (e : X -> json) l : (forall x, jmap f (e x) = e x) -> map (jmap f) (map e l) = map e l.
Proof. intros H. rewrite map_map. now apply map_ext. Qed.
Lemma entries_same {X} (e : X -> json) l : (forall x, jmap f (e x) = e x) ->
  omap f (map (fun '(k, x) => (k, e x)) l) = map (fun '(k, x) => (k, e x)) l.
Proof. intros H. unfold omap. rewrite map_map. apply map_ext. intros [k x]. now rewrite H. Qed.
Ltac mapped := repeat first
  [ rewrite jmap_obj | rewrite omap_app | rewrite optstr_natural | rewrite nonzero_natural | rewrite optguid_natural
  | rewrite numfmt_natural | progress cbn [jmap omap map app] ].
Ltac refold := fold (s_text a b) (s_hist a b) (s_arg a b) (s_text a' b') (s_hist a' b') (s_arg a' b').
Ltac repropt := fold (s_prop a b) (s_sval a b) (s_array a b) (s_map a b) (s_prop a' b') (s_sval a' b') (s_array a' b') (s_map a' b').
Lemma text_natural :
  (forall t, t_text t = true -> omap f (s_text a b t) = s_text a' b' t)
  /\ (forall h, t_hist h = true -> omap f (s_hist a b h) = s_hist a' b' h)
  /\ (forall x, t_arg x = true -> jmap f (s_arg a b x) = s_arg a' b' x).
Proof.
  apply text_all.
  - intros n h IH H. cbn [t_text s_text] in *; refold. apply andb_true_iff in H as [_ H]. now rewrite omap_app, nonzero_natural, IH.
  - reflexivity.
  - intros s _. now destruct s.
  - intros x y z _. now destruct x, y, z.
  - intros t l Ht Hl H. cbn [t_hist s_hist] in *; refold. apply andb_true_iff in H as [H H2]. apply andb_true_iff in H as [H H1].
    cbn [omap map]. rewrite !jmap_obj, Ht by exact H. now rewrite (entries_natural (s_arg a b) (s_arg a' b') t_arg is_str).
  - intros t l Ht Hl H. cbn [t_hist s_hist] in *; refold. apply andb_true_iff in H as [H H1].
    cbn [omap map]. rewrite !jmap_obj, Ht by exact H. cbn [jmap]. now rewrite (map_natural (s_arg a b) (s_arg a' b') t_arg).
  - intros t l Ht Hl H. cbn [t_hist s_hist] in *; refold. apply andb_true_iff in H as [H H2]. apply andb_true_iff in H as [H H1].
    cbn [omap map]. rewrite !jmap_obj, Ht by exact H. now rewrite (entries_natural (s_arg a b) (s_arg a' b') t_arg is_str).
  - intros v o c Hv H. cbn [t_hist s_hist] in *; refold. apply andb_true_iff in H as [H _]. apply andb_true_iff in H as [H _].
    rewrite !omap_app, optstr_natural, numfmt_natural. cbn [omap map]. now rewrite Hv.
  - intros v o c Hv H. cbn [t_hist s_hist] in *; refold. apply andb_true_iff in H as [H _]. apply andb_true_iff in H as [H _].
    rewrite !omap_app, optstr_natural, numfmt_natural. cbn [omap map]. now rewrite Hv.
  - intros d v o c Hv H. cbn [t_hist s_hist] in *; refold. apply andb_true_iff in H as [H _]. apply andb_true_iff in H as [H _].
    apply andb_true_iff in H as [_ H]. cbn [omap map]. fold (omap f). f_equal.
    change (map (fun '(k, v0) => (k, jmap f v0))) with (omap f). rewrite !omap_app, optstr_natural. f_equal. cbn [omap map].
    change (map (fun '(k, v0) => (k, jmap f v0))) with (omap f). rewrite !omap_app, optstr_natural, numfmt_natural. now rewrite Hv.
  - reflexivity.
  - reflexivity.
  - reflexivity.
  - intros t x Ht H. cbn [t_hist s_hist] in *; refold. apply andb_true_iff in H as [H _]. cbn [omap map]. now rewrite jmap_obj, Ht.
  - reflexivity.
  - reflexivity.
  - reflexivity.
  - intros z H. cbn [t_arg s_arg] in *; refold. cbn [jmap map]. now rewrite A.
  - intros z H. cbn [t_arg s_arg] in *; refold. cbn [jmap map]. now rewrite B.
  - intros t Ht H. cbn [t_arg s_arg] in *; refold. rewrite !jmap_obj. cbn [omap map]. now rewrite jmap_obj, Ht.
  - reflexivity.
  - reflexivity.
Qed.
Lemma fields_natural names : forall ks l, nums_ok ks l = true -> omap f (s_fields a b names ks l) = s_fields a' b' names ks l.
Proof.
  induction names as [|n names IH]; intros [|k ks] [|z l] H; try reflexivity; try discriminate. cbn [nums_ok] in H. andbs.
  cbn [s_fields omap map]. rewrite num_natural by assumption. f_equal. now apply IH.
Qed.
Lemma delegates_same l : map (jmap f) (map e_delegate l) = map e_delegate l.
Proof. now apply map_same. Qed.
Definition entry_map (e : str * json) : str * json := (fst e, jmap f (snd e)).
Lemma prop_natural :
  (forall p, t_prop sep p = true -> jmap f (s_prop a b p) = s_prop a' b' p)
  /\ (forall v, t_sval sep v = true -> entry_map (s_sval a b v) = s_sval a' b' v)
  /\ (forall x, t_array sep x = true -> omap f (s_array a b x) = s_array a' b' x)
  /\ (forall m, t_map sep m = true -> omap f (s_map a b m) = s_map a' b' m).
Proof.
  assert (SV : forall v, omap f [s_sval a b v] = [entry_map (s_sval a b v)]) by (intros v; cbn; now destruct (s_sval a b v)).
  apply prop_all.
  - intros k z H. cbn [t_prop s_prop] in *; repropt. rewrite jmap_obj. cbn [omap map]. now rewrite num_natural.
  - reflexivity.
  - intros n v _. destruct n, v; reflexivity.
  - intros t v _. now destruct t.
  - intros v _. now destruct v.
  - intros t H. cbn [t_prop s_prop] in *; repropt. unfold tagged. rewrite jmap_obj. cbn [omap map]. do 2 f_equal. now apply text_natural.
  - intros i v _. cbn [s_prop]. unfold tagged. rewrite jmap_obj. cbn [omap map]. do 2 f_equal. fold (omap f (e_nonzero (s2z "array_index") i ++ e_optstr (s2z "value") v)).
    now rewrite omap_app, nonzero_natural, optstr_natural.
  - reflexivity.
  - reflexivity.
  - intros i l _. cbn [s_prop]. unfold tagged. rewrite jmap_obj. cbn [omap map jmap]. now rewrite delegates_same.
  - intros l s _. cbn [s_prop]. unfold tagged. rewrite jmap_obj. cbn [omap map jmap]. now rewrite map_same.
  - intros n l _. cbn [s_prop]. unfold tagged. rewrite jmap_obj. cbn [omap map jmap]. now rewrite map_same.
  - intros x IH H. cbn [t_prop s_prop] in *; repropt. unfold tagged. rewrite jmap_obj. cbn [omap map]. do 2 f_equal. now apply IH.
  - intros t n l Hl H. cbn [t_prop s_prop] in *; repropt. andbs. unfold tagged. rewrite jmap_obj. cbn [omap map jmap].
    now rewrite (map_natural (s_prop a b) (s_prop a' b') (t_prop sep)).
  - intros m IH H. cbn [t_prop s_prop] in *; repropt. unfold tagged. rewrite jmap_obj. cbn [omap map]. do 2 f_equal. now apply IH.
  - intros g t v IH H. cbn [t_prop s_prop] in *; repropt. andbs. unfold tagged. rewrite jmap_obj. cbn [omap map].
    change (map (fun '(k, v0) => (k, jmap f v0))) with (omap f). do 2 f_equal. rewrite omap_app, optguid_natural. f_equal.
    change ([(s2z "type_name", JStr t); s_sval a b v]) with ([(s2z "type_name", JStr t)] ++ [s_sval a b v]). now rewrite omap_app, SV, IH.
  - intros v IH H. cbn [t_prop s_prop] in *; repropt. unfold tagged. rewrite jmap_obj. cbn [omap map].
    change (map (fun '(k, v0) => (k, jmap f v0))) with (omap f). pose proof (SV v) as E. cbn [omap map] in E. rewrite E, IH by exact H. reflexivity.
  - intros x l H. cbn [t_sval s_sval] in *; repropt. unfold entry_map. cbn [fst snd]. now rewrite jmap_obj, fields_natural.
  - reflexivity.
  - intros l _. unfold entry_map. cbn [s_sval fst snd jmap]. now rewrite map_same.
  - intros l Hl H. cbn [t_sval s_sval] in *; repropt. andbs. unfold entry_map. cbn [fst snd]. rewrite jmap_obj.
    rewrite (entries_natural (fun ps => JArr (map (s_prop a b) ps)) (fun ps => JArr (map (s_prop a' b') ps)) (forallb (t_prop sep)) is_str); auto.
    rewrite Forall_forall in *. intros [k ps] I F. cbn [snd] in *. cbn [jmap]. specialize (Hl _ I). cbn [snd] in Hl.
    now rewrite (map_natural (s_prop a b) (s_prop a' b') (t_prop sep)).
  - intros l _. cbn [s_array omap map jmap]. now rewrite map_same.
  - reflexivity.
  - intros l _. cbn [s_array omap map jmap]. now rewrite map_same.
  - intros l H. cbn [t_array s_array omap map jmap] in *; repropt. rewrite (map_natural a a' (u_ok 4)); auto. apply Forall_forall. auto.
  - intros l _. cbn [s_array omap map jmap]. now rewrite map_same.
  - intros l _. cbn [s_array omap map jmap]. rewrite map_same; [reflexivity|]. now intros [].
  - intros l _. cbn [s_array omap map jmap]. rewrite map_same; [reflexivity|]. now intros [].
  - intros n t g l Hl H. cbn [t_array s_array] in *; repropt. andbs. rewrite !omap_app, optguid_natural. do 2 f_equal. cbn [omap map jmap].
    do 3 f_equal. rewrite map_map. apply map_ext_in. intros v I. rewrite Forall_forall in Hl. rewrite forallb_forall in *.
    rewrite jmap_obj, SV. rewrite Hl; auto.
  - intros t l Hl H. cbn [t_array s_array omap map jmap] in *; repropt. andbs. now rewrite (map_natural (s_prop a b) (s_prop a' b') (t_prop sep)).
  - intros k l _. cbn [s_map]. cbn [omap map]. rewrite jmap_obj. now rewrite entries_same.
  - intros k l _. cbn [s_map]. cbn [omap map]. rewrite jmap_obj. now rewrite entries_same.
  - intros k vt l Hl H. cbn [t_map s_map] in *; repropt. andbs. cbn [omap map]. rewrite jmap_obj.
    now rewrite (entries_natural (s_prop a b) (s_prop a' b') (t_prop sep) is_str).
  - intros l _. cbn [s_map]. cbn [omap map]. rewrite jmap_obj. rewrite entries_same; [reflexivity|]. now intros [].
  - intros kt vt n l Hl H. cbn [t_map s_map] in *; repropt. andbs. cbn [omap map jmap]. do 7 f_equal. rewrite map_map. apply map_ext_in.
    intros [k v] I. rewrite Forall_forall in Hl. rewrite forallb_forall in *.
    match goal with F : forall x, In x l -> _ |- _ => specialize (F _ I); cbn in F; apply andb_true_iff in F as [F1 F2] end.
    destruct (Hl _ I) as [HK HV]. cbn [fst snd] in *. cbn [jmap map]. now rewrite HK, HV.
Qed.
Lemma tree_natural g : t_file sep g = true -> jmap f (to_tree a b g) = to_tree a' b' g.
Proof.
  unfold t_file, to_tree. intros H. andbs. rewrite jmap_obj, omap_app. f_equal. f_equal.
  - now destruct (g_version g).
  - cbn [omap map]. rewrite jmap_obj. rewrite (entries_natural (s_prop a b) (s_prop a' b') (t_prop sep) is_str); auto.
    2:{ apply Forall_forall. intros e _. apply (proj1 prop_natural). }
    do 2 f_equal. unfold e_header. rewrite jmap_obj, !omap_app. do 2 f_equal. f_equal; [now destruct (h_ue5 (g_header g))|].
    cbn [omap map]. rewrite jmap_obj. unfold omap. rewrite map_map. do 2 f_equal. f_equal. do 2 f_equal. apply map_ext. now intros [].
Qed.
End Natural.

(** ** Printing a tree whose floats denote others *)
Section Denoted.
Context (float : Z -> str) (c f : Z -> Z).
Hypothesis FL : forall z, j_ok (JFloat (c z)) = true -> num_text (JFloat (f z)) (float z).
Context (merge : list (str * json) -> list (str * json) -> Prop) (fresh : forall l, distinct str_eqb l = true -> merge l l).
Local Notation json_text := (text_as merge num_text chars).
Local Notation items := (items_as merge num_text chars).
Local Notation members := (members_as merge num_text chars).
Lemma items_mapped (w : json -> str) pre post l : spaces pre -> spaces post -> l <> [] ->
  (forall v, In v l -> json_text (brackets v) (jmap f v) (w v)) ->
  items (list_max (map brackets l)) (map (jmap f) l) (commas (map (fun v => pre ++ w v) l) ++ post).
Proof.
  intros A B N H. induction l as [|v l IH]; [easy|]. destruct l as [|u l].
  - cbn [map commas list_max fold_right]. rewrite Nat.max_0_r, <- app_assoc. apply i_last; [exact A|apply H; now left|exact B].
  - cbn [map]. rewrite commas_cons. change (list_max (brackets v :: brackets u :: map brackets l)) with (Nat.max (brackets v) (list_max (map brackets (u :: l)))).
    rewrite <- !app_assoc. apply (i_more _ _ _ _ pre (w v) []); [exact A|apply H; now left|apply spaces_nil|].
    apply IH; [discriminate|]. intros x I. apply H. now right.
Qed.
Lemma members_mapped (w : json -> str) pre colon post l : spaces pre -> spaces colon -> spaces post -> l <> [] ->
  (forall k v, In (k, v) l -> is_str k = true /\ json_text (brackets v) (jmap f v) (w v)) ->
  members (list_max (map (fun e => brackets (snd e)) l)) (omap f l)
    (commas (map (fun '(k, v) => pre ++ quote k ++ 58 :: colon ++ w v) l) ++ post).
Proof.
  intros A C B N H. induction l as [|[k v] l IH]; [easy|]. destruct (H k v (or_introl eq_refl)) as [K V]. destruct l as [|[k' u] l].
  - cbn [map commas list_max fold_right snd omap]. rewrite Nat.max_0_r. apply m_last.
    replace ((pre ++ quote k ++ 58 :: colon ++ w v) ++ post) with (pre ++ quote k ++ [] ++ 58 :: colon ++ w v ++ post)
      by (rewrite <- !app_assoc; cbn [app]; now rewrite <- !app_assoc).
    apply m_pair; auto using spaces_nil, quote_quoted.
  - cbn [map]. rewrite commas_cons.
    change (list_max (brackets (snd (k, v)) :: brackets (snd (k', u)) :: map (fun e => brackets (snd e)) l))
      with (Nat.max (brackets v) (list_max (map (fun e : str * json => brackets (snd e)) ((k', u) :: l)))).
    change (omap f ((k, v) :: (k', u) :: l)) with ((k, jmap f v) :: omap f ((k', u) :: l)).
    rewrite <- !app_assoc. cbn [app].
    set (r := commas _ ++ post).
    replace (pre ++ quote k ++ 58 :: (colon ++ w v) ++ 44 :: r) with ((pre ++ quote k ++ [] ++ 58 :: colon ++ w v ++ []) ++ 44 :: r)
      by (rewrite <- !app_assoc; cbn [app]; now rewrite <- !app_assoc).
    apply m_more.
    + apply m_pair; auto using spaces_nil, quote_quoted.
    + subst r. apply IH; [discriminate|]. intros x y I. apply H. now right.
Qed.
Lemma array_mapped w pre post l : spaces pre -> spaces post ->
  (forall v, In v l -> json_text (brackets v) (jmap f v) (w v)) ->
  json_text (brackets (JArr l)) (jmap f (JArr l)) (91 :: (match l with [] => [] | _ => commas (map (fun v => pre ++ w v) l) ++ post end) ++ [93]).
Proof.
  intros A B H. destruct l as [|v l]; [apply (t_empty_array []), spaces_nil|]. apply JsonGrammar.t_array. apply items_mapped; auto. discriminate.
Qed.
Lemma object_mapped w pre colon post l : spaces pre -> spaces colon -> spaces post -> distinct str_eqb l = true ->
  (forall k v, In (k, v) l -> is_str k = true /\ json_text (brackets v) (jmap f v) (w v)) ->
  json_text (brackets (JObj l)) (jmap f (JObj l))
    (123 :: (match l with [] => [] | _ => commas (map (fun '(k, v) => pre ++ quote k ++ 58 :: colon ++ w v) l) ++ post end) ++ [125]).
Proof.
  intros A C B D H. destruct l as [|v l]; [apply (t_empty_object []), spaces_nil|].
  eapply (t_object _ _ (omap f (v :: l))); [|apply fresh; rewrite distinct_omap; exact D]. apply members_mapped; auto. discriminate.
Qed.
Lemma scalars_mapped j n : j_ok (jmap c j) = true -> match j with JArr _ | JObj _ => False | _ => True end ->
  json_text (brackets j) (jmap f j) (print float j) /\ pretty float n j = print float j.
Proof.
  intros J S. destruct j as [| b | z | z | s | |]; try easy; (split; [|reflexivity]); cbn [brackets print jmap].
  - constructor.
  - destruct b; constructor.
  - apply t_number, int_text. cbn [j_ok jmap] in J. unfold in_range in J. lia.
  - apply t_number, FL. exact J.
  - apply t_string, quote_quoted, J.
Qed.
Lemma arr_ok l : j_ok (jmap c (JArr l)) = true -> forall v, In v l -> j_ok (jmap c v) = true.
Proof. cbn [jmap j_ok]. intros J v I. rewrite forallb_forall in J. apply J. now apply in_map. Qed.
Lemma obj_ok l : j_ok (jmap c (JObj l)) = true ->
  distinct str_eqb l = true /\ forall k v, In (k, v) l -> is_str k = true /\ j_ok (jmap c v) = true.
Proof.
  rewrite jmap_obj. cbn [j_ok]. intros J. apply andb_true_iff in J as [D J]. rewrite distinct_omap in D. split; [exact D|].
  intros k v I. rewrite forallb_forall in J. specialize (J (k, jmap c v)). cbv beta iota in J. apply andb_true_iff, J.
  unfold omap. apply in_map_iff. now exists (k, v).
Qed.
Lemma print_mapped j : j_ok (jmap c j) = true -> json_text (brackets j) (jmap f j) (print float j).
Proof.
  remember (S (jsize j)) as n eqn:E. assert (L : (jsize j < n)%nat) by lia. clear E. revert j L.
  induction n as [|n IH]; intros j L J; [lia|].
  destruct j as [| b | z | z | s | l | l]; try (now apply (scalars_mapped _ 0%nat)).
  - pose proof (array_mapped (print float) [] [] l spaces_nil spaces_nil) as A. cbn [app] in A. cbn [print].
    replace ([91] ++ commas (map (print float) l) ++ [93]) with (91 :: match l with [] => [] | _ => commas (map (print float) l) ++ [] end ++ [93])
      by (destruct l; [reflexivity|now rewrite app_nil_r]).
    apply A. intros v I. pose proof (arr_smaller v l I). apply IH; [lia|]. now apply (arr_ok l).
  - apply obj_ok in J as [D J].
    pose proof (object_mapped (print float) [] [] [] l spaces_nil spaces_nil spaces_nil D) as A. cbn [app] in A. cbn [print].
    change (map (fun '(k, v) => quote k ++ [58] ++ print float v) l) with (map (fun '(k, v) => quote k ++ 58 :: print float v) l).
    replace ([123] ++ commas (map (fun '(k, v) => quote k ++ 58 :: print float v) l) ++ [125])
      with (123 :: match l with [] => [] | _ => commas (map (fun '(k, v) => quote k ++ 58 :: print float v) l) ++ [] end ++ [125])
      by (destruct l; [reflexivity|now rewrite app_nil_r]).
    apply A. intros k v I. pose proof (obj_smaller k v l I). destruct (J _ _ I) as [J1 J2]. split; [exact J1|]. apply IH; [lia|exact J2].
Qed.
Lemma pretty_mapped j : j_ok (jmap c j) = true -> forall n, json_text (brackets j) (jmap f j) (pretty float n j).
Proof.
  remember (S (jsize j)) as k eqn:E. assert (L : (jsize j < k)%nat) by lia. clear E. revert j L.
  induction k as [|k IH]; intros j L J n; [lia|].
  destruct j as [| b | z | z | s | l | l]; try (now destruct (scalars_mapped _ n J I) as [X ->]).
  - cbn [pretty]. change ([91] ++ block n (map (pretty float (S n)) l) ++ [93]) with (91 :: block n (map (pretty float (S n)) l) ++ [93]).
    replace (block n (map (pretty float (S n)) l))
      with (match l with [] => [] | _ => commas (map (fun v => indent (S n) ++ pretty float (S n) v) l) ++ indent n end)
      by (destruct l as [|x l]; [reflexivity|]; unfold block; cbn [map]; now rewrite map_map).
    apply array_mapped; [apply indent_spaces..|].
    intros v I. pose proof (arr_smaller v l I). apply IH; [lia|]. now apply (arr_ok l).
  - apply obj_ok in J as [D J]. cbn [pretty].
    set (g := fun '(k, v) => quote k ++ s2z ": " ++ pretty float (S n) v).
    change ([123] ++ block n (map g l) ++ [125]) with (123 :: block n (map g l) ++ [125]).
    replace (block n (map g l))
      with (match l with [] => [] | _ => commas (map (fun '(k, v) => indent (S n) ++ quote k ++ 58 :: [32] ++ pretty float (S n) v) l) ++ indent n end).
    2:{ destruct l as [|x l]; [reflexivity|]. unfold block. cbn [map]. rewrite map_map. f_equal. f_equal. f_equal; [now destruct x|].
        apply map_ext. now intros []. }
    apply object_mapped; [apply indent_spaces|repeat constructor; cbn; tauto|apply indent_spaces|exact D|].
    intros q v I. pose proof (obj_smaller q v l I). destruct (J _ _ I) as [J1 J2]. split; [exact J1|]. apply IH; [lia|exact J2].
Qed.
End Denoted.
