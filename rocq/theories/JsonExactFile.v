(** Reading JSON follows the rules of JsonDoc.v exactly: headers and files. *)
From Coq Require Import ZArith List Bool String Lia ZifyBool ZifyNat.
From Verif Require Import Base Str Types Versions Text Props File Spec BaseFacts MapFacts OrderThm EqFacts
  Guid Json JsonSpec JsonText JsonProp JsonFile JsonBack JsonPanic JsonThm Nearest GrammarText GrammarFile JsonForm JsonDoc
  JsonExact JsonExactProp.
Import ListNotations.
Open Scope Z_scope.

Section File.
Context (hp : hashing) (merge : list (property * property) -> list (property * property) -> Prop).
Context (merged : forall l m, merge l m <-> m = m_insert hp l).
Lemma top_exact n : exactly n (d_property hp) (top_doc merge n).
Proof.
  intros j S M p. unfold d_property, top_doc. rewrite <- (prop_exact hp merge merged n j S M p).
  destruct (tag_number j) eqn:E.
  - split; [discriminate|]. intros [_ N]. exfalso. apply N. unfold tag_number in E.
    destruct j as [| | | | |[|[] l]|o]; try discriminate.
    + eexists. right. eexists. reflexivity.
    + destruct (get _ (s2z "type") o) as [[]|] eqn:G; try discriminate. apply get_in in G as (j & I & ->).
      eexists. left. eexists. split; [reflexivity|exact I].
  - split; [|tauto]. intros H. split; [exact H|]. intros (z & [(o & -> & I)|(l & ->)]); [|discriminate].
    cbn [tag_number] in E. cbn [d_prop] in H. apply d_once_ok in H as [U _].
    assert (G : get (fun v => v) (s2z "type") o = Some (JInt z)).
    { apply get_iff; [eapply unrepeated_in; [exact U|now left]|]. exists (JInt z). now split. }
    rewrite G in E. discriminate.
Qed.
Lemma engine_exact n : exactly n d_engine engine_doc.
Proof.
  apply (struct_exact n ["major"; "minor"; "patch"; "change_list"; "branch"]%string _ (fun e o =>
    has (unsigned 2) "major" o (fe_major e) /\ has (unsigned 2) "minor" o (fe_minor e)
    /\ has (unsigned 2) "patch" o (fe_patch e) /\ has (unsigned 4) "change_list" o (fe_change e)
    /\ has is_text "branch" o (fe_branch e))); [reflexivity|]. intros o O U [a b c d e]. split.
  - intros H. do 5 (apply jbind_ok in H as (? & ? & H)). injection H as <- <- <- <- <-. reads O U. repeat split; assumption.
  - cbn [fe_major fe_minor fe_patch fe_change fe_branch]. intros (H1 & H2 & H3 & H4 & H5). writes O U. reflexivity.
Qed.
Lemma guidkeys_iff l : forall q, d_guidkeys l = JOk q <-> Forall2 (fun x y => guid_parse (fst y) = Parsed (fst x) /\ snd x = snd y) q l.
Proof.
  induction l as [|[s v] l IH]; intros q; cbn [d_guidkeys].
  - split; [intros H; injection H as <-; constructor|]. intros H. inversion H. reflexivity.
  - rewrite jbind_iff. split.
    + intros (g & E & H). apply jbind_ok in H as (r & F & H). injection H as <-. apply guidstr_iff in E.
      constructor; [now split|]. now apply IH.
    + intros H. inversion H as [|[g w] ? r ? [H1 H2] H3]; subst. cbn [fst snd] in *. subst w. exists g. split; [now apply guidstr_iff|].
      apply jbind_iff. exists r. split; [now apply IH|reflexivity].
Qed.
Lemma versions_exact n : exactly n d_versions versions_doc.
Proof.
  intros j S M vs. destruct j as [| | | | | |o]; cbn [d_versions]; try (split; [discriminate|intros (? & ? & H & _); discriminate]).
  pose proof (sobj_less _ _ S M) as O. split.
  - intros H. apply jbind_ok in H as (l & E & H). apply jbind_ok in H as (q & F & H). injection H as <-.
    apply (entries_iff n d_u32 _ o (u32_exact n) O) in E. apply guidkeys_iff in F. exists o, q. split; [reflexivity|].
    split; [|now apply collapsed_guid_eq]. clear - E F. revert l F E. generalize o. clear.
    induction q as [|[g v] q IH]; intros o l F E; inversion F as [|? [k w] ? l' [F1 F2] F3]; subst; inversion E as [|? [k' j] ? o' [E1 E2] E3]; subst; constructor.
    + cbn [fst snd] in *. subst. now split.
    + now apply (IH o' l').
  - intros (o' & q & E & F & C). injection E as <-. apply collapsed_guid_eq in C. subst vs.
    assert (W : exists l, d_entries d_u32 o = JOk l /\ d_guidkeys l = JOk q).
    { exists (combine (map fst o) (map snd q)). split.
      - apply (entries_iff n d_u32 _ o (u32_exact n) O). clear - F. induction F as [|[g v] [k j] q o [F1 F2] F IH]; cbn [map combine fst snd]; constructor; auto.
      - apply guidkeys_iff. clear - F. induction F as [|[g v] [k j] q o [F1 F2] F IH]; cbn [map combine fst snd]; constructor; auto. }
    destruct W as (l & W1 & W2). rewrite W1. cbn [jbind]. rewrite W2. reflexivity.
Qed.
Ltac head_exactly := idtac; lazymatch goal with
  | |- exactly _ d_engine _ => apply engine_exact
  | |- exactly _ d_versions _ => apply versions_exact
  | _ => leaf_exactly
  end.
Definition ue5_of (t : Z) : bool := negb (t =? 0).
Lemma version_iff n t o h : sobj n o -> unrepeated (map s2z (header_names (ue5_of t))) o = true ->
  d_version t o = JOk h <-> (if h_ue5 h then true else false) = ue5_of t /\ header_fields_doc h o.
Proof.
  intros O U. unfold d_version, ue5_of, header_fields_doc in *. destruct (t =? 0) eqn:E; cbn [negb] in *.
  - unfold header_names in U. cbn [app] in U. split.
    + intros H. reads_by head_exactly O U. cbn [h_ue5 h_package h_engine h_format h_versions h_class]. split; [reflexivity|].
      repeat (split; [first [assumption|exact I]|]). assumption.
    + destruct h as [p u e f vs c]. cbn [h_ue5 h_package h_engine h_format h_versions h_class].
      destruct u; [intros [H _]; discriminate|]. intros (_ & H1 & _ & H2 & H3 & H4 & H5). writes_by head_exactly O U. cbn [jbind].
      writes_by head_exactly O U. reflexivity.
  - unfold header_names in U. cbn [app] in U. split.
    + intros H. reads_by head_exactly O U. cbn [h_ue5 h_package h_engine h_format h_versions h_class]. split; [reflexivity|].
      repeat (split; [assumption|]). assumption.
    + destruct h as [p u e f vs c]. cbn [h_ue5 h_package h_engine h_format h_versions h_class].
      destruct u as [u|]; [|intros [H _]; discriminate]. intros (_ & H1 & H0 & H2 & H3 & H4 & H5). writes_by head_exactly O U.
      apply jbind_iff. exists (Some u). split; [writes_by head_exactly O U; reflexivity|]. writes_by head_exactly O U. reflexivity.
Qed.
Lemma tag_iff j t : d_name [s2z "Version2"; s2z "Version3"] j = JOk t <->
  (t = 0 \/ t = 1) /\ j = txt (if ue5_of t then "Version3" else "Version2").
Proof.
  change [s2z "Version2"; s2z "Version3"] with (words [(0, "Version2"); (1, "Version3")]%string).
  rewrite name_iff by (vm_compute; reflexivity). split.
  - intros (s & [I|[I|[]]] & ->); injection I as <- <-; auto.
  - intros [[->| ->] ->]; eexists; (split; [|reflexivity]); cbn [In]; auto.
Qed.
Lemma header_exact n : exactly n d_header header_doc.
Proof.
  intros j S M h. destruct j as [| | | | |l|o]; cbn [d_header]; cbv zeta; try (split; [discriminate|intros H; inversion H]).
  - destruct l as [|x l]; [split; [discriminate|intros H; inversion H]|].
    assert (L : forall j, In j (x :: l) -> (jsize j < n)%nat /\ mild j) by (apply arr_mild; auto).
    assert (W : forall t, listed (header_fields t) (d_version t) l = JOk h <->
      List.length l = List.length (header_names (ue5_of t)) /\ (if h_ue5 h then true else false) = ue5_of t
      /\ header_fields_doc h (combine (map s2z (header_names (ue5_of t))) l)).
    { intros t. replace (header_fields t) with (map s2z (header_names (ue5_of t))) by (unfold header_fields, ue5_of; now destruct (t =? 0)).
      apply (listed_iff n (header_names (ue5_of t)) (d_version t)
        (fun o => (if h_ue5 h then true else false) = ue5_of t /\ header_fields_doc h o)).
      - unfold ue5_of. now destruct (t =? 0).
      - intros j I. apply L. now right.
      - intros o O U. now apply (version_iff n). }
    split.
    + intros H. apply jbind_ok in H as (t & K & H). apply W in H as (E & V & H). apply tag_iff in K as [_ ->]. rewrite <- V in *.
      now apply (HeaderArr h l).
    + intros H. inversion H as [|h' l' v E F]; subst. set (t := if h_ue5 h then 1 else 0).
      assert (V : v = ue5_of t) by (unfold v, t; now destruct (h_ue5 h)).
      apply jbind_iff. exists t. split.
      * apply tag_iff. split; [unfold t; destruct (h_ue5 h); auto|]. now rewrite <- V.
      * apply W. rewrite <- V. split; [exact E|]. split; [reflexivity|exact F].
  - pose proof (sobj_less _ _ S M) as O. split.
    + intros H. apply d_once_ok in H as [U H]. apply jbind_ok in H as (t & K & H). apply d_once_ok in H as [V H].
      replace (header_fields t) with (map s2z (header_names (ue5_of t))) in V by (unfold header_fields, ue5_of; now destruct (t =? 0)).
      apply (version_iff n) in H as [E H]; auto.
      unfold need in K. destruct (get _ (s2z "type") o) eqn:G; [|discriminate]. subst. apply get_in in G as (x & I & K).
      apply tag_iff in K as [_ ->]. rewrite <- E in *.
      apply (HeaderObj h o); [|exact I|exact H]. apply once_iff. unfold unrepeated in *. cbn [map forallb] in *. rewrite !andb_true_iff in *. tauto.
    + intros H. inversion H as [h' o' v U K F|]; subst. set (t := if h_ue5 h then 1 else 0).
      assert (V : v = ue5_of t) by (unfold v, t; now destruct (h_ue5 h)). apply once_iff in U.
      assert (U' : unrepeated [s2z "type"] o = true /\ unrepeated (map s2z (header_names (ue5_of t))) o = true).
      { rewrite <- V. unfold unrepeated in *. cbn [map forallb] in *. rewrite !andb_true_iff in *. tauto. }
      destruct U' as [U1 U2]. unfold d_once. rewrite U1.
      assert (N : need (d_name [s2z "Version2"; s2z "Version3"]) (s2z "type") o = JOk t).
      { unfold need. assert (G : get (d_name [s2z "Version2"; s2z "Version3"]) (s2z "type") o = Some (JOk t)); [|now rewrite G].
        apply get_iff; [eapply unrepeated_in; [exact U1|now left]|]. eexists. split; [exact K|]. apply tag_iff.
        split; [unfold t; destruct (h_ue5 h); auto|]. now rewrite <- V. }
      rewrite N. cbn [jbind]. replace (header_fields t) with (map s2z (header_names (ue5_of t))) by (unfold header_fields, ue5_of; now destruct (t =? 0)).
      rewrite U2. apply (version_iff n); auto.
Qed.
Lemma ctype_exact n : exactly n d_ctype (unit_doc compressions).
Proof.
  intros j S M c. unfold d_ctype. rewrite jbind_iff. change (map ctype_name ctypes) with (words [(0, "None"); (1, "Zlib"); (2, "ZlibTwice")]%string).
  pose proof (fun z => proj1 (unit_exact n [(0, "None"); (1, "Zlib"); (2, "ZlibTwice")]%string eq_refl eq_refl) j S M z) as K. split.
  - intros (z & E & H). injection H as <-. apply K in E as (s & I & F). exists s. split; [|exact F].
    destruct I as [I|[I|[I|[]]]]; injection I as <- <-; cbn [compressions In Z.eqb]; auto.
  - intros (s & I & F). destruct I as [I|[I|[I|[]]]]; injection I as <- <-; [exists 0|exists 1|exists 2]; (split; [|reflexivity]); apply K; eexists;
      (split; [|exact F]); cbn [In]; auto.
Qed.
Lemma game_exact n : exactly n d_dversion game_doc.
Proof.
  intros j S M v.
  assert (D : forall v, (_z <~ d_unit false [s2z "Default"] j ;; JOk DDefault) = JOk v <-> v = DDefault /\ unit_doc [(DDefault, "Default"%string)] DDefault j).
  { intros w. pose proof (fun z => proj1 (unit_exact n [(0, "Default")]%string eq_refl eq_refl) j S M z) as K. rewrite jbind_iff. split.
    - intros (z & E & H). injection H as <-. apply K in E as (s & [I|[]] & F). injection I as <- <-. split; [reflexivity|]. eexists. split; [now left|exact F].
    - intros (-> & s & [I|[]] & F). injection I as <-. exists 0. split; [|reflexivity]. apply K. eexists. split; [now left|exact F]. }
  assert (N : (forall k x, j <> JObj [(k, x)]) -> (_z <~ d_name [s2z "Default"] j ;; JOk DDefault) = JOk v <-> game_doc v j).
  { intros Nj. assert (E : d_name [s2z "Default"] j = d_unit false [s2z "Default"] j).
    { destruct j as [| | | | | |[|[k x] [|? ?]]]; try reflexivity; [now exfalso; apply (Nj k x)|]. cbn [d_unit]. now destruct x as [| | | | | |[]]. }
    rewrite E, D. split; [intros [-> H]; now constructor|]. intros H. destruct H as [j H|c j H]; [now split|]. now exfalso; apply (Nj (s2z "Palworld") j). }
  destruct j as [| | | | | |[|[k x] [|e o]]]; try (apply N; discriminate). cbn [d_dversion].
  destruct (str_eqb k (s2z "Palworld")) eqn:E.
  - apply str_eqb_eq in E. subst k. pose proof (sobj_less _ _ S M) as O. destruct (O _ x (or_introl eq_refl)) as (Sx & Mx & _).
    rewrite jbind_iff. split.
    + intros (c & K & H). injection H as <-. constructor. now apply (ctype_exact n).
    + intros H. inversion H as [? (s & [I|[]] & F)|c ? F]; subst; [injection I as <-; destruct F; discriminate|].
      exists c. split; [now apply (ctype_exact n)|reflexivity].
  - rewrite D. split; [intros [-> H]; now constructor|]. intros H. inversion H as [? F|c ? F]; subst; [now split|].
    discriminate E.
Qed.
Ltac file_exactly := idtac; lazymatch goal with
  | |- exactly _ d_header _ => apply header_exact
  | |- exactly _ d_dversion _ => apply game_exact
  | |- exactly _ (d_property _) _ => apply top_exact
  end.
Lemma file_exact n : exactly n (from_json hp) (file_doc merge n).
Proof.
  apply (struct_exact n ["deserialized_game_version"; "header"; "properties"]%string _ (fun g o =>
    has_or game_doc DDefault "deserialized_game_version" o (g_version g)
    /\ has header_doc "header" o (g_header g) /\ has (map_doc (top_doc merge n)) "properties" o (g_props g))); [reflexivity|].
  intros o O U [v h l]. split.
  - intros H. do 3 (apply jbind_ok in H as (? & ? & H)). injection H as <- <- <-. reads_by file_exactly O U. repeat split; assumption.
  - cbn [g_version g_header g_props]. intros (H1 & H2 & H3). writes_by file_exactly O U. reflexivity.
Qed.
End File.

(** Without hash collisions, equal keys are collapsed. *)
Lemma calm_collapsed hp l m : calm hp -> collapsed same l m <-> m = m_insert hp l.
Proof.
  intros C.
  assert (E : forall l, collapsed same l (m_insert hp l)).
  { clear l m. intros l. assert (E : m_insert hp l = ins_all same l).
    2:{ rewrite E. apply ins_all_collapsed; [exact same_rf|exact same_sy|exact same_tr]. }
    induction l as [|[k v] l IH] using rev_ind; [reflexivity|]. rewrite ins_all_snoc. unfold m_insert. rewrite fold_left_app. cbn [fold_left fst snd].
    fold (m_insert hp l). rewrite IH.
    pose proof (ins_all_collapsed same same_rf same_sy same_tr l) as K. pose proof (collapsed_keys _ _ _ K) as CK.
    apply mins_ins; [rewrite CK; apply (firsts_apart _ same_sy same_tr)|]. left. intros i. apply C. }
  split; [|intros ->; apply E]. intros H. exact (collapsed_unique same _ _ _ H (E l)).
Qed.
Lemma from_json_exact hp n j g : calm hp -> mild j -> (jsize j < n)%nat ->
  from_json hp j = JOk g <-> file_doc (collapsed same) n g j.
Proof. intros C M S. apply (file_exact hp (collapsed same)); auto. intros l m. now apply calm_collapsed. Qed.
