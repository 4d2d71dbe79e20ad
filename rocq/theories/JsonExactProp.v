(** Reading JSON follows the rules of JsonDoc.v exactly: properties. *)
From Coq Require Import ZArith List Bool String Lia ZifyBool ZifyNat.
From Verif Require Import Base Str Types Versions Text Props File Spec BaseFacts MapFacts
  Guid Json JsonSpec JsonText JsonProp JsonBack JsonPanic Nearest GrammarText GrammarFile JsonForm JsonDoc JsonExact.
Import ListNotations.
Open Scope Z_scope.

(** ** Alternatives *)
Lemma once_alt {A} names o (r : jres A) a (P : Prop) : (unrepeated (map s2z names) o = true -> r = JOk a <-> P) ->
  d_once (map s2z names) o r = JOk a <-> once names o /\ P.
Proof.
  intros H. rewrite once_iff. unfold d_once. destruct (unrepeated (map s2z names) o).
  - rewrite H by reflexivity. tauto.
  - split; [discriminate|]. intros [X _]. discriminate.
Qed.
Lemma first_iff {A} o (rs : list (jres A)) (Rs : list (A -> fields -> Prop)) :
  Forall2 (fun r R => r <> JPanic /\ forall a, r = JOk a <-> R a o) rs Rs ->
  forall a, first_of rs = JOk a <-> first_rule Rs a o.
Proof.
  induction 1 as [|r R rs Rs [NP X] F IH]; intros a; cbn [first_of].
  - split; [discriminate|]. intros (b & Q & c & E & _). now destruct b.
  - destruct r as [x| |]; [| |congruence].
    + split.
      * intros H. injection H as <-. exists [], R, Rs. split; [reflexivity|]. split; [now apply X|]. intros Q y [].
      * intros (b & Q & c & E & H & N). destruct b as [|Q' b]; injection E as <- E.
        -- now apply X.
        -- exfalso. apply (N R x); [now left|]. now apply X.
    + rewrite IH. split.
      * intros (b & Q & c & -> & H & N). exists (R :: b), Q, c. split; [reflexivity|]. split; [exact H|].
        intros Q' y [<-|I]; [|now apply N]. intros Y. apply X in Y. discriminate.
      * intros (b & Q & c & E & H & N). destruct b as [|Q' b]; injection E as <- E.
        -- apply X in H. discriminate.
        -- exists b, Q, c. split; [exact E|]. split; [exact H|]. intros Q' y I. apply N. now right.
Qed.
Section Named.
Context {A : Type} (f : str -> json -> option (jres A)) (V : A -> string -> json -> Prop) (names : list string).
Context (none : forall k v, f k v = None <-> forall s, In s names -> k <> s2z s).
Context (among : forall a s v, V a s v -> In s names).
Lemma flat_iff o : (forall k v, In (k, v) o -> forall a, f k v = Some (JOk a) <-> exists s, k = s2z s /\ V a s v) ->
  forall a, flat f o = JOk a <-> exists s x, first_named names o s x /\ V a s x.
Proof.
  intros X a. split.
  - induction o as [|[k v] o IH]; cbn [flat]; [discriminate|]. destruct (f k v) as [r|] eqn:E.
    + intros ->. apply X in E as (s & -> & H); [|now left]. exists s, v. split; [|exact H].
      split; [eapply among, H|]. exists [], o. split; [reflexivity|]. intros ? ? ? _ [].
    + intros H. destruct IH as (s & x & (I & b & c & -> & N) & H'); [intros; apply X; now right|exact H|].
      exists s, x. split; [|exact H']. split; [exact I|]. exists ((k, v) :: b), c. split; [reflexivity|].
      intros t w y It [Y|Y]; [|now apply (N t w)]. injection Y as <- <-. now apply (proj1 (none k v) E).
  - intros (s & x & (I & b & c & -> & N) & H). induction b as [|[k v] b IH]; cbn [flat app].
    + assert (E : f (s2z s) x = Some (JOk a)) by (apply X; [now left|now exists s]). now rewrite E.
    + assert (E : f k v = None). { apply none. intros t It. apply (N t v k It). now left. }
      rewrite E. apply IH; [intros k' v' I'; apply X; now right|]. intros t w y It Iy. apply (N t w y It). now right.
Qed.
Lemma single_iff o tag : (forall k v, In (k, v) o -> forall a, f k v = Some (JOk a) <-> exists s, k = s2z s /\ V a s v) ->
  forall a, single (besides f (s2z tag) o) = JOk a <-> exists s x, only_besides tag o (s2z s) x /\ V a s x.
Proof.
  intros X a.
  assert (N : forall o, besides f (s2z tag) o = [] <-> forall x w, In (x, w) o -> x = s2z tag).
  { clear. induction o as [|[k v] o IH]; cbn [besides]; [split; [intros _ x w []|reflexivity]|].
    destruct (str_eqb k (s2z tag)) eqn:E.
    - apply str_eqb_eq in E. subst k. rewrite IH. split; intros H x w I; [|apply (H x w); now right].
      destruct I as [I|I]; [now injection I as <- _|now apply (H x w)].
    - split; [discriminate|]. intros H. rewrite (H k v (or_introl eq_refl)), str_eqb_refl in E. discriminate. }
  split.
  - induction o as [|[k v] o IH]; cbn [besides]; [discriminate|]. destruct (str_eqb k (s2z tag)) eqn:E.
    + apply str_eqb_eq in E. subst k. intros H.
      destruct IH as (s & x & (D & b & c & -> & K) & H'); [intros; apply X; now right|exact H|].
      exists s, x. split; [|exact H']. split; [exact D|]. exists (tag ↦ v :: b), c. split; [reflexivity|].
      intros y w [Y|Y]; [now injection Y as <- _|now apply (K y w)].
    + destruct (f k v) as [r|] eqn:F; cbn [single]; [|discriminate].
      destruct (besides f (s2z tag) o) eqn:B; [|discriminate]. intros ->. apply X in F as (s & -> & H); [|now left].
      exists s, v. split; [|exact H]. split.
      * intros Y. rewrite Y, str_eqb_refl in E. discriminate.
      * exists [], o. split; [reflexivity|]. now apply N.
  - intros (s & x & (D & b & c & -> & K) & H). induction b as [|[k v] b IH]; cbn [besides app].
    + assert (E : str_eqb (s2z s) (s2z tag) = false).
      { destruct (str_eqb (s2z s) (s2z tag)) eqn:E; [|reflexivity]. apply str_eqb_eq in E. contradiction. }
      assert (F : f (s2z s) x = Some (JOk a)) by (apply X; [now left|now exists s]).
      rewrite E, F, (proj2 (N c)); [reflexivity|]. exact K.
    + rewrite (K k v (or_introl eq_refl)), str_eqb_refl. apply IH; [intros k' v' I'; apply X; now right|].
      intros y w I. apply (K y w). now right.
Qed.
End Named.

(** ** Struct values *)
Lemma fields_iff n o tbl : sobj n o -> unrepeated (map s2z (map fst tbl)) o = true ->
  forall l, d_fields (map s2z (map fst tbl)) (map snd tbl) o = JOk l <-> parts_doc tbl l o.
Proof.
  intros O. induction tbl as [|[k t] tbl IH]; intros U l; cbn [map fst snd d_fields].
  - split; [intros H; injection H as <-; constructor|]. intros H. inversion H. reflexivity.
  - assert (T : (times (s2z k) o <= 1)%nat) by (eapply unrepeated_in; [exact U|now left]).
    assert (U' : unrepeated (map s2z (map fst tbl)) o = true).
    { unfold unrepeated in *. cbn [map fst forallb] in U. now apply andb_true_iff in U. }
    specialize (IH U'). split.
    + intros H. apply jbind_ok in H as (z & E & H). apply jbind_ok in H as (r & F & H). injection H as <-.
      constructor; [|now apply IH]. now apply (need_iff n (d_num t) _ k o z (num_exact n t)) in E.
    + intros H. inversion H as [|? ? ? z r ? E F]; subst.
      apply (step_need n _ _ _ _ _ _ _ (num_exact n t) O T E). apply IH in F. now rewrite F.
Qed.
Lemma fixed_fields x : field_names x = map s2z (map fst (snd (fixed_table x))) /\ layout x = map snd (snd (fixed_table x))
  /\ fixed_variant x = s2z (fst (fixed_table x)) /\ good_names (map fst (snd (fixed_table x))) = true.
Proof. destruct x; repeat split. Qed.
Lemma fixed_exact n x : exactly n (d_fixed x) (fun v j => exists l, v = SFixed x l
  /\ record (map fst (snd (fixed_table x))) (parts_doc (snd (fixed_table x)) l) j).
Proof.
  destruct (fixed_fields x) as (E1 & E2 & _ & G). unfold d_fixed. rewrite E1, E2.
  intros j S M v. pose proof (struct_exact n (map fst (snd (fixed_table x)))
    (fun o => l <~ d_fields (map s2z (map fst (snd (fixed_table x)))) (map snd (snd (fixed_table x))) o ;; JOk (SFixed x l))
    (fun v o => exists l, v = SFixed x l /\ parts_doc (snd (fixed_table x)) l o) G) as X.
  eapply iff_trans; [apply X; auto|].
  2: split.
  2: { intros H. destruct H as [o U (l & -> & H)|a L (l & -> & H)]; exists l; (split; [reflexivity|]); now constructor. }
  2: { intros (l & -> & H). destruct H as [o U H|a L H]; constructor; auto; now exists l. }
  - intros o O U a. rewrite jbind_iff. split.
    + intros (l & E & H). injection H as <-. exists l. split; [reflexivity|]. now apply (fields_iff n).
    + intros (l & -> & H). exists l. split; [|reflexivity]. now apply (fields_iff n).
Qed.
Lemma find_fixed k : match find (fun x => str_eqb k (fixed_variant x)) fixeds with
  | Some x => k = fixed_variant x | None => forall x, k <> fixed_variant x end.
Proof.
  destruct (find _ fixeds) as [x|] eqn:E.
  - apply find_some in E as [_ E]. now apply str_eqb_eq.
  - intros x ->. assert (I : In x fixeds) by (destruct x; cbn [fixeds In]; auto 13).
    apply (find_none _ _ E) in I. rewrite str_eqb_refl in I. discriminate.
Qed.
Lemma variant_inj x y : fixed_variant x = fixed_variant y -> x = y.
Proof. destruct x, y; intros H; first [reflexivity|discriminate H]. Qed.
Lemma value_among R v s j : value_doc R v s j -> In s value_names.
Proof.
  unfold value_names. intros H. apply in_app_iff. destruct H as [x l j H|g j H|l j H|l j H];
    [left|right; cbn [In]; auto..].
  apply (in_map (fun x => fst (fixed_table x))). destruct x; cbn [all_fixed In]; auto 13.
Qed.
Lemma svariant_none dp k v : d_svariant dp k v = None <-> forall s, In s value_names -> k <> s2z s.
Proof.
  unfold d_svariant. pose proof (find_fixed k) as F. destruct (find _ fixeds) as [x|].
  - split; [discriminate|]. intros H. exfalso. apply (H (fst (fixed_table x))); [|subst k; apply fixed_fields].
    unfold value_names. apply in_app_iff. left. apply (in_map (fun x => fst (fixed_table x))). destruct x; cbn [all_fixed In]; auto 13.
  - split.
    + destruct (str_eqb k (s2z "Guid")) eqn:E1; [discriminate|]. destruct (str_eqb k (s2z "GameplayTagContainer")) eqn:E2; [discriminate|].
      destruct (str_eqb k (s2z "CustomStruct")) eqn:E3; [discriminate|]. intros _ s I.
      unfold value_names in I. apply in_app_iff in I as [I|I].
      * apply in_map_iff in I as (x & <- & _). rewrite <- (proj1 (proj2 (proj2 (fixed_fields x)))). apply F.
      * intros ->. destruct I as [<-|[<-|[<-|[]]]]; rewrite str_eqb_refl in *; discriminate.
    + intros H. assert (W : forall s, In s ["Guid"; "GameplayTagContainer"; "CustomStruct"]%string -> str_eqb k (s2z s) = false).
      { intros s I. destruct (str_eqb k (s2z s)) eqn:E; [|reflexivity]. apply str_eqb_eq in E. exfalso. apply (H s); [|exact E].
        unfold value_names. apply in_app_iff. now right. }
      rewrite !W; cbn [In]; auto.
Qed.
Lemma svariant_iff n dp R k j v : exactly n dp R -> (jsize j < n)%nat -> mild j ->
  d_svariant dp k j = Some (JOk v) <-> exists s, k = s2z s /\ value_doc R v s j.
Proof.
  intros X S M. pose proof (find_fixed k) as F. unfold d_svariant. split.
  - destruct (find _ fixeds) as [x|].
    + subst k. intros H. injection H as H. apply (fixed_exact n x j S M) in H as (l & -> & H).
      exists (fst (fixed_table x)). split; [apply fixed_fields|now constructor].
    + destruct (str_eqb k (s2z "Guid")) eqn:E; [|clear E; destruct (str_eqb k (s2z "GameplayTagContainer")) eqn:E;
        [|clear E; destruct (str_eqb k (s2z "CustomStruct")) eqn:E; [|discriminate]]];
        apply str_eqb_eq in E; subst k; intros H; injection H as H; apply jbind_ok in H as (x & E & H); injection H as <-;
        eexists; (split; [reflexivity|]); constructor.
      * now apply (guid_exact n).
      * now apply (list_exact n d_str is_text (str_exact n)).
      * now apply (map_exact n (d_list dp) _ (list_exact n dp R X)).
  - intros (s & -> & H). destruct H as [x l j H|g j H|l j H|l j H].
    + assert (E : find (fun y => str_eqb (s2z (fst (fixed_table x))) (fixed_variant y)) fixeds = Some x).
      { pose proof (proj1 (proj2 (proj2 (fixed_fields x)))) as E. destruct (find _ fixeds) as [y|].
        - f_equal. apply variant_inj. congruence.
        - exfalso. apply (F x). now symmetry. }
      rewrite E. f_equal. apply (fixed_exact n x j S M). now exists l.
    + change (Some (g <~ d_guid j ;; JOk (SGuid g)) = Some (JOk (SGuid g))). f_equal. apply jbind_iff. exists g.
      split; [now apply (guid_exact n)|reflexivity].
    + change (Some (l <~ d_list d_str j ;; JOk (STags l)) = Some (JOk (STags l))). f_equal. apply jbind_iff. exists l.
      split; [now apply (list_exact n d_str is_text (str_exact n))|reflexivity].
    + change (Some (l <~ d_map (d_list dp) j ;; JOk (SCustom l)) = Some (JOk (SCustom l))). f_equal. apply jbind_iff. exists l.
      split; [now apply (map_exact n (d_list dp) _ (list_exact n dp R X))|reflexivity].
Qed.
Lemma sval_exact n dp R : exactly n dp R -> exactly n (d_sval dp) (element_doc R).
Proof.
  intros X j S M v. destruct j as [| | | | | |o]; try (split; [discriminate|intros (? & ? & H & _); discriminate]).
  destruct o as [|[k j] [|e o]]; try (split; [discriminate|intros (? & ? & H & _); discriminate]). cbn [d_sval single].
  pose proof (sobj_less _ _ S M) as O. destruct (O k j (or_introl eq_refl)) as (S' & M' & _).
  pose proof (svariant_iff n dp R k j v X S' M') as K. split.
  - intros H. destruct (d_svariant dp k j) as [r|]; [|discriminate]. subst r. destruct (proj1 K eq_refl) as (s & -> & H).
    exists s, j. now split.
  - intros (s & x & E & H). injection E as -> ->. rewrite (proj2 K); [reflexivity|]. now exists s.
Qed.
Lemma bytev_none k v : d_bytev k v = None <-> forall s, In s ["Byte"; "Namespaced"]%string -> k <> s2z s.
Proof.
  unfold d_bytev. split.
  - destruct (str_eqb k (s2z "Byte")) eqn:E1; [discriminate|]. destruct (str_eqb k (s2z "Namespaced")) eqn:E2; [discriminate|].
    intros _ s I ->. destruct I as [<-|[<-|[]]]; rewrite str_eqb_refl in *; discriminate.
  - intros H. assert (W : forall s, In s ["Byte"; "Namespaced"]%string -> str_eqb k (s2z s) = false).
    { intros s I. destruct (str_eqb k (s2z s)) eqn:E; [|reflexivity]. apply str_eqb_eq in E. exfalso. now apply (H s). }
    rewrite !W; cbn [In]; auto.
Qed.
Inductive bytev_doc : bytev -> string -> json -> Prop :=
| BdByte b j : byte_doc b j -> bytev_doc (BByte b) "Byte" j
| BdName s j : is_text s j -> bytev_doc (BName s) "Namespaced" j.
Lemma bytev_iff n k j v : (jsize j < n)%nat -> mild j -> d_bytev k j = Some (JOk v) <-> exists s, k = s2z s /\ bytev_doc v s j.
Proof.
  intros S M. unfold d_bytev. split.
  - destruct (str_eqb k (s2z "Byte")) eqn:E; [|clear E; destruct (str_eqb k (s2z "Namespaced")) eqn:E; [|discriminate]];
      apply str_eqb_eq in E; subst k; intros H; injection H as H; apply jbind_ok in H as (x & E & H); injection H as <-;
      eexists; (split; [reflexivity|]); constructor; [now apply (byte_exact n)|now apply (str_exact n)].
  - intros (s & -> & H). destruct H as [b j H|s j H]; key_tests; f_equal; apply jbind_iff; eexists; (split; [|reflexivity]);
      [now apply (byte_exact n)|now apply (str_exact n)].
Qed.
Lemma delegate_exact n : exactly n d_delegate delegate_doc.
Proof.
  apply (struct_exact n ["object"; "function_name"]%string _ (fun d o => has is_text "object" o (fst d) /\ has is_text "function_name" o (snd d)));
    [reflexivity|]. intros o O U [a b]. split.
  - intros H. apply jbind_ok in H as (x & E & H). apply jbind_ok in H as (y & F & H). injection H as <- <-. reads O U. now split.
  - cbn [fst snd]. intros [H1 H2]. writes O U. reflexivity.
Qed.
Lemma delegates_exact n : exactly n d_delegates delegates_doc.
Proof.
  apply (struct_exact n ["delegates"]%string); [reflexivity|]. intros o O U a.
  apply (need_iff n); [apply list_exact, delegate_exact|exact O|once_in U].
Qed.
Lemma path_exact n : exactly n d_path (fun x => path_doc (fst x) (snd x)).
Proof.
  apply (struct_exact n ["path"; "resolved_owner"]%string _ (fun d o => has (list_doc is_text) "path" o (fst d) /\ has is_text "resolved_owner" o (snd d)));
    [reflexivity|]. intros o O U [a b]. split.
  - intros H. apply jbind_ok in H as (x & E & H). apply jbind_ok in H as (y & F & H). injection H as <- <-. reads O U. now split.
  - cbn [fst snd]. intros [H1 H2]. writes O U. reflexivity.
Qed.
Lemma pair_exact n dp R : exactly n dp R -> exactly n (d_pair dp) (pair_doc R).
Proof.
  intros X j S M x. destruct j as [| | | | |l|]; try (split; [discriminate|intros (? & ? & H & _); discriminate]). cbn [d_pair].
  pose proof (fun m A => arr_mild m l A M) as L.
  destruct l as [|a [|b [|c l]]]; try (split; [discriminate|intros (? & ? & H & _); discriminate]).
  destruct n as [|n]; [lia|].
  destruct (arr_mild (Datatypes.S n) [a; b] ltac:(lia) M a) as [Sa Ma]; [now left|].
  destruct (arr_mild (Datatypes.S n) [a; b] ltac:(lia) M b) as [Sb Mb]; [right; now left|]. split.
  - intros H. apply jbind_ok in H as (k & K & H). apply jbind_ok in H as (v & V & H). injection H as <-.
    exists a, b. split; [reflexivity|]. split; [now apply X|now apply X].
  - intros (a' & b' & E & H1 & H2). injection E as <- <-. apply X in H1, H2; auto. rewrite H1. cbn [jbind]. rewrite H2. now destruct x.
Qed.

(** ** Arrays and maps *)
#[local] Hint Resolve bool_safe str_safe ostr_safe int_safe f32_safe num_safe hex_safe guid_safe u8byte_safe
  list_safe map_safe sval_safe pair_safe delegate_safe delegates_safe path_safe : safe.
Ltac go n O := repeat match goal with
  | |- jbind _ _ <> JPanic => apply jbind_safe; [|intros ?]
  | |- d_once _ _ _ <> JPanic => apply d_once_safe
  | |- JOk _ <> JPanic => discriminate
  | |- need _ _ _ <> JPanic => apply need_safe with (n := n); [|exact O]
  | |- dflt _ _ _ _ <> JPanic => apply dflt_safe with (n := n); [|exact O]
  end.
Ltac prop_exactly := idtac; lazymatch goal with
  | |- exactly _ d_delegate _ => apply delegate_exact
  | |- exactly _ d_delegates _ => apply delegates_exact
  | |- exactly _ d_path _ => apply path_exact
  | |- exactly _ (d_sval _) _ => apply sval_exact; leaf_exactly
  | |- exactly _ (d_pair _) _ => apply pair_exact; leaf_exactly
  | _ => leaf_exactly
  end.
Section Inside.
Context (hp : hashing) (merge : list (property * property) -> list (property * property) -> Prop).
Context (merged : forall l m, merge l m <-> m = m_insert hp l).
Context (n : nat) (dp : json -> jres property) (R : property -> json -> Prop) (X : exactly n dp R) (G : safe n dp).

Lemma array_iff o : sobj n o -> forall a, d_array dp o = JOk a <-> first_rule (array_rules R) a o.
Proof.
  intros O. apply first_iff. unfold array_rules. repeat apply Forall2_cons; [..|apply Forall2_nil].
  all: split; [go n O; auto with safe; apply list_safe; auto with safe; apply int_safe|intros a].
  all: match goal with |- _ <-> once ?l _ /\ _ => apply (once_alt l); intros U end.
  1-7: split; [intros H; reads_by prop_exactly O U; eexists; split; [reflexivity|eassumption]|
    intros (l & -> & H); writes_by prop_exactly O U; reflexivity].
  - split; [intros H; reads_by prop_exactly O U; eexists _, _, _, _; repeat split; eassumption|].
    intros (f & t & g & l & -> & H1 & H2 & H3 & H4). writes_by prop_exactly O U. reflexivity.
  - split; [intros H; reads_by prop_exactly O U; eexists _, _; repeat split; eassumption|].
    intros (t & l & -> & H1 & H2). writes_by prop_exactly O U. reflexivity.
Qed.
Lemma map_field_eq k s : map_field k s = s2z (key_word k ++ s).
Proof. now destruct k. Qed.
Lemma bools_iff k o : sobj n o -> d_mbool k o <> JPanic /\ forall m, d_mbool k o = JOk m <-> bools_rule k m o.
Proof.
  intros O. unfold d_mbool, bools_rule. rewrite map_field_eq. cbv zeta. split; [go n O; auto with safe|]. intros m.
  apply (once_alt [(key_word k ++ "_bools")%string]). intros U. split.
  - intros H. reads_by prop_exactly O U. eexists. split; [reflexivity|eassumption].
  - intros (l & -> & H). writes_by prop_exactly O U. reflexivity.
Qed.
Lemma ints_iff k o : sobj n o -> d_mint k o <> JPanic /\ forall m, d_mint k o = JOk m <-> ints_rule k m o.
Proof.
  intros O. unfold d_mint, ints_rule. rewrite map_field_eq. cbv zeta. split; [go n O; apply map_safe, int_safe|]. intros m.
  apply (once_alt [(key_word k ++ "_ints")%string]). intros U. split.
  - intros H. reads_by prop_exactly O U. eexists. split; [reflexivity|eassumption].
  - intros (l & -> & H). writes_by prop_exactly O U. reflexivity.
Qed.
Lemma props_iff k o : sobj n o -> d_mprop dp k o <> JPanic /\ forall m, d_mprop dp k o = JOk m <-> props_rule R k m o.
Proof.
  intros O. unfold d_mprop, props_rule. rewrite map_field_eq. cbv zeta. split; [go n O; auto with safe|]. intros m.
  apply (once_alt ["value_type"%string; (key_word k ++ "_props")%string]). intros U. split.
  - intros H. reads_by prop_exactly O U. eexists _, _. split; [reflexivity|]. split; eassumption.
  - intros (t & l & -> & H1 & H2). writes_by prop_exactly O U. reflexivity.
Qed.
Lemma mapp_iff o : sobj n o -> forall m, d_mapp hp dp o = JOk m <-> first_rule (map_rules merge R) m o.
Proof.
  intros O. apply first_iff. unfold map_rules.
  repeat apply Forall2_cons; [now apply bools_iff|now apply ints_iff|now apply props_iff|now apply bools_iff|now apply ints_iff|
    now apply props_iff| |now apply bools_iff|now apply ints_iff|now apply props_iff| |apply Forall2_nil].
  - split; [go n O; auto with safe; apply int_safe|]. intros m.
    apply (once_alt ["key_type"; "value_type"; "allocation_flags"; "value"]%string). intros U. split.
    + intros H. reads_by prop_exactly O U. eexists _, _, _, _, _. split; [reflexivity|].
      repeat (split; [eassumption|]). now apply merged.
    + intros (kt & vt & f & l & l' & -> & H1 & H2 & H3 & H4 & H5). writes_by prop_exactly O U. apply merged in H5. now subst l'.
  - split; [go n O; auto with safe|]. intros m. apply (once_alt ["str_strs"%string]). intros U. split.
    + intros H. reads_by prop_exactly O U. eexists. split; [reflexivity|eassumption].
    + intros (l & -> & H). writes_by prop_exactly O U. reflexivity.
Qed.
End Inside.

(** ** Properties *)
Definition type_word (t : pname) : string :=
  match t with
  | NNum k => num_type k
  | NBool => "BoolProperty" | NByte => "ByteProperty" | NEnum => "EnumProperty"
  | NStr => "StrProperty" | NText => "TextProperty" | NName => "NameProperty"
  | NObject => "ObjectProperty" | NDelegate => "DelegateProperty"
  | NMulti true => "MulticastInlineDelegateProperty"
  | NMulti false => "MulticastSparseDelegateProperty"
  | NPath => "FieldPathProperty" | NUnknown => "UnknownProperty"
  | NArray => "ArrayProperty" | NSet => "SetProperty" | NMap => "MapProperty"
  | NStruct => "StructProperty" | NSValue => "StructPropertyValue"
  end.
Definition type_index (t : pname) : Z :=
  match t with
  | NArray => 0 | NBool => 1 | NByte => 2 | NEnum => 4 | NNum k => num_index k | NMap => 10 | NName => 11 | NObject => 12
  | NDelegate => 13 | NMulti true => 14 | NMulti false => 15 | NPath => 16 | NSet => 17 | NStr => 18 | NStruct => 19
  | NSValue => 20 | NText => 21 | NUnknown => 25
  end.
Definition type_fields (t : pname) : list string :=
  match t with
  | NNum _ | NBool | NStr | NObject | NDelegate | NMulti _ | NPath => ["value"]
  | NByte => ["name"] | NEnum => ["enum_type"; "value"] | NName => ["array_index"; "value"]
  | NUnknown => ["property_name"; "raw"]
  | NSet => ["property_type"; "allocation_flags"; "properties"]
  | NStruct => ["guid"; "type_name"]
  | NText | NArray | NMap | NSValue => []
  end%string.
Definition is_open (t : pname) : bool :=
  match t with NByte | NText | NArray | NMap | NStruct | NSValue => true | _ => false end.
Lemma pname_exact n : exactly n d_pname (fun t j => j = txt (type_word t) \/ j = JInt (type_index t)).
Proof.
  intros j _ _ t. split.
  - destruct j as [| |z| |s| |]; cbn [d_pname]; try discriminate; intros H.
    + right. destruct (inr 0 25 z) eqn:E; [|discriminate]. injection H as <-. f_equal. unfold inr in E.
      assert (K : (Z.to_nat z < 26)%nat) by lia. rewrite <- (Z2Nat.id z) at 1 by lia. revert K. generalize (Z.to_nat z) as m. clear.
      intros m K. do 26 (destruct m as [|m]; [reflexivity|]). lia.
    + left. destruct (find _ pnames) as [x|] eqn:E; [|discriminate]. injection H as <-. apply find_some in E as [_ E].
      apply str_eqb_eq in E. subst s. destruct x as [[]| | | | | | | | |[]| | | | | | |]; reflexivity.
  - intros [->| ->]; destruct t as [[]| | | | | | | | |[]| | | | | | |]; vm_compute; reflexivity.
Qed.
Lemma type_kind n o t : sobj n o -> (times (s2z "type") o <= 1)%nat ->
  need d_pname (s2z "type") o = JOk t <-> kind "type" (type_index t) (type_word t) o.
Proof.
  intros O T. rewrite (need_iff n d_pname _ "type" o t (pname_exact n) O T). unfold has, kind. split.
  - intros (j & I & [->| ->]); auto.
  - intros [I|I]; eexists; (split; [exact I|auto]).
Qed.
Section Prop_.
Context (hp : hashing) (merge : list (property * property) -> list (property * property) -> Prop).
Context (merged : forall l m, merge l m <-> m = m_insert hp l).
(** The rest of a property, by its kind. *)
Definition rest (t : pname) (o : fields) : jres property :=
  match t with
  | NByte => n <~ opt d_str (s2z "name") o ;; v <~ flat d_bytev o ;; JOk (PByte n v)
  | NText => t <~ d_text (JObj o) ;; JOk (PText t)
  | NArray => a <~ d_array (d_prop hp) o ;; JOk (PArray a)
  | NSet =>
    t <~ need d_str (s2z "property_type") o ;; f <~ need d_u32 (s2z "allocation_flags") o ;;
    l <~ need (d_list (d_prop hp)) (s2z "properties") o ;; JOk (PSet t f l)
  | NMap => m <~ d_mapp hp (d_prop hp) o ;; JOk (PMap m)
  | NStruct =>
    g <~ dflt d_guid no_guid (s2z "guid") o ;; t <~ need d_str (s2z "type_name") o ;;
    v <~ flat (d_svariant (d_prop hp)) o ;; JOk (PStruct g t v)
  | NSValue => v <~ single (besides (d_svariant (d_prop hp)) (s2z "type") o) ;; JOk (PSValue v)
  | _ => d_simple t o
  end.
Lemma obj_rest n o p : sobj n o ->
  d_prop hp (JObj o) = JOk p <-> exists t, open_doc (type_index t) (type_word t) (type_fields t) (JObj o) o /\ rest t o = JOk p.
Proof.
  intros O. cbn [d_prop]. unfold open_doc. split.
  - intros H. apply d_once_ok in H as [U H]. apply jbind_ok in H as (t & K & H). apply d_once_ok in H as [V H].
    apply (type_kind n) in K; [|exact O|eapply unrepeated_in; [exact U|now left]]. exists t. split.
    + split; [reflexivity|]. split; [|exact K]. apply once_iff. change (prop_fields t) with (map s2z (type_fields t)) in V.
      unfold unrepeated in *. cbn [map forallb] in *. rewrite !andb_true_iff in *. tauto.
    + destruct t; exact H.
  - intros (t & (_ & U & K) & H). apply once_iff in U.
    assert (V : unrepeated [s2z "type"] o = true /\ unrepeated (prop_fields t) o = true).
    { change (prop_fields t) with (map s2z (type_fields t)). unfold unrepeated in *. cbn [map forallb] in *. rewrite !andb_true_iff in *. tauto. }
    destruct V as [V W]. apply (type_kind n) in K; [|exact O|eapply unrepeated_in; [exact V|now left]].
    unfold d_once. rewrite V, K. cbn [jbind]. rewrite W. destruct t; exact H.
Qed.
Lemma arr_rest n x l p : (jsize x < n)%nat -> mild x ->
  d_prop hp (JArr (x :: l)) = JOk p <-> exists t, is_open t = false /\ (x = txt (type_word t) \/ x = JInt (type_index t))
    /\ List.length l = List.length (type_fields t) /\ rest t (combine (map s2z (type_fields t)) l) = JOk p.
Proof.
  intros S M. pose proof (pname_exact n x S M) as K. cbn [d_prop]. rewrite jbind_iff.
  assert (W : forall t, match t, l with
      | NSet, [a; b; c] => t <~ d_str a ;; f <~ d_u32 b ;; q <~ d_list (d_prop hp) c ;; JOk (PSet t f q)
      | _, _ => listed (prop_fields t) (d_simple t) l
      end = JOk p <-> is_open t = false /\ List.length l = List.length (type_fields t) /\ rest t (combine (map s2z (type_fields t)) l) = JOk p).
  { intros t.
    assert (B : is_open t = false -> t <> NSet -> listed (prop_fields t) (d_simple t) l = JOk p <->
      is_open t = false /\ List.length l = List.length (type_fields t) /\ rest t (combine (map s2z (type_fields t)) l) = JOk p).
    { intros Op N. change (prop_fields t) with (map s2z (type_fields t)). unfold listed. rewrite map_length.
      assert (E : rest t (combine (map s2z (type_fields t)) l) = d_simple t (combine (map s2z (type_fields t)) l))
        by (destruct t; try discriminate; try reflexivity; contradiction).
      rewrite E. destruct (Nat.eqb_spec (List.length l) (List.length (type_fields t))); split; try tauto; discriminate. }
    assert (C : is_open t = true -> listed (prop_fields t) (d_simple t) l = JOk p <->
      is_open t = false /\ List.length l = List.length (type_fields t) /\ rest t (combine (map s2z (type_fields t)) l) = JOk p).
    { intros Op. split; [|intros [H _]; congruence]. unfold listed. destruct (_ =? _)%nat; [|discriminate].
      destruct t; try discriminate. }
    destruct t; try (apply B; [reflexivity|discriminate]); try (apply C; reflexivity).
    destruct l as [|a [|b [|c [|d l]]]]; try (split; [discriminate|intros (_ & H & _); discriminate H]).
    split; [intros H; repeat split; exact H|]. intros (_ & _ & H). exact H. }
  split.
  - intros (t & E & H). exists t. apply K in E. apply W in H. tauto.
  - intros (t & Op & E & H). exists t. split; [now apply K|]. apply W. tauto.
Qed.
(** The rules, by kind. *)
Definition rest_doc (R : property -> json -> Prop) (t : pname) (p : property) (o : fields) : Prop :=
  match t with
  | NNum k => exists z, p = PNum k z /\ has (num_doc k) "value" o z
  | NBool => exists b, p = PBool b /\ has bool_doc "value" o b
  | NByte => exists n v s x, p = PByte n v /\ may is_text "name" o n /\ first_named ["Byte"; "Namespaced"]%string o s x /\ bytev_doc v s x
  | NEnum => exists t v, p = PEnum t v /\ may is_text "enum_type" o t /\ has is_text "value" o v
  | NStr => exists v, p = PStr v /\ may is_text "value" o v
  | NText => exists t, p = PText t /\ text_doc t (JObj o)
  | NName => exists i v, p = PName i v /\ has_or (unsigned 4) 0 "array_index" o i /\ may is_text "value" o v
  | NObject => exists v, p = PObject v /\ has is_text "value" o v
  | NDelegate => exists d, p = PDelegate (fst d) (snd d) /\ has delegate_doc "value" o d
  | NMulti i => exists l, p = PMulti i l /\ has delegates_doc "value" o l
  | NPath => exists d, p = PFieldPath (fst d) (snd d) /\ has (fun x => path_doc (fst x) (snd x)) "value" o d
  | NUnknown => exists n raw, p = PUnknown n raw /\ has is_text "property_name" o n /\ has (list_doc byte_doc) "raw" o raw
  | NArray => exists a, p = PArray a /\ first_rule (array_rules R) a o
  | NSet => exists t f l, p = PSet t f l /\ has is_text "property_type" o t /\ has (unsigned 4) "allocation_flags" o f
      /\ has (list_doc R) "properties" o l
  | NMap => exists m, p = PMap m /\ first_rule (map_rules merge R) m o
  | NStruct => exists g t v s x, p = PStruct g t v /\ has_or guid_doc nil_guid "guid" o g /\ has is_text "type_name" o t
      /\ first_named value_names o s x /\ value_doc R v s x
  | NSValue => exists v s x, p = PSValue v /\ only_besides "type" o (s2z s) x /\ value_doc R v s x
  end.
Lemma rest_iff n R t p o : exactly n (d_prop hp) R -> sobj n o -> unrepeated (map s2z (type_fields t)) o = true ->
  (t = NText -> (jsize (JObj o) < S n)%nat /\ mild (JObj o)) -> rest t o = JOk p <-> rest_doc R t p o.
Proof.
  intros X O U T. pose proof (prop_safe hp n) as G.
  assert (SV : forall k v, In (k, v) o -> forall a, d_svariant (d_prop hp) k v = Some (JOk a) <-> exists s, k = s2z s /\ value_doc R a s v).
  { intros k v I a. destruct (O k v I) as (S & M & _). now apply (svariant_iff n). }
  destruct t; cbn [rest d_simple rest_doc type_fields] in *.
  - split; [intros H; reads_by prop_exactly O U; eexists; split; [reflexivity|eassumption]|].
    intros (z & -> & H). writes_by prop_exactly O U. reflexivity.
  - split; [intros H; reads_by prop_exactly O U; eexists; split; [reflexivity|eassumption]|].
    intros (z & -> & H). writes_by prop_exactly O U. reflexivity.
  - assert (BV : forall v, flat d_bytev o = JOk v <-> exists s x, first_named ["Byte"; "Namespaced"]%string o s x /\ bytev_doc v s x).
    { apply flat_iff; [apply bytev_none|intros v s x []; cbn [In]; auto|]. intros k v I a. destruct (O k v I) as (S & M & _). now apply (bytev_iff n). }
    split.
    + intros H. reads_by prop_exactly O U. apply BV in H1 as (s & y & H1 & H2). eexists _, _, s, y. split; [reflexivity|]. split; [eassumption|]. split; eassumption.
    + intros (m & v & s & x & -> & H & H1 & H2). writes_by prop_exactly O U. apply jbind_iff. exists v. split; [|reflexivity].
      apply BV. now exists s, x.
  - split; [intros H; reads_by prop_exactly O U; eexists _, _; repeat split; eassumption|].
    intros (t & v & -> & H1 & H2). writes_by prop_exactly O U. reflexivity.
  - split; [intros H; reads_by prop_exactly O U; eexists; split; [reflexivity|eassumption]|].
    intros (z & -> & H). writes_by prop_exactly O U. reflexivity.
  - destruct (T eq_refl) as [S M]. pose proof (proj1 (text_exact (Datatypes.S n)) _ S M) as E. split.
    + intros H. apply jbind_ok in H as (t & K & H). injection H as <-. exists t. split; [reflexivity|now apply E].
    + intros (t & -> & H). apply jbind_iff. exists t. split; [now apply E|reflexivity].
  - split; [intros H; reads_by prop_exactly O U; eexists _, _; repeat split; eassumption|].
    intros (t & v & -> & H1 & H2). writes_by prop_exactly O U. reflexivity.
  - split; [intros H; reads_by prop_exactly O U; eexists; split; [reflexivity|eassumption]|].
    intros (z & -> & H). writes_by prop_exactly O U. reflexivity.
  - split; [intros H; reads_by prop_exactly O U; eexists; split; [reflexivity|eassumption]|].
    intros (z & -> & H). writes_by prop_exactly O U. reflexivity.
  - split; [intros H; reads_by prop_exactly O U; eexists; split; [reflexivity|eassumption]|].
    intros (z & -> & H). writes_by prop_exactly O U. reflexivity.
  - split; [intros H; reads_by prop_exactly O U; eexists; split; [reflexivity|eassumption]|].
    intros (z & -> & H). writes_by prop_exactly O U. reflexivity.
  - split; [intros H; reads_by prop_exactly O U; eexists _, _; repeat split; eassumption|].
    intros (t & v & -> & H1 & H2). writes_by prop_exactly O U. reflexivity.
  - split.
    + intros H. apply jbind_ok in H as (a & K & H). injection H as <-. exists a. split; [reflexivity|]. now apply (array_iff n (d_prop hp) R X G o O).
    + intros (a & -> & H). apply jbind_iff. exists a. split; [|reflexivity]. now apply (array_iff n (d_prop hp) R X G o O).
  - split; [intros H; reads_by prop_exactly O U; eexists _, _, _; repeat split; eassumption|].
    intros (t & f & v & -> & H1 & H2 & H3). writes_by prop_exactly O U. reflexivity.
  - split.
    + intros H. apply jbind_ok in H as (a & K & H). injection H as <-. exists a. split; [reflexivity|].
      now apply (mapp_iff hp merge merged n (d_prop hp) R X G o O).
    + intros (a & -> & H). apply jbind_iff. exists a. split; [|reflexivity]. now apply (mapp_iff hp merge merged n (d_prop hp) R X G o O).
  - pose proof (flat_iff _ _ _ (svariant_none (d_prop hp)) (value_among R) o SV) as F. split.
    + intros H. reads_by prop_exactly O U. apply F in H2 as (s & y & H2 & H3). eexists _, _, _, s, y. split; [reflexivity|]. repeat (split; [eassumption|]). eassumption.
    + intros (g & t & v & s & x & -> & H & H1 & H2 & H3). writes_by prop_exactly O U. apply jbind_iff. exists v. split; [|reflexivity].
      apply F. now exists s, x.
  - pose proof (single_iff _ (value_doc R) o "type" SV) as F. split.
    + intros H. apply jbind_ok in H as (v & K & H). injection H as <-. apply F in K as (s & y & H2 & H3). exists v, s, y. now split.
    + intros (v & s & x & -> & H2 & H3). apply jbind_iff. exists v. split; [|reflexivity]. apply F. now exists s, x.
Qed.
Lemma rule_iff R p j : prop_rule merge R p j <-> exists t o, (if is_open t then open_doc (type_index t) (type_word t) (type_fields t) j o
  else payload (type_index t) (type_word t) (type_fields t) j o) /\ rest_doc R t p o.
Proof.
  split.
  - intros H. destruct H.
    + exists NArray, o. split; [assumption|]. eexists. split; [reflexivity|assumption].
    + exists NBool, o. split; [assumption|]. eexists. split; [reflexivity|assumption].
    + exists NByte, o. split; [assumption|]. exists n, (BByte b), "Byte"%string, x. split; [reflexivity|]. repeat (split; [assumption|]). now constructor.
    + exists NByte, o. split; [assumption|]. exists n, (BName s), "Namespaced"%string, x. split; [reflexivity|]. repeat (split; [assumption|]). now constructor.
    + exists NEnum, o. split; [assumption|]. eexists _, _. repeat split; eassumption.
    + exists (NNum k), o. split; [assumption|]. eexists. split; [reflexivity|assumption].
    + exists NMap, o. split; [assumption|]. eexists. split; [reflexivity|assumption].
    + exists NName, o. split; [assumption|]. eexists _, _. repeat split; eassumption.
    + exists NObject, o. split; [assumption|]. eexists. split; [reflexivity|assumption].
    + exists NDelegate, o. split; [assumption|]. exists (a, b). split; [reflexivity|assumption].
    + exists (NMulti true), o. split; [assumption|]. eexists. split; [reflexivity|assumption].
    + exists (NMulti false), o. split; [assumption|]. eexists. split; [reflexivity|assumption].
    + exists NPath, o. split; [assumption|]. exists (l, s). split; [reflexivity|assumption].
    + exists NSet, o. split; [assumption|]. eexists _, _, _. repeat split; eassumption.
    + exists NStr, o. split; [assumption|]. eexists. split; [reflexivity|assumption].
    + exists NStruct, o. split; [assumption|]. exists g, t, v, s, x. split; [reflexivity|]. repeat (split; [assumption|]). assumption.
    + exists NSValue, o. split; [assumption|]. exists v, s, x. split; [reflexivity|]. split; assumption.
    + exists NText, o. split; [assumption|]. exists t. split; [reflexivity|]. destruct H as [-> _]. assumption.
    + exists NUnknown, o. split; [assumption|]. eexists _, _. repeat split; eassumption.
  - intros (t & o & P & H). destruct t; cbn [is_open type_index type_word type_fields rest_doc] in *.
    + destruct H as (z & -> & H). eapply PdNum; eassumption.
    + destruct H as (z & -> & H). eapply PdBool; eassumption.
    + destruct H as (n & v & s & x & -> & H1 & H2 & H3). destruct H3; [eapply PdByte|eapply PdByteName]; eassumption.
    + destruct H as (a & b & -> & H1 & H2). eapply PdEnum; eassumption.
    + destruct H as (z & -> & H). eapply PdStr; eassumption.
    + destruct H as (z & -> & H). eapply PdText; [exact P|]. destruct P as [-> _]. exact H.
    + destruct H as (a & b & -> & H1 & H2). eapply PdName; eassumption.
    + destruct H as (z & -> & H). eapply PdObject; eassumption.
    + destruct H as ([a b] & -> & H). eapply PdDelegate; eassumption.
    + destruct H as (z & -> & H). destruct inline; [eapply PdInline|eapply PdSparse]; eassumption.
    + destruct H as ([a b] & -> & H). eapply PdPath; eassumption.
    + destruct H as (a & b & -> & H1 & H2). eapply PdUnknown; eassumption.
    + destruct H as (z & -> & H). eapply PdArray; eassumption.
    + destruct H as (a & b & c & -> & H1 & H2 & H3). eapply PdSet; eassumption.
    + destruct H as (z & -> & H). eapply PdMap; eassumption.
    + destruct H as (g & t & v & s & x & -> & H1 & H2 & H3 & H4). eapply PdStruct; eassumption.
    + destruct H as (v & s & x & -> & H1 & H2). eapply PdValue; eassumption.
Qed.
Lemma type_names t : good_names (type_fields t) = true.
Proof. destruct t as [[]| | | | | | | | |[]| | | | | | |]; reflexivity. Qed.
Lemma prop_exact n : exactly n (d_prop hp) (prop_doc merge n).
Proof.
  induction n as [|n X]; [intros j S; lia|]. intros j S M p. cbn [prop_doc]. rewrite rule_iff.
  destruct j as [| | | | |l|o];
    try (split; [discriminate|intros (t & o & P & _); exfalso; destruct (is_open t); [destruct P as [P _]|destruct P as [[P _]|(? & ? & P & _)]]; discriminate]).
  - destruct l as [|x l].
    { split; [discriminate|]. intros (t & o & P & _). exfalso. destruct (is_open t); [destruct P as [P _]|destruct P as [[P _]|(? & ? & P & _)]]; discriminate. }
    pose proof (arr_mild _ _ S M) as L. destruct (L x (or_introl eq_refl)) as [Sx Mx]. rewrite (arr_rest n x l p Sx Mx).
    assert (C : forall t, sobj n (combine (map s2z (type_fields t)) l) /\ unrepeated (map s2z (type_fields t)) (combine (map s2z (type_fields t)) l) = true).
    { intros t. pose proof (type_names t) as N. unfold good_names in N. apply andb_true_iff in N as [T U]. split.
      - apply combine_sobj; [exact T|]. intros j I. apply L. now right.
      - now apply once_combine, unique_nodup. }
    split.
    + intros (t & Op & K & E & H). destruct (C t) as [O U]. exists t, (combine (map s2z (type_fields t)) l). rewrite Op. split.
      * right. exists x, l. repeat split; assumption.
      * apply (rest_iff n); auto. intros ->. discriminate.
    + intros (t & o & P & H). exists t. destruct (is_open t) eqn:Op; [destruct P as [P _]; discriminate|].
      destruct P as [[P _]|(x' & l' & P & K & E & ->)]; [discriminate|]. injection P as <- <-. destruct (C t) as [O U].
      repeat split; auto. apply (rest_iff n (prop_doc merge n)); auto. intros ->. discriminate.
  - pose proof (sobj_from _ _ S M) as O. rewrite (obj_rest n o p O).
    assert (V : forall t o', open_doc (type_index t) (type_word t) (type_fields t) (JObj o) o' -> o' = o /\ unrepeated (map s2z (type_fields t)) o = true).
    { intros t o' (E & U & _). injection E as <-. split; [reflexivity|]. apply once_iff in U. unfold unrepeated in *. cbn [map forallb] in U.
      now apply andb_true_iff in U. }
    split.
    + intros (t & P & H). exists t, o. destruct (V t o P) as [_ U]. split.
      * destruct (is_open t); [exact P|now left].
      * apply (rest_iff n); auto.
    + intros (t & o' & P & H). exists t.
      assert (P' : open_doc (type_index t) (type_word t) (type_fields t) (JObj o) o').
      { destruct (is_open t); [exact P|]. destruct P as [P|(? & ? & P & _)]; [exact P|discriminate]. }
      destruct (V t o' P') as [-> U]. split; [exact P'|]. apply (rest_iff n (prop_doc merge n)); auto.
Qed.
End Prop_.
