(** Files read straight from text, against files read by way of [serde_json::Value]. *)
From Coq Require Import ZArith List Bool String Lia ZifyBool ZifyNat.
From Verif Require Import Base Str Types Versions Text Props File Spec BaseFacts Guid MapFacts Json JsonBack JsonPanic JsonFile JsonWell JsonThm
  JsonSyntax Numeral JsonGrammar JsonRead JsonComplete JsonPrint JsonDepth JsonWhole JsonDoc JsonDocThm JsonDirect Singles DirectTree DirectThm
  JsonFrom JsonLoose JsonFromThm JsonSpec.
Import ListNotations.
Open Scope Z_scope.

(** ** Which texts are read, and as which file *)
Lemma direct_reads hp s g : calm hp -> (forall j, top_document j s -> mild j) ->
  read_direct hp s = JOk g <-> exists j, top_document j s /\ reads g j.
Proof.
  intros C M. unfold read_direct. split.
  - destruct (from_top s) as [j|] eqn:E; [|discriminate]. apply from_top_iff in E. intros H. exists j. split; [exact E|]. apply (reads_exact hp); auto.
  - intros (j & D & H). rewrite (proj2 (from_top_iff s j) D). apply (reads_exact hp); auto.
Qed.
Lemma top_unique s j j' : top_document j s -> top_document j' s -> j = j'.
Proof. intros H H'. apply from_top_iff in H, H'. congruence. Qed.

(** ** Members that are not asked for *)
Definition blank_one (e : str * json) : str * json := let '(k, v) := e in (k, if existsb (str_eqb k) file_fields then v else JNull).
Definition blank (l : list (str * json)) : list (str * json) := map blank_one l.
Lemma blank_get {A} (f : json -> A) k l : existsb (str_eqb k) file_fields = true -> get f k (blank l) = get f k l.
Proof.
  intros K. induction l as [|[k' v] l IH]; [reflexivity|]. cbn [blank map blank_one get]. fold (blank l). destruct (str_eqb k k') eqn:E; [|exact IH].
  apply str_eqb_eq in E. subst k'. now rewrite K.
Qed.
Lemma blank_times k l : times k (blank l) = times k l.
Proof. induction l as [|[k' v] l IH]; [reflexivity|]. cbn [blank map blank_one times]. fold (blank l). now rewrite IH. Qed.
Lemma blank_file hp l : from_json hp (JObj (blank l)) = from_json hp (JObj l).
Proof.
  unfold from_json, d_struct, d_once, unrepeated. cbn [forallb map].
  rewrite !blank_times. unfold dflt, need. now rewrite !blank_get by reflexivity.
Qed.

(** ** Texts whose values are all well formed *)
Lemma raw_loose : (forall d j s, raw_text d j s -> exists i, loose_as d i s)
  /\ (forall d l s, items_as eq num_text chars d l s -> exists i, items_as eq loose_number loose_chars d i s)
  /\ (forall d l s, members_as eq num_text chars d l s -> exists i, members_as eq loose_number loose_chars d i s)
  /\ (forall d k v s, member_as eq num_text chars d k v s -> exists k' v', member_as eq loose_number loose_chars d k' v' s).
Proof.
  assert (CH : forall x w, chars x w -> loose_chars [] w).
  { intros x w C. induction C; [constructor|now constructor|eapply l_escape; eauto|eapply l_unicode; eauto|].
    eapply l_unicode; [eauto|]. eapply l_unicode; eauto. }
  assert (QU : forall x w, quoted x w -> quoted_as loose_chars [] w) by (intros x w (u & C & ->); exists u; eauto).
  assert (NU : forall j w, num_text j w -> loose_number JNull w).
  { intros j w [i W V|i W V|neg i f x e y b W FX EY G R FI].
    - pose proof (l_number false i [] [] 0 [] W fr_none ex_none) as H. cbn [app] in H. now rewrite app_nil_r in H.
    - pose proof (l_number true i [] [] 0 [] W fr_none ex_none) as H. cbn [app] in H. now rewrite app_nil_r in H.
    - now apply (l_number neg i f x e y). }
  apply json_text_all.
  - eexists; constructor.
  - eexists; constructor.
  - eexists; constructor.
  - intros j s N. eexists. apply t_number. eauto.
  - intros x s Q. eexists. apply t_string. eauto.
  - intros s A. eexists. now apply t_empty_array.
  - intros d l s _ (i & H). eexists. apply JsonGrammar.t_array. eauto.
  - intros s A. eexists. now apply t_empty_object.
  - intros d l m s _ (i & H) _. eexists. eapply t_object; eauto.
  - intros d v a s b A _ (i & H) B. eexists. now apply i_last; eauto.
  - intros d e v l a s b r A _ (i & H) B _ (i' & H'). eexists. now apply i_more; eauto.
  - intros d k v s _ (k' & v' & H). eexists. apply m_last; eauto.
  - intros d e k v l s r _ (k' & v' & H) _ (i & H'). eexists. apply m_more; eauto.
  - intros d k v q a b c s e A Q B C _ (i & H) E. do 2 eexists. apply m_pair; eauto.
Qed.
Lemma raw_field d k v s : raw_text d v s -> (d <= 126)%nat -> field_text k (snd (blank_one (k, v))) s.
Proof.
  intros T L. cbn [blank_one snd]. destruct (existsb (str_eqb k) file_fields) eqn:E.
  - apply asked_iff in E as (x & I & ->). now apply (f_asked d).
  - apply f_skipped.
    + intros x I EQ. assert (X : existsb (str_eqb k) file_fields = true) by (apply asked_iff; eauto). congruence.
    + apply raw_loose in T as (i & T). now exists d, i.
Qed.
Lemma raw_fields d l s : members_as eq num_text chars d l s -> (d <= 126)%nat -> fields_text (blank l) s.
Proof.
  intros T. induction T as [d k v s M|d e k v l s r M R IH]; intros L; cbn [blank map]; inversion M as [d' k' v' q a b c w f A Q B C T F]; subst.
  - pose proof (raw_field d k v w T L) as F'. cbn [blank_one snd] in *. now constructor.
  - assert (F' : field_text k (snd (blank_one (k, v))) w) by (apply (raw_field d); [exact T|lia]). cbn [blank_one snd] in *. fold (blank l). constructor; auto. apply IH. lia.
Qed.
Lemma raw_top d j s : raw_text d j s -> (d <= 127)%nat ->
  match j with JObj l => top_text (JObj (blank l)) s | JArr _ => top_text j s | _ => forall j', ~ top_text j' s end.
Proof.
  intros T L. destruct j as [|b|z|z|x|l|l].
  1-5: intros j' T'; assert (N : exists c r, s = c :: r /\ c <> 91 /\ c <> 123).
  1,3,5,7,9: inversion T as [| | |j s' N|x' s' (w & _ & ->)| | | |]; subst; try (do 2 eexists; split; [reflexivity|split; discriminate]).
  1-5: destruct (number_complete _ _ [] N I) as ([|] & c & r & -> & D & _); do 2 eexists; (split; [reflexivity|]); unfold is_digit in D; lia.
  1-5: destruct N as (c & r & -> & N1 & N2); inversion T' as [s'|l s'|d' l s' R]; subst; try congruence.
  1-5: inversion R as [| | |j s'' N| | | | |]; subst; try congruence; inversion N.
  - now apply (tt_array d).
  - inversion T as [| | |j s' N| | | |s' S|d' l' m' s' M]; subst; [inversion N|now constructor|]. apply tt_object. apply (raw_fields d'); [exact M|lia].
Qed.
Lemma direct_tree hp d j s : raw_document d j s -> (d <= 127)%nat -> read_direct hp s = from_json hp j.
Proof.
  intros (a & t & b & A & T & B & ->) L. pose proof (raw_top d j t T L) as H.
  assert (R : forall j', top_text j' t -> read_direct hp (a ++ t ++ b) = from_json hp j').
  { intros j' T'. unfold read_direct. rewrite (proj2 (from_top_iff _ j')); [reflexivity|]. exists a, t, b. auto. }
  assert (N : (forall j', ~ top_text j' t) -> read_direct hp (a ++ t ++ b) = JErr).
  { intros X. unfold read_direct. destruct (from_top (a ++ t ++ b)) as [j'|] eqn:E; [|reflexivity]. exfalso.
    unfold from_top, p_top in E. rewrite skip_app in E by exact A. destruct (raw_text_starts d j t T) as (c & r & Et & SP & _). rewrite Et in E, X, T. cbn [app] in E.
    rewrite skip_stop in E by exact SP.
    assert (c <> 123 /\ c <> 91) as [N1 N2].
    { clear -T X L. pose proof (raw_top d j _ T L) as H. destruct j; try (exfalso; eapply X; exact H); inversion T as [| | |j s' N|x' s' (w & _ & Q)| | | |]; subst; split; try discriminate; try congruence;
      destruct (number_complete _ _ [] N I) as ([|] & c' & r' & E & D & _); cbn [app] in E; injection E as -> ->; unfold is_digit in D; lia. }
    replace (c =? 123) with false in E by lia. replace (c =? 91) with false in E by lia. discriminate. }
  destruct j as [|x|z|z|x|l|l]; try (now rewrite N); rewrite (R _ H); [reflexivity|]. apply blank_file.
Qed.

(** ** No key repeated *)
Fixpoint plain (j : json) : bool :=
  match j with
  | JArr l => forallb plain l
  | JObj l => distinct str_eqb l && forallb (fun '(_, v) => plain v) l
  | _ => true
  end.
Lemma raw_plain : (forall d j s, raw_text d j s -> plain j = true -> json_text d j s)
  /\ (forall d l s, items_as eq num_text chars d l s -> forallb plain l = true -> items d l s)
  /\ (forall d l s, members_as eq num_text chars d l s -> forallb (fun '(_, v) => plain v) l = true -> members d l s)
  /\ (forall d k v s, member_as eq num_text chars d k v s -> plain v = true -> member d k v s).
Proof.
  apply json_text_all; try (intros; now constructor).
  - intros d l s _ IH P. now apply JsonGrammar.t_array, IH.
  - intros d l m s _ IH <- P. cbn [plain] in P. apply andb_true_iff in P as [D P]. eapply t_object; [now apply IH|now apply distinct_collapsed].
  - intros d v a s b A _ IH B P. cbn [forallb] in P. apply andb_true_iff in P as [P _]. apply i_last; auto.
  - intros d e v l a s b r A _ IH B _ IH' P. cbn [forallb] in P. apply andb_true_iff in P as [P P']. apply i_more; auto.
  - intros d k v s _ IH P. cbn [forallb] in P. apply andb_true_iff in P as [P _]. apply m_last; auto.
  - intros d e k v l s r _ IH _ IH' P. cbn [forallb] in P. apply andb_true_iff in P as [P P']. apply m_more; auto.
  - intros d k v q a b c s e A Q B C _ IH E P. apply m_pair; auto.
Qed.
Lemma direct_agrees hp d j s : raw_document d j s -> (d <= 127)%nat -> plain j = true -> read_direct hp s = text_file hp s.
Proof.
  intros R L P. rewrite (direct_tree hp d j s R L). unfold text_file.
  destruct R as (a & t & b & A & T & B & E). assert (D : document d j s) by (exists a, t, b; split; [exact A|]; split; [now apply raw_plain|auto]).
  rewrite (from_text_deep d j s D). change depth_limit with 127%nat. now replace (d <=? 127)%nat with true by lia.
Qed.

(** ** The value of a text *)
Fixpoint settle (j : json) : json :=
  match j with
  | JArr l => JArr (map settle l)
  | JObj l => JObj (ins_all str_eqb (map (fun '(k, v) => (k, settle v)) l))
  | _ => j
  end.
Lemma settle_settled r j : settled r j <-> j = settle r.
Proof.
  remember (S (jsize r)) as n eqn:E. assert (L : (jsize r < n)%nat) by lia. clear E. revert r L j.
  induction n as [|n IH]; intros r L j; [lia|]. split.
  - intros H. destruct H as [j S|l m F|l m o F C].
    + now destruct j.
    + cbn [settle]. f_equal. assert (B : forall v, In v l -> (jsize v < n)%nat) by (intros v I; pose proof (arr_smaller v l I); lia).
      clear L. induction F as [|a b l m H F IHF]; [reflexivity|]. cbn [map]. f_equal.
      * apply IH; [apply B; now left|exact H].
      * apply IHF. intros v I. apply B. now right.
    + cbn [settle]. f_equal. apply values_merge in C. subst o. f_equal.
      assert (B : forall e, In e l -> (jsize (snd e) < n)%nat) by (intros [k v] I; pose proof (obj_smaller k v l I); cbn [snd]; lia).
      clear L. induction F as [|[k a] [k' b] l m [K H] F IHF]; [reflexivity|]. cbn [fst snd] in *. subst k'. cbn [map]. f_equal.
      * f_equal. apply IH; [apply (B (k, a)); now left|exact H].
      * apply IHF. intros v I. apply B. now right.
  - intros ->. destruct r as [| | | | |l|l]; cbn [settle]; try (now constructor).
    + constructor. assert (B : forall v, In v l -> (jsize v < n)%nat) by (intros v I; pose proof (arr_smaller v l I); lia).
      clear L. induction l as [|v l IHl]; [constructor|]. cbn [map]. constructor; [apply IH; [apply B; now left|reflexivity]|].
      apply IHl. intros x I. apply B. now right.
    + econstructor; [|apply values_merge; reflexivity].
      assert (B : forall e, In e l -> (jsize (snd e) < n)%nat) by (intros [k v] I; pose proof (obj_smaller k v l I); cbn [snd]; lia).
      clear L. induction l as [|[k v] l IHl]; [constructor|]. cbn [map]. constructor.
      * split; [reflexivity|]. cbn [snd]. apply IH; [apply (B (k, v)); now left|reflexivity].
      * apply IHl. intros x I. apply B. now right.
Qed.
Lemma raw_value : (forall d j s, raw_text d j s -> json_text d (settle j) s)
  /\ (forall d l s, items_as eq num_text chars d l s -> items d (map settle l) s)
  /\ (forall d l s, members_as eq num_text chars d l s -> members d (map (fun '(k, v) => (k, settle v)) l) s)
  /\ (forall d k v s, member_as eq num_text chars d k v s -> member d k (settle v) s).
Proof.
  apply json_text_all; try (intros; now constructor).
  - intros j s N. replace (settle j) with j by now inversion N. now constructor.
  - intros d l m s _ IH <-. eapply t_object; [exact IH|]. now apply values_merge.
Qed.
Lemma value_raw : (forall d j s, json_text d j s -> exists r, raw_text d r s)
  /\ (forall d l s, items d l s -> exists r, items_as eq num_text chars d r s)
  /\ (forall d l s, members d l s -> exists r, members_as eq num_text chars d r s)
  /\ (forall d k v s, member d k v s -> exists r, member_as eq num_text chars d k r s).
Proof.
  apply json_text_all.
  - eexists; constructor.
  - eexists; apply t_true.
  - eexists; apply t_false.
  - intros j s N. eexists. apply t_number. eauto.
  - intros x s Q. eexists. apply t_string. eauto.
  - intros s A. eexists. now apply t_empty_array.
  - intros d l s _ (i & H). eexists. apply JsonGrammar.t_array. eauto.
  - intros s A. eexists. now apply t_empty_object.
  - intros d l m s _ (i & H) _. eexists. eapply t_object; eauto.
  - intros d v a s b A _ (i & H) B. eexists. now apply i_last; eauto.
  - intros d e v l a s b r A _ (i & H) B _ (i' & H'). eexists. now apply i_more; eauto.
  - intros d k v s _ (i & H). eexists. apply m_last; eauto.
  - intros d e k v l s r _ (i & H) _ (i' & H'). eexists. apply m_more; eauto.
  - intros d k v q a b c s e A Q B C _ (i & H) E. eexists. apply m_pair; eauto.
Qed.
Lemma text_kept s d j : document d j s -> exists r, raw_document d r s.
Proof. intros (a & t & b & A & T & B & E). apply value_raw in T as (r & T). exists r, a, t, b. auto. Qed.
Lemma text_settled s d r : raw_document d r s -> forall j, document d j s <-> settled r j.
Proof.
  intros (a & t & b & A & T & B & E) j. rewrite settle_settled.
  assert (D : document d (settle r) s) by (exists a, t, b; split; [exact A|]; split; [now apply raw_value|auto]). split.
  - intros D'. now destruct (document_unique s d d j (settle r) D' D).
  - now intros ->.
Qed.
Lemma text_settles hp s d r j : raw_document d r s -> settled r j -> (d <= 127)%nat ->
  read_direct hp s = from_json hp r /\ text_file hp s = from_json hp j.
Proof.
  intros R S L. split; [now apply (direct_tree hp d)|]. apply (text_settled s d r R) in S. unfold text_file.
  rewrite (from_text_deep d j s S). change depth_limit with 127%nat. now replace (d <=? 127)%nat with true by lia.
Qed.

(** ** Texts of files *)
Definition only_asked (j : json) : Prop :=
  match j with JArr _ => True | JObj l => forall k v, In (k, v) l -> existsb (str_eqb k) file_fields = true | _ => False end.
Lemma asked_fields_complete d l w : members_as eq num_text chars d l w -> (forall k v, In (k, v) l -> existsb (str_eqb k) file_fields = true) ->
  forall n D first t, (List.length w + 1 <= n)%nat ->
  p_fields n D first ((if first : bool then [] else [44]) ++ w ++ 125 :: t) = within d D (l, t).
Proof.
  intros T. induction T as [d k v w M|d e k v l w r M R IH]; intros K n D first t L; inversion M as [d' k' v' q a b c s f A Q B C T F]; subst; pose proof (K k v (or_introl eq_refl)) as KK.
  - destruct n as [|n]; [lia|]. repeat (rewrite ?app_length in L; cbn [List.length] in L).
    replace ((a ++ q ++ b ++ 58 :: c ++ s ++ f) ++ 125 :: t) with (a ++ q ++ b ++ 58 :: (c ++ s ++ f ++ 125 :: t)) by (repeat (cbn [app]; rewrite <- ?app_assoc); reflexivity).
    rewrite (fields_step n D first k q b _ Q B a A). unfold p_field. rewrite KK.
    rewrite (raw_complete d v) by first [assumption|rewrite !app_length; lia|apply follow_spaces; [assumption|cbn; tauto]].
    unfold within. destruct (d <=? D)%nat; [|reflexivity]. cbn [pbind]. rewrite fields_skip by assumption. destruct n as [|n]; [lia|]. reflexivity.
  - destruct n as [|n]; [lia|]. repeat (rewrite ?app_length in L; cbn [List.length] in L).
    replace (((a ++ q ++ b ++ 58 :: c ++ s ++ f) ++ 44 :: r) ++ 125 :: t) with (a ++ q ++ b ++ 58 :: (c ++ s ++ f ++ 44 :: r ++ 125 :: t)) by (repeat (cbn [app]; rewrite <- ?app_assoc); reflexivity).
    rewrite (fields_step n D first k q b _ Q B a A). unfold p_field. rewrite KK.
    rewrite (raw_complete d v) by first [assumption|rewrite !app_length; lia|apply follow_spaces; [assumption|cbn; tauto]].
    rewrite within_max. unfold within at 1. destruct (d <=? D)%nat; [|reflexivity]. cbn [pbind]. rewrite fields_skip by assumption.
    assert (K' : forall k v, In (k, v) l -> existsb (str_eqb k) file_fields = true) by (intros; eapply K; right; eauto).
    pose proof (IH K' n D false t ltac:(lia)) as EE. cbn [app] in EE. rewrite EE. unfold within. now destruct (e <=? D)%nat.
Qed.
Lemma asked_deep d j s : raw_document d j s -> only_asked j -> from_top s = if (d <=? 127)%nat then POk j else PErr PDepth.
Proof.
  intros (a & t & b & A & T & B & ->) K. unfold from_top, p_top. rewrite skip_app by exact A.
  assert (FB : follow b) by (rewrite <- (app_nil_r b); apply follow_spaces; [exact B|exact I]).
  destruct j as [|x|z|z|x|l|l]; try easy; cbn [only_asked] in K.
  - assert (exists r, t = 91 :: r) as (r & E) by (inversion T as [| | |j s' N| | | | |]; subst; eauto; inversion N).
    assert (SK : skip (t ++ b) = 91 :: r ++ b) by (rewrite E; cbn [app]; now rewrite skip_stop). rewrite SK. cbn [Z.eqb Pos.eqb].
    rewrite (raw_complete d (JArr l)); [|exact T|rewrite !app_length; lia|exact A|exact FB].
    unfold within. change depth_limit with 127%nat. destruct (d <=? 127)%nat; [|reflexivity]. cbn [pbind]. now rewrite (proj2 (skip_all b) B).
  - inversion T as [| | |j s' N| | | |s' S|d' l' m' s' M]; subst; [inversion N| |]; cbn [app]; rewrite skip_stop by reflexivity; rewrite Z.eqb_refl.
    + rewrite <- app_assoc, fields_skip by exact S. cbn [app]. rewrite p_fields_S, skip_stop by reflexivity. rewrite Z.eqb_refl. cbn [pbind].
      now rewrite (proj2 (skip_all b) B).
    + rewrite <- app_assoc. pose proof (asked_fields_complete d' l s' M K (S (List.length (s' ++ [125] ++ b))) (depth_limit - 1) true b) as E.
      cbn [app] in *. rewrite E by (rewrite app_length; cbn [List.length]; lia). change (depth_limit - 1)%nat with 126%nat. unfold within.
      change (S d' <=? 127)%nat with (d' <=? 126)%nat. destruct (d' <=? 126)%nat; [|reflexivity]. cbn [pbind]. now rewrite (proj2 (skip_all b) B).
Qed.
Lemma asked_agrees hp d j s : (forall merge : list (str * json) -> list (str * json) -> Prop, (forall l, distinct str_eqb l = true -> merge l l) -> text_as merge num_text chars d j s) ->
  only_asked j -> read_direct hp s = text_file hp s.
Proof.
  intros H K. unfold read_direct, text_file.
  assert (R : raw_document d j s) by (exists [], s, []; repeat split; try apply spaces_nil; [apply H; auto|now rewrite app_nil_r]).
  rewrite (asked_deep d j s R K). rewrite (from_text_deep d j s) by (apply text_document, H, distinct_collapsed).
  change depth_limit with 127%nat. now destruct (d <=? 127)%nat.
Qed.
Lemma tree_asked a b g : only_asked (to_tree a b g).
Proof.
  unfold to_tree, only_asked. intros k v I. apply in_app_or in I as [I|[E|[E|[]]]]; try (injection E as <- <-; reflexivity).
  unfold e_dversion in I. destruct (g_version g) as [|[]]; cbn [In] in I; repeat (destruct I as [E|I]; [injection E as <- <-; reflexivity|]); destruct I.
Qed.

Lemma jmap_id j : jmap (fun z => z) j = j.
Proof.
  remember (S (jsize j)) as n eqn:E. assert (L : (jsize j < n)%nat) by lia. clear E. revert j L.
  induction n as [|n IH]; intros j L; [lia|]. destruct j as [| | | | |l|l]; try reflexivity; cbn [jmap]; f_equal.
  - rewrite <- (map_id l) at 2. apply map_ext_in. intros v I. pose proof (arr_smaller v l I). apply IH. lia.
  - rewrite <- (map_id l) at 2. apply map_ext_in. intros [k v] I. pose proof (obj_smaller k v l I). f_equal. apply IH. lia.
Qed.
Lemma print_as (merge : list (str * json) -> list (str * json) -> Prop) float j : prints_floats float -> (forall l, distinct str_eqb l = true -> merge l l) -> j_ok j = true ->
  text_as merge num_text chars (brackets j) j (print float j) /\ text_as merge num_text chars (brackets j) j (pretty float 0 j).
Proof.
  intros FL M J. pose proof (jmap_id j) as E.
  assert (F : forall z, j_ok (JFloat ((fun x => x) z)) = true -> num_text (JFloat ((fun x => x) z)) (float z)).
  { intros z H. cbn [j_ok] in H. apply andb_true_iff in H as [U F]. now apply FL. }
  assert (J' : j_ok (jmap (fun x => x) j) = true) by now rewrite E.
  pose proof (print_mapped float _ _ F merge M j J') as P. pose proof (pretty_mapped float _ _ F merge M j J' 0) as Q. now rewrite E in P, Q.
Qed.
Lemma value_text_agrees hp float g sep : prints_floats float -> t_file sep g = true ->
  read_direct hp (file_text float g) = text_file hp (file_text float g)
  /\ read_direct hp (pretty float 0 (to_json g)) = text_file hp (pretty float 0 (to_json g)).
Proof.
  intros FL T. assert (J : j_ok (to_json g) = true) by (eapply file_well; eassumption).
  assert (K : only_asked (to_json g)) by (rewrite <- tree_json; apply tree_asked).
  split; apply (asked_agrees hp (brackets (to_json g)) (to_json g)); auto; intros merge M; now apply print_as.
Qed.
Lemma direct_text_agrees hp float32 float g sep : prints_singles float32 -> prints_floats float -> t_file sep g = true ->
  read_direct hp (direct_text float32 float g) = text_file hp (direct_text float32 float g)
  /\ read_direct hp (direct_pretty float32 float g) = text_file hp (direct_pretty float32 float g).
Proof.
  intros F32 FL T.
  split; eapply asked_agrees; try (intros merge M; first [apply (direct_text_as float32 float F32 FL merge sep g M T)|apply (direct_pretty_as float32 float F32 FL merge sep g M T)]); apply tree_asked.
Qed.

(** ** What is read is well formed *)
Definition pair_fit (e : str * json) : bool := let '(k, v) := e in is_str k && j_fit v.
Ltac strs H := repeat (rewrite is_str_cons in H || rewrite is_str_app in H); repeat match type of H with _ && _ = true => let H' := fresh "S" in apply andb_true_iff in H as [H' H]; strs H' end.
Lemma raw_fit : (forall d j s, raw_text d j s -> is_str s = true -> j_fit j = true)
  /\ (forall d l s, items_as eq num_text chars d l s -> is_str s = true -> forallb j_fit l = true)
  /\ (forall d l s, members_as eq num_text chars d l s -> is_str s = true -> forallb pair_fit l = true)
  /\ (forall d k v s, member_as eq num_text chars d k v s -> is_str s = true -> pair_fit (k, v) = true).
Proof.
  apply json_text_all; try reflexivity.
  - intros j s N _. apply ok_fit, (number_well j s N).
  - intros x s Q S. exact (quoted_well x s Q S).
  - intros d l s _ IH S. strs S. auto.
  - intros d l m s _ IH <- S. strs S. cbn [j_fit]. apply IH. assumption.
  - intros d v a s b _ _ IH _ S. strs S. cbn [forallb]. now rewrite IH.
  - intros d e v l a s b r _ _ IH _ _ IHr S. strs S. cbn [forallb]. now rewrite IH, IHr.
  - intros d k v s _ IH S. cbn [forallb]. now rewrite IH.
  - intros d e k v l s r _ IH _ IHr S. strs S. cbn [forallb]. now rewrite IH, IHr.
  - intros d k v q a b c s e _ Q _ _ _ IH _ S. strs S. unfold pair_fit. rewrite IH by assumption. now rewrite (quoted_well k q Q).
Qed.
Lemma fields_fit l s : fields_text l s -> is_str s = true -> forallb pair_fit l = true.
Proof.
  assert (F : forall k v s, field_text k v s -> is_str s = true -> j_fit v = true).
  { intros k v w [d x v' w' _ T _|k' w' _ _] S; [|reflexivity]. destruct raw_fit as (R & _). now apply (R d v' w'). }
  intros T. induction T as [k v a q b c s e A Q B C T E|k v a q b c s e l r A Q B C T E R IH]; intros S; strs S; cbn [forallb pair_fit].
  - rewrite (quoted_well k q Q) by assumption. now rewrite (F k v s T).
  - rewrite (quoted_well k q Q) by assumption. rewrite (F k v s T) by assumption. now rewrite IH.
Qed.
Lemma top_fit j s : is_str s = true -> top_document j s -> j_fit j = true.
Proof.
  intros S (a & t & b & _ & T & _ & ->). rewrite !is_str_app in S. apply andb_true_iff in S as [_ S]. apply andb_true_iff in S as [S _].
  destruct T as [s' _|l s' T|d l s' T _]; [reflexivity| |].
  - strs S. cbn [j_fit]. apply (fields_fit l s'); assumption.
  - destruct raw_fit as (R & _). now apply (R d _ s').
Qed.
Lemma direct_typed hp s g : is_str s = true -> read_direct hp s = JOk g -> t_file same g = true.
Proof.
  unfold read_direct. intros S H. destruct (from_top s) as [j|] eqn:E; [|discriminate]. apply from_top_iff in E.
  eapply file_good; [|exact H]. now apply (top_fit j s).
Qed.

(** ** Loaded files *)
Lemma loaded_agree hp float32 float z o v b g : prints_singles float32 -> prints_floats float -> load z o v b = Ok g ->
  Forall (fun s => read_direct hp s = text_file hp s)
    [file_text float g; pretty float 0 (to_json g); direct_text float32 float g; direct_pretty float32 float g].
Proof.
  intros F32 FL H. apply loaded_typed in H. destruct (value_text_agrees hp float g same FL H) as [V P].
  destruct (direct_text_agrees hp float32 float g same F32 FL H) as [D Q]. auto.
Qed.
Lemma loaded_direct_both float32 float r : prints_singles float32 -> prints_floats float ->
  (forall b, u_ok 4 b = true -> finite32 b = true -> reread float32 b (r b)) ->
  forall hp z o v b g, load z o v b = Ok g ->
  read_direct hp (direct_text float32 float g) = (if fin_file g && (brackets (to_json g) <=? 127)%nat then JOk (r_file r (m_insert hp) g) else JErr)
  /\ read_direct hp (direct_pretty float32 float g) = if fin_file g && (brackets (to_json g) <=? 127)%nat then JOk (r_file r (m_insert hp) g) else JErr.
Proof.
  intros F32 FL RR hp z o v b g H. pose proof (loaded_direct float32 float r F32 FL RR hp z o v b g H) as L. apply loaded_typed in H.
  destruct (direct_text_agrees hp float32 float g same F32 FL H) as [-> ->]. exact L.
Qed.
Lemma loaded_unchanged float32 float hp z o v b g : prints_singles float32 -> prints_floats float -> calm hp -> load z o v b = Ok g ->
  read_direct hp (direct_text float32 float g) = JOk g
  <-> fin_file g = true /\ (brackets (to_json g) <= 127)%nat /\ forall x, In x (singles g) -> reread float32 x x.
Proof.
  intros F32 FL C H. pose proof (loaded_direct_back float32 float hp z o v b g F32 FL C H) as L. apply loaded_typed in H.
  destruct (direct_text_agrees hp float32 float g same F32 FL H) as [-> _]. exact L.
Qed.
Lemma read_direct_again hp float s g : prints_floats float -> calm hp -> is_str s = true -> read_direct hp s = JOk g ->
  read_direct hp (file_text float g) = if fin_file g && (brackets (to_json g) <=? 127)%nat then JOk g else JErr.
Proof.
  intros FL C S H. apply direct_typed in H; [|exact S]. destruct (value_text_agrees hp float g same FL H) as [-> _]. now apply typed_text.
Qed.
Lemma direct_panic hp s : read_direct hp s = JPanic -> exists j x, top_document j s /\ occurs x j /\ guid_parse x = Panicked.
Proof.
  unfold read_direct. destruct (from_top s) as [j|] eqn:E; [|discriminate]. apply from_top_iff in E. intros H.
  destruct (file_safe hp j H) as (x & O & P). eauto.
Qed.
