(** What is printed is a text of the value. *)
From Coq Require Import ZArith List Bool String Lia ZifyBool ZifyNat QArith Qpower.
From Verif Require Import Base Str Json Numeral Nearest MapFacts BaseFacts Spec JsonSpec JsonFloat JsonSyntax DecimalThm JsonGrammar JsonRead
  JsonComplete JsonBack GrammarText Decode.
Import ListNotations.
Open Scope Z_scope.

(** ** Specification *)
(** Brackets inside one another. *)
Fixpoint brackets (j : json) : nat :=
  match j with
  | JArr l => S (list_max (map brackets l))
  | JObj l => S (list_max (map (fun e => brackets (snd e)) l))
  | _ => O
  end.
(** A function that prints finite doubles so that they denote themselves. *)
Definition prints_floats (float : Z -> str) : Prop :=
  forall b, u_ok 8 b = true -> finite64 b = true -> num_text (JFloat b) (float b).

(** ** Strings and integers *)
Lemma control_hex c : 0 <= c < 32 -> hex_text c [48; 48; hex_lower (c / 16); hex_lower (c mod 16)].
Proof.
  intros H. apply hex4_iff.
  assert (F : forallb (fun c => match hex4 48 48 (hex_lower (c / 16)) (hex_lower (c mod 16)) with Some u => u =? c | None => false end)
    (map Z.of_nat (List.seq 0 32)) = true) by reflexivity.
  rewrite forallb_forall in F. specialize (F c). cbv beta in F.
  destruct (hex4 _ _ _ _) as [u|]; [f_equal; apply Z.eqb_eq, F|apply Bool.diff_false_true in F; [easy|]].
  all: replace c with (Z.of_nat (Z.to_nat c)) by lia; apply in_map, in_seq; lia.
Qed.
Lemma escape_chars c s t : 0 <= c -> chars s t -> chars (c :: s) (escape c ++ t).
Proof.
  intros H C. unfold escape.
  repeat match goal with |- chars _ ((if c =? ?k then _ else _) ++ _) => let X := fresh "X" in destruct (c =? k) eqn:X;
    [apply Z.eqb_eq in X; subst c; apply c_escape; [cbn; tauto|exact C]|] end.
  destruct (c <? 32) eqn:L; [|apply c_plain; [lia..|exact C]].
  exact (c_unicode c _ s t (control_hex c ltac:(lia)) ltac:(lia) C).
Qed.
Lemma quote_quoted s : is_str s = true -> quoted s (quote s).
Proof.
  intros H. exists (flat_map escape s). split; [|reflexivity]. induction s as [|c s IH]; [constructor|]. unfold is_str in H. cbn [forallb] in H.
  apply andb_true_iff in H as [H1 H2]. cbn [flat_map]. apply escape_chars; [unfold scalar, in_range in H1; lia|auto].
Qed.
Lemma decimal_whole z : 0 <= z -> whole (decimal z) /\ value (decimal z) = z.
Proof. intros H. destruct (decimal_numeral z H) as (N & D & V & L). split; [|exact V]. now split. Qed.
Lemma int_text z : -9223372036854775808 <= z <= 18446744073709551615 -> num_text (JInt z) (show_int z).
Proof.
  intros H. unfold show_int. destruct (z <? 0) eqn:E.
  - destruct (decimal_whole (- z) ltac:(lia)) as [W V]. replace z with (- value (decimal (- z))) at 1 by lia.
    apply n_negative; [exact W|]. rewrite V. change (2 ^ 63) with 9223372036854775808. lia.
  - destruct (decimal_whole z ltac:(lia)) as [W V]. rewrite <- V at 1. apply n_natural; [exact W|]. rewrite V.
    change (2 ^ 64) with 18446744073709551616. lia.
Qed.

(** ** Arrays and objects *)
Lemma commas_cons x y l : commas (x :: y :: l) = x ++ [44] ++ commas (y :: l).
Proof. reflexivity. Qed.
Lemma items_commas f pre post l : spaces pre -> spaces post -> l <> [] ->
  (forall v, In v l -> json_text (brackets v) v (f v)) ->
  items (list_max (map brackets l)) l (commas (map (fun v => pre ++ f v) l) ++ post).
Proof.
  intros A B N H. induction l as [|v l IH]; [easy|]. destruct l as [|w l].
  - cbn [map list_max fold_right commas]. rewrite Nat.max_0_r, <- app_assoc. apply i_last; auto. apply H. now left.
  - change (map (fun v => pre ++ f v) (v :: w :: l)) with ((pre ++ f v) :: (pre ++ f w) :: map (fun v => pre ++ f v) l). rewrite commas_cons.
    change (list_max (map brackets (v :: w :: l))) with (Nat.max (brackets v) (list_max (map brackets (w :: l)))).
    match goal with |- items _ _ ?x => replace x
      with (pre ++ f v ++ [] ++ 44 :: (commas (map (fun v => pre ++ f v) (w :: l)) ++ post)) by (cbn [app map]; rewrite <- !app_assoc; reflexivity) end.
    apply i_more; auto using spaces_nil.
    + apply H. now left.
    + apply IH; [discriminate|]. intros x I. apply H. now right.
Qed.
Lemma members_commas f pre colon post l : spaces pre -> spaces colon -> spaces post -> l <> [] ->
  (forall k v, In (k, v) l -> is_str k = true /\ json_text (brackets v) v (f v)) ->
  members (list_max (map (fun e => brackets (snd e)) l)) l
    (commas (map (fun '(k, v) => pre ++ quote k ++ 58 :: colon ++ f v) l) ++ post).
Proof.
  intros A C B N H.
  assert (M : forall k v p, spaces p -> In (k, v) l -> member (brackets v) k v (pre ++ quote k ++ 58 :: colon ++ f v ++ p)).
  { intros k v p P I. destruct (H k v I) as [S T]. exact (m_pair _ k v (quote k) pre [] colon (f v) p A (quote_quoted k S) spaces_nil C T P). }
  clear H. induction l as [|[k v] l IH]; [easy|]. destruct l as [|[k' w] l].
  - cbn [map list_max fold_right commas snd]. rewrite Nat.max_0_r. apply m_last.
    replace ((pre ++ quote k ++ 58 :: colon ++ f v) ++ post) with (pre ++ quote k ++ 58 :: colon ++ f v ++ post).
    + apply M; [exact B|now left].
    + rewrite <- !app_assoc. cbn [app]. now rewrite <- !app_assoc.
  - set (g := fun '(k, v) => pre ++ quote k ++ 58 :: colon ++ f v) in *.
    change (map g ((k, v) :: (k', w) :: l)) with (g (k, v) :: g (k', w) :: map g l). rewrite commas_cons.
    change (list_max (map (fun e => brackets (snd e)) ((k, v) :: (k', w) :: l)))
      with (Nat.max (brackets v) (list_max (map (fun e : str * json => brackets (snd e)) ((k', w) :: l)))).
    match goal with |- members _ _ ?x => replace x
      with ((pre ++ quote k ++ 58 :: colon ++ f v ++ []) ++ 44 :: (commas (map g ((k', w) :: l)) ++ post)) end.
    + apply m_more; [apply M; [apply spaces_nil|now left]|]. apply IH; [discriminate|]. intros x y p P I. apply M; [exact P|now right].
    + rewrite app_nil_r. unfold g at 2. rewrite <- !app_assoc. reflexivity.
Qed.
Lemma distinct_collapsed {V} (l : list (str * V)) : distinct str_eqb l = true -> collapsed str_eqb l l.
Proof. intros D. apply collapsed_str_eq. symmetry. apply ins_all_fresh. now rewrite <- distinct_fresh. Qed.

Section Printed.
Context (float : Z -> str) (FL : prints_floats float).
Lemma array_printed f pre post l : spaces pre -> spaces post ->
  (forall v, In v l -> json_text (brackets v) v (f v)) ->
  json_text (brackets (JArr l)) (JArr l) (91 :: (match l with [] => [] | _ => commas (map (fun v => pre ++ f v) l) ++ post end) ++ [93]).
Proof.
  intros A B H. destruct l as [|v l]; [apply (t_empty_array []), spaces_nil|]. apply t_array. apply items_commas; auto. discriminate.
Qed.
Lemma object_printed f pre colon post l : spaces pre -> spaces colon -> spaces post -> distinct str_eqb l = true ->
  (forall k v, In (k, v) l -> is_str k = true /\ json_text (brackets v) v (f v)) ->
  json_text (brackets (JObj l)) (JObj l)
    (123 :: (match l with [] => [] | _ => commas (map (fun '(k, v) => pre ++ quote k ++ 58 :: colon ++ f v) l) ++ post end) ++ [125]).
Proof.
  intros A C B D H. destruct l as [|v l]; [apply (t_empty_object []), spaces_nil|]. eapply t_object; [|now apply distinct_collapsed].
  apply members_commas; auto. discriminate.
Qed.
Lemma scalars_printed j n : j_ok j = true -> match j with JArr _ | JObj _ => False | _ => True end ->
  json_text (brackets j) j (print float j) /\ pretty float n j = print float j.
Proof.
  intros J S. destruct j as [| b | z | z | s | |]; try easy; (split; [|reflexivity]); cbn [brackets print].
  - constructor.
  - destruct b; constructor.
  - apply t_number, int_text. cbn [j_ok] in J. unfold in_range in J. lia.
  - apply t_number, FL; cbn [j_ok] in J; apply andb_true_iff in J; tauto.
  - apply t_string, quote_quoted, J.
Qed.
Lemma print_text j : j_ok j = true -> json_text (brackets j) j (print float j).
Proof.
  remember (S (jsize j)) as n eqn:E. assert (L : (jsize j < n)%nat) by lia. clear E. revert j L.
  induction n as [|n IH]; intros j L J; [lia|].
  destruct j as [| b | z | z | s | l | l]; try (now apply (scalars_printed _ 0%nat)).
  - pose proof (array_printed (print float) [] [] l spaces_nil spaces_nil) as A. cbn [app] in A. cbn [print].
    replace ([91] ++ commas (map (print float) l) ++ [93]) with (91 :: match l with [] => [] | _ => commas (map (print float) l) ++ [] end ++ [93])
      by (destruct l; [reflexivity|now rewrite app_nil_r]).
    apply A. intros v I. pose proof (arr_smaller v l I). apply IH; [lia|]. cbn [j_ok] in J. rewrite forallb_forall in J. now apply J.
  - cbn [j_ok] in J. apply andb_true_iff in J as [D J]. rewrite forallb_forall in J.
    pose proof (object_printed (print float) [] [] [] l spaces_nil spaces_nil spaces_nil D) as A. cbn [app] in A. cbn [print].
    change (map (fun '(k, v) => quote k ++ [58] ++ print float v) l) with (map (fun '(k, v) => quote k ++ 58 :: print float v) l).
    replace ([123] ++ commas (map (fun '(k, v) => quote k ++ 58 :: print float v) l) ++ [125])
      with (123 :: match l with [] => [] | _ => commas (map (fun '(k, v) => quote k ++ 58 :: print float v) l) ++ [] end ++ [125])
      by (destruct l; [reflexivity|now rewrite app_nil_r]).
    apply A. intros k v I. pose proof (obj_smaller k v l I). specialize (J _ I). cbv beta iota in J. apply andb_true_iff in J as [J1 J2].
    split; [exact J1|]. apply IH; [lia|exact J2].
Qed.
Lemma indent_spaces n : spaces (indent n).
Proof. unfold indent, spaces. constructor; [cbn; tauto|]. induction (2 * n)%nat as [|m IH]; cbn [repeat]; constructor; [cbn; tauto|exact IH]. Qed.
Lemma pretty_text j : j_ok j = true -> forall n, json_text (brackets j) j (pretty float n j).
Proof.
  remember (S (jsize j)) as k eqn:E. assert (L : (jsize j < k)%nat) by lia. clear E. revert j L.
  induction k as [|k IH]; intros j L J n; [lia|].
  destruct j as [| b | z | z | s | l | l]; try (now destruct (scalars_printed _ n J I) as [X ->]).
  - cbn [pretty]. change ([91] ++ block n (map (pretty float (S n)) l) ++ [93]) with (91 :: block n (map (pretty float (S n)) l) ++ [93]).
    replace (block n (map (pretty float (S n)) l))
      with (match l with [] => [] | _ => commas (map (fun v => indent (S n) ++ pretty float (S n) v) l) ++ indent n end)
      by (destruct l as [|x l]; [reflexivity|]; unfold block; cbn [map]; now rewrite map_map).
    apply array_printed; [apply indent_spaces..|].
    intros v I. pose proof (arr_smaller v l I). apply IH; [lia|]. cbn [j_ok] in J. rewrite forallb_forall in J. now apply J.
  - cbn [j_ok] in J. apply andb_true_iff in J as [D J]. rewrite forallb_forall in J. cbn [pretty].
    set (g := fun '(k, v) => quote k ++ s2z ": " ++ pretty float (S n) v).
    change ([123] ++ block n (map g l) ++ [125]) with (123 :: block n (map g l) ++ [125]).
    replace (block n (map g l))
      with (match l with [] => [] | _ => commas (map (fun '(k, v) => indent (S n) ++ quote k ++ 58 :: [32] ++ pretty float (S n) v) l) ++ indent n end).
    2:{ destruct l as [|x l]; [reflexivity|]. unfold block. cbn [map]. rewrite map_map. f_equal. f_equal. f_equal; [now destruct x|].
        apply map_ext. now intros []. }
    apply object_printed; [apply indent_spaces|repeat constructor; cbn; tauto|apply indent_spaces|exact D|].
    intros q v I. pose proof (obj_smaller q v l I). specialize (J _ I). cbv beta iota in J. apply andb_true_iff in J as [J1 J2].
    split; [exact J1|]. apply IH; [lia|exact J2].
Qed.
Lemma text_document d j s : json_text d j s -> document d j s.
Proof. intros T. exists [], s, []. split; [apply spaces_nil|]. split; [exact T|]. split; [apply spaces_nil|]. now rewrite app_nil_r. Qed.
End Printed.

(** ** A function that prints floats: all their digits *)
Definition exact_float (b : Z) : str :=
  let '(m, e) := f_split fmt64 b in
  (if f_neg fmt64 b then [45] else [])
  ++ (if 0 <=? e then decimal (m * 2 ^ e) ++ [46; 48] else decimal (m * 5 ^ (- e)) ++ [101; 45] ++ decimal (- e)).
Lemma nearest_exact p low top x a : 1 <= p -> 0 <= a <= top -> (x == number p low a)%Q -> nearest p low top x a.
Proof.
  intros P A E. split; [exact A|]. intros c C. rewrite E.
  setoid_replace (number p low a - number p low a)%Q with 0%Q by ring. change (Qabs.Qabs 0) with 0%Q.
  split; [apply Qabs.Qabs_nonneg|]. intros Z. left. apply (number_inj p low); [exact P|lia|lia|].
  assert (N : (number p low a - number p low c == 0)%Q).
  { revert Z. apply Qabs.Qabs_case; intros _ Z; [now symmetry|]. setoid_replace (number p low a - number p low c)%Q with (- - (number p low a - number p low c))%Q by ring.
    rewrite <- Z. ring. }
  setoid_replace (number p low c) with (number p low a - (number p low a - number p low c))%Q by ring. rewrite N. ring.
Qed.
Lemma exact_rounded b x : u_ok 8 b = true -> finite64 b = true ->
  (let '(m, e) := f_split fmt64 b in x == inject_Z m * (2 # 1) ^ e)%Q -> rounded64 (f_neg fmt64 b) x b.
Proof.
  intros U F E. pose proof (split_number fmt64 b ltac:(cbn; lia) ltac:(cbn; lia)) as S.
  destruct (f_split fmt64 b) as [m e]. destruct S as [_ S]. rewrite <- E in S.
  rewrite <- finite64_eq in F by exact U. unfold f_finite in F. apply Z.ltb_lt in F.
  exists (b mod f_sign fmt64). split.
  - unfold f_neg. cbn [f_sign fmt64] in *. unfold u_ok, in_range in U. change (2 ^ (8 * 8)) with 18446744073709551616 in U.
    destruct (0x8000000000000000 <=? b) eqn:N.
    + replace b with (b - 0x8000000000000000 + 1 * 0x8000000000000000) at 2 by lia. rewrite Z_mod_plus_full, Z.mod_small by lia. lia.
    + rewrite Z.mod_small by lia. lia.
  - apply nearest_exact; [lia| |exact S]. pose proof (Z.mod_pos_bound b (f_sign fmt64) ltac:(cbn; lia)). cbn [f_inf fmt64] in F. lia.
Qed.
Lemma value_app_zero s : value (s ++ [48]) = 10 * value s.
Proof. rewrite value_snoc. lia. Qed.
Lemma exact_prints : prints_floats exact_float.
Proof.
  intros b U F. unfold exact_float. pose proof (exact_rounded b) as R. pose proof (split_number fmt64 b ltac:(cbn; lia) ltac:(cbn; lia)) as S.
  destruct (f_split fmt64 b) as [m e]. destruct S as [M _]. destruct (0 <=? e) eqn:E.
  - assert (P : 0 < 2 ^ e) by (apply Z.pow_pos_nonneg; lia). destruct (decimal_whole (m * 2 ^ e) ltac:(nia)) as [W V].
    replace (decimal (m * 2 ^ e) ++ [46; 48]) with (decimal (m * 2 ^ e) ++ [46; 48] ++ []) by reflexivity.
    apply (n_double (f_neg fmt64 b) _ [48] _ 0); auto.
    + constructor; [discriminate|]. repeat constructor; unfold digit; lia.
    + constructor.
    + discriminate.
    + apply R; auto. rewrite value_app_zero, V. rewrite !inject_Z_mult, <- pow_inj by lia.
      change (inject_Z 10) with (10 # 1)%Q. generalize ((2 # 1) ^ e)%Q (inject_Z m). intros u v. change (0 - Z.of_nat (Datatypes.length [48])) with (-1). change ((10 # 1) ^ (-1))%Q with (1 # 10)%Q. ring.
  - assert (P : 0 < 5 ^ (- e)) by (apply Z.pow_pos_nonneg; lia). destruct (decimal_whole (m * 5 ^ (- e)) ltac:(nia)) as [W V].
    destruct (decimal_whole (- e) ltac:(lia)) as [WE VE]. pose proof WE as (NE & DE & _).
    replace (decimal (m * 5 ^ (- e)) ++ [101; 45] ++ decimal (- e)) with (decimal (m * 5 ^ (- e)) ++ [] ++ [101; 45] ++ decimal (- e)) by reflexivity.
    apply (n_double (f_neg fmt64 b) _ [] _ (-1 * value (decimal (- e)))); auto.
    + constructor.
    + apply (ex_some 101 (-1, [45])); cbn; auto.
    + discriminate.
    + apply R; auto. rewrite app_nil_r, V, VE. cbn [List.length]. replace (-1 * - e - Z.of_nat 0) with (- - e) by lia.
      rewrite Qpower_opp. set (k := - e) in *. replace e with (- k) by lia. rewrite Qpower_opp, inject_Z_mult.
      assert (E5 : (inject_Z (5 ^ k) * / (10 # 1) ^ k == / (2 # 1) ^ k)%Q).
      { rewrite pow10_inj, pow_inj by lia. change 10 with (2 * 5). rewrite Z.pow_mul_l, inject_Z_mult.
        assert (N2 : ~ (inject_Z (2 ^ k) == 0)%Q) by (intros X; change 0%Q with (inject_Z 0) in X; rewrite inject_Z_injective in X; pose proof (Z.pow_pos_nonneg 2 k); lia).
        assert (N5 : ~ (inject_Z (5 ^ k) == 0)%Q) by (intros X; change 0%Q with (inject_Z 0) in X; rewrite inject_Z_injective in X; lia).
        field. auto. }
      rewrite <- Qmult_assoc, E5. reflexivity.
Qed.

(** ** There and back *)
Lemma printed_back float j : prints_floats float -> j_ok j = true ->
  from_text (print float j) = if (brackets j <=? 127)%nat then POk j else PErr PDepth.
Proof. intros FL J. apply from_text_deep, text_document, print_text; assumption. Qed.
Lemma pretty_back float j : prints_floats float -> j_ok j = true ->
  from_text (pretty float 0 j) = if (brackets j <=? 127)%nat then POk j else PErr PDepth.
Proof. intros FL J. apply from_text_deep, text_document, pretty_text; assumption. Qed.
