(** The parser accepts the texts of the grammar and gives the values that they denote. *)
From Coq Require Import ZArith List Bool String Lia ZifyBool ZifyNat QArith.
From Verif Require Import Base Str Json Numeral Nearest MapFacts BaseFacts Spec JsonSpec JsonFloat JsonSyntax DecimalThm JsonGrammar GrammarText.
Import ListNotations.
Open Scope Z_scope.

Ltac pcases H := repeat match type of H with
  | pbind ?r _ = _ => let E := fresh "E" in destruct r as [|] eqn:E; cbn [pbind] in H; [|discriminate H]
  | (let '(_, _) := ?p in _) = _ => destruct p
  end.

(** ** White space *)
Lemma space_in c : is_space c = true <-> In c [32; 9; 10; 13].
Proof. unfold is_space. cbn [In]. lia. Qed.
Lemma skip_split s : exists a, spaces a /\ s = a ++ skip s.
Proof.
  induction s as [|c s (a & A & IH)]; [exists []; split; [constructor|reflexivity]|]. cbn [skip].
  destruct (is_space c) eqn:E.
  - exists (c :: a). split; [constructor; [now apply space_in|exact A]|]. cbn [app]. now rewrite <- IH.
  - exists []. split; [constructor|reflexivity].
Qed.
Lemma skip_app a s : spaces a -> skip (a ++ s) = skip s.
Proof. intros A. induction A as [|c a C _ IH]; [reflexivity|]. cbn [app skip]. apply space_in in C. now rewrite C. Qed.
Lemma skip_stop c s : is_space c = false -> skip (c :: s) = c :: s.
Proof. intros E. cbn [skip]. now rewrite E. Qed.
Lemma skip_all s : skip s = [] <-> spaces s.
Proof.
  split.
  - intros E. destruct (skip_split s) as (a & A & S). rewrite E, app_nil_r in S. now subst.
  - intros A. pose proof (skip_app s [] A) as E. rewrite app_nil_r in E. exact E.
Qed.
Lemma skip_idem s : skip (skip s) = skip s.
Proof. induction s as [|c s IH]; [reflexivity|]. cbn [skip]. destruct (is_space c) eqn:E; [exact IH|]. now apply skip_stop. Qed.

(** ** Numbers *)
Lemma is_digit_iff c : is_digit c = true <-> digit c.
Proof. unfold is_digit, digit. lia. Qed.
(** What may not follow the digits. *)
Definition no_digit (s : str) : Prop := match s with [] => True | c :: _ => is_digit c = false end.
Lemma span_sound s : forall x t, span s = (x, t) -> s = x ++ t /\ Forall digit x /\ no_digit t.
Proof.
  induction s as [|c s IH]; cbn [span]; intros x t H.
  - injection H as <- <-. repeat split. constructor.
  - destruct (is_digit c) eqn:E.
    + destruct (span s) as [y u]. injection H as <- <-. destruct (IH y u eq_refl) as (-> & F & N).
      repeat split; [|exact N]. constructor; [now apply is_digit_iff|exact F].
    + injection H as <- <-. repeat split; [constructor|exact E].
Qed.
Lemma span_complete x t : Forall digit x -> no_digit t -> span (x ++ t) = (x, t).
Proof.
  intros F N. induction F as [|c x D _ IH]; cbn [app span].
  - destruct t as [|c t]; [reflexivity|]. cbn [span no_digit] in *. now rewrite N.
  - apply is_digit_iff in D. now rewrite D, IH.
Qed.
Lemma fraction_sound s o t : p_fraction s = POk (o, t) -> exists x, s = x ++ t
  /\ fraction (match o with Some f => f | None => [] end) x /\ (x = [] <-> o = None).
Proof.
  unfold p_fraction. destruct s as [|c s].
  - intros H; injection H as <- <-. exists []. repeat split. constructor.
  - destruct (c =? 46) eqn:C.
    + destruct (span s) as [x u] eqn:S. apply span_sound in S as (-> & F & _). destruct x as [|y x]; [discriminate|].
      intros H; injection H as <- <-. exists (46 :: y :: x). assert (c = 46) by lia. subst c. split; [reflexivity|]. split; [|easy].
      constructor; [discriminate|exact F].
    + intros H; injection H as <- <-. exists []. repeat split. constructor.
Qed.
Lemma exponent_sound s o t : p_exponent s = POk (o, t) -> exists y, s = y ++ t
  /\ exponent (match o with Some e => e | None => 0 end) y /\ (y = [] <-> o = None).
Proof.
  unfold p_exponent. destruct s as [|c s].
  - intros H; injection H as <- <-. exists []. repeat split. constructor.
  - destruct ((c =? 101) || (c =? 69)) eqn:C.
    + assert (SG : exists neg r1 sg, match s with
                        | x :: r1 => if x =? 43 then (false, r1) else if x =? 45 then (true, r1) else (false, s)
                        | [] => (false, s)
                        end = (neg, r1) /\ s = sg ++ r1 /\ In (if neg then -1 else 1, sg) [(1, []); (1, [43]); (-1, [45])]).
      { destruct s as [|x s]; [exists false, [], []; cbn; auto|]. destruct (x =? 43) eqn:X; [|destruct (x =? 45) eqn:Y].
        - exists false, s, [43]. assert (x = 43) by lia. subst. repeat split; cbn; auto.
        - exists true, s, [45]. assert (x = 45) by lia. subst. repeat split; cbn; auto.
        - exists false, (x :: s), []. repeat split; cbn; auto. }
      destruct SG as (neg & r1 & sg & -> & -> & I). destruct (span r1) as [x u] eqn:S. apply span_sound in S as (-> & F & _).
      destruct x as [|y x]; [discriminate|]. intros H; injection H as <- <-.
      exists (c :: sg ++ y :: x). split; [cbn [app]; now rewrite <- app_assoc|]. split; [|easy].
      replace (if neg then - dec_value (y :: x) else dec_value (y :: x)) with (fst (if neg then -1 else 1, sg) * value (y :: x))
        by (unfold value, dec_value; destruct neg; cbn [fst]; lia).
      apply (ex_some c (if neg then -1 else 1, sg)); [cbn [In]; lia|exact I|discriminate|exact F].
    + intros H; injection H as <- <-. exists []. repeat split. constructor.
Qed.
Lemma rounded_u8 neg x b : rounded64 neg x b -> u_ok 8 b = true.
Proof. intros (a & -> & A & _). unfold u_ok, in_range. change (2 ^ (8 * 8)) with 18446744073709551616. destruct neg; lia. Qed.
Lemma real_sound neg n e j : 0 <= n -> p_real neg n e = POk j ->
  exists b, j = JFloat b /\ rounded64 neg (inject_Z n * (10 # 1) ^ e) b /\ finite64 b = true.
Proof.
  intros N. pose proof (decimal_nearest n e N) as D. unfold p_real. set (a := f_decimal n e) in *. clearbody a.
  destruct (a =? f_inf fmt64) eqn:E; [discriminate|]. intros H; injection H as <-.
  assert (RR : rounded64 neg (inject_Z n * (10 # 1) ^ e) ((if neg then f_sign fmt64 else 0) + a)) by (exists a; split; [reflexivity|exact D]).
  eexists. split; [reflexivity|]. split; [exact RR|]. rewrite <- finite64_eq by now apply (rounded_u8 _ _ _ RR).
  destruct D as [D _]. cbn in E. unfold f_finite. cbn [f_sign f_inf fmt64].
  replace (((if neg then 0x8000000000000000 else 0) + a) mod 0x8000000000000000) with a; [lia|].
  destruct neg; [rewrite Z.add_comm, <- (Z.mul_1_l 0x8000000000000000), Z_mod_plus_full|rewrite Z.add_0_l]; rewrite ?Z.mod_small by lia; reflexivity.
Qed.
Lemma real_complete neg n e b : 0 <= n -> rounded64 neg (inject_Z n * (10 # 1) ^ e) b -> finite64 b = true ->
  p_real neg n e = POk (JFloat b).
Proof.
  intros N R F. rewrite <- finite64_eq in F by now apply (rounded_u8 _ _ _ R). destruct R as (a & -> & A). pose proof (decimal_nearest n e N) as D. unfold p_real.
  assert (E : f_decimal n e = a) by (eapply (nearest_unique 52 (-1074)); [lia|exact D|exact A]). rewrite E. clear E D.
  destruct A as [A _]. destruct (a =? f_inf fmt64) eqn:E; [|reflexivity]. exfalso. cbn in E.
  unfold f_finite in F. cbn [f_sign f_inf fmt64] in F.
  replace (((if neg then 9223372036854775808 else 0) + a) mod 0x8000000000000000) with a in F; [lia|].
  destruct neg; [rewrite Z.add_comm, <- (Z.mul_1_l 0x8000000000000000), Z_mod_plus_full|rewrite Z.add_0_l]; rewrite ?Z.mod_small by lia; reflexivity.
Qed.
Lemma value_nonneg s : Forall digit s -> 0 <= value s.
Proof.
  induction s as [|c s IH] using rev_ind; [unfold value; cbn; lia|]. intros F. apply Forall_app in F as [F C].
  inversion C as [|? ? D _]; subst. unfold digit in D. rewrite value_snoc. specialize (IH F). lia.
Qed.
Lemma fraction_digits f x : fraction f x -> Forall digit f.
Proof. intros []; [constructor|assumption]. Qed.
Lemma number_sound neg s j t : p_number neg s = POk (j, t) ->
  exists w, s = w ++ t /\ num_text j ((if neg then [45] else []) ++ w).
Proof.
  unfold p_number. destruct (span s) as [i r] eqn:S. apply span_sound in S as (-> & F & ND).
  destruct i as [|c i]; [discriminate|]. remember (c :: i) as k. assert (K : k <> []) by (subst; discriminate). clear Heqk c i.
  destruct ((hd 0 k =? 48) && negb (len k =? 1)) eqn:Z0; [discriminate|]. intros H. pcases H.
  apply fraction_sound in E as (x & -> & FX & XN). apply exponent_sound in E0 as (y & -> & EY & YN).
  assert (W : whole k).
  { split; [exact K|]. split; [exact F|]. intros Z. destruct k as [|c [|c' k]]; [easy|cbn in Z; now subst|]. cbn [hd] in Z. unfold len in Z0. cbn [List.length] in Z0. cbn [hd] in Z0. lia. }
  pose proof (value_nonneg k F) as VN. change (dec_value k) with (value k) in H.
  assert (REAL : forall o1 o2 j' u, o = o1 -> o0 = o2 -> pbind (p_real neg (value (k ++ match o1 with Some f => f | None => [] end))
      (match o2 with Some e => e | None => 0 end - len (match o1 with Some f => f | None => [] end))) (fun q => POk (q, u)) = POk (j', t) ->
      (x = [] -> y = [] -> if neg then value k = 0 \/ 2 ^ 63 < value k else 2 ^ 64 <= value k) ->
      u = t /\ num_text j' ((if neg then [45] else []) ++ k ++ x ++ y)).
  { intros o1 o2 j' u -> -> R G. pcases R. injection R as <- <-. split; [reflexivity|].
    apply real_sound in E as (b & -> & RD & FI); [|apply value_nonneg, Forall_app; split; [exact F|apply (fraction_digits _ _ FX)]].
    eapply n_double; eauto. }
  assert (GO : exists u, (k ++ x ++ y ++ s0 = (k ++ x ++ y) ++ u) /\ u = t /\ num_text j ((if neg then [45] else []) ++ k ++ x ++ y)).
  { exists s0. split; [now rewrite <- !app_assoc|]. destruct o as [f|]; [apply (REAL _ _ _ _ eq_refl eq_refl H); intros X _; now apply XN in X|].
    destruct o0 as [e|]; [apply (REAL _ _ _ _ eq_refl eq_refl H); intros _ Y; now apply YN in Y|].
    rewrite (proj2 XN eq_refl), (proj2 YN eq_refl) in *.
    cbn [app]. rewrite app_nil_r. destruct neg.
    - destruct ((0 <? value k) && (value k <=? 9223372036854775808)) eqn:B.
      + injection H as <- <-. split; [reflexivity|]. apply (n_negative k); [exact W|]. change (2 ^ 63) with 9223372036854775808. lia.
      + pose proof (REAL None None j s0 eq_refl eq_refl) as RR. cbn [app] in RR. rewrite !app_nil_r in RR. apply RR; [exact H|].
        change (2 ^ 63) with 9223372036854775808. lia.
    - destruct (value k <? 18446744073709551616) eqn:B.
      + injection H as <- <-. split; [reflexivity|]. apply (n_natural k); [exact W|]. change (2 ^ 64) with 18446744073709551616. lia.
      + pose proof (REAL None None j s0 eq_refl eq_refl) as RR. cbn [app] in RR. rewrite !app_nil_r in RR. apply RR; [exact H|].
        change (2 ^ 64) with 18446744073709551616. lia. }
  destruct GO as (u & E & -> & N). exists (k ++ x ++ y). split; [exact E|exact N].
Qed.

(** What may follow a value. *)
Definition follow (t : str) : Prop := match t with [] => True | c :: _ => In c [32; 9; 10; 13; 44; 93; 125] end.
Lemma follow_spaces a t : spaces a -> follow t -> follow (a ++ t).
Proof. intros [|c b C _] F; [exact F|]. cbn [app follow In] in *. tauto. Qed.
Lemma follow_no_digit t : follow t -> no_digit t.
Proof. destruct t as [|c t]; [trivial|]. cbn [follow no_digit In]. unfold is_digit. lia. Qed.
Lemma fraction_complete f x t : fraction f x -> no_digit t -> (x = [] -> hd 0 t <> 46) ->
  p_fraction (x ++ t) = POk (match x with [] => None | _ => Some f end, t).
Proof.
  intros [|g N D] T H; cbn [app].
  - unfold p_fraction. destruct t as [|c t]; [reflexivity|]. specialize (H eq_refl). cbn [hd] in H. now replace (c =? 46) with false by lia.
  - unfold p_fraction. rewrite Z.eqb_refl, span_complete by assumption. now destruct g.
Qed.
Lemma exponent_complete e y t : exponent e y -> no_digit t -> (y = [] -> hd 0 t <> 101 /\ hd 0 t <> 69) ->
  p_exponent (y ++ t) = POk (match y with [] => None | _ => Some e end, t).
Proof.
  intros [|c [m sg] x C SG N D] T H; cbn [app].
  - unfold p_exponent. destruct t as [|c t]; [reflexivity|]. specialize (H eq_refl). cbn [hd] in H.
    now replace ((c =? 101) || (c =? 69)) with false by lia.
  - unfold p_exponent. cbn [In] in C. replace ((c =? 101) || (c =? 69)) with true by lia. cbn [fst snd] in *.
    destruct x as [|d x]; [easy|]. inversion D as [|? ? D1 _]; subst. unfold digit in D1.
    assert (SP : span ((d :: x) ++ t) = (d :: x, t)) by now apply span_complete.
    cbn [In] in SG. destruct SG as [E|[E|[E|[]]]]; injection E as <- <-; cbn [app] in *.
    + replace (d =? 43) with false by lia. replace (d =? 45) with false by lia. rewrite SP. cbn [fst]. rewrite Z.mul_1_l. reflexivity.
    + cbn [Z.eqb Pos.eqb]. rewrite SP. cbn [fst]. rewrite Z.mul_1_l. reflexivity.
    + cbn [Z.eqb Pos.eqb]. rewrite SP. reflexivity.
Qed.
Lemma number_lexed neg i f x e y t : whole i -> fraction f x -> exponent e y -> follow t ->
  p_number neg (i ++ x ++ y ++ t) =
  match x, y with
  | [], [] =>
    if neg then
      if (0 <? value i) && (value i <=? 9223372036854775808) then POk (JInt (- value i), t)
      else pbind (p_real true (value i) 0) (fun j => POk (j, t))
    else
      if value i <? 18446744073709551616 then POk (JInt (value i), t)
      else pbind (p_real false (value i) 0) (fun j => POk (j, t))
  | _, _ => pbind (p_real neg (value (i ++ f)) (e - len f)) (fun j => POk (j, t))
  end.
Proof.
  intros (NI & DI & ZI) FX EY T.
  assert (T' : hd 0 t <> 46 /\ hd 0 t <> 101 /\ hd 0 t <> 69) by (destruct t as [|c t]; cbn [follow hd In] in *; lia).
  assert (NE : no_digit (y ++ t)).
  { destruct EY as [|c]; [now apply follow_no_digit|]. cbn [app no_digit]. unfold is_digit. cbn [In] in *. lia. }
  assert (NF : no_digit (x ++ y ++ t)) by (destruct FX; [exact NE|reflexivity]).
  unfold p_number. rewrite span_complete by assumption. destruct i as [|c i]; [easy|]. remember (c :: i) as k.
  assert (ZE : (hd 0 k =? 48) && negb (len k =? 1) = false).
  { destruct (hd 0 k =? 48) eqn:E; [|reflexivity]. cbn [andb]. rewrite ZI by lia. reflexivity. }
  rewrite ZE. rewrite (fraction_complete f x); [|assumption|exact NE|].
  2:{ intros ->. destruct EY as [|c']; [cbn [app]; lia|]. cbn [app hd In] in *. lia. }
  cbn [pbind]. rewrite (exponent_complete e y); [|assumption|now apply follow_no_digit|lia]. cbn [pbind].
  change (dec_value k) with (value k).
  destruct FX as [|g GN GD]; destruct EY as [|c' sg z]; cbn [app]; try reflexivity.
Qed.

(** ** Strings *)
Lemma hex_value_iff c v : hex_value c = Some v <-> In (c, v) hex_digits.
Proof.
  split.
  - unfold hex_value, is_digit. intros H.
    assert (C : (48 <= c <= 57 /\ v = c - 48) \/ (97 <= c <= 102 /\ v = c - 87) \/ (65 <= c <= 70 /\ v = c - 55)).
    { destruct ((48 <=? c) && (c <=? 57)) eqn:A; [injection H as <-; lia|].
      destruct ((97 <=? c) && (c <=? 102)) eqn:B; [injection H as <-; lia|].
      destruct ((65 <=? c) && (c <=? 70)) eqn:D; [injection H as <-; lia|discriminate]. }
    clear H. change hex_digits with [(48, 0); (49, 1); (50, 2); (51, 3); (52, 4); (53, 5); (54, 6); (55, 7); (56, 8); (57, 9);
      (97, 10); (98, 11); (99, 12); (100, 13); (101, 14); (102, 15); (65, 10); (66, 11); (67, 12); (68, 13); (69, 14); (70, 15)].
    cbn [In]. destruct C as [[C ->]|[[C ->]|[C ->]]].
    + assert (c = 48 \/ c = 49 \/ c = 50 \/ c = 51 \/ c = 52 \/ c = 53 \/ c = 54 \/ c = 55 \/ c = 56 \/ c = 57) as D by lia.
      repeat (destruct D as [->|D]; [auto 30|]). subst. auto 30.
    + assert (c = 97 \/ c = 98 \/ c = 99 \/ c = 100 \/ c = 101 \/ c = 102) as D by lia.
      repeat (destruct D as [->|D]; [auto 30|]). subst. auto 30.
    + assert (c = 65 \/ c = 66 \/ c = 67 \/ c = 68 \/ c = 69 \/ c = 70) as D by lia.
      repeat (destruct D as [->|D]; [auto 30|]). subst. auto 30.
  - intros H. change hex_digits with [(48, 0); (49, 1); (50, 2); (51, 3); (52, 4); (53, 5); (54, 6); (55, 7); (56, 8); (57, 9);
      (97, 10); (98, 11); (99, 12); (100, 13); (101, 14); (102, 15); (65, 10); (66, 11); (67, 12); (68, 13); (69, 14); (70, 15)] in H.
    cbn [In] in H. repeat (destruct H as [E|H]; [injection E as <- <-; reflexivity|]). destruct H.
Qed.
Lemma hex4_iff a b c d u : hex4 a b c d = Some u <-> hex_text u [a; b; c; d].
Proof.
  unfold hex4. split.
  - destruct (hex_value a) eqn:A, (hex_value b) eqn:B, (hex_value c) eqn:C, (hex_value d) eqn:D; try discriminate.
    intros H. assert (E : u = 4096 * z + 256 * z0 + 16 * z1 + z2) by congruence. clear H. apply hex_value_iff in A, B, C, D.
    replace u with (((z * 16 + z0) * 16 + z1) * 16 + z2) by lia. now constructor.
  - intros H; inversion H as [? ? ? ? w x y z A B C D]; subst. apply hex_value_iff in A, B, C, D. rewrite A, B, C, D. f_equal. lia.
Qed.
Lemma hex_four_chars u x : hex_text u x -> exists a b c d, x = [a; b; c; d] /\ hex4 a b c d = Some u.
Proof. intros H. pose proof H as K. inversion H; subst. do 4 eexists. split; [reflexivity|]. now apply hex4_iff. Qed.
Lemma unescape_iff e c : unescape e = Some c <-> In (e, c) escapes.
Proof.
  unfold unescape, escapes. cbn [In]. split.
  - destruct ((e =? 34) || (e =? 92) || (e =? 47)) eqn:A.
    + intros H; injection H as <-. assert (e = 34 \/ e = 92 \/ e = 47) as [->|[->| ->]] by lia; auto.
    + repeat match goal with |- (if ?e =? ?k then _ else _) = _ -> _ => let X := fresh "X" in destruct (e =? k) eqn:X;
        [assert (e = k) by lia; subst e; intros HH; injection HH as <-; auto 12|] end. discriminate.
  - intros H. repeat (destruct H as [E|H]; [injection E as <- <-; reflexivity|]). destruct H.
Qed.
Lemma pcons_inv c r x t : pcons c r = POk (x, t) -> exists y, r = POk (y, t) /\ x = c :: y.
Proof. unfold pcons. intros H. pcases H. injection H as <- <-. eauto. Qed.
Lemma chars_sound n : forall s x t, (List.length s < n)%nat -> p_chars s = POk (x, t) -> exists w, s = w ++ 34 :: t /\ chars x w.
Proof.
  induction n as [|n IH]; intros s x t L; [lia|]. destruct s as [|c s]; [discriminate|]. cbn [List.length] in L. cbn [p_chars].
  destruct (c =? 34) eqn:Q.
  { intros H; injection H as <- <-. exists []. assert (c = 34) by lia. subst. split; [reflexivity|constructor]. }
  destruct (c =? 92) eqn:B.
  - assert (c = 92) by lia. subst c. destruct s as [|e s]; [discriminate|]. cbn [List.length] in L. destruct (e =? 117) eqn:U.
    + assert (e = 117) by lia. subst e. destruct s as [|a1 [|a2 [|a3 [|a4 s]]]]; try discriminate. cbn [List.length] in L.
      destruct (hex4 a1 a2 a3 a4) as [u|] eqn:HX; [|discriminate]. apply hex4_iff in HX.
      destruct ((55296 <=? u) && (u <=? 56319)) eqn:HI.
      * destruct s as [|y [|z [|b1 [|b2 [|b3 [|b4 s]]]]]]; try discriminate. cbn [List.length] in L.
        destruct ((y =? 92) && (z =? 117)) eqn:YZ; [|discriminate]. destruct (hex4 b1 b2 b3 b4) as [v|] eqn:HY; [|discriminate].
        apply hex4_iff in HY. destruct ((56320 <=? v) && (v <=? 57343)) eqn:LO; [|discriminate]. intros H.
        apply pcons_inv in H as (y' & H & ->). apply IH in H as (w & -> & C); [|lia].
        assert (y = 92 /\ z = 117) as [-> ->] by lia.
        exists (92 :: 117 :: [a1; a2; a3; a4] ++ 92 :: 117 :: [b1; b2; b3; b4] ++ w). split; [reflexivity|].
        apply c_pair; auto; lia.
      * destruct ((56320 <=? u) && (u <=? 57343)) eqn:LO; [discriminate|]. intros H. apply pcons_inv in H as (y' & H & ->).
        apply IH in H as (w & -> & C); [|lia]. exists (92 :: 117 :: [a1; a2; a3; a4] ++ w). split; [reflexivity|].
        apply c_unicode; auto. lia.
    + destruct (unescape e) as [c|] eqn:UE; [|discriminate]. intros H. apply pcons_inv in H as (y' & H & ->).
      apply IH in H as (w & -> & C); [|lia]. exists (92 :: e :: w). split; [reflexivity|]. apply c_escape; auto. now apply unescape_iff.
  - destruct (c <? 32) eqn:CT; [discriminate|]. intros H. apply pcons_inv in H as (y' & H & ->).
    apply IH in H as (w & -> & C); [|lia]. exists (c :: w). split; [reflexivity|]. apply c_plain; auto; lia.
Qed.
Lemma chars_complete x w t : chars x w -> p_chars (w ++ 34 :: t) = POk (x, t).
Proof.
  intros C. induction C as [|c s u A B D C IH|e c s u I C IH|u h s v H N C IH|u v h k s r H K U V C IH].
  - reflexivity.
  - cbn [app p_chars]. replace (c =? 34) with false by lia. replace (c =? 92) with false by lia. replace (c <? 32) with false by lia.
    now rewrite IH.
  - cbn [app p_chars]. cbn [Z.eqb Pos.eqb]. pose proof (proj2 (unescape_iff e c) I) as UE. rewrite UE.
    replace (e =? 117) with false by (unfold escapes in I; cbn [In] in I; repeat (destruct I as [E|I]; [injection E as <- <-; reflexivity|]); destruct I).
    now rewrite IH.
  - apply hex_four_chars in H as (a & b & c & d & -> & H). cbn [app p_chars]. cbn [Z.eqb Pos.eqb]. rewrite H.
    replace ((55296 <=? u) && (u <=? 56319)) with false by lia. replace ((56320 <=? u) && (u <=? 57343)) with false by lia. now rewrite IH.
  - apply hex_four_chars in H as (a & b & c & d & -> & H). apply hex_four_chars in K as (a' & b' & c' & d' & -> & K).
    cbn [app p_chars]. cbn [Z.eqb Pos.eqb]. rewrite H, K.
    replace ((55296 <=? u) && (u <=? 56319)) with true by lia. cbn [andb]. replace ((56320 <=? v) && (v <=? 57343)) with true by lia. now rewrite IH.
Qed.
Lemma chars_sound' s x t : p_chars s = POk (x, t) -> exists w, s = w ++ 34 :: t /\ chars x w.
Proof. apply (chars_sound (S (List.length s))). lia. Qed.

(** ** Unfolding the parser *)
Section Parser.
Context (mk : list (str * json) -> list (str * json)) (num : bool -> str -> pres (json * str)) (chs : str -> pres (str * str)).
Local Notation p_value := (p_value mk num chs).
Local Notation p_items := (p_items mk num chs).
Local Notation p_members := (p_members mk num chs).
Definition p_item (n d : nat) (q : str) : pres (list json * str) :=
  '(v, q1) <- p_value n d q ;;; '(l, q2) <- p_items n d false q1 ;;; POk (v :: l, q2).
Lemma p_items_S n d first s : p_items (S n) d first s =
  match skip s with
  | [] => PErr PSyntax
  | c :: r =>
    if c =? 93 then POk ([], r)
    else if first then p_item n d (c :: r)
    else if c =? 44 then
      match skip r with
      | [] => PErr PSyntax
      | x :: q => if x =? 93 then PErr PSyntax else p_item n d (x :: q)
      end
    else PErr PSyntax
  end.
Proof. reflexivity. Qed.
Definition p_member (n d : nat) (c : Z) (q : str) : pres (list (str * json) * str) :=
  if c =? 34 then
    '(k, q1) <- chs q ;;;
    match skip q1 with
    | [] => PErr PSyntax
    | x :: q2 =>
      if x =? 58 then
        '(v, q3) <- p_value n d q2 ;;; '(l, q4) <- p_members n d false q3 ;;; POk ((k, v) :: l, q4)
      else PErr PSyntax
    end
  else PErr PSyntax.
Lemma p_members_S n d first s : p_members (S n) d first s =
  match skip s with
  | [] => PErr PSyntax
  | c :: r =>
    if c =? 125 then POk ([], r)
    else if first then p_member n d c r
    else if c =? 44 then
      match skip r with
      | [] => PErr PSyntax
      | x :: q => p_member n d x q
      end
    else PErr PSyntax
  end.
Proof. reflexivity. Qed.
Lemma p_value_S n d s : p_value (S n) d s =
  match skip s with
  | [] => PErr PSyntax
  | c :: r =>
    if c =? 110 then p_word (s2z "ull") JNull r
    else if c =? 116 then p_word (s2z "rue") (JBool true) r
    else if c =? 102 then p_word (s2z "alse") (JBool false) r
    else if c =? 45 then num true r
    else if is_digit c then num false (c :: r)
    else if c =? 34 then '(x, t) <- chs r ;;; POk (JStr x, t)
    else if c =? 91 then
      match d with
      | O => PErr PDepth
      | S d' => '(l, t) <- p_items n d' true r ;;; POk (JArr l, t)
      end
    else if c =? 123 then
      match d with
      | O => PErr PDepth
      | S d' => '(l, t) <- p_members n d' true r ;;; POk (JObj (mk l), t)
      end
    else PErr PSyntax
  end.
Proof. reflexivity. Qed.
Lemma word_sound w j s v t : p_word w j s = POk (v, t) -> v = j /\ s = w ++ t.
Proof.
  revert s. induction w as [|c w IH]; intros s; cbn [p_word].
  - intros H; injection H as <- <-. auto.
  - destruct s as [|x s]; [discriminate|]. destruct (c =? x) eqn:E; [|discriminate]. intros H. apply IH in H as [-> ->].
    assert (c = x) by lia. subst. auto.
Qed.
Lemma word_complete w j t : p_word w j (w ++ t) = POk (j, t).
Proof. induction w as [|c w IH]; cbn [app p_word]; [reflexivity|]. now rewrite Z.eqb_refl. Qed.

(** ** Whatever the parser accepts is a text *)
Context (merge : list (str * json) -> list (str * json) -> Prop) (number : json -> str -> Prop) (inside : str -> str -> Prop)
  (merges : forall l m, merge l m <-> m = mk l) (merges_none : mk [] = [])
  (num_sound : forall neg s j t, num neg s = POk (j, t) -> exists w, s = w ++ t /\ number j ((if neg then [45] else []) ++ w))
  (chs_sound : forall s x t, chs s = POk (x, t) -> exists w, s = w ++ 34 :: t /\ inside x w).
Local Notation json_text := (text_as merge number inside).
Local Notation items := (items_as merge number inside).
Local Notation members := (members_as merge number inside).
Local Notation member := (member_as merge number inside).
Local Notation quoted := (quoted_as inside).
Lemma string_sound s x t : chs s = POk (x, t) -> exists w, 34 :: s = w ++ t /\ quoted x w.
Proof.
  intros H. apply chs_sound in H as (w & -> & C).
  exists (34 :: w ++ [34]). split; [cbn [app]; now rewrite <- app_assoc|]. now exists w.
Qed.
Lemma spaces_nil : spaces []. Proof. constructor. Qed.
Definition value_fine (n : nat) := forall d s j t, p_value n d s = POk (j, t) ->
  exists e a w, s = a ++ w ++ t /\ spaces a /\ json_text e j w /\ (e <= d)%nat.
Definition items_fine (n : nat) := forall d first s l t, p_items n d first s = POk (l, t) ->
  (l = [] /\ exists a, spaces a /\ s = a ++ 93 :: t)
  \/ exists e a w, s = a ++ (if first then w else 44 :: w) ++ 93 :: t /\ spaces a /\ items e l w /\ (e <= d)%nat.
Definition members_fine (n : nat) := forall d first s l t, p_members n d first s = POk (l, t) ->
  (l = [] /\ exists a, spaces a /\ s = a ++ 125 :: t)
  \/ exists e a w, s = a ++ (if first then w else 44 :: w) ++ 125 :: t /\ spaces a /\ members e l w /\ (e <= d)%nat.
Lemma item_fine n d q l t : value_fine n -> items_fine n -> p_item n d q = POk (l, t) ->
  exists e w, q = w ++ 93 :: t /\ items e l w /\ (e <= d)%nat.
Proof.
  intros V I H. unfold p_item in H. pcases H. injection H as <- <-.
  apply V in E as (e & a & w & -> & A & T & L). apply I in E0 as [(-> & b & B & ->)|(e' & b & w' & -> & B & T' & L')].
  - exists e, (a ++ w ++ b). split; [now rewrite <- !app_assoc|]. split; [now constructor|exact L].
  - exists (Nat.max e e'), (a ++ w ++ b ++ 44 :: w'). split; [now rewrite <- !app_assoc|]. split; [now constructor|lia].
Qed.
Lemma member_fine n d c q l t : value_fine n -> members_fine n -> p_member n d c q = POk (l, t) ->
  exists e w, c :: q = w ++ 125 :: t /\ members e l w /\ (e <= d)%nat.
Proof.
  intros V I H. unfold p_member in H. destruct (c =? 34) eqn:C; [|discriminate]. assert (c = 34) by lia. subst c. pcases H.
  apply string_sound in E as (k & EK & QK). rewrite EK.
  destruct (skip_split s0) as (b & B & ->). destruct (skip s0) as [|x q2]; [discriminate|]. destruct (x =? 58) eqn:X; [|discriminate].
  assert (x = 58) by lia. subst x. pcases H. injection H as <- <-.
  apply V in E as (e & a & w & -> & A & T & L). apply I in E0 as [(-> & f & F & ->)|(e' & f & w' & -> & F & T' & L')].
  - exists e, ([] ++ k ++ b ++ 58 :: a ++ w ++ f). split; [cbn [app]; rewrite <- ?app_assoc; cbn [app]; now rewrite <- ?app_assoc|].
    split; [|exact L]. constructor. constructor; auto using spaces_nil.
  - exists (Nat.max e e'), (([] ++ k ++ b ++ 58 :: a ++ w ++ f) ++ 44 :: w'). split; [repeat (cbn [app]; rewrite <- ?app_assoc); reflexivity|].
    split; [|lia]. constructor; [constructor; auto using spaces_nil|exact T'].
Qed.
Lemma items_spaces e a l w : spaces a -> items e l w -> items e l (a ++ w).
Proof.
  intros A H. inversion H as [d v b s c B T C|d f v m b s c r B T C R]; subst; rewrite app_assoc; constructor; auto; now apply Forall_app.
Qed.
Lemma member_spaces e k v a w : spaces a -> member e k v w -> member e k v (a ++ w).
Proof.
  intros A H. inversion H; subst. rewrite app_assoc. constructor; auto. now apply Forall_app.
Qed.
Lemma members_spaces e a l w : spaces a -> members e l w -> members e l (a ++ w).
Proof.
  intros A H. inversion H; subst.
  - constructor. now apply member_spaces.
  - rewrite app_assoc. constructor; [now apply member_spaces|assumption].
Qed.
Lemma parser_sound n : value_fine n /\ items_fine n /\ members_fine n.
Proof.
  induction n as [|n (V & I & M)]; [repeat split; intros ? *; discriminate|]. split; [|split].
  - intros d s j t. rewrite p_value_S. destruct (skip_split s) as (a & A & ES). destruct (skip s) as [|c r] eqn:SK; [discriminate|].
    intros H. cut (exists e w, c :: r = w ++ t /\ json_text e j w /\ (e <= d)%nat).
    { intros (e & w & EW & T & L). exists e, a, w. rewrite ES, EW. auto. }
    clear s a A ES SK.
    destruct (c =? 110) eqn:C1; [assert (c = 110) by lia; subst c; apply word_sound in H as [-> ->]; exists 0%nat, (s2z "null"); split; [reflexivity|split; [constructor|lia]]|].
    destruct (c =? 116) eqn:C2; [assert (c = 116) by lia; subst c; apply word_sound in H as [-> ->]; exists 0%nat, (s2z "true"); split; [reflexivity|split; [constructor|lia]]|].
    destruct (c =? 102) eqn:C3; [assert (c = 102) by lia; subst c; apply word_sound in H as [-> ->]; exists 0%nat, (s2z "false"); split; [reflexivity|split; [constructor|lia]]|].
    destruct (c =? 45) eqn:C4.
    { assert (c = 45) by lia; subst c. apply num_sound in H as (w & -> & N). exists 0%nat, (45 :: w). split; [reflexivity|split; [now constructor|lia]]. }
    destruct (is_digit c) eqn:C5.
    { apply num_sound in H as (w & -> & N). exists 0%nat, w. split; [reflexivity|split; [now constructor|lia]]. }
    destruct (c =? 34) eqn:C6.
    { assert (c = 34) by lia; subst c. pcases H. injection H as <- <-. apply string_sound in E as (w & -> & Q). exists 0%nat, w. split; [reflexivity|split; [now constructor|lia]]. }
    destruct (c =? 91) eqn:C7.
    { assert (c = 91) by lia; subst c. destruct d as [|d]; [discriminate|]. pcases H. injection H as <- <-.
      apply I in E as [(-> & a & A & ->)|(e & a & w & -> & A & T & L)].
      - exists 1%nat, (91 :: a ++ [93]). split; [cbn [app]; now rewrite <- app_assoc|split; [now constructor|lia]].
      - exists (S e), (91 :: (a ++ w) ++ [93]). split; [cbn [app]; now rewrite <- !app_assoc|split; [constructor; now apply items_spaces|lia]]. }
    destruct (c =? 123) eqn:C8; [|discriminate].
    assert (c = 123) by lia; subst c. destruct d as [|d]; [discriminate|]. pcases H. injection H as <- <-.
    apply M in E as [(-> & a & A & ->)|(e & a & w & -> & A & T & L)].
    + rewrite merges_none. exists 1%nat, (123 :: a ++ [125]). split; [cbn [app]; now rewrite <- app_assoc|split; [now constructor|lia]].
    + exists (S e), (123 :: (a ++ w) ++ [125]). split; [cbn [app]; now rewrite <- !app_assoc|split; [|lia]].
      eapply t_object; [now apply members_spaces; eauto|]. now apply merges.
  - intros d first s l t. rewrite p_items_S. destruct (skip_split s) as (a & A & ES). destruct (skip s) as [|c r]; [discriminate|]. subst s.
    destruct (c =? 93) eqn:C.
    { intros H; injection H as <- <-. left. split; [reflexivity|]. exists a. assert (c = 93) by lia. now subst. }
    intros H. right. destruct first.
    + apply (item_fine n) in H as (e & w & -> & T & L); [|assumption..]. exists e, a, w. auto.
    + destruct (c =? 44) eqn:C'; [|discriminate]. assert (c = 44) by lia. subst c. clear C C'.
      destruct (skip_split r) as (b & B & ER). destruct (skip r) as [|x q]; [discriminate|]. subst r.
      destruct (x =? 93); [discriminate|]. apply (item_fine n) in H as (e & w & EW & T & L); [|assumption..].
      exists e, a, (b ++ w). rewrite EW. split; [cbn [app]; now rewrite <- !app_assoc|]. split; [exact A|]. split; [now apply items_spaces|exact L].
  - intros d first s l t. rewrite p_members_S. destruct (skip_split s) as (a & A & ES). destruct (skip s) as [|c r]; [discriminate|]. subst s.
    destruct (c =? 125) eqn:C.
    { intros H; injection H as <- <-. left. split; [reflexivity|]. exists a. assert (c = 125) by lia. now subst. }
    intros H. right. destruct first.
    + apply (member_fine n) in H as (e & w & -> & T & L); [|assumption..]. exists e, a, w. auto.
    + destruct (c =? 44) eqn:C'; [|discriminate]. assert (c = 44) by lia. subst c. clear C C'.
      destruct (skip_split r) as (b & B & ER). destruct (skip r) as [|x q]; [discriminate|]. subst r.
      apply (member_fine n) in H as (e & w & EW & T & L); [|assumption..].
      exists e, a, (b ++ w). rewrite EW. split; [cbn [app]; now rewrite <- !app_assoc|]. split; [exact A|]. split; [now apply members_spaces|exact L].
Qed.
End Parser.
