(** Reading a single by way of a double: how far it can move. *)
From Coq Require Import ZArith List Bool String Lia ZifyBool ZifyNat QArith Qabs Qpower Lqa.
From Verif Require Import Base Str Types Spec Json JsonFloat JsonSyntax JsonSpec Numeral Nearest JsonGrammar DecimalThm
  JsonRead JsonComplete JsonPrint Singles.
Import ListNotations.
Open Scope Z_scope.

(** ** Half way between two singles lies a double *)
Lemma half_double m e : 0 <= m < 2 ^ 25 -> -150 <= e <= 103 ->
  exists c, 0 <= c < 9218868437227405312 /\ (inject_Z m * (2 # 1) ^ e == number 52 (-1074) c)%Q.
Proof.
  intros M E. destruct (Z.eq_dec m 0) as [->|M0].
  { exists 0. split; [lia|]. reflexivity. }
  pose proof (Z.log2_spec m ltac:(lia)) as [L1 L2]. pose proof (Z.log2_nonneg m) as L0.
  assert (L25 : Z.log2 m < 25) by (apply Z.log2_lt_pow2; lia).
  set (L := Z.log2 m) in *. set (T := e + L + 1 - 53 + 1074). set (q := m * 2 ^ (52 - L)).
  assert (Q1 : 2 ^ 52 <= q).
  { unfold q. replace (2 ^ 52) with (2 ^ L * 2 ^ (52 - L)) by (rewrite <- Z.pow_add_r by lia; f_equal; lia).
    apply Z.mul_le_mono_nonneg_r; [apply Z.pow_nonneg; lia|exact L1]. }
  assert (Q2 : q < 2 * 2 ^ 52).
  { unfold q. replace (2 * 2 ^ 52) with (2 ^ (Z.succ L) * 2 ^ (52 - L)).
    2:{ rewrite <- Z.pow_add_r by lia. replace (Z.succ L + (52 - L)) with 53 by lia. reflexivity. }
    apply Z.mul_lt_mono_pos_r; [apply Z.pow_pos_nonneg; lia|exact L2]. }
  exists (T * 2 ^ 52 + q). split.
  { split; [unfold T; nia|]. assert (T <= 1152) by (unfold T; lia). change (2 ^ 52) with 4503599627370496 in *. lia. }
  rewrite number_units by (unfold T; nia). rewrite units_at by (unfold T; lia).
  rewrite inject_Z_mult, <- pow_inj by (unfold T; lia). unfold q. rewrite inject_Z_mult, <- (pow_inj (52 - L)) by lia.
  rewrite <- !Qmult_assoc, <- !Qpower_plus by apply two_neq. replace (52 - L + (T + -1074)) with e by (unfold T; lia). reflexivity.
Qed.
Notation single := (number 23 (-149)).
Notation double := (number 52 (-1074)).
Lemma midpoint a : 0 <= a < 2139095040 ->
  exists c, 0 <= c < 9218868437227405312 /\ (single a + single (a + 1) == double c + double c)%Q.
Proof.
  intros A. destruct (code_form 23 ltac:(lia) a ltac:(lia)) as (T & q & HT & Hq & HTq & E). change (2 ^ 23) with 8388608 in *.
  destruct (half_double (2 * q + 1) (T - 150)) as (c & C & EC).
  { change (2 ^ 25) with 33554432. lia. }
  { lia. }
  exists c. split; [exact C|]. rewrite <- EC, !number_units by lia. rewrite E. replace (T * 8388608 + q + 1) with (T * 8388608 + (q + 1)) by lia.
  change 8388608 with (2 ^ 23) in *. rewrite !units_at by lia. rewrite !inject_Z_mult, <- !pow_inj by lia.
  assert (P : ((2 # 1) ^ (T - 150) + (2 # 1) ^ (T - 150) == (2 # 1) ^ T * (2 # 1) ^ (-149))%Q).
  { replace (T - 150) with (T + -150) by lia. rewrite !Qpower_plus by apply two_neq. generalize ((2 # 1) ^ T)%Q. intros x.
    setoid_replace ((2 # 1) ^ (-149))%Q with ((2 # 1) * (2 # 1) ^ (-150))%Q.
    - ring.
    - rewrite <- (Qpower_plus (2 # 1) 1 (-150)) by apply two_neq. reflexivity. }
  rewrite <- !Qmult_assoc, <- !P. generalize ((2 # 1) ^ (T - 150))%Q. intros x.
  replace (2 * q + 1) with (q + (q + 1)) by lia. rewrite !inject_Z_plus. ring.
Qed.
Lemma even_pred a : Z.even (a - 1) = negb (Z.even a).
Proof. rewrite Z.even_sub. now destruct (Z.even a). Qed.
Lemma even_succ a : Z.even (a + 1) = negb (Z.even a).
Proof. rewrite Z.even_add. now destruct (Z.even a). Qed.

(** ** Rounding twice *)
(** The first rounding stops at the middle. *)
Lemma below q m d : 0 <= m < 2139095040 -> nearest32 q m -> nearest64 q d -> (double d + double d <= single m + single (m + 1))%Q
  /\ d < 9218868437227405312.
Proof.
  intros M [_ N] [D N']. destruct (midpoint m M) as (c & C & E).
  pose proof (number_mono 23 (-149) m (m + 1) ltac:(lia) ltac:(lia)) as S.
  destruct (N (m + 1) ltac:(lia)) as [N1 _]. apply dist_le in N1; [|exact S].
  assert (L : d <= c).
  { destruct (Z_le_gt_dec d c) as [L|G]; [exact L|]. exfalso. destruct (N' c ltac:(lia)) as [N2 _].
    pose proof (number_mono 52 (-1074) c d ltac:(lia) ltac:(lia)) as S'. apply dist_ge in N2; [|exact S']. lra. }
  split; [|lia]. rewrite E. destruct (Z.eq_dec d c) as [->|NE]; [apply Qle_refl|].
  pose proof (number_mono 52 (-1074) d c ltac:(lia) ltac:(lia)). lra.
Qed.
Lemma above q m d : 0 < m < 2139095040 -> nearest32 q m -> nearest64 q d -> (single (m - 1) + single m <= double d + double d)%Q.
Proof.
  intros M [_ N] [D N']. destruct (midpoint (m - 1) ltac:(lia)) as (c & C & E). replace (m - 1 + 1) with m in E by lia.
  pose proof (number_mono 23 (-149) (m - 1) m ltac:(lia) ltac:(lia)) as S.
  destruct (N (m - 1) ltac:(lia)) as [N1 _]. apply dist_ge in N1; [|exact S].
  assert (L : c <= d).
  { destruct (Z_le_gt_dec c d) as [L|G]; [exact L|]. exfalso. destruct (N' c ltac:(lia)) as [N2 _].
    pose proof (number_mono 52 (-1074) d c ltac:(lia) ltac:(lia)) as S'. apply dist_le in N2; [|exact S']. lra. }
  rewrite E. destruct (Z.eq_dec d c) as [->|NE]; [apply Qle_refl|].
  pose proof (number_mono 52 (-1074) c d ltac:(lia) ltac:(lia)). lra.
Qed.
(** So the second one moves the number only if the double is exactly in the middle. *)
Lemma twice q m d a : 0 <= m < 2139095040 -> nearest32 q m -> nearest64 q d -> nearest32 (double d) a ->
  a = m \/ (Z.even a = true /\ (a = m + 1 \/ a = m - 1) /\ (double d + double d == single m + single a)%Q).
Proof.
  intros M N N' [A NA]. destruct (Z.lt_trichotomy a m) as [L|[L|L]]; [right|now left|right].
  - pose proof (above q m d ltac:(lia) N N') as B. destruct (NA m ltac:(lia)) as [N1 N2].
    pose proof (number_mono 23 (-149) a m ltac:(lia) ltac:(lia)) as S. pose proof N1 as N1'. apply dist_le in N1; [|exact S].
    assert (a = m - 1).
    { destruct (Z.eq_dec a (m - 1)) as [E|NE]; [exact E|]. pose proof (number_mono 23 (-149) a (m - 1) ltac:(lia) ltac:(lia)). lra. }
    subst a. assert (E : (double d + double d == single m + single (m - 1))%Q) by lra. repeat split; auto.
    destruct N2 as [N2|N2]; [|lia|exact N2]. apply Qle_antisym; [exact N1'|]. apply dist_ge; [exact S|]. lra.
  - destruct (below q m d M N N') as [B _]. destruct (NA m ltac:(lia)) as [N1 N2].
    pose proof (number_mono 23 (-149) m a ltac:(lia) ltac:(lia)) as S. pose proof N1 as N1'. apply dist_ge in N1; [|exact S].
    assert (a = m + 1).
    { destruct (Z.eq_dec a (m + 1)) as [E|NE]; [exact E|]. pose proof (number_mono 23 (-149) (m + 1) a ltac:(lia) ltac:(lia)). lra. }
    subst a. assert (E : (double d + double d == single m + single (m + 1))%Q) by lra. repeat split; auto.
    destruct N2 as [N2|N2]; [|lia|exact N2]. apply Qle_antisym; [exact N1'|]. apply dist_le; [exact S|]. lra.
Qed.

(** ** Texts *)
Lemma real_num neg q s d : real_text neg q s -> nearest64 q d -> d < 9218868437227405312 ->
  num_text (JFloat ((if neg then 9223372036854775808 else 0) + d)) s.
Proof.
  intros [ng i f x e y W F E NE] N D. pose proof N as [B _]. apply n_double with (f := f) (e := e); auto.
  - intros -> ->. now destruct NE.
  - exists d. auto.
  - rewrite <- finite64_eq.
    + unfold f_finite. change (f_sign fmt64) with 9223372036854775808. change (f_inf fmt64) with 9218868437227405312. destruct ng; lia.
    + unfold u_ok, in_range. change (2 ^ (8 * 8) - 1) with 18446744073709551615. destruct ng; lia.
Qed.
Lemma num_document j s : num_text j s -> document 0 j s.
Proof. intros N. apply text_document. now constructor. Qed.
Lemma real_double neg q s : real_text neg q s -> exists d, nearest64 q d.
Proof.
  intros [ng i f x e y (W & DI & _) F E NE]. eexists. apply decimal_nearest. apply value_nonneg. apply Forall_app. split; [exact DI|].
  now apply (fraction_digits f x).
Qed.
(** What is read is determined. *)
Lemma reread_unique float32 b c c' : reread float32 b c -> reread float32 b c' -> c = c'.
Proof.
  intros (neg & q & d & T & N & D & R) (neg' & q' & d' & T' & N' & D' & R').
  pose proof (num_document _ _ (real_num _ _ _ _ T N D)) as X. pose proof (num_document _ _ (real_num _ _ _ _ T' N' D')) as X'.
  destruct (document_unique _ _ _ _ _ X X') as [E _]. pose proof N as [B _]. pose proof N' as [B' _].
  assert (E' : (if neg then 9223372036854775808 else 0) + d = (if neg' then 9223372036854775808 else 0) + d') by congruence.
  assert (neg = neg' /\ d = d') as [-> ->] by (destruct neg, neg'; lia).
  destruct R as (a & -> & R). destruct R' as (a' & -> & R'). f_equal. exact (nearest_unique 23 (-149) _ _ a a' ltac:(lia) R R').
Qed.
Lemma finite_magnitude b : u_ok 4 b = true -> finite32 b = true ->
  0 <= b mod 2147483648 < 2139095040 /\ b = (if 2147483648 <=? b then 2147483648 else 0) + b mod 2147483648 /\ 0 <= b < 4294967296.
Proof.
  intros U F. rewrite <- finite32_eq in F by exact U. unfold f_finite in F. change (f_sign fmt32) with 2147483648 in F.
  change (f_inf fmt32) with 2139095040 in F. unfold u_ok, in_range in U. change (2 ^ (8 * 4) - 1) with 4294967295 in U.
  destruct (2147483648 <=? b) eqn:G; lia.
Qed.
Section Printer.
Context (float32 : Z -> str) (FL : prints_singles float32).
(** The number read from the text of [b] ... *)
Lemma single_read b : u_ok 4 b = true -> finite32 b = true -> exists q d,
  real_text (2147483648 <=? b) q (float32 b) /\ nearest32 q (b mod 2147483648) /\ nearest64 q d /\ d < 9218868437227405312.
Proof.
  intros U F. destruct (FL b U F) as (q & T & N). destruct (real_double _ _ _ T) as [d D]. exists q, d. split; [exact T|]. split; [exact N|]. split; [exact D|].
  apply (below q (b mod 2147483648) d); auto. now apply finite_magnitude.
Qed.
Lemma single_reread b : u_ok 4 b = true -> finite32 b = true -> exists e c,
  num_text (JFloat e) (float32 b) /\ d_f32 (JFloat e) = JOk c /\ reread float32 b c.
Proof.
  intros U F. destruct (single_read b U F) as (q & d & T & N & D & L). pose proof D as [B _].
  exists ((if 2147483648 <=? b then 9223372036854775808 else 0) + d). destruct (narrowed ((if 2147483648 <=? b then 9223372036854775808 else 0) + d)) as (c & R & S).
  exists c. split; [eapply real_num; eassumption|]. split; [exact R|]. exists (2147483648 <=? b), q, d. split; [exact T|]. split; [exact D|]. split; [exact L|].
  replace (9223372036854775808 <=? (if 2147483648 <=? b then 9223372036854775808 else 0) + d) with (2147483648 <=? b) in S
    by (destruct (2147483648 <=? b); lia).
  replace (((if 2147483648 <=? b then 9223372036854775808 else 0) + d) mod 9223372036854775808) with d in S; [exact S|].
  destruct (2147483648 <=? b); lia.
Qed.
Lemma reread_exists b : u_ok 4 b = true -> finite32 b = true -> exists c, reread float32 b c.
Proof. intros U F. destruct (single_reread b U F) as (e & c & _ & _ & R). eauto. Qed.
(** ... is [b] or a neighbour; and never another one for an even code. *)
Lemma reread_near b c : u_ok 4 b = true -> finite32 b = true -> reread float32 b c ->
  c = b \/ (Z.odd b = true /\ (c = b + 1 \/ c = b - 1)).
Proof.
  intros U F R. destruct (single_read b U F) as (q & d & T & N & D & L). destruct (finite_magnitude b U F) as (M & E & _).
  assert (R' : exists a, nearest32 (double d) a).
  { destruct (narrowed d) as (x & _ & a & _ & A). exists a. pose proof D as [B _].
    replace (d mod 9223372036854775808) with d in A; [exact A|]. rewrite Z.mod_small; lia. }
  destruct R' as [a A]. assert (c = (if 2147483648 <=? b then 2147483648 else 0) + a).
  { eapply reread_unique; [exact R|]. exists (2147483648 <=? b), q, d. split; [exact T|]. split; [exact D|]. split; [exact L|]. exists a. auto. }
  destruct (twice q (b mod 2147483648) d a M N D A) as [X|(EV & X & _)]; [left; lia|right].
  assert (OD : Z.odd b = Z.odd (b mod 2147483648)).
  { rewrite E at 1. rewrite Z.odd_add. replace (Z.odd (if 2147483648 <=? b then 2147483648 else 0)) with false by now destruct (2147483648 <=? b).
    apply xorb_false_l. }
  split; [|destruct X; [left|right]; lia].
  rewrite OD, <- Z.negb_even. set (m := b mod 2147483648) in *. clearbody m. destruct X as [-> | ->].
  - rewrite even_succ in EV. now destruct (Z.even m).
  - rewrite even_pred in EV. now destruct (Z.even m).
Qed.
End Printer.

(** ** A printer of singles: all their digits *)
Definition exact32 (b : Z) : str :=
  let '(m, e) := f_split fmt32 b in
  (if f_neg fmt32 b then [45] else [])
  ++ (if 0 <=? e then decimal (m * 2 ^ e) ++ [46; 48] else decimal (m * 5 ^ (- e)) ++ [101; 45] ++ decimal (- e)).
Lemma nearest32_ext x y a : (x == y)%Q -> nearest32 x a -> nearest32 y a.
Proof. apply nearest_ext. Qed.
Lemma exact32_text b : u_ok 4 b = true -> finite32 b = true ->
  exists q, real_text (2147483648 <=? b) q (exact32 b) /\ (q == single (b mod 2147483648))%Q.
Proof.
  intros U F. unfold exact32. pose proof (split_number fmt32 b ltac:(cbn; lia) ltac:(cbn; lia)) as S.
  change (f_sign fmt32) with 2147483648 in S. change (f_prec fmt32 - 1) with 23 in S. change (f_emin fmt32) with (-149) in S.
  change (f_neg fmt32 b) with (2147483648 <=? b).
  destruct (f_split fmt32 b) as [m e]. destruct S as [M S]. destruct (0 <=? e) eqn:E.
  - assert (P : 0 < 2 ^ e) by (apply Z.pow_pos_nonneg; lia). destruct (decimal_whole (m * 2 ^ e) ltac:(nia)) as [W V].
    eexists. split.
    + replace (decimal (m * 2 ^ e) ++ [46; 48]) with (decimal (m * 2 ^ e) ++ [46; 48] ++ []) by reflexivity.
      apply (Real _ _ [48] _ 0); auto; [|constructor|discriminate]. constructor; [discriminate|]. repeat constructor; unfold digit; lia.
    + rewrite <- S, value_app_zero, V. rewrite !inject_Z_mult, <- pow_inj by lia.
      change (inject_Z 10) with (10 # 1)%Q. generalize ((2 # 1) ^ e)%Q (inject_Z m). intros u v. change (0 - Z.of_nat (Datatypes.length [48])) with (-1). change ((10 # 1) ^ (-1))%Q with (1 # 10)%Q. ring.
  - assert (P : 0 < 5 ^ (- e)) by (apply Z.pow_pos_nonneg; lia). destruct (decimal_whole (m * 5 ^ (- e)) ltac:(nia)) as [W V].
    destruct (decimal_whole (- e) ltac:(lia)) as [WE VE]. pose proof WE as (NE & DE & _).
    eexists. split.
    + replace (decimal (m * 5 ^ (- e)) ++ [101; 45] ++ decimal (- e)) with (decimal (m * 5 ^ (- e)) ++ [] ++ [101; 45] ++ decimal (- e)) by reflexivity.
      apply (Real _ _ [] _ (-1 * value (decimal (- e)))); auto; [constructor| |discriminate].
      apply (ex_some 101 (-1, [45])); cbn; auto.
    + rewrite <- S, app_nil_r, V, VE. cbn [List.length]. replace (-1 * - e - Z.of_nat 0) with (- - e) by lia.
      rewrite Qpower_opp. set (k := - e) in *. replace e with (- k) by lia. rewrite Qpower_opp, inject_Z_mult.
      assert (E5 : (inject_Z (5 ^ k) * / (10 # 1) ^ k == / (2 # 1) ^ k)%Q).
      { rewrite pow10_inj, pow_inj by lia. change 10 with (2 * 5). rewrite Z.pow_mul_l, inject_Z_mult.
        assert (N2 : ~ (inject_Z (2 ^ k) == 0)%Q) by (intros X; change 0%Q with (inject_Z 0) in X; rewrite inject_Z_injective in X; pose proof (Z.pow_pos_nonneg 2 k); lia).
        assert (N5 : ~ (inject_Z (5 ^ k) == 0)%Q) by (intros X; change 0%Q with (inject_Z 0) in X; rewrite inject_Z_injective in X; lia).
        field. auto. }
      rewrite <- Qmult_assoc, E5. reflexivity.
Qed.
Lemma exact32_prints : prints_singles exact32.
Proof.
  intros b U F. destruct (exact32_text b U F) as (q & T & E). exists q. split; [exact T|].
  apply nearest_exact; [lia| |exact E]. destruct (finite_magnitude b U F). lia.
Qed.

(** ** A single that does not survive its shortest text *)
Definition unlucky : Z := 363742205.
Definition unlucky_text : str := s2z "7.038531e-26".
Definition shortest32 (b : Z) : str := if b =? unlucky then unlucky_text else exact32 b.
Lemma pow10_cases e : -32 <= e <= -26 -> In e [-32; -31; -30; -29; -28; -27; -26].
Proof. intros H. cbn [In]. lia. Qed.
(** Fewer than eight digits: only this number. *)
Lemma unlucky_bounds q : nearest32 q unlucky ->
  (single (unlucky - 1) + single unlucky <= q + q)%Q /\ (q + q <= single unlucky + single (unlucky + 1))%Q.
Proof.
  intros [_ N]. split.
  - destruct (N (unlucky - 1) ltac:(unfold unlucky; lia)) as [N1 _]. apply dist_ge; [|exact N1]. reflexivity.
  - destruct (N (unlucky + 1) ltac:(unfold unlucky; lia)) as [N1 _]. apply dist_le; [|exact N1]. reflexivity.
Qed.
Lemma ten_mono a b : a <= b -> ((10 # 1) ^ a <= (10 # 1) ^ b)%Q.
Proof.
  intros L. replace b with (a + (b - a)) by lia. rewrite Qpower_plus by discriminate. rewrite (pow10_inj (b - a)) by lia.
  assert (0 < (10 # 1) ^ a)%Q by (apply Qpower_0_lt; reflexivity).
  assert (1 <= 10 ^ (b - a)) by (pose proof (Z.pow_pos_nonneg 10 (b - a)); lia).
  assert (1 <= inject_Z (10 ^ (b - a)))%Q by (change 1%Q with (inject_Z 1); now rewrite <- Zle_Qle). 
  setoid_replace ((10 # 1) ^ a)%Q with ((10 # 1) ^ a * 1)%Q at 1 by ring. apply Qmult_le_l; assumption.
Qed.
Lemma unlucky_digits n e : 0 <= n < 10000000 -> nearest32 (inject_Z n * (10 # 1) ^ e) unlucky ->
  (inject_Z n * (10 # 1) ^ e == inject_Z 7038531 * (10 # 1) ^ (-32))%Q.
Proof.
  intros N H. apply unlucky_bounds in H as [A B].
  assert (P : (0 < (10 # 1) ^ e)%Q) by (apply Qpower_0_lt; reflexivity).
  assert (N1 : (inject_Z n <= inject_Z 10000000)%Q) by (rewrite <- Zle_Qle; lia).
  destruct (Z_lt_le_dec e (-32)) as [L|G].
  { exfalso. pose proof (ten_mono e (-33) ltac:(lia)) as T.
    assert (X : (inject_Z n * (10 # 1) ^ e <= inject_Z 10000000 * (10 # 1) ^ (-33))%Q).
    { apply Qle_trans with (inject_Z 10000000 * (10 # 1) ^ e)%Q; [apply Qmult_le_compat_r; [exact N1|lra]|]. apply Qmult_le_l; [reflexivity|exact T]. }
    assert (Y : (inject_Z 10000000 * (10 # 1) ^ (-33) + inject_Z 10000000 * (10 # 1) ^ (-33) < single (unlucky - 1) + single unlucky)%Q) by reflexivity.
    lra. }
  destruct (Z.eq_dec n 0) as [->|N0].
  { exfalso. assert (Y : (0 < single (unlucky - 1) + single unlucky)%Q) by reflexivity. change (inject_Z 0) with 0%Q in *. lra. }
  destruct (Z_le_gt_dec e (-26)) as [G'|L].
  2:{ exfalso. pose proof (ten_mono (-25) e ltac:(lia)) as T.
    assert (X : (1 * (10 # 1) ^ (-25) <= inject_Z n * (10 # 1) ^ e)%Q).
    { apply Qle_trans with (1 * (10 # 1) ^ e)%Q; [lra|]. apply Qmult_le_compat_r; [|lra]. change 1%Q with (inject_Z 1). rewrite <- Zle_Qle. lia. }
    assert (Y : (single unlucky + single (unlucky + 1) < 1 * (10 # 1) ^ (-25) + 1 * (10 # 1) ^ (-25))%Q) by reflexivity.
    lra. }
  clear P N1.
  assert (IN : forall a : Z, ((inject_Z a < inject_Z n)%Q -> a < n) /\ ((inject_Z n < inject_Z a)%Q -> n < a)) by (intros a; rewrite <- !Zlt_Qlt; auto).
  let u := eval vm_compute in (single (unlucky - 1) + single unlucky)%Q in change (single (unlucky - 1) + single unlucky)%Q with u in A.
  let u := eval vm_compute in (single unlucky + single (unlucky + 1))%Q in change (single unlucky + single (unlucky + 1))%Q with u in B.
  pose proof (pow10_cases e ltac:(lia)) as C. cbn [In] in C. clear G G'.
  destruct C as [<-|[<-|[<-|[<-|[<-|[<-|[<-|[]]]]]]]];
  match type of A with context [(?t ^ ?k)%Q] => let v := eval vm_compute in (t ^ k)%Q in change (t ^ k)%Q with v in A, B |- * end.
  - assert (n = 7038531); [|now subst n].
    destruct (IN 7038530) as [X _]. destruct (IN 7038532) as [_ Y]. specialize (X ltac:(unfold inject_Z at 1; lra)). specialize (Y ltac:(unfold inject_Z at 2; lra)). lia.
  - exfalso. destruct (IN 703853) as [X _]. destruct (IN 703854) as [_ Y].
    specialize (X ltac:(unfold inject_Z at 1; lra)). specialize (Y ltac:(unfold inject_Z at 2; lra)). lia.
  - exfalso. destruct (IN 70385) as [X _]. destruct (IN 70386) as [_ Y].
    specialize (X ltac:(unfold inject_Z at 1; lra)). specialize (Y ltac:(unfold inject_Z at 2; lra)). lia.
  - exfalso. destruct (IN 7038) as [X _]. destruct (IN 7039) as [_ Y].
    specialize (X ltac:(unfold inject_Z at 1; lra)). specialize (Y ltac:(unfold inject_Z at 2; lra)). lia.
  - exfalso. destruct (IN 703) as [X _]. destruct (IN 704) as [_ Y].
    specialize (X ltac:(unfold inject_Z at 1; lra)). specialize (Y ltac:(unfold inject_Z at 2; lra)). lia.
  - exfalso. destruct (IN 70) as [X _]. destruct (IN 71) as [_ Y].
    specialize (X ltac:(unfold inject_Z at 1; lra)). specialize (Y ltac:(unfold inject_Z at 2; lra)). lia.
  - exfalso. destruct (IN 7) as [X _]. destruct (IN 8) as [_ Y].
    specialize (X ltac:(unfold inject_Z at 1; lra)). specialize (Y ltac:(unfold inject_Z at 2; lra)). lia.
Qed.
Lemma nearest_between p low top x a : 1 <= p -> 0 < a < top ->
  (number p low (a - 1) + number p low a < x + x)%Q -> (x + x < number p low a + number p low (a + 1))%Q -> nearest p low top x a.
Proof.
  intros P A L U. split; [lia|]. intros c C. destruct (Z.lt_trichotomy c a) as [H|[->|H]].
  - assert (S : (number p low c < number p low a)%Q) by (apply number_mono; lia).
    assert (N : (number p low c <= number p low (a - 1))%Q).
    { destruct (Z.eq_dec c (a - 1)) as [->|NE]; [apply Qle_refl|]. apply Qlt_le_weak, number_mono; lia. }
    split; [apply dist_ge; [exact S|lra]|]. intros E. exfalso.
    assert (X : (Qabs (x - number p low c) <= Qabs (x - number p low a))%Q) by (rewrite E; apply Qle_refl). apply dist_le in X; [lra|exact S].
  - split; [apply Qle_refl|auto].
  - assert (S : (number p low a < number p low c)%Q) by (apply number_mono; lia).
    assert (N : (number p low (a + 1) <= number p low c)%Q).
    { destruct (Z.eq_dec c (a + 1)) as [->|NE]; [apply Qle_refl|]. apply Qlt_le_weak, number_mono; lia. }
    split; [apply dist_le; [exact S|lra]|]. intros E. exfalso.
    assert (X : (Qabs (x - number p low c) <= Qabs (x - number p low a))%Q) by (rewrite E; apply Qle_refl). apply dist_ge in X; [lra|exact S].
Qed.
Lemma unlucky_nearest : nearest32 (inject_Z 7038531 * (10 # 1) ^ (-32)) unlucky.
Proof. apply nearest_between; [lia|unfold unlucky; lia|reflexivity|reflexivity]. Qed.
Lemma unlucky_lost float32 : shortest float32 unlucky -> reread float32 unlucky (unlucky + 1).
Proof.
  intros (q & n & e & T & N & Q & R & M). change (unlucky mod 2147483648) with unlucky in *.
  assert (L : n < 10 ^ 7) by (apply (M 7038531 (-32)); [lia|apply unlucky_nearest|reflexivity]). change (10 ^ 7) with 10000000 in L.
  assert (E : (q == inject_Z 7038531 * (10 # 1) ^ (-32))%Q).
  { rewrite Q. apply unlucky_digits; [lia|]. eapply nearest_ext; [exact Q|exact R]. }
  exists (2147483648 <=? unlucky), q, (f_decimal 7038531 (-32)). split; [exact T|]. split.
  { eapply nearest_ext; [symmetry; exact E|]. apply decimal_nearest. lia. }
  split; [reflexivity|]. destruct (narrowed (f_decimal 7038531 (-32))) as (c & D & C).
  assert (c = unlucky + 1) as -> by (vm_compute in D; injection D as <-; reflexivity). exact C.
Qed.
Lemma unlucky_real : real_text false (inject_Z 7038531 * (10 # 1) ^ (-32)) unlucky_text.
Proof.
  apply (Real false [55] (s2z "038531") (s2z ".038531") (-1 * value (s2z "26")) (s2z "e-26")).
  - split; [discriminate|]. split; [apply Forall_forall; intros c I; cbn in I; unfold digit; lia|]. discriminate.
  - apply (fr_some (s2z "038531")); [discriminate|]. apply Forall_forall; intros c I; cbn in I; unfold digit; lia.
  - apply (ex_some 101 (-1, [45]) (s2z "26")); cbn; auto; [discriminate|]. apply Forall_forall; intros c I; cbn in I; unfold digit; lia.
  - discriminate.
Qed.
Lemma shortest32_prints : prints_singles shortest32.
Proof.
  intros b U F. unfold shortest32. destruct (b =? unlucky) eqn:E; [|now apply exact32_prints].
  apply Z.eqb_eq in E. subst b. exists (inject_Z 7038531 * (10 # 1) ^ (-32))%Q. split; [exact unlucky_real|exact unlucky_nearest].
Qed.
(** Seven digits are needed. *)
Lemma shortest32_shortest : shortest shortest32 unlucky.
Proof.
  exists (inject_Z 7038531 * (10 # 1) ^ (-32))%Q, 7038531, (-32). split; [exact unlucky_real|]. split; [lia|]. split; [reflexivity|].
  split; [exact unlucky_nearest|]. change (unlucky mod 2147483648) with unlucky. intros n e N R k K.
  destruct (Z_lt_le_dec n 10000000) as [L|G].
  - pose proof (unlucky_digits n e ltac:(lia) R) as E.
    destruct (Z_lt_le_dec 7038531 (10 ^ k)) as [X|X]; [exact X|]. exfalso.
    assert (K6 : k < 7) by (destruct (Z_lt_le_dec k 7) as [Y|Y]; [exact Y|]; pose proof (Z.pow_le_mono_r 10 7 k ltac:(lia) Y); change (10 ^ 7) with 10000000 in *; lia).
    assert (n < 1000000).
    { destruct (Z_lt_le_dec k 0) as [Y|Y]; [rewrite Z.pow_neg_r in K by exact Y; lia|].
      pose proof (Z.pow_le_mono_r 10 k 6 ltac:(lia) ltac:(lia)) as Z6. change (10 ^ 6) with 1000000 in Z6. lia. }
    (* then ten divides 7038531 *)
    assert (H32 : -32 < e).
    { destruct (Z_lt_le_dec (-32) e) as [Y|Y]; [exact Y|]. exfalso. pose proof (ten_mono e (-32) Y) as T.
      assert (P : (0 < (10 # 1) ^ (-32))%Q) by reflexivity.
      assert (A : (inject_Z n * (10 # 1) ^ e <= inject_Z n * (10 # 1) ^ (-32))%Q).
      { rewrite !(Qmult_comm (inject_Z n)). apply Qmult_le_compat_r; [exact T|]. change 0%Q with (inject_Z 0). rewrite <- Zle_Qle. exact N. }
      assert (B : (inject_Z n * (10 # 1) ^ (-32) < inject_Z 7038531 * (10 # 1) ^ (-32))%Q).
      { apply Qmult_lt_compat_r; [exact P|]. rewrite <- Zlt_Qlt. lia. }
      lra. }
    assert (E' : (inject_Z (n * 10 ^ (e + 32)) == inject_Z 7038531)%Q).
    { rewrite inject_Z_mult, <- pow10_inj by lia. rewrite Qpower_plus by discriminate. rewrite Qmult_assoc, E.
      rewrite <- Qmult_assoc, <- Qpower_plus by discriminate. reflexivity. }
    rewrite inject_Z_injective in E'. replace (e + 32) with (Z.succ (e + 31)) in E' by lia. rewrite Z.pow_succ_r in E' by lia.
    assert (n * 10 ^ (e + 31) * 10 = 7038531) by lia. lia.
  - eapply Z.le_lt_trans; [|exact K]. lia.
Qed.
Lemma exact32_kept : prints_singles exact32 /\ forall b, u_ok 4 b = true -> finite32 b = true -> reread exact32 b b.
Proof.
  split; [exact exact32_prints|]. intros b U F. destruct (reread_exists exact32 exact32_prints b U F) as [c R].
  pose proof R as (neg & q & d & T & N & D & A & EA & M). destruct (exact32_text b U F) as (q' & T' & E).
  destruct (real_double _ _ _ T') as [d' N']. destruct (finite_magnitude b U F) as (M0 & EB & _).
  assert (X : exists e, 0 <= e < 9218868437227405312 /\ (single (b mod 2147483648) == double e)%Q).
  { destruct (code_form 23 ltac:(lia) (b mod 2147483648) ltac:(lia)) as (S & k & HS & Hk & HSk & EQ). change (2 ^ 23) with 8388608 in *.
    destruct (single_double k (S + -149)) as (e & C & EC); [change (2 ^ 24) with 16777216; lia|lia|]. exists e. split; [exact C|].
    rewrite <- EC, number_units by lia. rewrite EQ. change 8388608 with (2 ^ 23) in *. rewrite units_at by lia.
    rewrite inject_Z_mult, <- pow_inj by lia. rewrite <- Qmult_assoc, <- Qpower_plus by apply two_neq. reflexivity. }
  destruct X as (e & C & EE). assert (d' = e) as ->.
  { eapply (nearest_self 52 (-1074) 9218868437227405312 q'); [lia|lia|exact N'|]. rewrite E. exact EE. }
  exists (2147483648 <=? b), q', e. split; [exact T'|]. split; [exact N'|]. split; [lia|]. exists (b mod 2147483648). split; [exact EB|].
  apply nearest_exact; [lia|lia|]. now symmetry.
Qed.
