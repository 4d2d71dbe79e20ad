(** Widening a finite single-precision number and narrowing it again is the identity. *)
From Coq Require Import ZArith List Bool String Lia ZifyBool ZifyNat.
From Verif Require Import Base Str Types Versions Text Props File Spec BaseFacts Guid Json JsonSpec.
Import ListNotations.
Open Scope Z_scope.

Lemma finite32_eq b : u_ok 4 b = true -> f_finite fmt32 b = finite32 b.
Proof.
  unfold u_ok, in_range, f_finite, finite32, fmt32. cbn [f_sign f_inf].
  change (2 ^ (8 * 4) - 1) with 4294967295. change (2 ^ 23) with 8388608. intros H.
  destruct (b mod 2147483648 <? 2139095040) eqn:E; symmetry; lia.
Qed.
Lemma finite64_eq b : u_ok 8 b = true -> f_finite fmt64 b = finite64 b.
Proof.
  unfold u_ok, in_range, f_finite, finite64, fmt64. cbn [f_sign f_inf].
  change (2 ^ (8 * 8) - 1) with 18446744073709551615. change (2 ^ 52) with 4503599627370496. intros H.
  destruct (b mod 9223372036854775808 <? 9218868437227405312) eqn:E; symmetry; lia.
Qed.

Lemma split32 b : u_ok 4 b = true -> finite32 b = true ->
  exists m e, f_split fmt32 b = (m, e) /\ 0 <= m < 2 ^ 24 /\ -149 <= e <= 104
    /\ (2 ^ 23 <= m \/ e = -149) /\ (e + 149) * 2 ^ 23 + m = b mod 2147483648
    /\ b mod 2147483648 < 2139095040.
Proof.
  intros U F. rewrite <- finite32_eq in F by auto. unfold f_finite, fmt32 in F. cbn [f_sign f_inf] in F.
  unfold f_split, fmt32. cbn [f_sign f_prec f_emin].
  change (2 ^ (24 - 1)) with 8388608. change (2 ^ 23) with 8388608. change (2 ^ 24) with 16777216.
  set (a := b mod 2147483648) in *. assert (0 <= a) by (subst a; lia). clearbody a.
  destruct (a / 8388608 =? 0) eqn:E.
  - exists a, (-149). split; [reflexivity|]. lia.
  - exists (a mod 8388608 + 8388608), (a / 8388608 - 1 + -149). split; [reflexivity|]. lia.
Qed.

(** Adding a sign to a magnitude below it. *)
Lemma sign_add f (neg : bool) B : 0 < f_sign f -> 0 <= B < f_sign f ->
  ((if neg then f_sign f else 0) + B) mod f_sign f = B /\ f_neg f ((if neg then f_sign f else 0) + B) = neg.
Proof.
  intros P H. unfold f_neg. destruct neg; split; try lia.
  - rewrite <- (Z.mul_1_l (f_sign f)) at 1. rewrite Z.add_comm, Z_mod_plus_full. now apply Z.mod_small.
  - now apply Z.mod_small.
Qed.

Lemma cast_back b : u_ok 4 b = true -> finite32 b = true ->
  f_cast fmt64 fmt32 (f_cast fmt32 fmt64 b) = b.
Proof.
  intros U F. destruct (split32 b U F) as (m & e & E & Hm & He & Hn & Ha & Hi).
  assert (Hb : b = (if f_neg fmt32 b then 2147483648 else 0) + b mod 2147483648).
  { unfold u_ok, in_range in U. change (2 ^ (8 * 4) - 1) with 4294967295 in U.
    unfold f_neg, fmt32. cbn [f_sign]. destruct (2147483648 <=? b) eqn:X; lia. }
  set (neg := f_neg fmt32 b) in *.
  unfold f_cast at 2. rewrite E. fold neg.
  unfold f_cast. set (B64 := f_make fmt64 neg m e).
  destruct (Z.eq_dec m 0) as [->|M0].
  { assert (Ez : B64 = (if neg then f_sign fmt64 else 0) + 0) by (subst B64; unfold f_make; cbn; lia).
    destruct (sign_add fmt64 neg 0 ltac:(reflexivity) ltac:(split; reflexivity || discriminate)) as [S1 S2].
    unfold f_split. rewrite Ez, S1, S2. cbn [Z.eqb Z.div].
    change (0 / 2 ^ (f_prec fmt64 - 1) =? 0) with true. cbv iota.
    unfold f_make. cbn [Z.eqb]. rewrite Hb at 1.
    assert (b mod 2147483648 = 0). { change (2 ^ 23) with 8388608 in *. lia. }
    unfold fmt32. cbn [f_sign]. lia. }
  assert (Hm' : 0 < m) by lia.
  pose proof (Z.log2_spec m Hm') as [L1 L2].
  set (d := Z.log2 m) in *.
  assert (Hd : 0 <= d) by (apply Z.log2_nonneg).
  assert (Hd' : d < 24). { apply Z.log2_lt_pow2; lia. }
  assert (Ht : Z.max (e + d + 1 - 53) (-1074) = e + d - 52) by lia.
  set (m' := m * 2 ^ (52 - d)).
  assert (Pm : 2 ^ 52 <= m' < 2 ^ 53).
  { unfold m'. replace (2 ^ 52) with (2 ^ d * 2 ^ (52 - d)) by (rewrite <- Z.pow_add_r by lia; f_equal; lia).
    replace (2 ^ 53) with (2 ^ Z.succ d * 2 ^ (52 - d)) by (rewrite <- Z.pow_add_r by lia; f_equal; lia).
    pose proof (Z.pow_pos_nonneg 2 (52 - d)). nia. }
  set (B := (e + d - 52 + 1074) * 2 ^ 52 + m').
  assert (EB : B64 = (if neg then f_sign fmt64 else 0) + B).
  { subst B64. unfold f_make. replace (m =? 0) with false by lia. fold d.
    unfold fmt64 at 3 4 5 6 7 8. cbn [f_prec f_emin f_inf]. rewrite Ht.
    unfold round_shift. replace (e + d - 52 - e <=? 0) with (d <=? 52) by lia. replace (d <=? 52) with true by lia.
    replace (- (e + d - 52 - e)) with (52 - d) by lia. fold m'.
    change (2 ^ (53 - 1)) with (2 ^ 52). f_equal.
    replace (e + d - 52 - -1074) with (e + d - 52 + 1074) by lia. fold B.
    apply Z.min_r. subst B. unfold fmt64. cbn [f_inf f_prec f_emin f_sign]. change (2 ^ 52) with 4503599627370496 in *. change (2 ^ 53) with 9007199254740992 in *. lia. }
  assert (RB : 0 <= B < f_sign fmt64).
  { subst B. unfold fmt64. cbn [f_sign]. change (2 ^ 52) with 4503599627370496 in *. change (2 ^ 53) with 9007199254740992 in *. lia. }
  destruct (sign_add fmt64 neg B ltac:(reflexivity) RB) as [S1 S2].
  rewrite EB. unfold f_split. rewrite S1, S2.
  unfold fmt64 at 1 2 3 4 5. cbn [f_prec f_emin]. change (2 ^ (53 - 1)) with (2 ^ 52).
  assert (D1 : B / 2 ^ 52 = e + d - 52 + 1075).
  { subst B. change (2 ^ 52) with 4503599627370496 in *. change (2 ^ 53) with 9007199254740992 in *. lia. }
  assert (D2 : B mod 2 ^ 52 + 2 ^ 52 = m').
  { subst B. change (2 ^ 52) with 4503599627370496 in *. change (2 ^ 53) with 9007199254740992 in *. lia. }
  rewrite D1, D2. replace (e + d - 52 + 1075 =? 0) with false by lia.
  change (f_emin fmt64) with (-1074). replace (e + d - 52 + 1075 - 1 + -1074) with (e + d - 52) by lia.
  unfold f_make. replace (m' =? 0) with false by (change (2 ^ 52) with 4503599627370496 in *; lia).
  assert (LM : Z.log2 m' = 52) by (apply Z.log2_unique; [lia|exact Pm]).
  rewrite LM. unfold fmt32. cbn [f_prec f_emin f_inf f_sign].
  assert (T : Z.max (e + d - 52 + 52 + 1 - 24) (-149) = e).
  { destruct Hn as [Hn|Hn]; [|lia]. assert (d = 23) by (apply Z.log2_unique; lia). lia. }
  rewrite T. unfold round_shift. replace (e - (e + d - 52)) with (52 - d) by lia.
  replace (52 - d <=? 0) with false by lia.
  unfold m'. rewrite Z.div_mul by (apply Z.pow_nonzero; lia). rewrite Z.mod_mul by (apply Z.pow_nonzero; lia).
  assert (P2 : 0 < 2 ^ (52 - d - 1)) by (apply Z.pow_pos_nonneg; lia).
  replace (2 ^ (52 - d - 1) <? 0) with false by lia. replace (0 =? 2 ^ (52 - d - 1)) with false by lia.
  cbn [orb andb]. rewrite Hb at 1. f_equal.
  change (2 ^ (24 - 1)) with (2 ^ 23). replace (e - -149) with (e + 149) by lia. rewrite Ha. lia.
Qed.

Lemma f32_back b : u_ok 4 b = true -> d_f32 (e_f32 b) = if finite32 b then JOk b else JErr.
Proof.
  intros U. unfold e_f32. rewrite finite32_eq by auto. destruct (finite32 b) eqn:F; [|reflexivity].
  cbn [d_f32]. now rewrite cast_back.
Qed.
Lemma f64_back b : u_ok 8 b = true -> d_f64 (e_f64 b) = if finite64 b then JOk b else JErr.
Proof. intros U. unfold e_f64. rewrite finite64_eq by auto. now destruct (finite64 b). Qed.
