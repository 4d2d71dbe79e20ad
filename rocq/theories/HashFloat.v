(** What the hasher sees of floats. *)
From Coq Require Import ZArith List Bool String Lia ZifyBool ZifyNat.
From Verif Require Import Base Str Types Hash EqFacts HashSpec.
Open Scope Z_scope.

(** ** Singles: everything but the bits of NaNs and the sign of zero *)
Lemma decode32_range z : 0 <= decode32 z < 18446744073709551616.
Proof.
  unfold decode32, raw_bits. cbv zeta. 
  pose proof (Z.mod_pos_bound (z / 8388608 mod 256 - 150) 2048 ltac:(lia)).
  match goal with |- context [?m mod 4503599627370496] => pose proof (Z.mod_pos_bound m 4503599627370496 ltac:(lia)) end.
  destruct (z / 2147483648 mod 2 =? 0); lia.
Qed.
Lemma decode32_inj a b : 0 <= a < 4294967296 -> 0 <= b < 4294967296 -> decode32 a = decode32 b -> a = b.
Proof.
  unfold decode32, raw_bits. cbv zeta. intros A B E.
  assert (P : forall z, 0 <= z < 4294967296 -> exists s e m, z = 2147483648 * s + 8388608 * e + m /\ 0 <= s < 2 /\ 0 <= e < 256 /\ 0 <= m < 8388608
    /\ z mod 8388608 = m /\ z / 8388608 mod 256 = e /\ z / 2147483648 mod 2 = s).
  { intros z H. exists (z / 2147483648), (z / 8388608 mod 256), (z mod 8388608). Z.to_euclidean_division_equations. lia. }
  destruct (P a A) as (s & e & m & EA & S & X & M & A1 & A2 & A3).
  destruct (P b B) as (s' & e' & m' & EB & S' & X' & M' & B1 & B2 & B3).
  rewrite A1, A2, A3, B1, B2, B3 in E. clear A1 A2 A3 B1 B2 B3.
  assert (Q : forall e, 0 <= e < 256 -> (e - 150) mod 2048 = if e <? 150 then e + 1898 else e - 150).
  { intros x H. destruct (x <? 150) eqn:L; Z.to_euclidean_division_equations; lia. }
  rewrite !Q in E by lia.
  rewrite !Z.mod_small in E by (match goal with |- context [if ?b then _ else _] => destruct b end; lia).
  destruct (e =? 0) eqn:E1, (e' =? 0) eqn:E2, (s =? 0) eqn:E3, (s' =? 0) eqn:E4; destruct (e <? 150) eqn:E5, (e' <? 150) eqn:E6; lia.
Qed.
Lemma canon32_u z : 0 <= canon32 z < 18446744073709551616.
Proof. unfold canon32. destruct (f32_nan z); [lia|]. apply decode32_range. Qed.
Lemma nan32_apart z : decode32 z <> 9221120237041090560.
Proof.
  unfold decode32, raw_bits. cbv zeta. pose proof (Z.mod_pos_bound z 8388608 ltac:(lia)). pose proof (Z.mod_pos_bound (z / 8388608) 256 ltac:(lia)).
  pose proof (Z.mod_pos_bound (z / 8388608 mod 256 - 150) 2048 ltac:(lia)).
  set (m := z mod 8388608) in *. set (e := z / 8388608 mod 256) in *.
  rewrite (Z.mod_small (if e =? 0 then _ else _)) by (destruct (e =? 0); lia).
  destruct (e =? 0), (z / 2147483648 mod 2 =? 0); lia.
Qed.
Lemma canon32_tells a b : 0 <= a < 4294967296 -> 0 <= b < 4294967296 -> canon32 a = canon32 b -> f32_eqb a b = true.
Proof.
  intros A B. unfold canon32. rewrite f32_iff. unfold f32_nan.
  destruct (2139095040 <? a mod 2147483648) eqn:NA, (2139095040 <? b mod 2147483648) eqn:NB; intros E.
  - left. lia.
  - symmetry in E. now apply nan32_apart in E.
  - now apply nan32_apart in E.
  - assert (R : forall z, 0 <= z < 4294967296 -> 0 <= (if z mod 2147483648 =? 0 then 0 else z) < 4294967296)
      by (clear; intros z H; destruct (z mod 2147483648 =? 0); [split; [apply Z.le_refl|reflexivity]|exact H]).
    apply decode32_inj in E; [|now apply R|now apply R].
    destruct (a mod 2147483648 =? 0) eqn:ZA, (b mod 2147483648 =? 0) eqn:ZB; subst; try lia.
Qed.

(** ** Doubles: what [blur64] leaves *)
Lemma parts64 z : 0 <= z < 18446744073709551616 -> exists s e m,
  z = 9223372036854775808 * s + 4503599627370496 * e + m /\ 0 <= s < 2 /\ 0 <= e < 2048 /\ 0 <= m < 4503599627370496
  /\ z mod 4503599627370496 = m /\ z / 4503599627370496 mod 2048 = e /\ z / 9223372036854775808 = s
  /\ z mod 9223372036854775808 = 4503599627370496 * e + m.
Proof. intros H. exists (z / 9223372036854775808), (z / 4503599627370496 mod 2048), (z mod 4503599627370496). Z.to_euclidean_division_equations. lia. Qed.
(** The hashed pattern in terms of sign, exponent and mantissa. *)
Definition code64 (s e m : Z) : Z :=
  (if e =? 0 then 2 * m mod 4503599627370496 else m) + 4503599627370496 * (if e <? 1075 then e + 973 else e - 1075)
  + if s =? 0 then 9223372036854775808 else 0.
Lemma decode64_code z s e m : z mod 4503599627370496 = m -> z / 4503599627370496 mod 2048 = e -> z / 9223372036854775808 = s ->
  0 <= s < 2 -> 0 <= e < 2048 -> 0 <= m < 4503599627370496 -> decode64 z = code64 s e m.
Proof.
  intros <- <- <- S E M. unfold decode64, raw_bits, code64. cbv zeta.
  rewrite (Z.mod_small (z / 9223372036854775808) 2) by lia. f_equal. f_equal.
  - destruct (_ =? 0); [reflexivity|]. rewrite <- (Z.mod_add _ (-1)) by lia. rewrite Z.mod_small; lia.
  - f_equal. destruct (_ <? 1075) eqn:L; Z.to_euclidean_division_equations; lia.
Qed.
Lemma canon64_code z s e m : z = 9223372036854775808 * s + 4503599627370496 * e + m -> 0 <= s < 2 -> 0 <= e < 2048 -> 0 <= m < 4503599627370496 ->
  canon64 z = if 9218868437227405312 <? 4503599627370496 * e + m then 9221120237041090560
              else if (e =? 0) && (m =? 0) then code64 0 0 0 else code64 s e m.
Proof.
  intros -> S E M. unfold canon64, f64_nan.
  set (z := 9223372036854775808 * s + 4503599627370496 * e + m).
  assert (z mod 9223372036854775808 = 4503599627370496 * e + m) as -> by (subst z; Z.to_euclidean_division_equations; lia).
  assert (4503599627370496 * e + m =? 0 = (e =? 0) && (m =? 0)) as -> by lia.
  destruct (9218868437227405312 <? _); [reflexivity|].
  destruct ((e =? 0) && (m =? 0)); [reflexivity|].
  apply decode64_code; try assumption; subst z; Z.to_euclidean_division_equations; lia.
Qed.
Lemma blur64_parts z s e m : z = 9223372036854775808 * s + 4503599627370496 * e + m -> 0 <= s < 2 -> 0 <= e < 2048 -> 0 <= m < 4503599627370496 ->
  blur64 z = if (9218868437227405312 <? 4503599627370496 * e + m) || ((s =? 1) && (e =? 1074) && (m =? 2251799813685248)) then 9221120237041090560
    else if (e =? 0) && (m =? 0) then 2251799813685248
    else if e =? 0 then 9223372036854775808 * s + 2251799813685248 + m mod 2251799813685248 else 9223372036854775808 * s + 4503599627370496 * e + m.
Proof.
  intros E S X M. unfold blur64, f64_nan.
  assert (A : z mod 9223372036854775808 = 4503599627370496 * e + m) by (subst z; Z.to_euclidean_division_equations; lia). rewrite A.
  assert (B : z / 4503599627370496 mod 2048 = e) by (subst z; Z.to_euclidean_division_equations; lia). rewrite B.
  assert (C : z / 9223372036854775808 = s) by (subst z; Z.to_euclidean_division_equations; lia). rewrite C.
  assert (D : (4503599627370496 * e + m =? 0) = (e =? 0) && (m =? 0)) by lia. rewrite D.
  assert (F : (z =? 14062489836464373760) = (s =? 1) && (e =? 1074) && (m =? 2251799813685248)) by lia. rewrite F.
  destruct (_ || _); [reflexivity|]. destruct (_ && _); [reflexivity|]. destruct (e =? 0) eqn:G; [|now rewrite E].
  f_equal; [lia|]. subst z. clear - S M G. assert (e = 0) by lia. subst e. Z.to_euclidean_division_equations. lia.
Qed.
Lemma canon64_u z : 0 <= z < 18446744073709551616 -> 0 <= canon64 z < 18446744073709551616.
Proof.
  intros H. destruct (parts64 z H) as (s & e & m & E & S & X & M & _). rewrite (canon64_code z s e m E S X M).
  assert (C : forall s e m, 0 <= s < 2 -> 0 <= e < 2048 -> 0 <= m < 4503599627370496 -> 0 <= code64 s e m < 18446744073709551616).
  { clear. intros s e m S E M. unfold code64. pose proof (Z.mod_pos_bound (2 * m) 4503599627370496 ltac:(lia)).
    destruct (e =? 0), (e <? 1075) eqn:?, (s =? 0); lia. }
  destruct (_ <? _); [lia|]. destruct (_ && _); apply C; lia.
Qed.
(** What the hasher sees of a double is exactly what is left by [blur64]. *)
Lemma canon64_tells a b : 0 <= a < 18446744073709551616 -> 0 <= b < 18446744073709551616 ->
  canon64 a = canon64 b -> blur64 a = blur64 b.
Proof.
  intros A B. destruct (parts64 a A) as (s & e & m & E & S & X & M & _). destruct (parts64 b B) as (s' & e' & m' & E' & S' & X' & M' & _).
  rewrite (canon64_code a s e m E S X M), (canon64_code b s' e' m' E' S' X' M'), (blur64_parts a s e m E S X M), (blur64_parts b s' e' m' E' S' X' M').
  clear A B E E' a b. 
  assert (T : forall m, 0 <= m < 4503599627370496 -> 2 * m mod 4503599627370496 = 2 * (m mod 2251799813685248)) by (intros; Z.to_euclidean_division_equations; lia).
  unfold code64. rewrite !T by lia. 
  assert (R : 0 <= m mod 2251799813685248 < 2251799813685248) by (apply Z.mod_pos_bound; lia).
  assert (R' : 0 <= m' mod 2251799813685248 < 2251799813685248) by (apply Z.mod_pos_bound; lia).
  set (r := m mod 2251799813685248) in *. set (r' := m' mod 2251799813685248) in *.
  assert (Z0 : m = 0 -> r = 0) by (intros ->; reflexivity). assert (Z0' : m' = 0 -> r' = 0) by (intros ->; reflexivity).
  clearbody r r'. clear T. change (0 mod 2251799813685248) with 0.
  change (if 0 =? 0 then 2 * 0 else 0) with 0. change (if 0 <? 1075 then 0 + 973 else 0 - 1075) with 973. change (if 0 =? 0 then 9223372036854775808 else 0) with 9223372036854775808.
  destruct (9218868437227405312 <? 4503599627370496 * e + m) eqn:N, (9218868437227405312 <? 4503599627370496 * e' + m') eqn:N'; cbn [orb].
  - reflexivity.
  - destruct (e' =? 0) eqn:?, (m' =? 0) eqn:?, (s' =? 0) eqn:?, (e' <? 1075) eqn:?; cbn [andb orb]; intros; destruct (_ && _) eqn:?; lia.
  - destruct (e =? 0) eqn:?, (m =? 0) eqn:?, (s =? 0) eqn:?, (e <? 1075) eqn:?; cbn [andb orb]; intros; destruct (_ && _) eqn:?; lia.
  - intros E. assert (e = e' /\ (e <> 0 -> m = m' /\ s = s') /\ (e = 0 -> r = r' /\ (m = 0 -> s' = 0 \/ m' = 0) /\ (m' = 0 -> s = 0 \/ m = 0) /\ (m <> 0 -> m' <> 0 -> s = s'))) as (-> & P1 & P2).
    { destruct (e =? 0) eqn:?, (m =? 0) eqn:?, (s =? 0) eqn:?, (e <? 1075) eqn:?; destruct (e' =? 0) eqn:?, (m' =? 0) eqn:?, (s' =? 0) eqn:?, (e' <? 1075) eqn:?; cbn [andb] in E; try lia. }
    destruct (e' =? 0) eqn:G.
    + destruct (P2 ltac:(lia)) as (-> & P3 & P4 & P5). destruct (m =? 0) eqn:?, (m' =? 0) eqn:?; cbn [andb]; rewrite ?andb_false_r; try lia;
        destruct (s =? 1) eqn:?, (s' =? 1) eqn:?, (e' =? 1074) eqn:?; cbn [andb]; lia.
    + destruct (P1 ltac:(lia)) as (-> & ->). reflexivity.
Qed.
Lemma blur64_u z : 0 <= z < 18446744073709551616 -> 0 <= blur64 z < 18446744073709551616.
Proof.
  intros H. destruct (parts64 z H) as (s & e & m & E & S & X & M & _). rewrite (blur64_parts z s e m E S X M).
  pose proof (Z.mod_pos_bound m 2251799813685248 ltac:(lia)). destruct (_ || _); [lia|]. destruct (_ && _); [lia|]. destruct (e =? 0); lia.
Qed.
Lemma canon64_blur z : 0 <= z < 18446744073709551616 -> canon64 (blur64 z) = canon64 z.
Proof.
  intros H. destruct (parts64 z H) as (s & e & m & E & S & X & M & _). rewrite (blur64_parts z s e m E S X M), (canon64_code z s e m E S X M).
  destruct (9218868437227405312 <? _) eqn:N; cbn [orb]; [reflexivity|].
  destruct ((s =? 1) && (e =? 1074) && (m =? 2251799813685248)) eqn:K.
  { assert (s = 1 /\ e = 1074 /\ m = 2251799813685248) as (-> & -> & ->) by lia. reflexivity. }
  destruct ((e =? 0) && (m =? 0)) eqn:O; [reflexivity|]. destruct (e =? 0) eqn:G.
  - assert (e = 0) by lia. subst e. pose proof (Z.mod_pos_bound m 2251799813685248 ltac:(lia)).
    rewrite (canon64_code _ s 0 (2251799813685248 + m mod 2251799813685248)) by lia.
    assert (N' : (9218868437227405312 <? 4503599627370496 * 0 + (2251799813685248 + m mod 2251799813685248)) = false) by lia. rewrite N'.
    change (0 =? 0) with true. cbn [andb].
    destruct (2251799813685248 + m mod 2251799813685248 =? 0) eqn:O'; [lia|]. unfold code64. f_equal. f_equal. change (0 =? 0) with true. cbv iota.
    change 4503599627370496 with (2 * 2251799813685248). rewrite !Z.mul_mod_distr_l by lia. f_equal.
    rewrite Z.add_mod, Z.mod_same, Z.add_0_l, !Z.mod_mod by lia. try reflexivity.
  - rewrite (canon64_code _ s e m) by lia. rewrite N, G. reflexivity.
Qed.
