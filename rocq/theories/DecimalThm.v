(** Reading decimal fractions: the result of [f_decimal] is the nearest double. *)
From Coq Require Import ZArith List Bool String Lia ZifyBool ZifyNat QArith Qabs Qpower Lqa.
From Verif Require Import Base Str Json JsonSyntax Nearest.
Import ListNotations.
Open Scope Z_scope.

Lemma round_div_spec a b : 0 < b -> 0 <= a ->
  let q := round_div a b in 0 <= q /\ a / b <= q <= a / b + 1
    /\ forall w, Z.abs (a - q * b) <= Z.abs (a - w * b)
                 /\ (Z.abs (a - q * b) = Z.abs (a - w * b) -> w = q \/ Z.even q = true).
Proof.
  intros B A. unfold round_div.
  pose proof (Z.div_mod a b ltac:(lia)) as D. pose proof (Z.mod_pos_bound a b ltac:(lia)) as R.
  assert (0 <= a / b) by (apply Z.div_pos; lia).
  set (q := a / b) in *. set (r := a mod b) in *. clearbody q r.
  assert (OE : Z.odd q = negb (Z.even q)) by (rewrite <- Z.negb_even; reflexivity).
  assert (E1 : Z.even (q + 1) = negb (Z.even q)) by (rewrite Z.even_add; cbn; now destruct (Z.even q)).
  cbv zeta. destruct (b <? 2 * r) eqn:C1; [|destruct ((2 * r =? b) && Z.odd q) eqn:C2]; cbn [orb].
  all: split; [lia|]; split; [lia|]; intros w; assert (CW : w <= q \/ w = q + 1 \/ q + 2 <= w) by lia.
  - destruct CW as [W|[->|W]]; [|lia|]; split; nia.
  - apply andb_true_iff in C2 as [C2 C3]. rewrite OE in C3.
    destruct CW as [W|[->|W]]; [|lia|]; (split; [nia|]); intros X; right; now rewrite E1.
  - rewrite OE in C2. destruct (Z.even q); cbn [negb] in C2.
    + split; [|auto]. destruct CW as [W|[->|W]]; nia.
    + rewrite andb_true_r in C2. destruct CW as [W|[->|W]]; split; try nia; intros X; left; nia.
Qed.

Section Ratio.
Context (p : Z) (P : 1 <= p).
Notation h := (2 ^ p).
(** [a / d] units, rounded. *)
Definition place (a d : Z) : Z := Z.max 0 (Z.log2 (a / d) - p).
Definition rcode (a d : Z) : Z := place a d * h + round_div a (d * 2 ^ place a d).

Lemma rcode_range a d : 0 <= a -> 0 < d -> let q := round_div a (d * 2 ^ place a d) in
  0 <= q <= 2 * h /\ (0 < place a d -> h <= q) /\ (0 < place a d -> h * 2 ^ place a d * d <= a).
Proof.
  intros A D q. pose proof (h_pos p P) as Hh. set (t := place a d) in *.
  assert (PT : 0 < 2 ^ t) by (apply Z.pow_pos_nonneg; unfold t, place; lia).
  destruct (round_div_spec a (d * 2 ^ t) ltac:(nia) A) as (Q0 & Q1 & _). fold q in Q0, Q1.
  rewrite <- Z.div_div in Q1 by lia.
  assert (V0 : 0 <= a / d) by (apply Z.div_pos; lia).
  pose proof (Z.mul_div_le a d D) as VD.
  set (v := a / d) in *. assert (U : v / 2 ^ t < 2 * h).
  { destruct (Z.eq_dec v 0) as [->|NV]; [rewrite Z.div_0_l by lia; lia|].
    apply Z.div_lt_upper_bound; [lia|]. pose proof (Z.log2_spec v ltac:(lia)) as [_ L].
    eapply Z.lt_le_trans; [exact L|]. replace (2 ^ t * (2 * h)) with (2 ^ (t + Z.succ p)).
    - apply Z.pow_le_mono_r; [lia|]. unfold t, place. fold v. lia.
    - rewrite Z.pow_add_r, Z.pow_succ_r by (unfold t, place; lia). reflexivity. }
  assert (LOW : 0 < t -> h * 2 ^ t <= v).
  { intros T. assert (NV : 0 < v) by (destruct (Z.eq_dec v 0) as [E|]; [|lia]; unfold t, place in T; fold v in T; rewrite E in T; cbn in T; lia).
    pose proof (Z.log2_spec v NV) as [L _]. rewrite <- Z.pow_add_r by lia. replace (p + t) with (Z.log2 v); [exact L|].
    unfold t, place in *. fold v in T |- *. lia. }
  split; [lia|]. split; intros T; specialize (LOW T).
  - enough (h <= v / 2 ^ t) by lia. apply Z.div_le_lower_bound; [lia|]. lia.
  - eapply Z.le_trans; [|exact VD]. rewrite Z.mul_comm. apply Z.mul_le_mono_nonneg_l; lia.
Qed.

Lemma rcode_nearest a d : 0 <= a -> 0 < d ->
  0 <= rcode a d /\ forall c, 0 <= c ->
   Z.abs (a - units p (rcode a d) * d) <= Z.abs (a - units p c * d)
   /\ (Z.abs (a - units p (rcode a d) * d) = Z.abs (a - units p c * d) -> c = rcode a d \/ Z.even (rcode a d) = true).
Proof.
  intros A D. pose proof (h_pos p P) as Hh. pose proof (h_even p P) as He.
  destruct (rcode_range a d A D) as (Q1 & Q2 & Q3). unfold rcode. set (t := place a d) in *.
  assert (T0 : 0 <= t) by (unfold t, place; lia).
  assert (PT : 0 < 2 ^ t) by (apply Z.pow_pos_nonneg; lia).
  destruct (round_div_spec a (d * 2 ^ t) ltac:(nia) A) as (_ & _ & R).
  set (q := round_div a (d * 2 ^ t)) in *. clearbody q.
  set (m := t * h + q). assert (C0 : 0 <= m) by (unfold m; nia).
  split; [exact C0|]. intros c C.
  assert (UC : units p m = q * 2 ^ t) by (apply units_at; auto; lia).
  assert (QE : Z.even q = true -> Z.even m = true).
  { intros E. unfold m. rewrite Z.even_add, Z.even_mul, He, E. now rewrite orb_true_r. }
  assert (QC : units p c = q * 2 ^ t -> c = m) by (intros E; apply (units_inj p P); lia).
  rewrite UC. replace (q * 2 ^ t * d) with (q * (d * 2 ^ t)) by ring.
  destruct (code_form p P c C) as (U & r & HU & Hr & HUr & EC).
  pose proof (units_at p P U r HU ltac:(lia) HUr) as UU. rewrite <- EC in UU.
  destruct (Z_le_gt_dec t U) as [G|G].
  - assert (W : units p c = r * 2 ^ (U - t) * 2 ^ t).
    { rewrite UU, <- Z.mul_assoc, <- Z.pow_add_r by lia. do 2 f_equal. lia. }
    destruct (R (r * 2 ^ (U - t))) as [M1 M2]. rewrite W. replace (r * 2 ^ (U - t) * 2 ^ t * d) with (r * 2 ^ (U - t) * (d * 2 ^ t)) by ring.
    split; [exact M1|]. intros E. destruct (M2 E) as [E'|E']; [left; apply QC; now rewrite W, E'|right; now apply QE].
  - destruct (R h) as [M1 _]. specialize (Q3 ltac:(lia)).
    assert (LT : units p c < h * 2 ^ t).
    { rewrite UU. replace t with (U + (t - U)) by lia. rewrite Z.pow_add_r by lia.
      assert (2 ^ 1 <= 2 ^ (t - U)) by (apply Z.pow_le_mono_r; lia). change (2 ^ 1) with 2 in *.
      assert (0 < 2 ^ U) by (apply Z.pow_pos_nonneg; lia).
      apply Z.lt_le_trans with (2 * h * 2 ^ U); [apply Z.mul_lt_mono_pos_r; lia|].
      replace (h * (2 ^ U * 2 ^ (t - U))) with (2 ^ (t - U) * h * 2 ^ U) by ring.
      apply Z.mul_le_mono_nonneg_r; [lia|]. apply Z.mul_le_mono_nonneg_r; lia. }
    assert (units p c * d < h * 2 ^ t * d) by (apply Z.mul_lt_mono_pos_r; assumption).
    replace (h * (d * 2 ^ t)) with (h * 2 ^ t * d) in M1 by ring. lia.
Qed.
End Ratio.

Lemma inv_pos d : 0 < d -> (0 < / inject_Z d)%Q.
Proof. intros D. apply Qinv_lt_0_compat. change 0%Q with (inject_Z 0). now rewrite <- Zlt_Qlt. Qed.
Lemma ratio_nearest n d : 0 <= n -> 0 < d -> nearest64 (inject_Z n / inject_Z d) (f_ratio n d).
Proof.
  intros N D. set (a := n * 2 ^ 1074). assert (A : 0 <= a) by (unfold a; nia).
  destruct (rcode_nearest 52 ltac:(lia) a d A D) as [C0 R].
  assert (CUT := cut_nearest fmt64 ltac:(cbn; lia) 2047 eq_refl ltac:(lia)
    (fun c => Z.abs (a - units 52 c * d)) (rcode 52 a d) a d C0 D ltac:(reflexivity) R).
  assert (FR : f_ratio n d = Z.min (f_inf fmt64) (rcode 52 a d)) by reflexivity.
  cbv zeta in CUT. rewrite <- FR in CUT. set (r := f_ratio n d) in *. clearbody r. destruct CUT as [B N0].
  split; [exact B|]. intros c C. specialize (N0 c C). cbv beta in N0.
  assert (DN : ~ (inject_Z d == 0)%Q) by (intros E; change 0%Q with (inject_Z 0) in E; rewrite inject_Z_injective in E; lia).
  pose proof (inv_pos d D) as ID.
  assert (U0 : (0 < (2 # 1) ^ (-1074))%Q) by reflexivity.
  assert (DI : forall b, 0 <= b -> (Qabs (inject_Z n / inject_Z d - number 52 (-1074) b)
      == inject_Z (Z.abs (a - units 52 b * d)) * ((2 # 1) ^ (-1074) * / inject_Z d))%Q).
  { intros b Hb. rewrite number_units by lia.
    assert (E : (inject_Z n == inject_Z a * (2 # 1) ^ (-1074))%Q).
    { unfold a. rewrite inject_Z_mult, <- pow_inj by lia. rewrite <- Qmult_assoc, <- Qpower_plus by apply two_neq.
      change (1074 + -1074) with 0. change ((2 # 1) ^ 0)%Q with 1%Q. ring. }
    rewrite E. generalize ((2 # 1) ^ (-1074))%Q U0. intros u U.
    setoid_replace (inject_Z a * u / inject_Z d - inject_Z (units 52 b) * u)%Q
      with (inject_Z (a - units 52 b * d) * (u * / inject_Z d))%Q.
    - rewrite Qabs_Qmult, (Qabs_pos (u * / inject_Z d)); [reflexivity|]. apply Qlt_le_weak, Qmult_lt_0_compat; assumption.
    - unfold Z.sub. rewrite inject_Z_plus, inject_Z_opp, inject_Z_mult. field. exact DN. }
  assert (K : (0 < (2 # 1) ^ (-1074) * / inject_Z d)%Q) by (apply Qmult_lt_0_compat; assumption).
  rewrite !DI by lia. destruct N0 as [N1 N2]. split.
  - apply Qmult_le_compat_r; [|now apply Qlt_le_weak]. now rewrite <- Zle_Qle.
  - intros E. apply N2. apply Qmult_inj_r in E; [|now apply Qnot_eq_sym, Qlt_not_eq]. exact (proj1 (inject_Z_injective _ _) E).
Qed.
Lemma nearest_ext p low top x y a : (x == y)%Q -> nearest p low top x a -> nearest p low top y a.
Proof. intros E [A N]. split; [exact A|]. intros c C. rewrite <- E. auto. Qed.
Lemma pow10_inj n : 0 <= n -> ((10 # 1) ^ n == inject_Z (10 ^ n))%Q.
Proof.
  intros H. pattern n. apply natlike_ind; [reflexivity| |exact H]. intros x Hx IH.
  unfold Z.succ. rewrite Qpower_plus by discriminate. rewrite IH, Z.pow_add_r by lia. rewrite inject_Z_mult. reflexivity.
Qed.
Lemma decimal_nearest n e : 0 <= n -> nearest64 (inject_Z n * (10 # 1) ^ e) (f_decimal n e).
Proof.
  intros N. unfold f_decimal. destruct (0 <=? e) eqn:E.
  - eapply nearest_ext; [|apply ratio_nearest; [|lia]].
    + rewrite inject_Z_mult, <- pow10_inj by lia. unfold Qdiv. change (/ inject_Z 1)%Q with 1%Q. ring.
    + assert (0 < 10 ^ e) by (apply Z.pow_pos_nonneg; lia). nia.
  - eapply nearest_ext; [|apply ratio_nearest; [exact N|apply Z.pow_pos_nonneg; lia]].
    rewrite <- pow10_inj by lia. unfold Qdiv. rewrite <- Qpower_opp. replace (- - e) with e by lia. reflexivity.
Qed.
