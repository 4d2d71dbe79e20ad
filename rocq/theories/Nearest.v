(** Conversions between integers, single and double precision against a definition of
    rounding: the nearest number, of two equally near ones the even one. *)
From Coq Require Import ZArith List Bool String Lia ZifyBool ZifyNat QArith Qabs Qpower Lqa.
From Verif Require Import Base Str Types Versions Text Props File Spec BaseFacts Guid Json JsonSpec JsonFloat.
Import ListNotations.
Open Scope Z_scope.

(** ** Specification *)
(** The magnitude with exponent field [a / 2^p] and fraction field [a mod 2^p], in
    binary interchange format (IEEE 754-2008, 3.4); [low] is the exponent of the
    smallest positive number. *)
Definition number (p low a : Z) : Q :=
  let E := a / 2 ^ p in
  let F := a mod 2 ^ p in
  if E =? 0 then inject_Z F * (2 # 1) ^ low else inject_Z (F + 2 ^ p) * (2 # 1) ^ (low + E - 1).
(** [a] is the nearest to [x] among the magnitudes up to [top] (the code of infinity,
    counted as the number that would follow the largest finite one), and even if
    another is equally near. *)
Definition nearest (p low top : Z) (x : Q) (a : Z) : Prop :=
  0 <= a <= top
  /\ forall c, 0 <= c <= top ->
     (Qabs (x - number p low a) <= Qabs (x - number p low c))%Q
     /\ (Qabs (x - number p low a) == Qabs (x - number p low c) -> c = a \/ Z.even a = true)%Q.
Definition nearest32 := nearest 23 (-149) 2139095040.
Definition nearest64 := nearest 52 (-1074) 9218868437227405312.

(** ** In units of the smallest positive number *)
Definition units (p a : Z) : Z :=
  if a / 2 ^ p =? 0 then a mod 2 ^ p else (a mod 2 ^ p + 2 ^ p) * 2 ^ (a / 2 ^ p - 1).
Lemma two_neq : ~ (2 # 1 == 0)%Q.
Proof. discriminate. Qed.
Lemma pow_inj n : 0 <= n -> ((2 # 1) ^ n == inject_Z (2 ^ n))%Q.
Proof.
  intros H. pattern n. apply natlike_ind; [reflexivity| |exact H]. intros x Hx IH.
  unfold Z.succ. rewrite Qpower_plus by apply two_neq. rewrite IH, Z.pow_add_r by lia. rewrite inject_Z_mult. reflexivity.
Qed.
Lemma number_units p low a : 0 <= p -> 0 <= a -> (number p low a == inject_Z (units p a) * (2 # 1) ^ low)%Q.
Proof.
  intros P A. assert (0 < 2 ^ p) by now apply Z.pow_pos_nonneg.
  unfold number, units. destruct (a / 2 ^ p =? 0) eqn:E; [reflexivity|].
  assert (0 <= a / 2 ^ p) by now apply Z.div_pos. apply Z.eqb_neq in E.
  rewrite inject_Z_mult. rewrite <- pow_inj by lia.
  replace (low + a / 2 ^ p - 1) with ((a / 2 ^ p - 1) + low) by lia. rewrite Qpower_plus by apply two_neq. now rewrite Qmult_assoc.
Qed.

Section Units.
Context (p : Z) (P : 1 <= p).
Notation h := (2 ^ p).
Lemma h_pos : 0 < h.
Proof. apply Z.pow_pos_nonneg; lia. Qed.
Lemma h_even : Z.even h = true.
Proof. rewrite Z.even_pow by lia. reflexivity. Qed.
(** A code [T * h + q] with [q] in the binade of [T]. *)
Lemma units_at T q : 0 <= T -> 0 <= q <= 2 * h -> (0 < T -> h <= q) -> units p (T * h + q) = q * 2 ^ T.
Proof.
  intros HT Hq HTq. pose proof h_pos as Hh. unfold units.
  destruct (Z.eq_dec q (2 * h)) as [->|N].
  - replace (T * h + 2 * h) with ((T + 2) * h) by lia. rewrite Z.div_mul, Z_mod_mult by lia.
    destruct (T + 2 =? 0) eqn:E; [lia|]. replace (T + 2 - 1) with (T + 1) by lia. rewrite Z.pow_add_r by lia. lia.
  - destruct (Z_lt_ge_dec q h) as [L|G].
    + assert (T = 0) by lia. subst T. rewrite Z.mul_0_l, Z.add_0_l, Z.div_small, Z.mod_small by lia. cbn. lia.
    + replace (T * h + q) with (q - h + (T + 1) * h) by lia. rewrite Z_div_plus, Z_mod_plus by lia.
      rewrite Z.div_small, Z.mod_small by lia. destruct (0 + (T + 1) =? 0) eqn:E; [lia|].
      replace (0 + (T + 1) - 1) with T by lia. lia.
Qed.
(** Every code has this form. *)
Lemma code_form c : 0 <= c -> exists T q, 0 <= T /\ 0 <= q < 2 * h /\ (0 < T -> h <= q) /\ c = T * h + q.
Proof.
  intros C. pose proof h_pos as Hh. pose proof (Z.div_mod c h ltac:(lia)) as D. pose proof (Z.mod_pos_bound c h Hh) as B.
  assert (0 <= c / h) by now apply Z.div_pos. destruct (Z.eq_dec (c / h) 0) as [E|E].
  - exists 0, c. rewrite E in D. repeat split; lia.
  - exists (c / h - 1), (c mod h + h). repeat split; lia.
Qed.
Lemma units_mono c d : 0 <= c < d -> units p c < units p d.
Proof.
  intros H. pose proof h_pos as Hh.
  destruct (code_form c ltac:(lia)) as (T & q & HT & Hq & HTq & ->).
  destruct (code_form d ltac:(lia)) as (U & r & HU & Hr & HUr & ->).
  rewrite !units_at by lia.
  assert (T <= U) by nia. destruct (Z.eq_dec T U) as [->|N].
  - assert (0 < 2 ^ U) by (apply Z.pow_pos_nonneg; lia). nia.
  - replace U with (T + (U - T)) by lia. rewrite Z.pow_add_r by lia.
    assert (0 < 2 ^ T) by (apply Z.pow_pos_nonneg; lia).
    assert (2 ^ 1 <= 2 ^ (U - T)) by (apply Z.pow_le_mono_r; lia). change (2 ^ 1) with 2 in *.
    assert (h <= r) by lia.
    assert (q < r * 2 ^ (U - T)) by nia. rewrite Z.mul_comm with (n := 2 ^ T), Z.mul_assoc. nia.
Qed.
Lemma units_inj c d : 0 <= c -> 0 <= d -> units p c = units p d -> c = d.
Proof.
  intros C D E. destruct (Z.lt_trichotomy c d) as [L|[L|L]]; [|exact L|].
  - pose proof (units_mono c d ltac:(lia)). lia.
  - pose proof (units_mono d c ltac:(lia)). lia.
Qed.
End Units.

(** ** The nearest integer *)
Lemma round_shift_spec m s : 0 < s -> 0 <= m ->
  let q := round_shift m s in 0 <= q /\ m / 2 ^ s <= q <= m / 2 ^ s + 1
    /\ forall w, Z.abs (m - q * 2 ^ s) <= Z.abs (m - w * 2 ^ s)
                 /\ (Z.abs (m - q * 2 ^ s) = Z.abs (m - w * 2 ^ s) -> w = q \/ Z.even q = true).
Proof.
  intros S M. unfold round_shift. destruct (s <=? 0) eqn:E; [lia|]. clear E.
  set (H := 2 ^ (s - 1)). assert (HH : 2 ^ s = 2 * H) by (unfold H; replace s with (s - 1 + 1) at 1 by lia; rewrite Z.pow_add_r by lia; lia).
  assert (0 < H) by (unfold H; apply Z.pow_pos_nonneg; lia). rewrite HH. clearbody H.
  pose proof (Z.div_mod m (2 * H) ltac:(lia)) as D. pose proof (Z.mod_pos_bound m (2 * H) ltac:(lia)) as B.
  assert (0 <= m / (2 * H)) by (apply Z.div_pos; lia).
  set (q := m / (2 * H)) in *. set (r := m mod (2 * H)) in *. clearbody q r.
  assert (OE : Z.odd q = negb (Z.even q)) by (rewrite <- Z.negb_even; reflexivity).
  assert (E1 : Z.even (q + 1) = negb (Z.even q)) by (rewrite Z.even_add; cbn; now destruct (Z.even q)).
  cbv zeta. destruct (H <? r) eqn:C1; [|destruct ((r =? H) && Z.odd q) eqn:C2]; cbn [orb].
  all: split; [lia|]; split; [lia|]; intros w; assert (CW : w <= q \/ w = q + 1 \/ q + 2 <= w) by lia.
  - destruct CW as [W|[->|W]]; [|lia|]; split; nia.
  - apply andb_true_iff in C2 as [C2 C3]. rewrite OE in C3.
    destruct CW as [W|[->|W]]; [|lia|]; (split; [nia|]); intros X; right; now rewrite E1.
  - rewrite OE in C2. destruct (Z.even q); cbn [negb] in C2.
    + split; [|auto]. destruct CW as [W|[->|W]]; nia.
    + rewrite andb_true_r in C2. destruct CW as [W|[->|W]]; split; try nia; intros X; left; nia.
Qed.

(** ** Rounding to a format *)
(** [2^s * |x - c|] in units, for [x = m * 2^e] with [s + T = t - low] ... *)
Section Make.
Context (f : fmt).
Notation p := (f_prec f - 1).
Notation low := (f_emin f).
Context (P : 1 <= p) (top : Z) (TOP : f_inf f = top * 2 ^ p) (T0 : 0 < top).

Definition target (m e : Z) : Z := Z.max (e + Z.log2 m + 1 - f_prec f) low.
Definition code (m e : Z) : Z := (target m e - low) * 2 ^ p + round_shift m (target m e - e).

Lemma code_units m e : 0 < m ->
  0 <= round_shift m (target m e - e) <= 2 * 2 ^ p
  /\ (0 < target m e - low -> 2 ^ p <= round_shift m (target m e - e)).
Proof.
  intros M. pose proof (h_pos p P) as Hh. pose proof (Z.log2_spec m M) as [L1 L2]. pose proof (Z.log2_nonneg m) as L0.
  assert (PH : 2 * 2 ^ p = 2 ^ (f_prec f)) by (replace (2 ^ f_prec f) with (2 ^ (p + 1)) by (f_equal; lia); rewrite Z.pow_add_r by lia; change (2 ^ 1) with 2; lia).
  set (t := target m e). assert (TGE : e + Z.log2 m + 1 - f_prec f <= t) by (unfold t, target; lia).
  assert (TEQ : low < t -> t = e + Z.log2 m + 1 - f_prec f) by (unfold t, target; lia).
  set (L := Z.log2 m) in *. clearbody t L.
  destruct (Z_le_gt_dec (t - e) 0) as [S|S].
  - unfold round_shift. destruct (t - e <=? 0) eqn:E; [|lia].
    assert (0 < 2 ^ (- (t - e))) by (apply Z.pow_pos_nonneg; lia).
    assert (U : m * 2 ^ (- (t - e)) < 2 ^ (Z.succ L - (t - e))).
    { replace (Z.succ L - (t - e)) with (Z.succ L + - (t - e)) by lia. rewrite Z.pow_add_r by lia. apply Z.mul_lt_mono_pos_r; assumption. }
    assert (2 ^ (Z.succ L - (t - e)) <= 2 ^ (f_prec f)) by (apply Z.pow_le_mono_r; lia).
    split; [lia|]. intros TL. specialize (TEQ ltac:(lia)).
    replace p with (L + - (t - e)) by lia. rewrite Z.pow_add_r by lia. apply Z.mul_le_mono_nonneg_r; lia.
  - destruct (round_shift_spec m (t - e) ltac:(lia) ltac:(lia)) as (Q0 & Q1 & Q).
    set (q := round_shift m (t - e)) in *. clearbody q.
    assert (PS : 0 < 2 ^ (t - e)) by (apply Z.pow_pos_nonneg; lia).
    assert (U : m / 2 ^ (t - e) < 2 ^ (f_prec f)).
    { apply Z.div_lt_upper_bound; [lia|]. rewrite <- Z.pow_add_r by lia.
      eapply Z.lt_le_trans; [exact L2|]. apply Z.pow_le_mono_r; lia. }
    split; [lia|]. intros TL. specialize (TEQ ltac:(lia)).
    enough (2 ^ p <= m / 2 ^ (t - e)) by lia. apply Z.div_le_lower_bound; [lia|].
    rewrite <- Z.pow_add_r by lia. replace (t - e + p) with L by lia. exact L1.
Qed.

(** The code is nearest among all codes, in units scaled by [2^s]. *)
Lemma code_nearest m e : 0 < m -> let t := target m e in let s := Z.max 0 (t - e) in
  let x := m * 2 ^ (s + e - low) in
  0 <= code m e /\ forall c, 0 <= c ->
   Z.abs (x - units p (code m e) * 2 ^ s) <= Z.abs (x - units p c * 2 ^ s)
   /\ (Z.abs (x - units p (code m e) * 2 ^ s) = Z.abs (x - units p c * 2 ^ s) -> c = code m e \/ Z.even (code m e) = true).
Proof.
  intros M t s x. pose proof (h_pos p P) as Hh. pose proof (h_even p P) as He.
  destruct (code_units m e M) as [Q1 Q2]. fold t in Q1, Q2.
  assert (TL : low <= t) by (unfold t, target; lia).
  assert (TGE : t = low \/ t = e + Z.log2 m + 1 - f_prec f) by (unfold t, target; lia).
  assert (C0 : 0 <= code m e) by (unfold code; fold t; nia).
  split; [exact C0|]. intros c C.
  assert (UC : units p (code m e) = round_shift m (t - e) * 2 ^ (t - low)) by (unfold code; fold t; apply units_at; auto; lia).
  assert (PT : 0 < 2 ^ (t - low)) by (apply Z.pow_pos_nonneg; lia).
  destruct (Z_le_gt_dec (t - e) 0) as [S|S].
  - (* exact *)
    assert (s = 0) by lia. assert (X : x = units p (code m e) * 2 ^ s).
    { rewrite UC. unfold x, round_shift. replace s with 0 by lia. destruct (t - e <=? 0) eqn:E; [|lia].
      change (2 ^ 0) with 1. rewrite Z.mul_1_r. rewrite <- Z.mul_assoc, <- Z.pow_add_r by lia. f_equal. f_equal. lia. }
    split; [lia|]. intros E. left. apply (units_inj p P); try lia.
    assert (0 < 2 ^ s) by (apply Z.pow_pos_nonneg; lia). nia.
  - assert (HS : s = t - e) by lia.
    destruct (round_shift_spec m s ltac:(lia) ltac:(lia)) as (R0 & R1 & R). rewrite <- HS in *.
    set (q := round_shift m s) in *.
    assert (X : x = m * 2 ^ (t - low)) by (unfold x; do 2 f_equal; lia).
    assert (QE : Z.even q = true -> Z.even (code m e) = true).
    { intros E. unfold code. fold t. rewrite <- HS. fold q. rewrite Z.even_add, Z.even_mul, He, E. now rewrite orb_true_r. }
    assert (QC : units p c = q * 2 ^ (t - low) -> c = code m e).
    { intros E. apply (units_inj p P); try lia. }
    assert (PS : 0 < 2 ^ s) by (apply Z.pow_pos_nonneg; lia).
    assert (DQ : Z.abs (x - units p (code m e) * 2 ^ s) = Z.abs (m - q * 2 ^ s) * 2 ^ (t - low)).
    { rewrite UC, X. rewrite <- (Z.abs_eq (2 ^ (t - low))) at 3 by lia. rewrite <- Z.abs_mul. f_equal. ring. }
    (* against a multiple of the spacing *)
    assert (MUL : forall w, Z.abs (m - q * 2 ^ s) * 2 ^ (t - low) <= Z.abs (x - (w * 2 ^ (t - low)) * 2 ^ s)
      /\ (Z.abs (m - q * 2 ^ s) * 2 ^ (t - low) = Z.abs (x - (w * 2 ^ (t - low)) * 2 ^ s) -> w = q \/ Z.even q = true)).
    { intros w. destruct (R w) as [R2 R3].
      assert (DW : Z.abs (x - (w * 2 ^ (t - low)) * 2 ^ s) = Z.abs (m - w * 2 ^ s) * 2 ^ (t - low)).
      { rewrite X. rewrite <- (Z.abs_eq (2 ^ (t - low))) at 3 by lia. rewrite <- Z.abs_mul. f_equal. ring. }
      rewrite DW. split; [nia|]. intros E. apply R3. nia. }
    rewrite DQ. clearbody q.
    destruct (code_form p P c C) as (U & r & HU & Hr & HUr & EC).
    pose proof (units_at p P U r HU ltac:(lia) HUr) as UU. rewrite <- EC in UU.
    destruct (Z_le_gt_dec (t - low) U) as [G|G].
    + assert (W : units p c = r * 2 ^ (U - (t - low)) * 2 ^ (t - low)).
      { rewrite UU, <- Z.mul_assoc, <- Z.pow_add_r by lia. do 2 f_equal. lia. }
      rewrite W. destruct (MUL (r * 2 ^ (U - (t - low)))) as [M1 M2]. split; [exact M1|].
      intros E. destruct (M2 E) as [E'|E']; [left; apply QC; now rewrite W, E'|right; now apply QE].
    + (* below the binade of the result *)
      destruct (MUL (2 ^ p)) as [M1 _].
      assert (LT : units p c < 2 ^ p * 2 ^ (t - low)).
      { rewrite UU. replace (t - low) with (U + (t - low - U)) by lia. rewrite Z.pow_add_r by lia.
        assert (2 ^ 1 <= 2 ^ (t - low - U)) by (apply Z.pow_le_mono_r; lia). change (2 ^ 1) with 2 in *.
        assert (0 < 2 ^ U) by (apply Z.pow_pos_nonneg; lia).
        apply Z.lt_le_trans with (2 * 2 ^ p * 2 ^ U); [apply Z.mul_lt_mono_pos_r; lia|].
        replace (2 ^ p * (2 ^ U * 2 ^ (t - low - U))) with (2 ^ (t - low - U) * 2 ^ p * 2 ^ U) by ring.
        apply Z.mul_le_mono_nonneg_r; [lia|]. apply Z.mul_le_mono_nonneg_r; lia. }
      assert (GE : 2 ^ p * 2 ^ s <= m).
      { destruct TGE as [TG|TG]; [lia|]. rewrite <- Z.pow_add_r by lia. replace (p + s) with (Z.log2 m) by lia. apply Z.log2_spec, M. }
      assert (STRICT : Z.abs (x - 2 ^ p * 2 ^ (t - low) * 2 ^ s) < Z.abs (x - units p c * 2 ^ s)).
      { assert (2 ^ p * 2 ^ (t - low) * 2 ^ s <= x).
        { rewrite X. replace (2 ^ p * 2 ^ (t - low) * 2 ^ s) with (2 ^ p * 2 ^ s * 2 ^ (t - low)) by ring. apply Z.mul_le_mono_nonneg_r; lia. }
        assert (units p c * 2 ^ s < 2 ^ p * 2 ^ (t - low) * 2 ^ s) by (apply Z.mul_lt_mono_pos_r; assumption). lia. }
      lia.
Qed.

(** Cut off at infinity. *)
Lemma cut_nearest (d : Z -> Z) B x k : 0 <= B -> 0 < k -> (forall c, d c = Z.abs (x - units p c * k)) ->
  (forall c, 0 <= c -> d B <= d c /\ (d B = d c -> c = B \/ Z.even B = true)) ->
  let a := Z.min (f_inf f) B in
  0 <= a <= f_inf f /\ forall c, 0 <= c <= f_inf f -> d a <= d c /\ (d a = d c -> c = a \/ Z.even a = true).
Proof.
  intros HB HK HD N a. pose proof (h_pos p P) as Hh. assert (I0 : 0 <= f_inf f) by nia.
  split; [lia|]. intros c C. unfold a. destruct (Z_le_gt_dec B (f_inf f)) as [L|G].
  - rewrite Z.min_r by lia. apply N. lia.
  - rewrite Z.min_l by lia. split; [|right; rewrite TOP, Z.even_mul, h_even, orb_true_r by lia; reflexivity].
    destruct (Z.eq_dec c (f_inf f)) as [->|NE]; [lia|].
    pose proof (units_mono p P c (f_inf f) ltac:(lia)). pose proof (units_mono p P (f_inf f) B ltac:(lia)).
    destruct (N (f_inf f) I0) as [N1 _]. rewrite !HD in *. nia.
Qed.
End Make.

Lemma make_nearest p low top f neg m e : Fmt (p + 1) low (f_inf f) (f_sign f) = f -> 1 <= p -> 0 < top -> f_inf f = top * 2 ^ p ->
  0 <= m -> exists a, f_make f neg m e = (if neg then f_sign f else 0) + a
    /\ nearest p low (f_inf f) (inject_Z m * (2 # 1) ^ e) a.
Proof.
  intros F P T0 TOP M.
  assert (EP : f_prec f - 1 = p) by (rewrite <- F; cbn [f_prec]; lia). assert (EL : f_emin f = low) by (rewrite <- F; reflexivity).
  pose proof (h_pos p P) as Hh. assert (I0 : 0 <= f_inf f) by nia.
  (* from units to rational numbers *)
  assert (KEY : forall a s x, 0 <= s -> (inject_Z m * (2 # 1) ^ e == inject_Z x * (2 # 1) ^ (low - s))%Q ->
    0 <= a <= f_inf f ->
    (forall c, 0 <= c <= f_inf f -> Z.abs (x - units p a * 2 ^ s) <= Z.abs (x - units p c * 2 ^ s)
       /\ (Z.abs (x - units p a * 2 ^ s) = Z.abs (x - units p c * 2 ^ s) -> c = a \/ Z.even a = true)) ->
    nearest p low (f_inf f) (inject_Z m * (2 # 1) ^ e) a).
  { intros a s x S X A N. split; [exact A|]. intros c C.
    assert (U0 : (0 < (2 # 1) ^ (low - s))%Q) by (apply Qpower_0_lt; reflexivity).
    assert (D : forall b, 0 <= b -> (Qabs (inject_Z m * (2 # 1) ^ e - number p low b) == inject_Z (Z.abs (x - units p b * 2 ^ s)) * (2 # 1) ^ (low - s))%Q).
    { intros b B. rewrite X, number_units by lia.
      assert (E2 : ((2 # 1) ^ low == inject_Z (2 ^ s) * (2 # 1) ^ (low - s))%Q).
      { rewrite <- pow_inj by lia. rewrite <- Qpower_plus by apply two_neq. replace (s + (low - s)) with low by lia. reflexivity. }
      rewrite E2.
      setoid_replace (inject_Z x * (2 # 1) ^ (low - s) - inject_Z (units p b) * (inject_Z (2 ^ s) * (2 # 1) ^ (low - s)))%Q
        with (inject_Z (x - units p b * 2 ^ s) * (2 # 1) ^ (low - s))%Q.
      2:{ unfold Z.sub. rewrite inject_Z_plus, inject_Z_opp, inject_Z_mult. ring. }
      rewrite Qabs_Qmult. rewrite (Qabs_pos ((2 # 1) ^ (low - s))) by (apply Qlt_le_weak, U0).
      apply Qmult_comp; [|reflexivity]. reflexivity. }
    destruct (N c C) as [N1 N2]. rewrite !D by lia. split.
    - apply Qmult_le_compat_r; [|now apply Qlt_le_weak]. now rewrite <- Zle_Qle.
    - intros E. apply N2. apply Qmult_inj_r in E; [|now apply Qnot_eq_sym, Qlt_not_eq]. exact (proj1 (inject_Z_injective _ _) E). }
  unfold f_make. destruct (m =? 0) eqn:E0.
  - assert (m = 0) by lia. subst m. exists 0. split; [lia|].
    apply (KEY 0 0 0); [lia| |lia|].
    + change (inject_Z 0) with 0%Q. now rewrite !Qmult_0_l.
    + intros c C. assert (U : units p 0 = 0) by (unfold units; rewrite Z.div_small, Z.mod_small by lia; reflexivity). rewrite U.
      split; [lia|]. auto.
  - assert (M0 : 0 < m) by lia.
    fold (target f m e). rewrite EP, EL.
    pose proof (code_nearest f ltac:(lia) m e M0) as N. cbv zeta in N. rewrite EP, EL in N. destruct N as [C0 N].
    set (t := target f m e) in *. set (s := Z.max 0 (t - e)) in *. set (x := m * 2 ^ (s + e - low)) in *.
    assert (CE : code f m e = (t - low) * 2 ^ p + round_shift m (t - e)) by (unfold code; rewrite EP, EL; reflexivity).
    exists (Z.min (f_inf f) (code f m e)). split; [now rewrite CE|].
    assert (TL : low <= t) by (unfold t, target; rewrite EL; lia).
    apply (KEY _ s x); [lia| | |].
    + unfold x. rewrite inject_Z_mult, <- pow_inj by lia. rewrite <- Qmult_assoc, <- Qpower_plus by apply two_neq.
      replace (s + e - low + (low - s)) with e by lia. reflexivity.
    + lia.
    + pose proof (cut_nearest f ltac:(lia) top ltac:(rewrite EP; exact TOP) T0) as CUT. rewrite EP in CUT.
      eapply (CUT (fun c => Z.abs (x - units p c * 2 ^ s)) (code f m e) x (2 ^ s) C0); try reflexivity; auto.
      apply Z.pow_pos_nonneg; lia.
Qed.

(** ** Consequences of the specification *)
Lemma number_mono p low c d : 1 <= p -> 0 <= c < d -> (number p low c < number p low d)%Q.
Proof.
  intros P H. rewrite !number_units by lia. apply Qmult_lt_compat_r; [apply Qpower_0_lt; reflexivity|].
  rewrite <- Zlt_Qlt. now apply units_mono.
Qed.
Lemma number_inj p low c d : 1 <= p -> 0 <= c -> 0 <= d -> (number p low c == number p low d)%Q -> c = d.
Proof.
  intros P C D E. destruct (Z.lt_trichotomy c d) as [L|[L|L]]; [|exact L|].
  - pose proof (number_mono p low c d P ltac:(lia)) as X. rewrite E in X. now apply Qlt_irrefl in X.
  - pose proof (number_mono p low d c P ltac:(lia)) as X. rewrite E in X. now apply Qlt_irrefl in X.
Qed.
(** The distance decides between two numbers by their midpoint. *)
Lemma dist_le x y z : (y < z)%Q -> (Qabs (x - y) <= Qabs (x - z) <-> x + x <= y + z)%Q.
Proof.
  intros H. apply Qabs_case; intros A; apply Qabs_case; intros B; split; intros C; try lra.
Qed.
Lemma dist_ge x y z : (y < z)%Q -> (Qabs (x - z) <= Qabs (x - y) <-> y + z <= x + x)%Q.
Proof.
  intros H. apply Qabs_case; intros A; apply Qabs_case; intros B; split; intros C; try lra.
Qed.
Lemma nearest_unique p low top x a b : 1 <= p -> nearest p low top x a -> nearest p low top x b -> a = b.
Proof.
  intros P. revert a b.
  assert (W : forall a b, a < b -> nearest p low top x a -> nearest p low top x b -> False).
  { intros a b L [A NA] [B NB]. destruct (NA b B) as [A1 A2]. destruct (NB a A) as [B1 B2].
    assert (E : (Qabs (x - number p low a) == Qabs (x - number p low b))%Q) by now apply Qle_antisym.
    destruct (A2 E) as [?|EA]; [lia|]. destruct (B2 (Qeq_sym _ _ E)) as [?|EB]; [lia|].
    assert (a + 1 <> b) by (intros <-; rewrite Z.even_add, EA in EB; discriminate).
    pose proof (number_mono p low a (a + 1) P ltac:(lia)) as M1. pose proof (number_mono p low (a + 1) b P ltac:(lia)) as M2.
    destruct (NA (a + 1) ltac:(lia)) as [C1 _]. destruct (NB (a + 1) ltac:(lia)) as [C2 _].
    apply dist_le in C1; [|exact M1]. apply dist_ge in C2; [|exact M2]. lra. }
  intros a b NA NB. destruct (Z.lt_trichotomy a b) as [L|[L|L]]; [|exact L|]; exfalso; eauto.
Qed.
(** A number of the format is its own nearest. *)
Lemma nearest_self p low top x a c : 1 <= p -> 0 <= c <= top -> nearest p low top x a -> (x == number p low c)%Q -> a = c.
Proof.
  intros P C [A N] E. destruct (N c C) as [N1 _]. apply (number_inj p low); try lia.
  rewrite <- E in *. setoid_replace (x - x)%Q with 0%Q in N1 by ring. change (Qabs 0) with 0%Q in N1.
  pose proof (Qabs_nonneg (x - number p low a)) as N0. revert N0 N1. apply Qabs_case; intros; lra.
Qed.
(** Infinity is reached half way between the largest finite number and the next. *)
Lemma nearest_top p low top x : 1 <= p -> 0 < top -> Z.even top = true ->
  nearest p low top x top <-> (number p low (top - 1) + number p low top <= x + x)%Q.
Proof.
  intros P T E. pose proof (number_mono p low (top - 1) top P ltac:(lia)) as M. split.
  - intros [_ N]. destruct (N (top - 1) ltac:(lia)) as [N1 _]. now apply dist_ge in N1.
  - intros H. split; [lia|]. intros c C. split; [|auto]. destruct (Z.eq_dec c top) as [->|NE]; [apply Qle_refl|].
    apply dist_ge; [apply number_mono; lia|]. destruct (Z.eq_dec c (top - 1)) as [->|NE']; [exact H|].
    pose proof (number_mono p low c (top - 1) P ltac:(lia)). lra.
Qed.

(** ** The conversions of the model *)
(** Sign and rounded magnitude. *)
Definition rounded32 (neg : bool) (x : Q) (r : Z) : Prop :=
  exists a, r = (if neg then 2147483648 else 0) + a /\ nearest32 x a.
Definition rounded64 (neg : bool) (x : Q) (r : Z) : Prop :=
  exists a, r = (if neg then 9223372036854775808 else 0) + a /\ nearest64 x a.
Lemma make32 neg m e : 0 <= m -> rounded32 neg (inject_Z m * (2 # 1) ^ e) (f_make fmt32 neg m e).
Proof. intros M. exact (make_nearest 23 (-149) 255 fmt32 neg m e eq_refl ltac:(lia) ltac:(lia) eq_refl M). Qed.
Lemma make64 neg m e : 0 <= m -> rounded64 neg (inject_Z m * (2 # 1) ^ e) (f_make fmt64 neg m e).
Proof. intros M. exact (make_nearest 52 (-1074) 2047 fmt64 neg m e eq_refl ltac:(lia) ltac:(lia) eq_refl M). Qed.
Lemma split_number f b : 1 <= f_prec f - 1 -> 0 < f_sign f ->
  let '(m, e) := f_split f b in
  0 <= m /\ (inject_Z m * (2 # 1) ^ e == number (f_prec f - 1) (f_emin f) (b mod f_sign f))%Q.
Proof.
  intros P S. unfold f_split, number. pose proof (h_pos _ P) as Hh.
  set (a := b mod f_sign f). assert (A : 0 <= a) by (subst a; apply Z.mod_pos_bound; lia). clearbody a.
  pose proof (Z.mod_pos_bound a (2 ^ (f_prec f - 1)) Hh). destruct (a / 2 ^ (f_prec f - 1) =? 0) eqn:E.
  - split; [lia|]. rewrite Z.mod_small; [reflexivity|]. apply Z.eqb_eq in E. apply Z.div_small_iff in E; lia.
  - split; [lia|]. replace (a / 2 ^ (f_prec f - 1) - 1 + f_emin f) with (f_emin f + a / 2 ^ (f_prec f - 1) - 1) by lia. reflexivity.
Qed.
Lemma rounded32_ext neg x y r : (x == y)%Q -> rounded32 neg x r -> rounded32 neg y r.
Proof.
  intros E (a & R & A & N). exists a. split; [exact R|]. split; [exact A|]. intros c C. destruct (N c C) as [N1 N2].
  split; [now rewrite <- E|]. intros X. apply N2. now rewrite E.
Qed.
Lemma rounded64_ext neg x y r : (x == y)%Q -> rounded64 neg x r -> rounded64 neg y r.
Proof.
  intros E (a & R & A & N). exists a. split; [exact R|]. split; [exact A|]. intros c C. destruct (N c C) as [N1 N2].
  split; [now rewrite <- E|]. intros X. apply N2. now rewrite E.
Qed.
Lemma narrowed b : exists r, d_f32 (JFloat b) = JOk r
  /\ rounded32 (9223372036854775808 <=? b) (number 52 (-1074) (b mod 9223372036854775808)) r.
Proof.
  eexists. split; [reflexivity|]. unfold f_cast. pose proof (split_number fmt64 b ltac:(cbn; lia) eq_refl) as S.
  destruct (f_split fmt64 b) as [m e]. destruct S as [M S].
  eapply rounded32_ext; [exact S|]. now apply make32.
Qed.
Lemma int_value m : (inject_Z m * (2 # 1) ^ 0 == inject_Z m)%Q.
Proof. change ((2 # 1) ^ 0)%Q with 1%Q. ring. Qed.
Lemma int32_rounded z : exists r, d_f32 (JInt z) = JOk r /\ rounded32 (z <? 0) (inject_Z (Z.abs z)) r.
Proof. eexists. split; [reflexivity|]. eapply rounded32_ext; [apply int_value|]. apply make32. lia. Qed.
Lemma int64_rounded z : exists r, d_f64 (JInt z) = JOk r /\ rounded64 (z <? 0) (inject_Z (Z.abs z)) r.
Proof. eexists. split; [reflexivity|]. eapply rounded64_ext; [apply int_value|]. apply make64. lia. Qed.

(** Every single is a double. *)
Lemma single_double m e : 0 <= m < 2 ^ 24 -> -149 <= e <= 104 ->
  exists c, 0 <= c < 9218868437227405312 /\ (inject_Z m * (2 # 1) ^ e == number 52 (-1074) c)%Q.
Proof.
  intros M E. destruct (Z.eq_dec m 0) as [->|M0].
  { exists 0. split; [lia|]. reflexivity. }
  pose proof (Z.log2_spec m ltac:(lia)) as [L1 L2]. pose proof (Z.log2_nonneg m) as L0.
  assert (L24 : Z.log2 m < 24) by (apply Z.log2_lt_pow2; lia).
  set (L := Z.log2 m) in *. set (T := e + L + 1 - 53 + 1074). set (q := m * 2 ^ (52 - L)).
  assert (Q1 : 2 ^ 52 <= q).
  { unfold q. replace (2 ^ 52) with (2 ^ L * 2 ^ (52 - L)) by (rewrite <- Z.pow_add_r by lia; f_equal; lia).
    apply Z.mul_le_mono_nonneg_r; [apply Z.pow_nonneg; lia|exact L1]. }
  assert (Q2 : q < 2 * 2 ^ 52).
  { unfold q. replace (2 * 2 ^ 52) with (2 ^ (Z.succ L) * 2 ^ (52 - L)).
    2:{ rewrite <- Z.pow_add_r by lia. replace (Z.succ L + (52 - L)) with 53 by lia. reflexivity. }
    apply Z.mul_lt_mono_pos_r; [apply Z.pow_pos_nonneg; lia|exact L2]. }
  exists (T * 2 ^ 52 + q). split.
  { split; [unfold T; nia|]. assert (T <= 1152) by (unfold T; lia). change (2 ^ 52) with 4503599627370496 in *. lia. }
  rewrite number_units by (unfold T; nia). rewrite units_at by (unfold T; lia).
  rewrite inject_Z_mult, <- pow_inj by (unfold T; lia). unfold q. rewrite inject_Z_mult, <- (pow_inj (52 - L)) by lia.
  rewrite <- !Qmult_assoc, <- !Qpower_plus by apply two_neq. replace (52 - L + (T + -1074)) with e by (unfold T; lia). reflexivity.
Qed.
Lemma widened b : u_ok 4 b = true -> finite32 b = true ->
  exists c, e_f32 b = JFloat c /\ u_ok 8 c = true /\ finite64 c = true
    /\ c / 9223372036854775808 = b / 2147483648
    /\ (number 52 (-1074) (c mod 9223372036854775808) == number 23 (-149) (b mod 2147483648))%Q.
Proof.
  intros U F. destruct (split32 b U F) as (m & e & E & Hm & He & _ & _ & _).
  pose proof (split_number fmt32 b ltac:(cbn; lia) eq_refl) as S. rewrite E in S. destruct S as [_ S].
  change (f_sign fmt32) with 2147483648 in S. change (f_prec fmt32 - 1) with 23 in S. change (f_emin fmt32) with (-149) in S.
  destruct (single_double m e Hm He) as (c & C & EC).
  destruct (make64 (f_neg fmt32 b) m e ltac:(lia)) as (a & R & N).
  assert (a = c) by (eapply (nearest_self 52 (-1074) 9218868437227405312); eauto; lia). subst a.
  exists (f_make fmt64 (f_neg fmt32 b) m e).
  assert (UB : 0 <= b <= 4294967295) by (unfold u_ok, in_range in U; change (2 ^ (8 * 4) - 1) with 4294967295 in U; lia).
  unfold e_f32. rewrite finite32_eq, F by exact U. unfold f_cast. rewrite E. split; [reflexivity|]. rewrite R.
  unfold f_neg. change (f_sign fmt32) with 2147483648.
  assert (X : u_ok 8 ((if 2147483648 <=? b then 9223372036854775808 else 0) + c) = true).
  { unfold u_ok, in_range. change (2 ^ (8 * 8) - 1) with 18446744073709551615. destruct (2147483648 <=? b) eqn:G; lia. }
  assert (MC : ((if 2147483648 <=? b then 9223372036854775808 else 0) + c) mod 9223372036854775808 = c).
  { destruct (2147483648 <=? b) eqn:G; lia. }
  split; [exact X|]. split.
  { rewrite <- finite64_eq by exact X. unfold f_finite. change (f_sign fmt64) with 9223372036854775808. rewrite MC. cbn [f_inf fmt64]. lia. }
  split; [destruct (2147483648 <=? b) eqn:G; lia|]. now rewrite MC, <- EC.
Qed.
