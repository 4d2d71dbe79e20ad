(** Reading bits and the words of a code: the decoder of Inflate.v reads what the rules of
    InflateSpec.v say. *)
From Coq Require Import ZArith List Bool Lia.
From Coq Require Import ZifyBool ZifyNat.
From Verif Require Import Base BaseFacts File Inflate InflateSpec.
Import ListNotations.
Open Scope Z_scope.

Lemma bits_same l : bits_of l = stream_bits l.
Proof. unfold bits_of, stream_bits. induction l as [|b l IH]; [reflexivity|]. cbn [flat_map]. rewrite IH. f_equal. now destruct b. Qed.

(** A reader that delivers nothing, and takes exactly the bits that [P] relates to its result. *)
Definition taking {A} (m : zm A) (P : list bool -> A -> Prop) : Prop :=
  forall w a r o, P w a -> m (Zst (w ++ r) o) = ZVal a (Zst r o).
Definition taken_by {A} (m : zm A) (P : list bool -> A -> Prop) : Prop :=
  forall s a s', m s = ZVal a s' -> exists w, zin s = w ++ zin s' /\ zout s' = zout s /\ P w a.

Lemma zbit_taking : taking zbit (fun w b => w = [b]).
Proof. intros w a r o ->. reflexivity. Qed.
Lemma zbit_taken : taken_by zbit (fun w b => w = [b]).
Proof.
  intros [[|b i] o] a s'; cbn; [discriminate|]. intros E. injection E as <- <-. exists [b]. auto.
Qed.
Lemma two_pow n : 2 ^ Z.of_nat (S n) = 2 * 2 ^ Z.of_nat n.
Proof. rewrite Nat2Z.inj_succ, Z.pow_succ_r; lia. Qed.
Lemma odd_two v : v = Z.b2z (Z.odd v) + 2 * (v / 2).
Proof. pose proof (Z.div2_odd v) as H. rewrite Z.div2_div in H. lia. Qed.
Lemma zbits_taking n : taking (zbits n) (fun w v => 0 <= v < 2 ^ Z.of_nat n /\ w = low_first n v).
Proof.
  intros w v r o [R ->]. revert v R. induction n as [|n IH]; intros v R.
  - cbn in R |- *. unfold zret. do 2 f_equal. lia.
  - cbn [zbits low_first app]. unfold zbind at 1. cbn [zbit zin zout]. unfold zbind. rewrite two_pow in R.
    rewrite IH by (split; [apply Z.div_pos|apply Z.div_lt_upper_bound]; lia). unfold zret. f_equal.
    symmetry. apply odd_two.
Qed.
Lemma zbits_taken n : taken_by (zbits n) (fun w v => 0 <= v < 2 ^ Z.of_nat n /\ w = low_first n v).
Proof.
  induction n as [|n IH]; intros s v s' E.
  - cbn in E. injection E as <- <-. exists []. split; [reflexivity|]. split; [reflexivity|]. split; [cbn; lia|reflexivity].
  - cbn [zbits] in E. unfold zbind at 1 in E. destruct (zbit s) as [b s1|] eqn:E1; [|discriminate].
    apply zbit_taken in E1. destruct E1 as (w1 & I1 & O1 & ->). unfold zbind in E.
    destruct (zbits n s1) as [x s2|] eqn:E2; [|discriminate]. apply IH in E2. destruct E2 as (w2 & I2 & O2 & R & ->).
    unfold zret in E. assert (v = Z.b2z b + 2 * x) as -> by congruence. assert (s' = s2) as -> by congruence.
    exists (low_first (S n) (Z.b2z b + 2 * x)).
    assert (Z.odd (Z.b2z b + 2 * x) = b) as P by (rewrite Z.odd_add_mul_2; now destruct b).
    assert ((Z.b2z b + 2 * x) / 2 = x) as Q.
    { rewrite Z.mul_comm, Z.div_add by lia. destruct b; reflexivity. }
    cbn [low_first]. rewrite P, Q. split; [rewrite I1, I2; reflexivity|]. split; [congruence|].
    rewrite two_pow. split; [clear -R; destruct b; cbn [Z.b2z]; lia|reflexivity].
Qed.
Lemma low_first_length n v : List.length (low_first n v) = n.
Proof. revert v. induction n; intros v; cbn; auto. Qed.
Lemma zrep_taking {A} (m : zm A) f n (V : A -> Prop) : taking m (fun w v => V v /\ w = f v) ->
  taking (zrep n m) (fun w l => List.length l = n /\ Forall V l /\ w = flat_map f l).
Proof.
  intros M w l r o (L & F & ->). revert l L F. induction n as [|n IH]; intros [|v l] L F; try discriminate; [reflexivity|].
  inversion F; subst. cbn [zrep flat_map]. rewrite <- app_assoc. unfold zbind at 1.
  rewrite (M (f v) v) by auto. unfold zbind. rewrite IH; auto.
Qed.
Lemma zrep_taken {A} (m : zm A) f n (V : A -> Prop) : taken_by m (fun w v => V v /\ w = f v) ->
  taken_by (zrep n m) (fun w l => List.length l = n /\ Forall V l /\ w = flat_map f l).
Proof.
  intros M. induction n as [|n IH]; intros s l s' E.
  - cbn in E. injection E as <- <-. exists []. auto.
  - cbn [zrep] in E. unfold zbind in E. destruct (m s) as [v s1|] eqn:E1; [|discriminate].
    destruct (zrep n m s1) as [q s2|] eqn:E2; [|discriminate]. injection E as <- <-.
    apply M in E1. destruct E1 as (w1 & I1 & O1 & V1 & ->). apply IH in E2. destruct E2 as (w2 & I2 & O2 & L & F & ->).
    exists (f v ++ flat_map f q). rewrite I1, I2, app_assoc. repeat split; try congruence; auto. cbn. now rewrite L.
Qed.

(** ** Words *)

Lemma low_first_snoc n v : low_first (S n) v = low_first n v ++ [Z.odd (v / 2 ^ Z.of_nat n)].
Proof.
  revert v. induction n as [|n IH]; intros v.
  - cbn. now rewrite Z.div_1_r.
  - change (low_first (S (S n)) v) with (Z.odd v :: low_first (S n) (v / 2)). rewrite IH. cbn [low_first app].
    rewrite Z.div_div by lia. rewrite <- two_pow. reflexivity.
Qed.
Lemma high_first_cons n v : high_first (S n) v = Z.odd (v / 2 ^ Z.of_nat n) :: high_first n v.
Proof. unfold high_first. rewrite low_first_snoc, rev_app_distr. reflexivity. Qed.

Lemma having_count l i lens : len (having l i lens) = count lens l.
Proof.
  unfold count. revert i. induction lens as [|x r IH]; intros i; [reflexivity|]. cbn [having filter].
  rewrite (Z.eqb_sym l x). destruct (x =? l); rewrite ?len_cons, IH; rewrite ?len_cons; reflexivity.
Qed.
Lemma having_place l before after i :
  nth_error (having l i (before ++ l :: after)) (Z.to_nat (count before l)) = Some (i + len before).
Proof.
  unfold count. revert i. induction before as [|x r IH]; intros i; cbn [app having filter].
  - rewrite Z.eqb_refl. cbn. f_equal. unfold len. cbn. lia.
  - rewrite (Z.eqb_sym l x). destruct (x =? l) eqn:E.
    + rewrite !len_cons. replace (Z.to_nat (1 + len (filter (Z.eqb l) r))) with (S (Z.to_nat (len (filter (Z.eqb l) r)))) by (pose proof (len_nonneg (filter (Z.eqb l) r)); lia).
      cbn [nth_error]. rewrite IH. f_equal. lia.
    + rewrite IH, len_cons. f_equal. lia.
Qed.
Lemma having_split l lens i n s : nth_error (having l i lens) n = Some s ->
  exists before after, lens = before ++ l :: after /\ s = i + len before /\ count before l = Z.of_nat n.
Proof.
  unfold count. revert i n. induction lens as [|x r IH]; intros i n; [destruct n; discriminate|]. cbn [having].
  destruct (x =? l) eqn:E.
  - apply Z.eqb_eq in E. subst x. destruct n as [|n]; cbn [nth_error].
    + intros H. injection H as <-. exists [], r. cbn. repeat split. unfold len. cbn. lia.
    + intros H. apply IH in H. destruct H as (b & a & -> & -> & C). exists (l :: b), a. cbn [filter app].
      rewrite Z.eqb_refl, !len_cons, C. repeat split; lia.
  - intros H. apply IH in H. destruct H as (b & a & -> & -> & C). exists (x :: b), a. cbn [filter app].
    rewrite Z.eqb_sym, E, len_cons, C. repeat split; lia.
Qed.
Lemma count_nonneg lens l : 0 <= count lens l.
Proof. apply len_nonneg. Qed.
Lemma count_app a b l : count (a ++ b) l = count a l + count b l.
Proof. unfold count. rewrite filter_app. apply len_app. Qed.

(** The groups of words from length [k] + 1 on. *)
Definition later (lens : list Z) (k : nat) : list (list Z) := map (fun l => having l 0 lens) (skipn k lengths).
Lemma later_step lens k : (k < 15)%nat -> later lens k = having (Z.of_nat (S k)) 0 lens :: later lens (S k).
Proof. intros H. do 15 (destruct k as [|k]; [reflexivity|]). lia. Qed.
Lemma later_none lens k : (15 <= k)%nat -> later lens k = [].
Proof. intros H. unfold later. rewrite skipn_all2 by exact H. reflexivity. Qed.
Lemma first_word_step lens k : (0 < k)%nat ->
  first_word lens (S k) = 2 * (first_word lens k + count lens (Z.of_nat k)).
Proof. destruct k; [lia|reflexivity]. Qed.
Lemma first_word_nonneg lens k : 0 <= first_word lens k.
Proof.
  induction k as [|k IH]; [reflexivity|]. destruct k; [reflexivity|].
  rewrite first_word_step by lia. pose proof (count_nonneg lens (Z.of_nat (S k))). lia.
Qed.
(** Words come after all those of smaller length. *)
Lemma first_word_later lens k n : (0 < k)%nat ->
  2 ^ Z.of_nat (S n) * (first_word lens k + count lens (Z.of_nat k)) <= first_word lens (S n + k)%nat.
Proof.
  intros K. induction n as [|n IH].
  - change (1 + k)%nat with (S k). rewrite first_word_step by lia. change (2 ^ Z.of_nat 1) with 2. lia.
  - change (S (S n) + k)%nat with (S (S n + k)). rewrite (first_word_step lens (S n + k)) by lia.
    rewrite (two_pow (S n)). pose proof (count_nonneg lens (Z.of_nat (S n + k))). lia.
Qed.

Lemma zsym_word lens l idx s : (0 < l <= 15)%nat ->
  nth_error (having (Z.of_nat l) 0 lens) idx = Some s -> first_word lens l + Z.of_nat idx < 2 ^ Z.of_nat l ->
  forall n k r o, (n + k = l)%nat -> (0 < n)%nat ->
  zsym (later lens k) ((first_word lens l + Z.of_nat idx) / 2 ^ Z.of_nat n) (first_word lens (S k))
       (Zst (high_first n (first_word lens l + Z.of_nat idx) ++ r) o) = ZVal s (Zst r o).
Proof.
  intros L N B. set (v := first_word lens l + Z.of_nat idx) in *.
  pose proof (first_word_nonneg lens l) as F0. assert (0 <= v) as V0 by lia.
  assert (Z.of_nat idx < count lens (Z.of_nat l)) as IC.
  { rewrite <- (having_count _ 0). unfold len. assert (nth_error (having (Z.of_nat l) 0 lens) idx <> None) as X by congruence.
    apply nth_error_Some in X. lia. }
  induction n as [|n IH]; intros k r o K P; [lia|].
  rewrite later_step by lia. cbn [zsym]. rewrite high_first_cons. cbn [app]. unfold zbind. cbn [zbit zin zout].
  assert (2 * (v / 2 ^ Z.of_nat (S n)) + Z.b2z (Z.odd (v / 2 ^ Z.of_nat n)) = v / 2 ^ Z.of_nat n) as ->.
  { rewrite two_pow. rewrite (Z.mul_comm 2 (2 ^ Z.of_nat n)), <- Z.div_div by lia. pose proof (odd_two (v / 2 ^ Z.of_nat n)). lia. }
  rewrite having_count. destruct n as [|n].
  - replace (S k) with l by lia. rewrite Z.div_1_r.
    replace (v - first_word lens l) with (Z.of_nat idx) by lia.
    replace (Z.of_nat idx <? count lens (Z.of_nat l)) with true by lia.
    rewrite Nat2Z.id. unfold zret. f_equal. symmetry. apply nth_error_nth with (d := 0) in N. congruence.
  - assert (first_word lens (S k) + count lens (Z.of_nat (S k)) <= v / 2 ^ Z.of_nat (S n)) as G.
    { apply Z.div_le_lower_bound; [lia|]. pose proof (first_word_later lens (S k) n ltac:(lia)) as H.
      replace (S n + S k)%nat with l in H by lia. lia. }
    destruct (Z.ltb_spec (v / 2 ^ Z.of_nat (S n) - first_word lens (S k)) (count lens (Z.of_nat (S k)))); [lia|].
    rewrite <- (first_word_step lens (S k)) by lia. apply IH; lia.
Qed.
Lemma zsym_back lens : forall m k c s a s', (15 - k <= m)%nat -> first_word lens (S k) <= 2 * c ->
  zsym (later lens k) c (first_word lens (S k)) s = ZVal a s' ->
  exists n idx, (0 < n)%nat /\ (n + k <= 15)%nat /\ nth_error (having (Z.of_nat (n + k)) 0 lens) idx = Some a
    /\ (first_word lens (n + k) + Z.of_nat idx) / 2 ^ Z.of_nat n = c
    /\ zin s = high_first n (first_word lens (n + k) + Z.of_nat idx) ++ zin s' /\ zout s' = zout s.
Proof.
  induction m as [|m IH]; intros k c s a s' M F E.
  - rewrite later_none in E by lia. discriminate.
  - destruct (le_lt_dec 15 k) as [G|G]; [rewrite later_none in E by lia; discriminate|].
    rewrite later_step in E by lia. cbn [zsym] in E. unfold zbind in E.
    destruct (zbit s) as [b s1|] eqn:E1; [|discriminate]. apply zbit_taken in E1. destruct E1 as (w & I1 & O1 & ->).
    rewrite having_count in E. set (c' := 2 * c + Z.b2z b) in *.
    assert (c' / 2 = c) as D. { unfold c'. rewrite Z.add_comm, Z.mul_comm, Z.div_add by lia. destruct b; reflexivity. }
    assert (Z.odd c' = b) as OB. { unfold c'. rewrite Z.add_comm, Z.odd_add_mul_2. destruct b; reflexivity. }
    destruct (Z.ltb_spec (c' - first_word lens (S k)) (count lens (Z.of_nat (S k)))) as [L|L].
    + injection E as <- <-. assert (0 <= c' - first_word lens (S k)) as P by (unfold c' in *; destruct b; cbn [Z.b2z] in *; lia).
      exists 1%nat, (Z.to_nat (c' - first_word lens (S k))). change (1 + k)%nat with (S k).
      rewrite Z2Nat.id by lia. replace (first_word lens (S k) + (c' - first_word lens (S k))) with c' by lia.
      split; [lia|]. split; [lia|]. split; [|split; [exact D|split; [|exact O1]]].
      * apply nth_error_nth'. rewrite <- (having_count _ 0) in L. apply Nat2Z.inj_lt. rewrite Z2Nat.id by exact P. exact L.
      * rewrite high_first_cons. rewrite Z.div_1_r, OB. exact I1.
    + rewrite <- first_word_step in E by lia. apply IH in E; [|lia|rewrite (first_word_step lens (S k)) by lia; clear - L; lia].
      destruct E as (n & idx & N & B & X & Q & I2 & O2).
      replace (n + S k)%nat with (S n + k)%nat in * by lia. exists (S n), idx.
      split; [lia|]. split; [lia|]. split; [exact X|]. rewrite two_pow, (Z.mul_comm 2 (2 ^ Z.of_nat n)), <- Z.div_div, Q by lia.
      split; [exact D|]. split; [|congruence]. rewrite high_first_cons, Q, OB, I1, I2. reflexivity.
Qed.

(** ** A code that is not overfull *)

(** How many numbers of [l] bits begin with a word. *)
Lemma taken_app a b : taken (a ++ b) = taken a + taken b.
Proof. induction a as [|x a IH]; [reflexivity|]. cbn [app taken]. rewrite IH. lia. Qed.
Lemma taken_nonneg lens : 0 <= taken lens.
Proof. induction lens as [|l r IH]; cbn [taken]; [lia|]. destruct (0 <? l); [pose proof (Z.pow_nonneg 2 (15 - l)); lia|lia]. Qed.
Definition used (lens : list Z) (k : nat) : Z :=
  match k with O => 0 | _ => first_word lens k + count lens (Z.of_nat k) end.
Lemma used_step lens k : used lens (S k) = 2 * used lens k + count lens (Z.of_nat (S k)).
Proof. unfold used at 1. f_equal. destruct k; [reflexivity|]. now rewrite first_word_step by lia. Qed.
Fixpoint upto_taken (lens : list Z) (k : Z) : Z :=
  match lens with
  | [] => 0
  | l :: r => (if (0 <? l) && (l <=? k) then 2 ^ (15 - l) else 0) + upto_taken r k
  end.
Lemma upto_step lens k : 0 <= k ->
  upto_taken lens (k + 1) = upto_taken lens k + count lens (k + 1) * 2 ^ (15 - (k + 1)).
Proof.
  intros K. unfold count. induction lens as [|l r IH]; [reflexivity|]. cbn [upto_taken filter]. rewrite IH.
  destruct (Z.eqb_spec (k + 1) l) as [<-|N].
  - rewrite len_cons. replace (0 <? k + 1) with true by lia. replace (k + 1 <=? k + 1) with true by lia.
    replace (k + 1 <=? k) with false by lia. cbn [andb]. ring.
  - replace (l <=? k + 1) with (l <=? k) by lia. ring.
Qed.
Lemma upto_none lens k : k <= 0 -> upto_taken lens k = 0.
Proof.
  intros K. induction lens as [|l r IH]; [reflexivity|]. cbn [upto_taken]. rewrite IH.
  replace ((0 <? l) && (l <=? k)) with false by lia. reflexivity.
Qed.
Lemma upto_used lens k : (k <= 15)%nat -> upto_taken lens (Z.of_nat k) = used lens k * 2 ^ (15 - Z.of_nat k).
Proof.
  induction k as [|k IH]; intros K; [now rewrite upto_none by lia|].
  rewrite used_step. replace (Z.of_nat (S k)) with (Z.of_nat k + 1) by lia. rewrite upto_step, IH by lia.
  replace (15 - Z.of_nat k) with (1 + (15 - (Z.of_nat k + 1))) by lia. rewrite Z.pow_add_r by lia.
  change (2 ^ 1) with 2. ring.
Qed.
Lemma upto_le lens k : upto_taken lens k <= taken lens.
Proof.
  induction lens as [|l r IH]; [reflexivity|]. cbn [upto_taken taken].
  pose proof (Z.pow_nonneg 2 (15 - l)). destruct (0 <? l), (l <=? k); cbn [andb]; lia.
Qed.
Lemma upto_all lens : upto_taken lens 15 = taken lens.
Proof.
  induction lens as [|l r IH]; [reflexivity|]. cbn [upto_taken taken]. rewrite IH.
  destruct (Z.leb_spec l 15); [now rewrite andb_true_r|]. rewrite andb_false_r, (Z.pow_neg_r 2 (15 - l)) by lia. now destruct (0 <? l).
Qed.
Lemma used_15 lens : used lens 15 = taken lens.
Proof. pose proof (upto_used lens 15 (le_n _)) as H. change (Z.of_nat 15) with 15 in H. rewrite upto_all in H. change (2 ^ (15 - 15)) with 1 in H. lia. Qed.
Lemma used_small lens k : (k <= 15)%nat -> taken lens <= 2 ^ 15 -> used lens k <= 2 ^ Z.of_nat k.
Proof.
  intros K T. pose proof (upto_le lens (Z.of_nat k)) as U. rewrite upto_used in U by lia.
  assert (2 ^ 15 = 2 ^ Z.of_nat k * 2 ^ (15 - Z.of_nat k)) as E by (rewrite <- Z.pow_add_r by lia; f_equal; lia).
  assert (0 < 2 ^ (15 - Z.of_nat k)) by (apply Z.pow_pos_nonneg; lia).
  apply Z.mul_le_mono_pos_r with (p := 2 ^ (15 - Z.of_nat k)); lia.
Qed.
Lemma free_later lens k : (k <= 15)%nat ->
  let n := free (later lens k) (2 ^ Z.of_nat k - used lens k) in
  used lens k <= 2 ^ Z.of_nat k ->
  (0 <= n -> n = 2 ^ 15 - taken lens) /\ (n < 0 -> 2 ^ 15 < taken lens).
Proof.
  assert (G : forall m k, (15 - k <= m)%nat -> (k <= 15)%nat ->
    let n := free (later lens k) (2 ^ Z.of_nat k - used lens k) in
    used lens k <= 2 ^ Z.of_nat k ->
    (0 <= n -> n = 2 ^ 15 - taken lens) /\ (n < 0 -> 2 ^ 15 < taken lens)); [|intros K; exact (G 15%nat k ltac:(lia) K)].
  clear k. induction m as [|m IH]; intros k M K n U; subst n.
  - replace k with 15%nat in * by lia. rewrite later_none by lia. cbn [free]. rewrite used_15 in *.
    change (2 ^ Z.of_nat 15) with (2 ^ 15) in *. lia.
  - destruct (Nat.eq_dec k 15) as [->|N].
    { rewrite later_none by lia. cbn [free]. rewrite used_15 in *. change (2 ^ Z.of_nat 15) with (2 ^ 15) in *. lia. }
    rewrite later_step by lia. cbn [free]. rewrite having_count.
    replace (2 * (2 ^ Z.of_nat k - used lens k) - count lens (Z.of_nat (S k))) with (2 ^ Z.of_nat (S k) - used lens (S k))
      by (rewrite used_step, two_pow; ring).
    destruct (Z.ltb_spec (2 ^ Z.of_nat (S k) - used lens (S k)) 0) as [L|L].
    + split; [lia|]. intros _. destruct (Z.le_gt_cases (taken lens) (2 ^ 15)) as [X|X]; [|exact X].
      pose proof (used_small lens (S k) ltac:(lia) X). lia.
    + apply IH; lia.
Qed.
Lemma free_words lens : let n := free (words lens) 1 in
  (0 <= n -> n = 2 ^ 15 - taken lens) /\ (n < 0 -> 2 ^ 15 < taken lens).
Proof. exact (free_later lens 0 ltac:(lia) ltac:(cbn; lia)). Qed.

(** ** The decoder's test of a code *)
Definition lens_ok (lens : list Z) : Prop := Forall (fun l => 0 <= l <= 15) lens.
Lemma words_len lens : len (concat (words lens)) = fold_right Z.add 0 (map (count lens) lengths).
Proof.
  unfold words. induction lengths as [|l ls IH]; [reflexivity|]. cbn [map concat fold_right].
  rewrite len_app, having_count, IH. reflexivity.
Qed.
Lemma counts_zero lens : lens_ok lens ->
  (Forall (fun l => l = 0) lens <-> forall l, 1 <= l <= 15 -> count lens l = 0).
Proof.
  intros K. unfold count. split.
  - intros F l L. induction F as [|x r -> F IH]; [reflexivity|]. cbn [filter]. inversion K; subst.
    destruct (Z.eqb_spec l 0); [lia|auto].
  - intros C. induction K as [|x r X K IH]; constructor.
    + destruct (Z.eq_dec x 0) as [E|E]; [exact E|]. specialize (C x ltac:(lia)). cbn [filter] in C. rewrite Z.eqb_refl, len_cons in C.
      pose proof (len_nonneg (filter (Z.eqb x) r)). lia.
    + apply IH. intros l L. specialize (C l L). cbn [filter] in C. destruct (l =? x); [|exact C].
      rewrite len_cons in C. pose proof (len_nonneg (filter (Z.eqb l) r)). lia.
Qed.
Lemma all_lengths l : 1 <= l <= 15 -> In l lengths.
Proof. intros L. unfold lengths. cbn [In]. lia. Qed.
Lemma sum_nonneg (f : Z -> Z) ls : (forall l, 0 <= f l) -> 0 <= fold_right Z.add 0 (map f ls).
Proof. intros N. induction ls as [|a ls IH]; cbn [map fold_right]; [lia|]. pose proof (N a). lia. Qed.
Lemma sum_zero (f : Z -> Z) ls : (forall l, 0 <= f l) -> (fold_right Z.add 0 (map f ls) = 0 <-> forall l, In l ls -> f l = 0).
Proof.
  intros N. induction ls as [|a ls IH]; cbn [map fold_right In]; [tauto|].
  pose proof (N a). pose proof (sum_nonneg f ls N). split.
  - intros E l [->|I]; [lia|]. apply IH; [lia|exact I].
  - intros E. rewrite (E a) by auto. apply IH. auto.
Qed.
Lemma words_none lens : lens_ok lens -> (len (concat (words lens)) = 0 <-> Forall (fun l => l = 0) lens).
Proof.
  intros K. rewrite words_len, (counts_zero lens K), sum_zero by (intros; apply count_nonneg). split.
  - intros H l L. apply H, all_lengths, L.
  - intros H l I. apply H. unfold lengths in I. cbn [In] in I. lia.
Qed.
Lemma code_full_spec lens : lens_ok lens -> (code_full lens = true <-> full lens).
Proof.
  intros K. unfold code_full, full, complete. rewrite orb_true_iff, !Z.eqb_eq, (words_none lens K).
  destruct (free_words lens) as [A B]. split; intros [H|H]; auto; left.
  - lia.
  - destruct (Z.lt_ge_cases (free (words lens) 1) 0) as [L|L]; lia.
Qed.
Lemma one_count lens : lens_ok lens -> count lens 1 = 1 -> (forall l, 2 <= l <= 15 -> count lens l = 0) ->
  exists a b, lens = a ++ 1 :: b /\ Forall (fun l => l = 0) (a ++ b).
Proof.
  intros K C Z0. assert (exists a b, lens = a ++ 1 :: b) as (a & b & ->).
  { apply in_split. unfold count in C. destruct (filter (Z.eqb 1) lens) as [|x r] eqn:E; [cbn in C; lia|].
    assert (In x (filter (Z.eqb 1) lens)) as I by (rewrite E; now left). apply filter_In in I. destruct I as [I Q].
    apply Z.eqb_eq in Q. now subst. }
  exists a, b. split; [reflexivity|]. apply counts_zero.
  - apply Forall_app in K. destruct K as [K1 K2]. inversion K2; subst. now apply Forall_app.
  - assert (H : forall l, count (a ++ 1 :: b) l = count (a ++ b) l + (if l =? 1 then 1 else 0)).
    { intros l. rewrite !count_app. unfold count at 2. cbn [filter]. destruct (l =? 1); rewrite ?len_cons; unfold count; lia. }
    intros l L. destruct (Z.eq_dec l 1) as [->|N].
    + rewrite H in C. cbn [Z.eqb Pos.eqb] in C. lia.
    + specialize (Z0 l ltac:(lia)). rewrite H in Z0. destruct (Z.eqb_spec l 1); lia.
Qed.
Lemma code_ok_spec lens : lens_ok lens -> (code_ok lens = true <-> usable lens).
Proof.
  intros K. unfold code_ok, usable. rewrite orb_true_iff, (code_full_spec lens K), andb_true_iff, Z.ltb_lt, Z.eqb_eq.
  rewrite having_count, words_len. destruct (free_words lens) as [A B]. split; intros [H|H]; auto.
  - destruct H as [P Q]. unfold lengths in Q. cbn [map fold_right] in Q.
    assert (forall l, 2 <= l <= 15 -> count lens l = 0) as Z0.
    { assert (S : fold_right Z.add 0 (map (count lens) (tl lengths)) = 0) by (cbn [lengths tl map fold_right]; lia).
      pose proof (proj1 (sum_zero (count lens) _ (count_nonneg lens)) S) as T. intros l L. apply T. unfold lengths. cbn [tl In]. lia. }
    assert (taken lens < 2 ^ 15) as T by lia.
    assert (count lens 1 <= 1) as C.
    { pose proof (upto_le lens (Z.of_nat 1)) as U. rewrite upto_used in U by lia. change (used lens 1) with (0 + count lens 1) in U.
      change (2 ^ (15 - Z.of_nat 1)) with 16384 in U. change (2 ^ 15) with 32768 in T. lia. }
    destruct (Z.eq_dec (count lens 1) 1) as [E|E].
    + right. now apply one_count.
    + left. right. apply counts_zero; [exact K|]. intros l L. pose proof (count_nonneg lens 1).
      destruct (Z.eq_dec l 1) as [->|]; [lia|]. apply Z0. lia.
  - destruct H as (a & b & -> & F).
    assert (lens_ok (a ++ b)) as K' by (eapply Forall_impl; [|exact F]; cbn; lia).
    assert (H : forall l, count (a ++ 1 :: b) l = count (a ++ b) l + (if l =? 1 then 1 else 0)).
    { intros l. rewrite !count_app. unfold count at 2. cbn [filter]. destruct (l =? 1); rewrite ?len_cons; unfold count; lia. }
    pose proof (proj1 (counts_zero _ K') F) as Z0.
    right. split.
    + assert (T : taken (a ++ 1 :: b) = 16384).
      { rewrite taken_app. cbn [taken]. change (2 ^ (15 - 1)) with 16384. change (0 <? 1) with true. cbn iota.
        assert (forall l, Forall (fun x => x = 0) l -> taken l = 0) as N.
        { intros l Fl. induction Fl as [|x r -> Fl IH]; [reflexivity|exact IH]. }
        apply Forall_app in F. rewrite (N a), (N b) by tauto. reflexivity. }
      change (2 ^ 15) with 32768 in *. destruct (Z.lt_ge_cases (free (words (a ++ 1 :: b)) 1) 0); lia.
    + unfold lengths. cbn [map fold_right]. rewrite !H. cbn [Z.eqb Pos.eqb]. rewrite !Z0 by lia. reflexivity.
Qed.
Lemma full_taken lens : full lens -> taken lens <= 2 ^ 15.
Proof.
  intros [C|F]; [unfold complete in C; lia|]. assert (taken lens = 0) as -> by (induction F as [|x r -> F IH]; [reflexivity|exact IH]). lia.
Qed.
Lemma usable_taken lens : usable lens -> taken lens <= 2 ^ 15.
Proof.
  intros [C|(a & b & -> & F)]; [now apply full_taken|]. rewrite taken_app. cbn [taken].
  assert (forall l, Forall (fun x => x = 0) l -> taken l = 0) as N.
  { intros l Fl. induction Fl as [|x r -> Fl IH]; [reflexivity|exact IH]. }
  apply Forall_app in F. rewrite (N a), (N b) by tauto. now vm_compute.
Qed.

(** ** Symbols *)
Lemma zsymbol_taking lens : taken lens <= 2 ^ 15 -> taking (zsymbol (words lens)) (spells lens).
Proof.
  intros T w s r o (before & l & after & -> & -> & L & ->). set (lens := before ++ l :: after) in *.
  pose proof (having_place l before after 0) as P. fold lens in P.
  assert (first_word lens (Z.to_nat l) + Z.of_nat (Z.to_nat (count before l)) < 2 ^ Z.of_nat (Z.to_nat l)) as B.
  { pose proof (used_small lens (Z.to_nat l) ltac:(lia) T) as U. unfold used in U.
    destruct (Z.to_nat l) as [|k] eqn:E; [lia|]. rewrite <- E in *. rewrite !Z2Nat.id in * by (try apply count_nonneg; lia).
    unfold lens in U at 2. rewrite count_app in U. unfold count in U at 2. cbn [filter] in U. rewrite Z.eqb_refl, len_cons in U.
    pose proof (len_nonneg (filter (Z.eqb l) after)). lia. }
  pose proof (zsym_word lens (Z.to_nat l) (Z.to_nat (count before l)) (0 + len before) ltac:(lia)) as H.
  rewrite (Z2Nat.id l) in H by lia. rewrite (Z2Nat.id (count before l)) in * by apply count_nonneg.
  rewrite (Z2Nat.id l) in * by lia.
  specialize (H P B (Z.to_nat l) O r o ltac:(lia) ltac:(lia)). rewrite (Z2Nat.id l) in H by lia.
  unfold zsymbol. rewrite Z.div_small in H by (pose proof (first_word_nonneg lens (Z.to_nat l)); pose proof (count_nonneg before l); lia).
  exact H.
Qed.
Lemma zsymbol_taken lens : taken_by (zsymbol (words lens)) (spells lens).
Proof.
  intros s a s' E. apply (zsym_back lens 15 0 0 s a s') in E; [|lia|cbn; lia].
  destruct E as (n & idx & N & B & X & Q & I & O). rewrite Nat.add_0_r in *.
  apply having_split in X. destruct X as (before & after & -> & -> & C).
  exists (high_first n (first_word (before ++ Z.of_nat n :: after) n + Z.of_nat idx)). split; [exact I|]. split; [exact O|].
  exists before, (Z.of_nat n), after. rewrite Nat2Z.id, C. repeat split; lia.
Qed.
