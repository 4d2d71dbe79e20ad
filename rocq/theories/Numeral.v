(** Decimal and hexadecimal numerals: what they are, and facts about printing them. *)
From Coq Require Import ZArith List Bool String Lia ZifyBool ZifyNat.
From Verif Require Import Base.
Import ListNotations.
Open Scope Z_scope.

(** The decimal numerals: digits without a leading zero, and their value. *)
Definition digit (c : Z) : Prop := 48 <= c <= 57.
Definition value (s : str) : Z := fold_left (fun n c => 10 * n + (c - 48)) s 0.
Definition numeral (s : str) (z : Z) : Prop :=
  s <> [] /\ Forall digit s /\ value s = z /\ (hd 0 s = 48 -> s = [48]).

(** ** Proofs *)
Lemma value_snoc s c : value (s ++ [c]) = 10 * value s + (c - 48).
Proof. unfold value. now rewrite fold_left_app. Qed.
Lemma digits_S f z : digits (S f) z = if z <? 10 then [48 + z] else digits f (z / 10) ++ [48 + z mod 10].
Proof. reflexivity. Qed.
Lemma digits_numeral f : forall z, 0 <= z < 10 ^ Z.of_nat (S f) -> numeral (digits (S f) z) z /\ (0 < z -> hd 0 (digits (S f) z) <> 48).
Proof.
  induction f as [|f IH]; intros z H.
  - change (10 ^ Z.of_nat 1) with 10 in H. cbn [digits]. replace (z <? 10) with true by lia. split.
    + split; [discriminate|]. split; [repeat constructor; unfold digit; lia|]. split; [unfold value; cbn [fold_left]; lia|].
      cbn [hd]. intros E. now rewrite E.
    + cbn [hd]. lia.
  - rewrite digits_S. destruct (z <? 10) eqn:E.
    + split.
      * split; [discriminate|]. split; [repeat constructor; unfold digit; lia|]. split; [unfold value; cbn [fold_left]; lia|].
        cbn [hd]. intros X. now rewrite X.
      * cbn [hd]. lia.
    + assert (Hq : 0 <= z / 10 < 10 ^ Z.of_nat (S f)).
      { split; [apply Z.div_pos; lia|]. apply Z.div_lt_upper_bound; [lia|].
        replace (10 * 10 ^ Z.of_nat (S f)) with (10 ^ Z.of_nat (S (S f))); [lia|].
        rewrite (Nat2Z.inj_succ (S f)), Z.pow_succ_r by lia. reflexivity. }
      specialize (IH _ Hq). remember (digits (S f) (z / 10)) as s.
      destruct IH as [(N & D & V & L) P]. assert (Pz : 0 < z / 10) by lia. specialize (P Pz).
      assert (Hd : hd 0 (s ++ [48 + z mod 10]) = hd 0 s) by (destruct s; [contradiction|reflexivity]).
      split.
      * split; [destruct s; intros X; discriminate X|]. split; [apply Forall_app; split; [exact D|repeat constructor; unfold digit; lia]|].
        split; [rewrite value_snoc, V; lia|]. rewrite Hd. intros X. contradiction.
      * now rewrite Hd.
Qed.
Lemma decimal_numeral z : 0 <= z -> numeral (decimal z) z.
Proof.
  intros H. apply digits_numeral. split; [exact H|].
  pose proof (Z.log2_nonneg z) as N. rewrite Nat2Z.inj_succ, Z2Nat.id by exact N.
  destruct (Z.eq_dec z 0) as [->|E]; [reflexivity|].
  pose proof (Z.log2_spec z ltac:(lia)) as [_ L].
  pose proof (Z.pow_le_mono_l 2 10 (Z.succ (Z.log2 z)) ltac:(lia)). lia.
Qed.
(** A numeral is determined by its value. *)
Lemma value_pos s : Forall digit s -> s <> [] -> hd 0 s <> 48 -> 1 <= value s.
Proof.
  induction s as [|c s IH] using rev_ind; [contradiction|]. intros F _ H. apply Forall_app in F as [F Fc].
  inversion Fc as [|? ? Hc _]; subst. unfold digit in Hc. rewrite value_snoc. destruct s as [|x s].
  - cbn in H. unfold value. cbn [fold_left]. lia.
  - assert (1 <= value (x :: s)) by (apply IH; [exact F|discriminate|exact H]). lia.
Qed.
Lemma digits_unique s : Forall digit s -> s <> [] -> (hd 0 s = 48 -> s = [48]) ->
  forall f, (List.length s <= f)%nat -> s = digits f (value s).
Proof.
  induction s as [|c s IH] using rev_ind; [contradiction|]. intros F _ H f L. apply Forall_app in F as [F Fc].
  inversion Fc as [|? ? Hc _]; subst. unfold digit in Hc. rewrite app_length in L. cbn [List.length] in L.
  destruct f as [|f]; [lia|]. rewrite digits_S, value_snoc. destruct s as [|x s].
  - change (value []) with 0. replace (10 * 0 + (c - 48) <? 10) with true by lia. cbn [app]. f_equal. lia.
  - assert (N : hd 0 (x :: s) <> 48) by (intros E; specialize (H E); destruct s; discriminate H).
    pose proof (value_pos (x :: s) F ltac:(discriminate) N) as P.
    replace (10 * value (x :: s) + (c - 48) <? 10) with false by lia.
    rewrite <- (Z.div_unique (10 * value (x :: s) + (c - 48)) 10 (value (x :: s)) (c - 48)) by (try (left; lia); reflexivity).
    rewrite <- (Z.mod_unique (10 * value (x :: s) + (c - 48)) 10 (value (x :: s)) (c - 48)) by (try (left; lia); reflexivity).
    rewrite <- (IH F ltac:(discriminate) ltac:(intros E; contradiction) f ltac:(lia)). f_equal. f_equal. lia.
Qed.
Lemma value_big s : Forall digit s -> s <> [] -> hd 0 s <> 48 -> 10 ^ (Z.of_nat (List.length s) - 1) <= value s.
Proof.
  induction s as [|c s IH] using rev_ind; [contradiction|]. intros F _ H. apply Forall_app in F as [F Fc].
  inversion Fc as [|? ? Hc _]; subst. unfold digit in Hc. rewrite value_snoc, app_length. cbn [List.length]. destruct s as [|x s].
  - cbn in H. unfold value. cbn [fold_left List.length Nat.add]. change (Z.of_nat 1 - 1) with 0. rewrite Z.pow_0_r. lia.
  - assert (B : 10 ^ (Z.of_nat (List.length (x :: s)) - 1) <= value (x :: s)) by (apply IH; [exact F|discriminate|exact H]).
    replace (Z.of_nat (List.length (x :: s) + 1) - 1) with (Z.succ (Z.of_nat (List.length (x :: s)) - 1)) by lia.
    rewrite Z.pow_succ_r by (cbn [List.length]; lia). lia.
Qed.
Lemma numeral_unique s z : numeral s z -> s = decimal z.
Proof.
  intros (N & F & <- & H). apply digits_unique; auto.
  destruct (Z.eq_dec (hd 0 s) 48) as [E|E]; [rewrite (H E); cbn; lia|].
  pose proof (value_big s F N E) as P. pose proof (value_pos s F N E) as Q.
  pose proof (Z.pow_le_mono_l 2 10 (Z.of_nat (List.length s) - 1) ltac:(lia)) as M.
  pose proof (Z.log2_le_mono (2 ^ (Z.of_nat (List.length s) - 1)) (value s) ltac:(lia)) as L.
  destruct s as [|c s]; [contradiction|]. rewrite Z.log2_pow2 in L by (cbn [List.length]; lia). lia.
Qed.
Lemma split_digits c a a' r r' : Forall digit a -> Forall digit a' -> ~ digit c ->
  a ++ c :: r = a' ++ c :: r' -> a = a' /\ r = r'.
Proof.
  intros F. revert a'. induction F as [|x a Hx F IH]; intros a' F' N E.
  - destruct F' as [|y a' Hy F']; cbn [app] in E; [injection E as E2; auto|]. injection E as E1 E2. subst y. contradiction.
  - destruct F' as [|y a' Hy F']; cbn [app] in E; injection E as E1 E2; [subst x; contradiction|].
    destruct (IH a' F' N E2). now subst.
Qed.
