(** Facts about bytes, little-endian numbers, lists and repetition. *)
From Coq Require Import ZArith List Bool String Lia ZifyBool ZifyNat ZifyN.
From Coq Require Import Strings.Byte.
From Verif Require Import Base.
Import ListNotations.
Open Scope Z_scope.

Ltac Zify.zify_post_hook ::= Z.div_mod_to_equations.

(** ** Bytes *)
Lemma b2z_range b : 0 <= b2z b < 256.
Proof. unfold b2z. pose proof (Byte.to_N_bounded b). lia. Qed.

Lemma z2b_b2z b : z2b (b2z b) = b.
Proof.
  unfold z2b, b2z. pose proof (Byte.to_N_bounded b).
  rewrite Z.mod_small by lia. rewrite N2Z.id, Byte.of_to_N. reflexivity.
Qed.

Lemma b2z_z2b z : b2z (z2b z) = z mod 256.
Proof.
  unfold z2b, b2z.
  destruct (Byte.of_N (Z.to_N (z mod 256))) as [b|] eqn:E.
  - apply Byte.to_of_N in E. rewrite E. lia.
  - apply Byte.of_N_None_iff in E. lia.
Qed.

Lemma b2z_inj a b : b2z a = b2z b -> a = b.
Proof. intros H. rewrite <- (z2b_b2z a), H. apply z2b_b2z. Qed.

Lemma byte_eqb_eq a b : Byte.eqb a b = true <-> a = b.
Proof.
  split; [apply Byte.byte_dec_bl | apply Byte.byte_dec_lb].
Qed.

(** ** Lengths *)
Lemma len_nonneg {A} (l : list A) : 0 <= len l.
Proof. unfold len. lia. Qed.
Lemma len_nil {A} : len (@nil A) = 0.
Proof. reflexivity. Qed.
Lemma len_cons {A} (a : A) l : len (a :: l) = 1 + len l.
Proof. unfold len. cbn [List.length]. lia. Qed.
Lemma len_app {A} (l1 l2 : list A) : len (l1 ++ l2) = len l1 + len l2.
Proof. unfold len. rewrite app_length. lia. Qed.
Lemma len_map {A B} (f : A -> B) l : len (map f l) = len l.
Proof. unfold len. now rewrite map_length. Qed.
Lemma len_rev {A} (l : list A) : len (rev l) = len l.
Proof. unfold len. now rewrite rev_length. Qed.
Lemma len_repeat {A} (a : A) n : len (repeat a n) = Z.of_nat n.
Proof. unfold len. now rewrite repeat_length. Qed.
Lemma len_0 {A} (l : list A) : len l = 0 -> l = [].
Proof. destruct l; [reflexivity|]. rewrite len_cons. pose proof (len_nonneg l). lia. Qed.

Lemma length_le_bytes n : forall z, List.length (le_bytes n z) = n.
Proof. induction n; intros; cbn; [reflexivity|]. now rewrite IHn. Qed.
Lemma len_le_bytes n z : len (le_bytes n z) = Z.of_nat n.
Proof. unfold len. now rewrite length_le_bytes. Qed.

(** ** Little-endian numbers *)
Lemma pow256_S n : 2 ^ (8 * Z.of_nat (S n)) = 256 * 2 ^ (8 * Z.of_nat n).
Proof.
  replace (8 * Z.of_nat (S n)) with (8 + 8 * Z.of_nat n) by lia.
  rewrite Z.pow_add_r by lia. reflexivity.
Qed.

Lemma le_val_range bs : 0 <= le_val bs < 2 ^ (8 * len bs).
Proof.
  induction bs as [|b bs IH]; [cbn; lia|].
  unfold len. cbn [List.length]. rewrite pow256_S. fold (len bs).
  cbn [le_val]. pose proof (b2z_range b). lia.
Qed.

Lemma le_val_bytes n : forall z, le_val (le_bytes n z) = z mod 2 ^ (8 * Z.of_nat n).
Proof.
  induction n as [|n IH]; intros z.
  - cbn. now rewrite Z.mod_1_r.
  - cbn [le_bytes le_val]. rewrite IH, b2z_z2b, pow256_S.
    assert (0 < 2 ^ (8 * Z.of_nat n)) by (apply Z.pow_pos_nonneg; lia).
    rewrite Z.rem_mul_r by lia. lia.
Qed.

Lemma le_bytes_val bs : le_bytes (List.length bs) (le_val bs) = bs.
Proof.
  induction bs as [|b bs IH]; [reflexivity|].
  cbn [List.length le_bytes le_val]. pose proof (b2z_range b).
  f_equal.
  - rewrite <- (z2b_b2z b) at 2. unfold z2b.
    replace ((b2z b + 256 * le_val bs) mod 256) with (b2z b mod 256) by lia. reflexivity.
  - replace ((b2z b + 256 * le_val bs) / 256) with (le_val bs); [exact IH|].
    lia.
Qed.

Lemma le_bytes_val' n bs : len bs = Z.of_nat n -> le_bytes n (le_val bs) = bs.
Proof. unfold len. intros H. replace n with (List.length bs) by lia. apply le_bytes_val. Qed.

Lemma le_bytes_mod n : forall z, le_bytes n (z mod 2 ^ (8 * Z.of_nat n)) = le_bytes n z.
Proof.
  intros z. rewrite <- le_val_bytes.
  rewrite <- (length_le_bytes n z) at 1. apply le_bytes_val.
Qed.

Lemma le_val_inj a b : List.length a = List.length b -> le_val a = le_val b -> a = b.
Proof. intros H1 H2. rewrite <- (le_bytes_val a), <- (le_bytes_val b). now rewrite H1, H2. Qed.

(** Signed reading of a signed number. *)
Lemma to_signed_mod w z : 0 < w -> - 2 ^ (8 * w - 1) <= z < 2 ^ (8 * w - 1) ->
  to_signed w (z mod 2 ^ (8 * w)) = z.
Proof.
  intros Hw Hz. unfold to_signed.
  assert (E : 2 ^ (8 * w) = 2 * 2 ^ (8 * w - 1)).
  { rewrite <- Z.pow_succ_r by lia. f_equal. lia. }
  rewrite E. set (h := 2 ^ (8 * w - 1)) in *.
  assert (0 < h) by (apply Z.pow_pos_nonneg; lia).
  destruct (Z.leb_spec 0 z).
  - rewrite Z.mod_small by lia. destruct (Z.ltb_spec z h); lia.
  - replace (z mod (2 * h)) with (z + 2 * h).
    + destruct (Z.ltb_spec (z + 2 * h) h); lia.
    + symmetry. rewrite <- (Z.mod_add _ 1) by lia. rewrite Z.mod_small; lia.
Qed.

Lemma to_signed_range w v : 0 < w -> 0 <= v < 2 ^ (8 * w) ->
  - 2 ^ (8 * w - 1) <= to_signed w v < 2 ^ (8 * w - 1).
Proof.
  intros Hw Hv. unfold to_signed.
  assert (E : 2 ^ (8 * w) = 2 * 2 ^ (8 * w - 1)).
  { rewrite <- Z.pow_succ_r by lia. f_equal. lia. }
  rewrite E in *. set (h := 2 ^ (8 * w - 1)) in *.
  destruct (Z.ltb_spec v h); lia.
Qed.

Lemma to_signed_cong w v : 0 <= w -> to_signed w v mod 2 ^ (8 * w) = v mod 2 ^ (8 * w).
Proof.
  intros Hw. unfold to_signed. destruct (v <? _); [reflexivity|].
  assert (0 < 2 ^ (8 * w)) by (apply Z.pow_pos_nonneg; lia).
  replace (v - 2 ^ (8 * w)) with (v + (-1) * 2 ^ (8 * w)) by lia.
  apply Z.mod_add; lia.
Qed.

Lemma le_bytes_signed n bs : len bs = Z.of_nat n ->
  le_bytes n (to_signed (Z.of_nat n) (le_val bs)) = bs.
Proof.
  intros H. rewrite <- le_bytes_mod, to_signed_cong by lia.
  rewrite le_bytes_mod. now apply le_bytes_val'.
Qed.

(** ** Equality tests *)
Lemma list_eqb_eq {A} (eqb : A -> A -> bool) :
  (forall a b, eqb a b = true <-> a = b) ->
  forall l1 l2, list_eqb eqb l1 l2 = true <-> l1 = l2.
Proof.
  intros H. induction l1 as [|a l1 IH]; intros [|b l2]; cbn; try easy.
  rewrite andb_true_iff, H, IH. split; [intros [-> ->]; reflexivity|].
  intros E; inversion E; auto.
Qed.
Lemma str_eqb_eq a b : str_eqb a b = true <-> a = b.
Proof. apply list_eqb_eq. intros. apply Z.eqb_eq. Qed.
Lemma guid_eqb_eq a b : guid_eqb a b = true <-> a = b.
Proof. apply list_eqb_eq. apply byte_eqb_eq. Qed.
Lemma str_eqb_refl a : str_eqb a a = true.
Proof. now apply str_eqb_eq. Qed.
Lemma guid_eqb_refl a : guid_eqb a a = true.
Proof. now apply guid_eqb_eq. Qed.
Lemma str_eqb_neq a b : str_eqb a b = false <-> a <> b.
Proof. rewrite <- not_true_iff_false, str_eqb_eq. reflexivity. Qed.
Lemma str_eqb_sym a b : str_eqb a b = str_eqb b a.
Proof.
  destruct (str_eqb a b) eqn:E, (str_eqb b a) eqn:F; auto.
  - apply str_eqb_eq in E. subst. now rewrite str_eqb_refl in F.
  - apply str_eqb_eq in F. subst. now rewrite str_eqb_refl in E.
Qed.

(** ** Repetition *)
Fixpoint repn {A} (n : nat) (r : reader A) : reader (list A) :=
  match n with
  | O => ret []
  | S n' => a <- r ;; l <- repn n' r ;; ret (a :: l)
  end.

Lemma repn_add {A} (r : reader A) n m : forall c,
  repn (n + m) r c = (l1 <- repn n r ;; l2 <- repn m r ;; ret (l1 ++ l2)) c.
Proof.
  induction n as [|n IH]; intros c; cbn [Nat.add repn].
  - unfold bind, ret. destruct (repn m r c) as [[l c']|]; reflexivity.
  - unfold bind, ret in *. destruct (r c) as [[a c1]|]; [|reflexivity].
    rewrite IH. destruct (repn n r c1) as [[l1 c2]|]; [|reflexivity].
    destruct (repn m r c2) as [[l2 c3]|]; reflexivity.
Qed.

Lemma rep_pos_repn {A} p (r : reader A) : forall c, rep_pos p r c = repn (Pos.to_nat p) r c.
Proof.
  induction p as [p IH|p IH|]; intros c; cbn [rep_pos].
  - rewrite Pos2Nat.inj_xI. cbn [repn].
    replace (2 * Pos.to_nat p)%nat with (Pos.to_nat p + Pos.to_nat p)%nat by lia.
    unfold bind, ret. destruct (r c) as [[a c1]|]; [|reflexivity].
    rewrite repn_add. unfold bind, ret. rewrite IH.
    destruct (repn _ r c1) as [[l1 c2]|]; [|reflexivity].
    rewrite IH. destruct (repn _ r c2) as [[l2 c3]|]; reflexivity.
  - rewrite Pos2Nat.inj_xO.
    replace (2 * Pos.to_nat p)%nat with (Pos.to_nat p + Pos.to_nat p)%nat by lia.
    rewrite repn_add. unfold bind, ret. rewrite IH.
    destruct (repn _ r c) as [[l1 c2]|]; [|reflexivity].
    rewrite IH. destruct (repn _ r c2) as [[l2 c3]|]; reflexivity.
  - change (Pos.to_nat 1) with 1%nat. cbn [repn]. unfold bind, ret.
    destruct (r c) as [[a c1]|]; reflexivity.
Qed.

Lemma rep_repn {A} n (r : reader A) c : rep n r c = repn (Z.to_nat n) r c.
Proof. destruct n; cbn; try reflexivity. apply rep_pos_repn. Qed.

(** ** Writers *)
Lemma seq_ok a b x n : seq a b = Ok (x, n) ->
  exists y1 n1 y2 n2, a = Ok (y1, n1) /\ b = Ok (y2, n2) /\ x = y1 ++ y2 /\ n = n1 + n2.
Proof.
  unfold seq. destruct a as [[y1 n1]|]; [|discriminate].
  destruct b as [[y2 n2]|]; [|discriminate]. intros E; injection E as <- <-.
  exists y1, n1, y2, n2. auto.
Qed.
Lemma seq_Ok y1 n1 y2 n2 : seq (Ok (y1, n1)) (Ok (y2, n2)) = Ok (y1 ++ y2, n1 + n2).
Proof. reflexivity. Qed.

Lemma seqs_ok {A} (f : A -> out) l x n : seqs f l = Ok (x, n) ->
  exists bss, Forall2 (fun a b => f a = Ok b) l bss
              /\ x = List.concat (map fst bss)
              /\ n = fold_right (fun b s => snd b + s) 0 bss.
Proof.
  revert x n. induction l as [|a l IH]; intros x n; cbn.
  - intros E; injection E as <- <-. exists []. auto.
  - intros E. apply seq_ok in E. destruct E as (y1 & n1 & y2 & n2 & Ea & El & -> & ->).
    destruct (IH _ _ El) as (bss & HF & -> & ->).
    exists ((y1, n1) :: bss). cbn. auto.
Qed.

(** ** Association lists *)
(** [Spec.distinct] under another name. *)
Fixpoint fresh {K V} (eqb : K -> K -> bool) (l : list (K * V)) : bool :=
  match l with
  | [] => true
  | (k, _) :: r => forallb (fun e => negb (eqb (fst e) k)) r && fresh eqb r
  end.

Lemma ins_new {K V} (eqb : K -> K -> bool) (l : list (K * V)) k v :
  forallb (fun e => negb (eqb k (fst e))) l = true -> ins eqb l k v = l ++ [(k, v)].
Proof.
  induction l as [|[k' v'] l IH]; cbn; [reflexivity|].
  rewrite andb_true_iff, negb_true_iff. intros [E H]. rewrite E, IH; auto.
Qed.

Lemma ins_keys {K V} (eqb : K -> K -> bool) (l : list (K * V)) k v :
  map fst (ins eqb l k v)
  = map fst l ++ (if existsb (fun e => eqb k (fst e)) l then [] else [k]).
Proof.
  induction l as [|[k' v'] l IH]; cbn; [reflexivity|].
  destruct (eqb k k'); cbn; [now rewrite app_nil_r|]. now rewrite IH.
Qed.

Lemma fresh_app1 {K V} (eqb : K -> K -> bool) (l : list (K * V)) k v :
  fresh eqb (l ++ [(k, v)]) = fresh eqb l && forallb (fun e => negb (eqb k (fst e))) l.
Proof.
  induction l as [|[k' v'] l IH]; cbn; [reflexivity|].
  rewrite forallb_app, IH. cbn. rewrite andb_true_r.
  destruct (forallb _ l), (eqb k k'), (fresh eqb l); cbn; auto;
    destruct (forallb _ l); reflexivity.
Qed.

Lemma fresh_keys {K V W} (eqb : K -> K -> bool) (l : list (K * V)) (l' : list (K * W)) :
  map fst l = map fst l' -> fresh eqb l = fresh eqb l'.
Proof.
  revert l'. induction l as [|[k v] l IH]; intros [|[k' w] l']; cbn; try discriminate; auto.
  intros E; injection E as -> E. rewrite (IH _ E). f_equal.
  clear IH. revert l' E. induction l as [|[a b] l IHl]; intros [|[a' b'] l'] E; cbn in *;
    try discriminate; auto. injection E as -> E. now rewrite (IHl _ E).
Qed.

Lemma ins_fresh {K V} (eqb : K -> K -> bool) (l : list (K * V)) k v :
  fresh eqb l = true -> fresh eqb (ins eqb l k v) = true.
Proof.
  intros H. destruct (existsb (fun e => eqb k (fst e)) l) eqn:E.
  - rewrite <- H. apply fresh_keys. rewrite ins_keys, E. apply app_nil_r.
  - assert (F : forallb (fun e => negb (eqb k (fst e))) l = true).
    { clear H. induction l as [|[k' v'] l IH]; cbn in *; [reflexivity|].
      apply orb_false_iff in E as [-> E]. now rewrite IH. }
    rewrite ins_new by exact F. rewrite fresh_app1, H. exact F.
Qed.

Lemma fold_ins_fresh {K V} (eqb : K -> K -> bool) (l acc : list (K * V)) :
  fresh eqb (acc ++ l) = true ->
  fold_left (fun acc kv => ins eqb acc (fst kv) (snd kv)) l acc = acc ++ l.
Proof.
  revert acc. induction l as [|[k v] l IH]; intros acc; cbn; [now rewrite app_nil_r|].
  intros H. change (acc ++ (k, v) :: l) with (acc ++ [(k, v)] ++ l) in *.
  rewrite app_assoc in *.
  rewrite ins_new; [now apply IH|].
  assert (H' : fresh eqb (acc ++ [(k, v)]) = true).
  { clear IH. revert H. generalize (acc ++ [(k, v)]). intros m. induction m as [|[a b] m IHm]; cbn; [auto|].
    rewrite forallb_app, !andb_true_iff. intros [[? ?] ?]. auto. }
  rewrite fresh_app1 in H'. now apply andb_true_iff in H' as [_ ?].
Qed.

Lemma ins_all_fresh {K V} (eqb : K -> K -> bool) (l : list (K * V)) :
  fresh eqb l = true -> ins_all eqb l = l.
Proof. intros H. apply (fold_ins_fresh eqb l []). exact H. Qed.

Lemma fold_ins_keeps {K V} (eqb : K -> K -> bool) (l acc : list (K * V)) :
  fresh eqb acc = true ->
  fresh eqb (fold_left (fun acc kv => ins eqb acc (fst kv) (snd kv)) l acc) = true.
Proof.
  revert acc. induction l as [|[k v] l IH]; intros acc H; cbn; [exact H|].
  apply IH, ins_fresh, H.
Qed.
Lemma fresh_ins_all {K V} (eqb : K -> K -> bool) (l : list (K * V)) :
  fresh eqb (ins_all eqb l) = true.
Proof. now apply fold_ins_keeps. Qed.

(** Every entry after insertion was there or pairs an old or new key with an
    old or new value. *)
Lemma ins_in {K V} (P : K -> Prop) (Q : V -> Prop) (eqb : K -> K -> bool) (l : list (K * V)) k v :
  Forall (fun e => P (fst e) /\ Q (snd e)) l -> P k -> Q v ->
  Forall (fun e => P (fst e) /\ Q (snd e)) (ins eqb l k v).
Proof.
  induction 1 as [|[k' v'] l [? ?] H IH]; intros Hk Hv; cbn.
  - constructor; auto.
  - destruct (eqb k k'); constructor; cbn; auto.
Qed.
Lemma ins_all_in {K V} (P : K -> Prop) (Q : V -> Prop) (eqb : K -> K -> bool) (l : list (K * V)) :
  Forall (fun e => P (fst e) /\ Q (snd e)) l ->
  Forall (fun e => P (fst e) /\ Q (snd e)) (ins_all eqb l).
Proof.
  unfold ins_all. assert (H0 : Forall (fun e => P (fst e) /\ Q (snd e)) (@nil (K * V))) by constructor.
  revert H0. generalize (@nil (K * V)).
  induction l as [|[k v] l IH]; intros acc Hacc H; cbn; [exact Hacc|].
  inversion H as [|? ? [? ?] ?]; subst. apply IH; auto. apply ins_in; auto.
Qed.
Lemma ins_len {K V} (eqb : K -> K -> bool) (l : list (K * V)) k v :
  len (ins eqb l k v) <= len l + 1.
Proof.
  induction l as [|[k' v'] l IH]; cbn [ins]; [reflexivity|].
  destruct (eqb k k'); rewrite !len_cons; lia.
Qed.
Lemma fold_ins_len {K V} (eqb : K -> K -> bool) (l acc : list (K * V)) :
  len (fold_left (fun acc kv => ins eqb acc (fst kv) (snd kv)) l acc) <= len acc + len l.
Proof.
  revert acc. induction l as [|[k v] l IH]; intros acc; cbn [fold_left].
  - rewrite len_nil. lia.
  - etransitivity; [apply IH|]. cbn [fst snd].
    pose proof (ins_len eqb acc k v). rewrite len_cons. lia.
Qed.
Lemma ins_all_len {K V} (eqb : K -> K -> bool) (l : list (K * V)) :
  len (ins_all eqb l) <= len l.
Proof. unfold ins_all. etransitivity; [apply fold_ins_len|]. rewrite len_nil. lia. Qed.
