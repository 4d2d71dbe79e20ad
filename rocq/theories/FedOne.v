(** What is hashed is determined by the declarations. *)
From Coq Require Import ZArith List Bool String Lia ZifyBool ZifyNat.
From Verif Require Import Base Str Guid Types Versions Spec BaseFacts StrFacts Message Numeral MessageThm GuidThm Debug DebugSpec DebugTree FedSpec FedThm.
From Verif Require NamesThm.
Import ListNotations.
Open Scope Z_scope.

(** ** Names are declared once *)
Fixpoint nodup (l : list string) : bool := match l with [] => true | a :: r => negb (existsb (String.eqb a) r) && nodup r end.
Lemma row_once {A} (l : list (string * A)) n a b : nodup (map fst l) = true -> In (n, a) l -> In (n, b) l -> a = b.
Proof.
  assert (O : forall (l : list (string * A)) n a, existsb (String.eqb n) (map fst l) = false -> In (n, a) l -> False).
  { clear. intros l n a H I. rewrite <- not_true_iff_false in H. apply H, existsb_exists. exists n. split; [exact (in_map fst l (n, a) I)|apply String.eqb_refl]. }
  induction l as [|[m x] l IH]; cbn [map nodup fst In]; [contradiction|]. intros H. apply andb_prop in H as [H1 H2]. apply negb_true_iff in H1.
  intros [E|I] [F|J].
  - congruence.
  - injection E as -> ->. exfalso. eapply O; eassumption.
  - injection F as -> ->. exfalso. eapply O; eassumption.
  - auto.
Qed.
Lemma place_once {A} (l : list (string * A)) : forall i j n a b, nodup (map fst l) = true ->
  nth_error l i = Some (n, a) -> nth_error l j = Some (n, b) -> i = j /\ a = b.
Proof.
  induction l as [|[m x] l IH]; intros [|i] [|j] n a b; cbn [nth_error]; try discriminate;
    cbn [map nodup fst]; intros H; apply andb_prop in H as [H1 H2]; intros E F.
  - split; congruence.
  - injection E as -> ->. exfalso. apply nth_error_In in F. rewrite negb_true_iff, <- not_true_iff_false in H1. apply H1, existsb_exists.
    exists n. split; [exact (in_map fst l (n, b) F)|apply String.eqb_refl].
  - injection F as -> ->. exfalso. apply nth_error_In in E. rewrite negb_true_iff, <- not_true_iff_false in H1. apply H1, existsb_exists.
    exists n. split; [exact (in_map fst l (n, a) E)|apply String.eqb_refl].
  - destruct (IH i j n a b H2 E F). auto.
Qed.
Lemma enum_once e vs ws : In (e, vs) enums -> In (e, ws) enums -> vs = ws.
Proof. apply row_once. vm_compute. reflexivity. Qed.
Lemma struct_once e vs ws : In (e, vs) structs -> In (e, ws) structs -> vs = ws.
Proof. apply row_once. vm_compute. reflexivity. Qed.
Lemma variants_once e vs : In (e, vs) enums -> nodup (map fst vs) = true.
Proof.
  assert (H : forallb (fun r => nodup (map fst (snd r))) enums = true) by (vm_compute; reflexivity).
  intros I. rewrite forallb_forall in H. exact (H _ I).
Qed.

(** ** Bytes *)
Lemma utf8_head c s x : utf8 (c :: s) x -> exists l, utf8 s l /\ x = utf8_char c ++ l.
Proof.
  intros A. remember (c :: s) as t eqn:E. unfold utf8_char.
  destruct A as [|a t l H U|a b t l H H0 U|a b d t l H H0 H1 H2 U|a b d e t l H H0 H1 H2 H3 U]; [discriminate E| | | |];
    pose proof (f_equal (hd 0) E) as E1; pose proof (f_equal (@tl Z) E) as E2; cbv beta iota delta [hd tl] in E1, E2; clear E; subst t;
    exists l; (split; [exact U|]).
  - destruct (Z.ltb_spec c 128); [|lia]. now subst.
  - destruct (Z.ltb_spec c 128); [lia|]. destruct (Z.ltb_spec c 2048); [|lia]. cbn [app].
    replace (c / 64) with a by (Z.to_euclidean_division_equations; lia). replace (c mod 64) with b by (Z.to_euclidean_division_equations; lia). reflexivity.
  - destruct (Z.ltb_spec c 128); [lia|]. destruct (Z.ltb_spec c 2048); [lia|]. destruct (Z.ltb_spec c 65536); [|lia]. cbn [app].
    replace (c / 4096) with a by (Z.to_euclidean_division_equations; lia). replace (c / 64 mod 64) with b by (Z.to_euclidean_division_equations; lia).
    replace (c mod 64) with d by (Z.to_euclidean_division_equations; lia). reflexivity.
  - destruct (Z.ltb_spec c 128); [lia|]. destruct (Z.ltb_spec c 2048); [lia|]. destruct (Z.ltb_spec c 65536); [lia|]. cbn [app].
    replace (c / 262144) with a by (Z.to_euclidean_division_equations; lia). replace (c / 4096 mod 64) with b by (Z.to_euclidean_division_equations; lia).
    replace (c / 64 mod 64) with d by (Z.to_euclidean_division_equations; lia). replace (c mod 64) with e by (Z.to_euclidean_division_equations; lia). reflexivity.
Qed.
Lemma utf8_one s : forall a b, utf8 s a -> utf8 s b -> a = b.
Proof.
  induction s as [|c s IH]; intros x y A B; [inversion A; inversion B; reflexivity|].
  apply utf8_head in A as (l & A & ->). apply utf8_head in B as (m & B & ->). f_equal. now apply IH.
Qed.
Lemma bytes_once a b : map b2z a = map b2z b -> a = b.
Proof.
  revert b. induction a as [|x a IH]; intros [|y b] E; try discriminate E; [reflexivity|]. cbn [map] in E. injection E as E F.
  apply b2z_inj in E. subst. f_equal. now apply IH.
Qed.
Lemma key_range k z n : float_key k z n -> is_float k /\ num_ok k z = true.
Proof.
  intros (s & e & f & S & H). destruct k; try contradiction; (split; [unfold is_float; auto|]);
    unfold num_ok; cbn [num_signed num_width]; unfold u_ok, in_range.
  - change (2 ^ (8 * 4) - 1) with 4294967295. change (2 ^ 8) with 256 in H. change (2 ^ 23) with 8388608 in H. change (2 ^ 31) with 2147483648 in H. lia.
  - change (2 ^ (8 * 8) - 1) with 18446744073709551615. change (2 ^ 11) with 2048 in H. change (2 ^ 52) with 4503599627370496 in H.
    change (2 ^ 63) with 9223372036854775808 in H. lia.
Qed.
Lemma bits_one p q s e f m n : float_bits p q s e f m -> float_bits p q s e f n -> m = n.
Proof. intros [(A & B & C)|(A & C)] [(D & E & F)|(D & F)]; try tauto; congruence. Qed.
Lemma bits_nan p q s e f m : e = 2 ^ q - 1 -> f <> 0 -> float_bits p q s e f m -> m = 2047 * 2 ^ 52 + 2 ^ 51.
Proof. intros A B [(C & D & E)|(C & D)]; [exact E|tauto]. Qed.
Lemma key_one k a b m n : quiet_num k a = quiet_num k b -> float_key k a m -> float_key k b n -> m = n.
Proof.
  intros Q A B. pose proof (proj2 (key_range _ _ _ A)) as RA. pose proof (proj2 (key_range _ _ _ B)) as RB.
  destruct A as (s & e & f & S & H), B as (s' & e' & f' & S' & H'). destruct k; try contradiction.
  - destruct H as (E1 & F1 & Z1 & B1), H' as (E2 & F2 & Z2 & B2).
    change (2 ^ 8) with 256 in *. change (2 ^ 23) with 8388608 in *. change (2 ^ 31) with 2147483648 in *.
    cbn [quiet_num] in Q. unfold f32_nan in Q.
    assert (D : a = b \/ (2139095040 < a mod 2147483648 /\ 2139095040 < b mod 2147483648)).
    { destruct (Z.ltb_spec 2139095040 (a mod 2147483648)), (Z.ltb_spec 2139095040 (b mod 2147483648)); auto.
      - exfalso. rewrite <- Q in H0. revert H0. vm_compute. intros X; now apply X.
      - exfalso. rewrite Q in H. revert H. vm_compute. intros X; now apply X. }
    destruct D as [D|[D1 D2]].
    + assert (s = s' /\ e = e' /\ f = f') as (-> & -> & ->) by lia. eapply bits_one; eassumption.
    + transitivity (2047 * 2 ^ 52 + 2 ^ 51).
      * apply (bits_nan 23 8 s e f); [change (2 ^ 8 - 1) with 255; Z.to_euclidean_division_equations; lia|Z.to_euclidean_division_equations; lia|exact B1].
      * symmetry. apply (bits_nan 23 8 s' e' f'); [change (2 ^ 8 - 1) with 255; Z.to_euclidean_division_equations; lia|Z.to_euclidean_division_equations; lia|exact B2].
  - destruct H as (E1 & F1 & Z1 & B1), H' as (E2 & F2 & Z2 & B2).
    change (2 ^ 11) with 2048 in *. change (2 ^ 52) with 4503599627370496 in *. change (2 ^ 63) with 9223372036854775808 in *.
    cbn [quiet_num] in Q. unfold f64_nan in Q.
    assert (D : a = b \/ (9218868437227405312 < a mod 9223372036854775808 /\ 9218868437227405312 < b mod 9223372036854775808)).
    { destruct (Z.ltb_spec 9218868437227405312 (a mod 9223372036854775808)), (Z.ltb_spec 9218868437227405312 (b mod 9223372036854775808)); auto.
      - exfalso. rewrite <- Q in H0. revert H0. vm_compute. intros X; now apply X.
      - exfalso. rewrite Q in H. revert H. vm_compute. intros X; now apply X. }
    destruct D as [D|[D1 D2]].
    + assert (s = s' /\ e = e' /\ f = f') as (-> & -> & ->) by lia. eapply bits_one; eassumption.
    + transitivity (2047 * 2 ^ 52 + 2 ^ 51).
      * apply (bits_nan 52 11 s e f); [change (2 ^ 11 - 1) with 2047; Z.to_euclidean_division_equations; lia|Z.to_euclidean_division_equations; lia|exact B1].
      * symmetry. apply (bits_nan 52 11 s' e' f'); [change (2 ^ 11 - 1) with 2047; Z.to_euclidean_division_equations; lia|Z.to_euclidean_division_equations; lia|exact B2].
Qed.

(** ** The relation *)
Scheme fed_mind := Minimality for fed Sort Prop
with fed_list_mind := Minimality for fed_list Sort Prop
with fed_entries_mind := Minimality for fed_entries Sort Prop
with fed_fields_mind := Minimality for fed_fields Sort Prop.
Combined Scheme fed_all from fed_mind, fed_list_mind, fed_entries_mind, fed_fields_mind.

Section T.
Context (fl : bool -> num -> Z -> str) (texts : float_texts fl).
Lemma text_one s k a b m n : fl s k a = fl s k b -> float_key k a m -> float_key k b n -> m = n.
Proof.
  intros E A B. destruct (key_range _ _ _ A) as [F RA], (key_range _ _ _ B) as [_ RB].
  destruct (texts s k a b F RA RB) as [_ H]. eapply key_one; [apply H; exact E|eassumption|eassumption].
Qed.
Lemma place_one e vs ws i j n m p q b c : In (e, vs) enums -> In (e, ws) enums -> nth_error vs i = Some (n, p) -> nth_error ws j = Some (m, q) ->
  s2z n = s2z m -> le 8 (Z.of_nat i) b -> le 8 (Z.of_nat j) c -> b = c /\ p = q.
Proof.
  intros I J P Q E A B. apply NamesThm.s2z_inj in E. subst m. assert (ws = vs) by (eapply enum_once; eassumption). subst ws.
  destruct (place_once vs i j n p q (variants_once e vs I) P Q) as [-> ->]. split; [eapply le_one; eassumption|reflexivity].
Qed.
Lemma small_one e vs ws i j n m b c : In (e, vs) smalls -> In (e, ws) smalls -> nth_error vs i = Some n -> nth_error ws j = Some m ->
  s2z n = s2z m -> le 1 (Z.of_nat i) b -> le 1 (Z.of_nat j) c -> b = c.
Proof.
  intros I J P Q E A B. apply NamesThm.s2z_inj in E. subst m.
  assert (ws = vs) by (revert J I; apply row_once; vm_compute; reflexivity). subst ws.
  assert (H : forallb (fun r => nodup (snd r)) smalls = true) by (vm_compute; reflexivity). rewrite forallb_forall in H. specialize (H _ I). cbn [snd] in H.
  assert (X : forall vs : list string, map fst (map (fun n => (n, tt)) vs) = vs).
  { clear. intros vs. induction vs as [|v vs IH]; [reflexivity|]. cbn [map fst]. now rewrite IH. }
  assert (i = j) as ->; [|eapply le_one; eassumption].
  apply (place_once (map (fun n => (n, tt)) vs) i j n tt tt); [now rewrite X| |];
    [apply (map_nth_error (fun n => (n, tt)) i vs P)|apply (map_nth_error (fun n => (n, tt)) j vs Q)].
Qed.
Ltac pl X Y := match goal with I : In (?e, ?vs) enums, E : s2z ?m = s2z ?n, P : nth_error ?vs ?i = Some (?n, ?p), Q : nth_error ?ws ?j = Some (?m, ?q),
    A : le 8 (Z.of_nat ?i) ?b, B : le 8 (Z.of_nat ?j) ?c |- _ =>
  destruct (place_one e vs ws i j n m p q b c) as [X Y]; [exact I|assumption|exact P|exact Q|symmetry; exact E|exact A|exact B|] end.
Lemma fed_one :
  (forall t d b, fed fl t d b -> forall c, fed fl t d c -> b = c)
  /\ (forall t l b, fed_list fl t l b -> forall c, fed_list fl t l c -> b = c)
  /\ (forall k v l b, fed_entries fl k v l b -> forall c, fed_entries fl k v l c -> b = c)
  /\ (forall fs l b, fed_fields fl fs l b -> forall c, fed_fields fl fs l c -> b = c).
Proof.
  apply fed_all; intros.
  all: match goal with F : _ fl _ _ ?c |- _ = ?c => inversion F; clear F; subst | F : _ fl _ _ _ ?c |- _ = ?c => inversion F; clear F; subst end.
  all: try congruence.
  - assert (z = z0) by (apply signed_inj; congruence). subst. eapply le_one; eassumption.
  - assert (n = n0) by (eapply text_one; [symmetry; eassumption|eassumption|eassumption]). subst. eapply le_one; eassumption.
  - match goal with E : signed _ ++ _ = signed _ ++ _ |- _ => apply app_inv_tail, signed_inj in E end. subst. eapply le_one; eassumption.
  - exfalso. match goal with F : float_key _ _ _ |- _ => apply key_range in F as [[F|F] _] end; contradiction.
  - exfalso. match goal with F : float_key _ _ _ |- _ => apply key_range in F as [[F|F] _] end; contradiction.
  - match goal with E : fl _ _ _ ++ _ = fl _ _ _ ++ _ |- _ => apply app_inv_tail in E end.
    assert (n = n0) by (eapply text_one; [symmetry; eassumption|eassumption|eassumption]). subst. eapply le_one; eassumption.
  - f_equal. apply bytes_once. eapply utf8_one; eassumption.
  - f_equal; [eapply le_one; eassumption|]. apply guid_inj; [unfold guid_ok, len; lia|unfold guid_ok, len; lia|congruence].
  - eapply le_one; eassumption.
  - f_equal; [eapply le_one; eassumption|auto].
  - f_equal; [eapply le_one; eassumption|auto].
  - auto.
  - assert (fs = fs0) by (eapply struct_once; eassumption). subst. auto.
  - pl X Y. exact X.
  - pl X Y.
    injection Y as ->. subst. f_equal. auto.
  - pl X Y.
    injection Y as ->. subst. f_equal. auto.
  - match goal with E : s2z ?m = s2z ?n, P : nth_error ?vs ?i = Some ?n, Q : nth_error ?ws ?j = Some ?m |- _ =>
    apply (small_one e vs ws i j n m); [assumption|assumption|exact P|exact Q|symmetry; exact E|assumption|assumption] end.
  - f_equal; auto.
  - f_equal; [|f_equal]; auto.
  - f_equal; auto.
Qed.
End T.
