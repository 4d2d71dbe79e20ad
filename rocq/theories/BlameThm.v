(** Every fault of a read is about the last bytes it took (BlameSpec.v), and what follows them in
    the input does not matter. *)
From Coq Require Import ZArith List Bool String Lia ZifyBool ZifyNat.
From Verif Require Import Base Str Types Versions Text Props File BaseFacts KindFacts Spec StrFacts StrThm ReaderFacts Sane Rel ReadThm Grammar GrammarProp BlameSpec.
Import ListNotations.
Open Scope Z_scope.

Definition points (o : opts) (f : fault) (p : Z) (bs : list byte) : Prop :=
  exists pre d, bs = pre ++ d /\ about o f (p + len pre) d.
Lemma points_pre o f p a bs : points o f (p + len a) bs -> points o f p (a ++ bs).
Proof.
  intros (pre & d & -> & H). exists (a ++ pre), d. rewrite app_assoc, len_app. split; [reflexivity|].
  now rewrite Z.add_assoc.
Qed.

(** [pre] has been read from position [p] on when the reader starts at [c]. *)
Definition T (o : opts) (pre : list byte) (p : Z) (c : cur) {A} (r : reader A) : Prop :=
  pos c = p + len pre ->
  match r c with
  | Ok (a, c') => exists bs, rest c = bs ++ rest c' /\ pos c' = pos c + len bs
      /\ forall t, r (Cur (pos c) (bs ++ t) (stk c)) = Ok (a, Cur (pos c') t (stk c'))
  | Fail f => f = Oof \/ f = Err EEof
      \/ exists bs t0, rest c = bs ++ t0 /\ (forall t, r (Cur (pos c) (bs ++ t) (stk c)) = Fail f)
         /\ points o f p (pre ++ bs)
  end.
Definition TT (o : opts) {A} (r : reader A) : Prop := forall c, T o [] (pos c) c r.

Section Tells.
Context (o : opts).

Lemma T_of pre p c {A} (r : reader A) : TT o r -> T o pre p c r.
Proof.
  intros H Hp. specialize (H c). unfold T in H. rewrite len_nil, Z.add_0_r in H. specialize (H eq_refl).
  destruct (r c) as [[a c']|f]; [exact H|].
  destruct H as [H|[H|(bs & t0 & E & F & G)]]; auto. right. right. exists bs, t0.
  repeat split; auto. apply points_pre. rewrite <- Hp. exact G.
Qed.
Lemma T_ret pre p c {A} (a : A) : T o pre p c (ret a).
Proof. intros _. cbn. exists []. rewrite len_nil. repeat split. lia. Qed.
Lemma T_bind pre p c {A B} (r : reader A) (k : A -> reader B) :
  T o pre p c r ->
  (forall a c1 bs, r c = Ok (a, c1) -> rest c = bs ++ rest c1 -> pos c1 = pos c + len bs ->
     T o (pre ++ bs) p c1 (k a)) ->
  T o pre p c (bind r k).
Proof.
  intros H1 H2 Hp. specialize (H1 Hp). unfold bind.
  destruct (r c) as [[a c1]|f] eqn:E1.
  - destruct H1 as (b1 & R1 & P1 & F1). specialize (H2 a c1 b1 eq_refl R1 P1).
    unfold T in H2. rewrite len_app in H2. specialize (H2 ltac:(lia)).
    destruct (k a c1) as [[x c2]|f].
    + destruct H2 as (b2 & R2 & P2 & F2). exists (b1 ++ b2).
      rewrite R1, R2, <- app_assoc, len_app. repeat split; [lia|].
      intros t. rewrite <- app_assoc, F1. apply F2.
    + destruct H2 as [H2|[H2|(b2 & t0 & R2 & F2 & G)]]; auto. right. right.
      exists (b1 ++ b2), t0. rewrite R1, R2, <- app_assoc. repeat split.
      * intros t. rewrite <- app_assoc, F1. apply F2.
      * rewrite app_assoc. exact G.
  - destruct H1 as [H1|[H1|(b1 & t0 & R1 & F1 & G)]]; auto. right. right.
    exists b1, t0. repeat split; auto. intros t. now rewrite F1.
Qed.
(** A fault about the end of what has been read. *)
Lemma T_fail pre p c {A} f : (pos c = p + len pre -> points o f p pre) -> T o pre p c (@fail A f).
Proof.
  intros H Hp. right. right. exists [], (rest c). rewrite app_nil_r. repeat split. auto.
Qed.
Lemma T_position pre p c {A} (k : Z -> reader A) :
  (pos c = p + len pre -> T o pre p c (k (pos c))) -> T o pre p c (bind position k).
Proof. intros H Hp. exact (H Hp Hp). Qed.
Lemma T_stack pre p c {A} (k : list str -> reader A) :
  T o pre p c (k (stk c)) -> T o pre p c (bind get_stk k).
Proof. intros H Hp. exact (H Hp). Qed.

Lemma TT_ret {A} (a : A) : TT o (ret a). Proof. intros c. apply T_ret. Qed.
Lemma TT_bind {A B} (r : reader A) (k : A -> reader B) :
  TT o r -> (forall a, TT o (k a)) -> TT o (bind r k).
Proof. intros H1 H2 c. apply T_bind; [apply H1|]. intros. apply T_of, H2. Qed.
Lemma TT_take n : TT o (take n).
Proof.
  intros c _. unfold take. destruct (Z.leb_spec n (len (rest c))); [|auto].
  assert (HL : len (firstn (Z.to_nat n) (rest c)) = Z.max 0 n)
    by (unfold len in *; rewrite firstn_length; lia).
  exists (firstn (Z.to_nat n) (rest c)). cbn [rest pos stk]. rewrite firstn_skipn, HL.
  repeat split. intros t. rewrite len_app, HL. pose proof (len_nonneg t).
  destruct (Z.leb_spec n (Z.max 0 n + len t)); [|lia].
  set (bs := firstn (Z.to_nat n) (rest c)) in *.
  assert (Hn : Z.to_nat n = (List.length bs + 0)%nat) by (unfold len in HL; lia).
  rewrite Hn, firstn_app_2, skipn_app, skipn_all2, Nat.add_0_r, Nat.sub_diag by lia.
  cbn. rewrite app_nil_r. reflexivity.
Qed.
Lemma TT_scoped {A} s (r : reader A) : TT o r -> TT o (scoped s r).
Proof.
  intros H c Hp. unfold scoped, bind, push, pop, ret. cbn [pos rest stk] in *.
  specialize (H (Cur (pos c) (rest c) (s :: stk c))). unfold T in H. cbn [pos rest stk] in H.
  specialize (H Hp). destruct (r _) as [[a c']|f].
  - destruct H as (bs & R & P & F). exists bs. repeat split; auto. intros t. rewrite F. reflexivity.
  - destruct H as [H|[H|(bs & t0 & R & F & G)]]; auto. right. right. exists bs, t0.
    repeat split; auto. intros t. now rewrite F.
Qed.
Lemma TT_rep_pos {A} (r : reader A) : TT o r -> forall n, TT o (rep_pos n r).
Proof.
  intros H. induction n as [n IH|n IH|]; cbn [rep_pos]; repeat (apply TT_bind; [assumption|intros]);
    apply TT_ret.
Qed.
Lemma TT_rep {A} n (r : reader A) : TT o r -> TT o (rep n r).
Proof. intros H. destruct n; cbn [rep]; [apply TT_ret|now apply TT_rep_pos|apply TT_ret]. Qed.
Lemma TT_mapM {A B} (f : A -> reader B) l : (forall a, TT o (f a)) -> TT o (mapM f l).
Proof.
  intros H. induction l as [|a l IH]; cbn [mapM]; [apply TT_ret|].
  apply TT_bind; [apply H|intros]. apply TT_bind; [exact IH|intros]. apply TT_ret.
Qed.
Lemma TT_oof {A} : TT o (@fail A Oof). Proof. intros c _. cbn. auto. Qed.
End Tells.

(** What has been read, from the cursors. *)
Lemma uint_read w c v c' bs : r_uint (Z.of_nat w) c = Ok (v, c') -> rest c = bs ++ rest c' -> unsigned w v bs.
Proof.
  intros E R. apply uint_inv in E as (E & V & _). rewrite R in E. apply app_inv_tail in E. split; assumption.
Qed.
Lemma sint_read w c v c' bs : (0 < w)%nat -> r_sint (Z.of_nat w) c = Ok (v, c') -> rest c = bs ++ rest c' -> signed w v bs.
Proof.
  intros W E R. apply sint_inv in E as (E & V & _); [|exact W]. rewrite R in E. apply app_inv_tail in E.
  split; [assumption|]. unfold s_ok, in_range in V. apply andb_true_iff in V as [V1 V2].
  apply Z.leb_le in V1, V2. lia.
Qed.
Lemma take_read n c x c' bs : take n c = Ok (x, c') -> 0 <= n -> rest c = bs ++ rest c' -> bs = x /\ len x = n.
Proof.
  intros E N R. apply take_inv in E as (E & L & _); [|exact N]. rewrite R in E. apply app_inv_tail in E. auto.
Qed.
Lemma string_read c s c' bs : r_string c = Ok (s, c') -> rest c = bs ++ rest c' -> stored (Some s) bs.
Proof.
  intros E R. unfold r_string, bind, position in E.
  destruct (r_fstring c) as [[[x|] c1]|] eqn:F; [|discriminate|discriminate].
  injection E as <- <-. destruct c as [p b st]. apply fstring_iff in F as (bs' & t & H & B & ->).
  cbn [rest] in R. subst b. apply app_inv_tail in R. now subst.
Qed.

Ltac uread n E R := let U := fresh in pose proof (uint_read n _ _ _ _ E R) as U; clear E; rename U into E.
Ltac sread n E R := let U := fresh in pose proof (sint_read n _ _ _ _ ltac:(lia) E R) as U; clear E; rename U into E.
Ltac tread E R := let U := fresh in pose proof (take_read _ _ _ _ _ E ltac:(lia) R) as U; clear E; rename U into E.
Create HintDb tt.
Ltac tfail := intros c; apply T_fail.
Ltac tstep :=
  match goal with
  | |- TT _ (ret _) => apply TT_ret
  | |- TT _ (fail Oof) => apply TT_oof
  | |- TT _ (if ?b then _ else _) => destruct b eqn:?
  | |- TT _ (match ?x with _ => _ end) => destruct x eqn:?
  | |- TT _ (bind _ _) => apply TT_bind; [|intros]
  | |- TT _ (scoped _ _) => apply TT_scoped
  | |- TT _ (rep _ _) => apply TT_rep
  | |- TT _ (mapM _ _) => apply TT_mapM; intros
  | |- TT _ (let _ := _ in _) => cbv zeta
  | |- TT _ _ => solve [eauto 3 with tt]
  end.
Ltac ts := repeat tstep.

Section Leaves.
Context (o : opts).
Lemma about_points f p pre d : about o f (p + len pre) d -> points o f p (pre ++ d).
Proof. exists pre, d. auto. Qed.
Lemma about_all f p d : about o f p d -> points o f p d.
Proof. intros H. exists [], d. rewrite len_nil, Z.add_0_r. auto. Qed.

Lemma tt_position : TT o position.
Proof. intros c Hp. exists []. rewrite len_nil. cbn. repeat split; lia. Qed.
Lemma tt_take n : TT o (take n). Proof. apply TT_take. Qed.
Hint Resolve tt_position tt_take : tt.
Lemma tt_uint w : TT o (r_uint w). Proof. unfold r_uint. ts. Qed.
Hint Resolve tt_uint : tt.
Lemma tt_sint w : TT o (r_sint w). Proof. unfold r_sint. ts. Qed.
Hint Resolve tt_sint : tt.
Lemma tt_u8 : TT o r_u8. Proof. apply tt_uint. Qed.
Lemma tt_u16 : TT o r_u16. Proof. apply tt_uint. Qed.
Lemma tt_u32 : TT o r_u32. Proof. apply tt_uint. Qed.
Lemma tt_u64 : TT o r_u64. Proof. apply tt_uint. Qed.
Lemma tt_i8 : TT o r_i8. Proof. apply tt_sint. Qed.
Lemma tt_i32 : TT o r_i32. Proof. apply tt_sint. Qed.
Lemma tt_guid : TT o r_guid. Proof. apply TT_take. Qed.
Hint Resolve tt_u8 tt_u16 tt_u32 tt_u64 tt_i8 tt_i32 tt_guid : tt.

(** Read something, look at it, and give it up or go on. *)
Ltac read := apply T_bind; [apply T_of; auto with tt|].

Lemma tt_index0 : TT o r_index0.
Proof.
  intros c. unfold r_index0. read. intros i c1 bs E R P. apply T_position. intros Hp.
  destruct (Z.eqb_spec i 0); [apply T_ret|]. apply T_fail. intros _. apply (about_all _ _ bs).
  uread 4%nat E R. cbn. repeat split; try apply E; auto.
  destruct E as [-> _]. rewrite len_le_bytes in P. lia.
Qed.
Lemma tt_term : TT o r_term.
Proof.
  intros c. unfold r_term. read. intros i c1 bs E R P. apply T_position. intros Hp.
  destruct (Z.eqb_spec i 0); [apply T_ret|]. apply T_fail. intros _. apply (about_all _ _ bs).
  uread 1%nat E R. cbn. repeat split; try apply E; auto.
  destruct E as [-> _]. rewrite len_le_bytes in P. lia.
Qed.
Hint Resolve tt_index0 tt_term : tt.

Lemma tt_boolw w : w = 1 \/ w = 4 -> TT o (r_boolw w).
Proof.
  intros W c. unfold r_boolw. read. intros v c1 bs E R P.
  destruct (Z.eqb_spec v 0); [apply T_ret|]. destruct (Z.eqb_spec v 1); [apply T_ret|].
  apply T_position. intros Hp. apply T_fail. intros _. apply (about_all _ _ bs). cbn [about blamed].
  destruct W as [-> | ->]; [uread 1%nat E R|uread 4%nat E R];
    (split; [auto|]); destruct E as [-> E]; lia.
Qed.
Lemma tt_bool : TT o r_bool. Proof. apply tt_boolw. auto. Qed.
Lemma tt_b32 : TT o r_b32. Proof. apply tt_boolw. auto. Qed.
Lemma tt_enum {A} t (f : Z -> option A) :
  (forall v, -128 <= v < 128 -> f v = None -> ~ In v (listed t)) -> TT o (r_enum t f).
Proof.
  intros H c. unfold r_enum. read. intros v c1 bs E R P.
  destruct (f v) eqn:F; [apply T_ret|]. apply T_position. intros Hp. apply T_fail. intros _.
  apply (about_all _ _ bs). sread 1%nat E R. cbn [about blamed].
  split; [exact E|]. split; [apply H; [apply E|exact F]|]. destruct E as [-> E]. rewrite len_le_bytes in P. lia.
Qed.
Hint Resolve tt_bool tt_b32 : tt.

(** Strings: the four ways to refuse one. *)
Fixpoint words_range (buf : list byte) : Forall (fun w => 0 <= w < 65536) (words buf).
Proof.
  destruct buf as [|a [|b buf]]; cbn [words]; constructor; [|apply words_range].
  pose proof (b2z_range a). pose proof (b2z_range b). lia.
Qed.
Lemma words_of n buf : len buf = 2 * n -> 0 <= n ->
  len (words buf) = n /\ flat_map (le_bytes 2) (words buf) = buf /\ Forall (fun w => 0 <= w < 65536) (words buf).
Proof.
  intros L N. assert (B : flat_map (le_bytes 2) (words buf) = buf).
  { apply bytes_words. exists (Z.to_nat n). unfold len in L. lia. }
  split; [|split; [exact B|]].
  - pose proof (len_words_bytes (words buf)) as W. rewrite B in W. lia.
  - apply words_range.
Qed.
Lemma tt_fstring : TT o r_fstring.
Proof.
  intros c. unfold r_fstring. apply T_position. intros Hp0. read. intros n c1 b1 E1 R1 P1.
  sread 4%nat E1 R1. destruct E1 as [-> V1]. cbn [Z.of_nat] in *.
  change (2 ^ (8 * 4 - 1)) with 2147483648 in V1. rewrite len_le_bytes in P1.
  destruct (inr (-131072) 131072 n) eqn:I; cbn [negb].
  2: { apply T_fail. intros _. apply about_all. cbn [about blamed]. unfold inr in I.
       split; [split; [reflexivity|exact V1]|]. split; [right; lia|lia]. }
  apply inr_iff in I. destruct (Z.eqb_spec n 0); [apply T_ret|].
  destruct (Z.ltb_spec n 0).
  - apply T_bind; [apply T_of; auto with tt|]. intros buf c2 b2 E2 R2 P2.
    tread E2 R2. destruct E2 as [-> L2].
    apply T_bind; [apply T_of; auto with tt|]. intros t c3 b3 E3 R3 P3.
    uread 2%nat E3 R3. apply T_position. intros Hp.
    assert (L3 : len b3 = 2) by (destruct E3 as [-> _]; apply len_le_bytes).
    destruct (Z.eqb_spec t 0) as [->|NT]; cbn [negb].
    + destruct (utf16_dec (words buf)) eqn:D; [apply T_ret|]. apply T_fail. intros _. apply about_all.
      cbn [about blamed]. destruct (words_of (- n - 1) buf L2 ltac:(lia)) as (W1 & W2 & W3).
      exists (words buf). repeat split; auto; [lia| |].
      * rewrite W1, W2. destruct E3 as [-> _]. rewrite <- app_assoc. replace (- (- n - 1 + 1)) with n by lia. reflexivity.
      * now apply utf16_dec_none.
    + apply T_fail. intros _. apply about_all. cbn [about blamed]. exists n, buf, b3.
      split; [lia|]. split; [exact NT|]. split; [cbn [app]; rewrite !len_app, len_le_bytes; lia|].
      split; [cbn [app]; now rewrite <- app_assoc|]. right. repeat split; auto; try apply E3; lia.
  - apply T_bind; [apply T_of; auto with tt|]. intros buf c2 b2 E2 R2 P2.
    tread E2 R2. destruct E2 as [-> L2].
    apply T_bind; [apply T_of; auto with tt|]. intros t c3 b3 E3 R3 P3.
    uread 1%nat E3 R3. apply T_position. intros Hp.
    assert (L3 : len b3 = 1) by (destruct E3 as [-> _]; apply len_le_bytes).
    destruct (Z.eqb_spec t 0) as [->|NT]; cbn [negb].
    + destruct (utf8_dec buf) eqn:D; [apply T_ret|]. apply T_fail. intros _. apply about_all.
      cbn [about blamed]. exists buf. repeat split; auto; [lia| |].
      * destruct E3 as [-> _]. rewrite <- app_assoc. replace (len buf + 1) with n by lia. reflexivity.
      * now apply utf8_dec_none.
    + apply T_fail. intros _. apply about_all. cbn [about blamed]. exists n, buf, b3.
      split; [lia|]. split; [exact NT|]. split; [cbn [app]; rewrite !len_app, len_le_bytes; lia|].
      split; [cbn [app]; now rewrite <- app_assoc|]. left. repeat split; auto; try apply E3; lia.
Qed.
Hint Resolve tt_fstring : tt.
Lemma tt_string : TT o r_string.
Proof.
  intros c. unfold r_string. apply T_position. intros Hp0. read. intros x c1 bs E R P.
  destruct x; [apply T_ret|]. apply T_fail. intros _. apply (about_all _ _ bs).
  destruct c as [p b st]. apply fstring_iff in E as (b' & t & H & B & ->). cbn [rest pos] in *.
  subst b. apply app_inv_tail in R. subst b'. inversion H; subst. cbn [about blamed].
  repeat split; auto; lia.
Qed.
Hint Resolve tt_string : tt.

Lemma tt_check n : In n [0; 1; 2; 4; 8] -> TT o (check_size n).
Proof.
  intros N c. unfold check_size. read. intros v c1 bs E R P. uread 8%nat E R. apply T_position. intros Hp.
  destruct (Z.eqb_spec v n); [apply T_ret|]. apply T_fail. intros _. apply (about_all _ _ bs).
  cbn [about blamed]. right. split; [exact E|]. split; [exact N|]. split; [assumption|].
  destruct E as [-> _]. rewrite len_le_bytes in P. lia.
Qed.
Lemma tt_zero s w : (forall v d, unsigned w v d -> v <> 0 -> tripped o s d) -> TT o (zero_or s (r_uint (Z.of_nat w))).
Proof.
  intros H c. unfold zero_or. read. intros v c1 bs E R P. uread w E R.
  destruct (Z.eqb_spec v 0); [apply T_ret|]. apply T_fail. intros _. apply (about_all _ _ bs).
  cbn [about]. eapply H; eauto.
Qed.
Lemma tt_separator : TT o (zero_or PSeparator r_u8).
Proof. apply (tt_zero _ 1). intros v d. cbn. eauto. Qed.
Lemma tt_indicator : TT o (zero_or PIndicator r_u8).
Proof. apply (tt_zero _ 1). intros v d. cbn. eauto. Qed.
Lemma tt_zindex : TT o (zero_or PArrayIndex r_u32).
Proof. apply (tt_zero _ 4). intros v d. cbn. eauto. Qed.
Hint Resolve tt_separator tt_indicator tt_zindex : tt.

Lemma term_read c u c' bs : r_term c = Ok (u, c') -> rest c = bs ++ rest c' -> bs = [Byte.x00].
Proof.
  unfold r_term, bind, position. destruct (r_u8 c) as [[t c1]|] eqn:E; [|discriminate].
  destruct (Z.eqb_spec t 0) as [->|]; [|discriminate]. intros X R. injection X as _ <-.
  apply (uint_read 1 _ _ _ _ E) in R. apply R.
Qed.
Lemma index_read c u c' bs : r_index0 c = Ok (u, c') -> rest c = bs ++ rest c' -> len bs = 4.
Proof.
  unfold r_index0, bind, position. destruct (r_u32 c) as [[t c1]|] eqn:E; [|discriminate].
  destruct (Z.eqb_spec t 0) as [->|]; [|discriminate]. intros X R. injection X as _ <-.
  apply (uint_read 4 _ _ _ _ E) in R. destruct R as [-> _]. apply len_le_bytes.
Qed.
Lemma T_sized p c L index names {A} (r : reader A) : TT o r -> 0 <= L < 4294967296 -> len index = 4 ->
  T o (le_bytes 4 L ++ index ++ names ++ [Byte.x00]) p c (sized L r).
Proof.
  intros H HL HI. unfold sized. apply T_position. intros Hp. apply T_bind; [apply T_of, H|].
  intros a c1 body E R P. apply T_position. intros Hp1.
  destruct (Z.eqb_spec (pos c1 - pos c) L); [apply T_ret|]. apply T_fail. intros _. apply about_all.
  cbn [about blamed]. left. exists index, names, body. split; [split; [reflexivity|exact HL]|].
  split; [now rewrite <- !app_assoc|]. split; [exact HI|]. split; [lia|]. split; [assumption|].
  rewrite Hp, !len_app, len_le_bytes, HI, len_cons, len_nil. lia.
Qed.
Lemma tt_headed {V A} (vars : reader V) (body : Z -> V -> reader A) :
  TT o vars -> (forall n v, TT o (body n v)) -> TT o (headed vars body).
Proof.
  intros H1 H2 c. unfold headed. read. intros L c1 b1 E1 R1 P1. uread 4%nat E1 R1. destruct E1 as [-> V1].
  read. intros u c2 b2 E2 R2 P2. pose proof (index_read _ _ _ _ E2 R2) as I.
  apply T_bind; [apply T_of, H1|]. intros v c3 b3 E3 R3 P3.
  read. intros u' c4 b4 E4 R4 P4. pose proof (term_read _ _ _ _ E4 R4) as ->.
  cbn [app]. rewrite <- !app_assoc. apply T_sized; auto.
Qed.
Lemma tt_headed_index {A} (body : Z -> reader A) : (forall n, TT o (body n)) -> TT o (headed_index body).
Proof.
  intros H2 c. unfold headed_index. read. intros L c1 b1 E1 R1 P1. uread 4%nat E1 R1. destruct E1 as [-> V1].
  read. intros i c2 b2 E2 R2 P2. uread 4%nat E2 R2. destruct E2 as [-> V2].
  read. intros u' c4 b4 E4 R4 P4. pose proof (term_read _ _ _ _ E4 R4) as ->.
  cbn [app]. rewrite <- !app_assoc. apply (T_sized _ _ _ _ []); auto.
Qed.
Lemma tt_plain {A} hdr (r : reader A) : TT o r -> TT o (plain hdr r).
Proof. intros H. unfold plain. destruct hdr; [|exact H]. apply tt_headed; [apply TT_ret|auto]. Qed.

(** ** Texts *)
Lemma tt_count : TT o r_count.
Proof.
  intros c. unfold r_count. read. intros n c1 bs E R P. sread 4%nat E R.
  destruct (Z.ltb_spec n 0); [|apply T_ret]. apply T_fail. intros _. apply (about_all _ _ bs).
  cbn [about tripped]. eauto.
Qed.
Hint Resolve tt_count : tt.
Lemma upto_none n v : 0 <= n -> upto n v = None -> ~ (0 <= v <= n).
Proof. unfold upto, inr. intros N. destruct (_ && _) eqn:E; [discriminate|]. lia. Qed.
Ltac listed := cbn [listed In]; lia.
Lemma tt_rounding : TT o r_rounding.
Proof. apply tt_enum. intros v _ H. apply upto_none in H; [|lia]. listed. Qed.
Lemma tt_style : TT o r_style.
Proof. apply tt_enum. intros v _ H. apply upto_none in H; [|lia]. listed. Qed.
Lemma tt_transform : TT o r_transform.
Proof. apply tt_enum. intros v _ H. apply upto_none in H; [|lia]. listed. Qed.
Hint Resolve tt_rounding tt_style tt_transform : tt.
Lemma enum_of_none {A} (f : A -> Z) l v : enum_of f l v = None -> ~ In v (map f l).
Proof.
  unfold enum_of. intros H I. apply in_map_iff in I as (a & <- & I).
  apply (find_none _ _ H) in I. lia.
Qed.
Lemma tt_htype : TT o (r_enum ETHistory (enum_of htype_z htypes)).
Proof. apply tt_enum. intros v _ H. apply enum_of_none in H. exact H. Qed.
Lemma tt_atype : TT o (r_enum ETArgument (enum_of atype_z atypes)).
Proof. apply tt_enum. intros v _ H. apply enum_of_none in H. exact H. Qed.
Hint Resolve tt_htype tt_atype : tt.
Lemma enum_read {A} t (f : A -> Z) l c a c' bs : r_enum t (enum_of f l) c = Ok (a, c') -> rest c = bs ++ rest c' ->
  signed 1 (f a) bs.
Proof.
  unfold r_enum, bind. destruct (r_i8 c) as [[v c1]|] eqn:E; [|discriminate].
  destruct (enum_of f l v) eqn:F; [|discriminate]. intros X R. injection X as <- <-.
  unfold enum_of in F. apply find_some in F as [_ F]. apply Z.eqb_eq in F. rewrite F.
  exact (sint_read 1 _ _ _ _ ltac:(lia) E R).
Qed.
Lemma tt_numfmt : TT o r_numfmt. Proof. unfold r_numfmt. ts. Qed.
Hint Resolve tt_numfmt : tt.
Lemma tt_optfmt : TT o r_optfmt. Proof. unfold r_optfmt. ts. Qed.
Hint Resolve tt_optfmt : tt.
Lemma tt_farg vs rt : TT o rt -> TT o (r_farg vs rt).
Proof.
  intros H c. unfold r_farg. read. intros t c1 bs E R P.
  destruct t; try (apply T_of; ts; fail).
  apply T_fail. intros _. apply (about_all _ _ bs). apply enum_read with (bs := bs) in E; [|exact R].
  cbn [about tripped]. destruct E as [-> _]. split; [reflexivity|]. cbn. lia.
Qed.
Lemma tt_named vs rt : TT o rt -> TT o (r_named vs rt).
Proof. intros H. unfold r_named. pose proof (tt_farg vs rt H). ts. Qed.
Lemma tt_hist vs rt : TT o rt -> TT o (r_hist vs rt).
Proof.
  intros H. pose proof (tt_farg vs rt H) as Ha. pose proof (tt_named vs rt H) as Hn.
  intros c. unfold r_hist. read. intros t c1 bs E R P.
  destruct t; try (apply T_of; ts; fail);
    (apply T_fail; intros _; apply (about_all _ _ bs); apply enum_read with (bs := bs) in E; [|exact R];
     cbn [about tripped]; destruct E as [-> _]; eexists; split; [split; [reflexivity|]|]; cbn; lia).
Qed.
Lemma tt_text vs : forall n, TT o (r_text n vs).
Proof.
  induction n as [|n IH]; cbn [r_text]; [apply TT_oof|]. pose proof (tt_hist vs _ IH). ts.
Qed.
End Leaves.
#[export] Hint Resolve tt_position tt_take tt_uint tt_sint tt_u8 tt_u16 tt_u32 tt_u64 tt_i8 tt_i32 tt_guid
  tt_fstring tt_string tt_bool tt_b32 tt_index0 tt_term tt_count tt_text tt_separator tt_indicator tt_zindex : tt.

(** ** Properties *)
Section Props.
Context (o : opts).
Ltac read := apply T_bind; [apply T_of; auto with tt|].

Lemma tt_rnum k : TT o (r_num k).
Proof. unfold r_num. ts. Qed.
Hint Resolve tt_rnum : tt.
Lemma tt_pnum k hdr : TT o (r_pnum k hdr).
Proof.
  unfold r_pnum. apply TT_bind; [|intros; ts]. destruct hdr; [|ts].
  apply TT_bind; [|intros; ts]. apply tt_check. destruct k; cbn; auto 6.
Qed.
Lemma tt_bytev sug : TT o (r_bytev o sug).
Proof.
  unfold r_bytev. destruct sug as [e|]; [|ts]. destruct ((e =? 0) && dbg o) eqn:E; [|ts].
  intros c. apply T_fail. intros _. apply about_all. cbn. apply andb_true_iff in E as [_ E]. auto.
Qed.
Hint Resolve tt_bytev : tt.
Lemma tt_pbyte hdr sug : TT o (r_pbyte o hdr sug). Proof. unfold r_pbyte. ts. Qed.
Lemma tt_pbool hdr : TT o (r_pbool hdr).
Proof. unfold r_pbool. ts. apply tt_check. cbn. auto. Qed.
Lemma tt_penum hdr : TT o (r_penum hdr).
Proof. unfold r_penum. destruct hdr; [apply tt_headed; intros|]; ts. Qed.
Lemma tt_pname hdr : TT o (r_pname hdr).
Proof. unfold r_pname. destruct hdr; [apply tt_headed_index; intros|]; ts. Qed.
Lemma tt_pstr hdr : TT o (r_pstr hdr). Proof. apply tt_plain. ts. Qed.
Lemma tt_pobject hdr : TT o (r_pobject hdr). Proof. apply tt_plain. ts. Qed.
Lemma tt_delegate : TT o r_delegate. Proof. unfold r_delegate. ts. Qed.
Hint Resolve tt_delegate : tt.
Lemma tt_pdelegate hdr : TT o (r_pdelegate hdr). Proof. apply tt_plain. ts. Qed.
Lemma tt_pmulti i hdr : TT o (r_pmulti i hdr). Proof. apply tt_plain. ts. Qed.
Lemma tt_pfieldpath hdr : TT o (r_pfieldpath hdr). Proof. apply tt_plain. ts. Qed.
Lemma tt_ptext n vs hdr : TT o (r_ptext n vs hdr). Proof. apply tt_plain. ts. Qed.
Lemma tt_unknown ty n : TT o (r_unknown ty n). Proof. unfold r_unknown. ts. Qed.
Hint Resolve tt_unknown : tt.
Lemma tt_unknown_header ty : TT o (r_unknown_header ty). Proof. unfold r_unknown_header. ts. Qed.

Section Nested.
Context (n : nat) (vs : list (guid * Z)) (rp : preader).
Hypothesis Hrp : forall ty hdr sug, TT o (rp ty hdr sug).
Hint Resolve Hrp : tt.

Lemma tt_custom m : forall acc, TT o (r_custom m o rp acc).
Proof.
  induction m as [|m IH]; intros acc; cbn [r_custom]; [apply TT_oof|].
  apply TT_bind; [auto with tt|intros nm]. destruct (str_eqb nm s_none); [ts|].
  apply TT_bind; [auto with tt|intros ty]. apply TT_bind; [ts|intros p].
  destruct (dbg o && _) eqn:E; [|apply IH].
  intros c. apply T_fail. intros _. apply about_all. cbn. apply andb_true_iff in E as [E _]. auto.
Qed.
Hint Resolve tt_custom : tt.
Lemma tt_sval ty : TT o (r_sval n o vs rp ty).
Proof. unfold r_sval. ts. Qed.
Hint Resolve tt_sval : tt.
Lemma tt_pstruct : TT o (r_pstruct n o vs rp).
Proof. unfold r_pstruct. apply tt_headed; intros; ts. Qed.
Lemma tt_hinted : TT o (r_hinted n o vs rp).
Proof.
  intros c. unfold r_hinted. apply T_stack, T_position. intros Hp.
  destruct (hints o _) eqn:E; [apply T_of; ts|]. apply T_fail. intros _. apply about_all. cbn. auto.
Qed.
Lemma tt_in_array what : In (s2z what) nested_containers -> TT o (in_array what).
Proof.
  intros W c. unfold in_array. apply T_position. intros Hp. apply T_fail. intros _. apply about_all.
  cbn [about blamed]. auto.
Qed.
Lemma tt_elements count : TT o (r_struct_array n o vs rp count).
Proof.
  intros c. unfold r_struct_array. read. intros fn c1 b1 E1 R1 P1. read. intros ty c2 b2 E2 R2 P2.
  destruct (str_eqb ty (kind_name KStruct)) eqn:K; cbn [negb].
  2: { apply T_fail. intros _. apply about_points. cbn [about tripped]. exists ty.
       split; [eapply string_read; eauto|]. intros ->. vm_compute in K. discriminate K. }
  read. intros size c3 b3 E3 R3 P3. uread 8%nat E3 R3. destruct E3 as [-> V3].
  read. intros tn c4 b4 E4 R4 P4. pose proof (string_read _ _ _ _ E4 R4) as S4.
  read. intros g c5 b5 E5 R5 P5. unfold r_guid in E5. tread E5 R5. destruct E5 as [-> L5].
  read. intros u c6 b6 E6 R6 P6. pose proof (term_read _ _ _ _ E6 R6) as ->.
  apply T_position. intros Hp. apply T_bind; [apply T_of; ts|]. intros l c7 body E7 R7 P7.
  apply T_position. intros Hp7. destruct (Z.eqb_spec (pos c7 - pos c6) size); [apply T_ret|].
  apply T_fail. intros _. cbn [app]. rewrite <- !app_assoc.
  rewrite (app_assoc b1 b2). apply about_points. cbn [about blamed]. right.
  exists size, tn, b4, g, body. split; [split; [reflexivity|exact V3]|].
  replace (pos c7 - pos c6) with (len body) in * by lia.
  repeat split; auto. cbn [app] in Hp7. rewrite !len_app in *. lia.
Qed.
Lemma tt_of_array ty l : TT o (of_outcome (array_new ty None l)).
Proof. unfold array_new. cbn [of_outcome]. ts. Qed.
Hint Resolve tt_of_array : tt.
Lemma tt_array length ty : TT o (r_array n o vs rp length ty).
Proof.
  intros c. unfold r_array. read. intros count c1 b1 E1 R1 P1.
  destruct (kind_of ty) eqn:K; try (apply T_of; ts; fail).
  apply T_bind; [apply T_of, tt_elements|]. intros x c2 b2 E2 R2 P2.
  apply struct_array_values in E2 as [r Er]. unfold array_new.
  destruct x as [[[? ?] ?] l]. cbn [fst snd] in *. rewrite K, Er. cbn [of_outcome]. apply T_of. ts.
Qed.
Lemma tt_set length ty : TT o (r_set o rp length ty).
Proof.
  unfold r_set. apply TT_bind; [auto with tt|intros flags]. apply TT_bind; [auto with tt|intros count].
  destruct (0 <? count); [|ts]. destruct ((length <? 8) && dbg o) eqn:E; [|ts].
  intros c. apply T_fail. intros _. apply about_all. cbn. apply andb_true_iff in E as [_ E]. auto.
Qed.
Lemma tt_map kt vt : TT o (r_map o rp kt vt).
Proof. unfold r_map, r_entry. ts. Qed.
Lemma other_name ty : kind_of ty = KOther -> ~ In ty property_types.
Proof. intros H. apply other_iff in H. exact H. Qed.
Lemma tt_body ty hdr sug : TT o (r_body n o vs rp ty hdr sug).
Proof.
  unfold r_body. destruct (kind_of ty) eqn:K;
    auto using tt_pnum, tt_pbyte, tt_pbool, tt_penum, tt_pstr, tt_pname, tt_pobject, tt_pdelegate,
      tt_pmulti, tt_pfieldpath, tt_ptext.
  - destruct hdr; [apply tt_pstruct|apply tt_hinted].
  - destruct hdr; [|apply tt_in_array; left; reflexivity].
    apply tt_headed; [ts|intros]. apply tt_array.
  - destruct hdr; [|apply tt_in_array; right; left; reflexivity].
    apply tt_headed; [ts|intros]. apply tt_set.
  - destruct hdr; [|apply tt_in_array; right; right; left; reflexivity].
    apply tt_headed; [ts|intros]. apply tt_map.
  - destruct hdr; [apply tt_unknown_header|]. destruct sug; [apply tt_unknown|].
    intros c. apply T_position. intros Hp. apply T_fail. intros _. apply about_all. cbn [about blamed].
    left. repeat split; auto. right. now apply other_name.
Qed.
End Nested.

Lemma tt_prop vs n : forall ty hdr sug, TT o (r_prop n o vs ty hdr sug).
Proof.
  induction n as [|n IH]; intros; cbn [r_prop]; [apply TT_oof|]. apply TT_scoped, tt_body, IH.
Qed.
Hint Resolve tt_prop : tt.
Lemma tt_entries vs m n : TT o (r_entries n m o vs).
Proof. induction n as [|n IH]; cbn [r_entries]; [apply TT_oof|]. ts. Qed.
Hint Resolve tt_entries : tt.

(** ** Header and file, from the start of the input *)
Lemma T_checked pre c f ok : pos c = len pre ->
  (forall v, 0 <= v < 4294967296 -> ok v = false -> field_wrong f v (len pre)) -> T o pre 0 c (r_checked f ok).
Proof.
  intros Hp H. unfold r_checked. read. intros v c1 bs E R P. uread 4%nat E R.
  destruct (ok v) eqn:K; [apply T_ret|]. apply T_fail. intros _. apply about_points.
  cbn [about blamed]. split; [exact E|]. apply H; [apply E|exact K].
Qed.
Lemma checked_read f ok c v c' bs : r_checked f ok c = Ok (v, c') -> rest c = bs ++ rest c' -> len bs = 4 /\ ok v = true.
Proof.
  unfold r_checked, bind. destruct (r_u32 c) as [[x c1]|] eqn:E; [|discriminate].
  destruct (ok x) eqn:K; [|discriminate]. intros X R. injection X as <- <-.
  apply (uint_read 4 _ _ _ _ E) in R. destruct R as [-> _]. split; [apply len_le_bytes|exact K].
Qed.
Lemma T_header c : pos c = 0 -> T o [] 0 c r_header.
Proof.
  intros Hp. unfold r_header.
  apply T_bind; [apply T_checked; [exact Hp|]; intros v _ K; cbn; split; [reflexivity|]; unfold gvas_magic in K; lia|].
  intros v1 c1 b1 E1 R1 P1. apply checked_read with (bs := b1) in E1; [|exact R1].
  apply T_bind; [apply T_checked; [cbn; lia|]; intros v _ K; cbn; unfold inr in K; lia|].
  intros version c2 b2 E2 R2 P2. apply checked_read with (bs := b2) in E2; [|exact R2].
  apply T_bind; [apply T_checked; [rewrite len_app; cbn; lia|]; intros v _ K; rewrite !len_app; cbn; unfold inr in K; lia|].
  intros package c3 b3 E3 R3 P3. apply checked_read with (bs := b3) in E3; [|exact R3].
  apply T_bind.
  { destruct (3 <=? version); [|apply T_ret].
    apply T_bind; [apply T_checked; [rewrite !len_app; cbn; lia|]; intros v _ K; rewrite !len_app; cbn; unfold inr in K; lia|].
    intros. apply T_ret. }
  intros ue5 c4 b4 E4 R4 P4.
  apply T_bind; [apply T_of; unfold r_fengine; ts|]. intros e c5 b5 E5 R5 P5.
  assert (L5 : 15 <= len b5).
  { pose proof (s_fengine (fun _ => True) (len (rest c4) + 1) c4 ltac:(lia)) as S. rewrite E5 in S.
    destruct S as (bs & S1 & _ & S3 & _). rewrite R5 in S1. apply app_inv_tail in S1. now subst. }
  apply T_bind.
  { apply T_checked; [rewrite !len_app; cbn; lia|]. intros v _ K. rewrite !len_app. cbn.
    pose proof (len_nonneg b4). lia. }
  intros. apply T_of. unfold r_version. ts.
Qed.
Lemma T_file n c : pos c = 0 -> T o [] 0 c (r_file n o).
Proof. intros Hp. unfold r_file. apply T_bind; [now apply T_header|]. intros. apply T_of. ts. Qed.

(** A failed load, other than for want of bytes. *)
Theorem load_blames b f : load_plain o b = Fail f -> f <> Err EEof ->
  exists pre d t, b = pre ++ d ++ t /\ about o f (len pre) d
    /\ forall t', load_plain o (pre ++ d ++ t') = Fail f.
Proof.
  intros E NE. unfold load_plain in E. destruct (parse o b) as [[x c]|g] eqn:Q; [discriminate|].
  injection E as ->. assert (NO : f <> Oof) by (intros ->; exact (terminates o b Q)).
  pose proof (T_file (S (List.length b)) (Cur 0 b []) eq_refl) as H. unfold T in H.
  fold (parse o b) in H. rewrite Q in H. specialize (H eq_refl).
  destruct H as [H|[H|(bs & t0 & R & F & (pre & d & Hb & A))]]; [contradiction|contradiction|].
  cbn [rest pos stk app] in *. subst bs. exists pre, d, t0.
  split; [now rewrite app_assoc|]. split; [exact A|]. intros t'. rewrite app_assoc. specialize (F t').
  unfold load_plain. set (b' := (pre ++ d) ++ t') in *. fold (start b') in F.
  pose proof (fuel_enough o b' (S (Nat.max (List.length b) (List.length b'))) ltac:(lia)) as F1.
  pose proof (x_file (fun f => f = Oof) [] o o (S (List.length b))
    (S (Nat.max (List.length b) (List.length b')))
    ltac:(cbv beta; congruence) ltac:(cbv beta; auto) ltac:(cbv beta; auto) eq_refl ltac:(lia) ltac:(cbv beta; auto) (start b')) as X.
  rewrite F in X. destruct X as [X|X]; [contradiction|].
  rewrite ext_start, app_nil_r in X. rewrite <- F1, X. reflexivity.
Qed.
End Props.

(** ** Palworld containers *)
Lemma container_blames z o b f : load z o GPalworld b = Fail f -> f <> Err EEof ->
  exists a m t, b = a ++ m ++ t /\ len a = 8 /\ len m = 3
  /\ (m <> map z2b (s2z "PlZ") /\ f = Err (EMagic m)
      /\ (forall t', load z o GPalworld (a ++ m ++ t') = Fail f)
      \/ m = map z2b (s2z "PlZ") /\ exists v d t1, t = d ++ t1 /\ signed 1 v d
         /\ (~ In v (listed ETCompression) /\ f = Err (EEnum ETCompression v 12)
             /\ (forall t', load z o GPalworld (a ++ m ++ d ++ t') = Fail f)
             \/ v = 48 /\ load_plain o (firstn (Z.to_nat (le_val (firstn 4 a))) t1) = Fail f
             \/ v = 49 /\ (f = Err EIo /\ snd (inflate z t1) = ZBad
                           \/ load_plain o (firstn (Z.to_nat (le_val (firstn 4 a))) (fst (inflate z t1))) = Fail f)
             \/ v = 50 /\ (f = Err EIo /\ (snd (inflate z t1) = ZBad \/ snd (inflate z (fst (inflate z t1))) = ZBad)
                           \/ load_plain o (fst (inflate z (fst (inflate z t1)))) = Fail f))).
Proof.
  intros E NE. unfold load, r_palworld in E. unfold bind at 1 in E.
  destruct (r_u32 (Cur 0 b [])) as [[n c1]|] eqn:E1; [|unfold r_u32, r_uint, take, bind in E1; cbn in E1;
    destruct (4 <=? len b); [discriminate|]; injection E1 as <-; congruence].
  apply (uint_inv 4) in E1 as (R1 & V1 & P1 & S1). unfold bind at 1 in E.
  destruct (r_u32 c1) as [[n' c2]|] eqn:E2; [|unfold r_u32, r_uint, take, bind in E2;
    destruct (4 <=? len (rest c1)); [discriminate|]; injection E2 as <-; congruence].
  apply (uint_inv 4) in E2 as (R2 & V2 & P2 & S2). unfold bind at 1 in E.
  destruct (take 3 c2) as [[m c3]|] eqn:E3; [|unfold take in E3;
    destruct (3 <=? len (rest c2)); [discriminate|]; injection E3 as <-; congruence].
  apply take_inv in E3 as (R3 & L3 & P3 & S3); [|lia].
  cbn [rest pos stk] in *. exists (le_bytes 4 n ++ le_bytes 4 n'), m, (rest c3).
  split; [rewrite R1, R2, R3, <- app_assoc; reflexivity|]. split; [rewrite len_app, !len_le_bytes; reflexivity|].
  split; [exact L3|].
  assert (EH : forall t', load z o GPalworld ((le_bytes 4 n ++ le_bytes 4 n') ++ m ++ t') =
    match (if negb (list_eqb Byte.eqb m plz_magic) then fail (Err (EMagic m))
           else c <- r_enum ETCompression (enum_of ctype_z ctypes) ;;
             fun k => match match c with
               | CNone => match take n k with Ok (d, _) => Ok d | Fail f => Fail f end
               | CZlib => zread_exact n (inflate z (rest k))
               | CTwice => zread_to_end (zagain z (inflate z (rest k)))
               end with Ok d => Ok ((c, d), k) | Fail f => Fail f end) (Cur 11 t' []) with
    | Fail f => Fail f
    | Ok ((c, d), _) => match load_plain o d with Ok (h, ps) => Ok (GFile (DPalworld c) h ps) | Fail f => Fail f end
    end).
  { intros t'. unfold load, r_palworld. rewrite <- app_assoc.
    assert (D : forall v, 0 <= v < 2 ^ (8 * Z.of_nat 4) -> forall q r,
      r_u32 (Cur q (le_bytes 4 v ++ r) []) = Ok (v, Cur (q + 4) r [])).
    { intros v V q r. assert (U : u_ok (Z.of_nat 4) v = true).
      { unfold u_ok, in_range. apply andb_true_intro. split; apply Z.leb_le; lia. }
      pose proof (dec_uint [] 4 v U q r) as X. rewrite len_le_bytes in X. exact X. }
    unfold bind at 1. rewrite (D n V1). unfold bind at 1. rewrite (D n' V2).
    unfold bind at 1. rewrite (dec_take_n [] 3 m L3), L3. reflexivity. }
  assert (N : le_val (firstn 4 (le_bytes 4 n ++ le_bytes 4 n')) = n).
  { change (firstn 4 (le_bytes 4 n ++ le_bytes 4 n')) with (le_bytes 4 n). rewrite le_val_bytes. apply Z.mod_small. exact V1. }
  rewrite N. clear N.
  destruct (list_eqb Byte.eqb m plz_magic) eqn:M; cbn [negb] in E, EH.
  2: { left. cbn in E. split; [|split; [congruence|intros t'; rewrite EH; cbn; congruence]].
       intros ->. vm_compute in M. discriminate. }
  right. assert (Mm : m = plz_magic) by (apply (list_eqb_eq Byte.eqb byte_eqb_eq); exact M).
  split; [exact Mm|]. clear M. unfold bind at 1 in E.
  unfold r_enum in E. unfold bind at 1 in E.
  destruct (r_i8 c3) as [[v c4]|] eqn:E4.
  2: { unfold r_i8, r_sint, r_uint, take, bind in E4. destruct (1 <=? len (rest c3)); [discriminate|].
       injection E4 as <-. congruence. }
  pose proof E4 as E5. apply (sint_inv 1) in E4 as (R4 & V4 & P4 & S4); [|lia].
  exists v, (le_bytes 1 v), (rest c4). split; [exact R4|].
  pose proof V4 as U. unfold s_ok, in_range in V4. apply andb_prop in V4 as [V4 V5]. apply Z.leb_le in V4, V5. split; [split; [reflexivity|lia]|].
  destruct (enum_of ctype_z ctypes v) as [c|] eqn:F.
  - right. unfold enum_of in F. apply find_some in F as [_ F]. apply Z.eqb_eq in F. subst v.
    unfold ret, bind in E. destruct c; cbn [ctype_z].
    + left. split; [reflexivity|]. unfold take in E.
      destruct (n <=? len (rest c4)); [|congruence].
      destruct (load_plain o (firstn (Z.to_nat n) (rest c4))) as [[h ps]|]; congruence.
    + right. left. split; [reflexivity|]. unfold zread_exact in E.
      destruct (n <=? len (fst (inflate z (rest c4)))).
      * right. destruct (load_plain o _) as [[h ps]|]; congruence.
      * left. destruct (snd (inflate z (rest c4))); split; congruence.
    + right. right. split; [reflexivity|]. unfold zread_to_end, zagain, zover in E. cbn [fst snd] in E.
      destruct (snd (inflate z (fst (inflate z (rest c4))))) eqn:Z2;
      destruct (snd (inflate z (rest c4))) eqn:Z1; cbn in E;
      first [left; split; [congruence|]; (left; reflexivity) || (right; reflexivity)
            |right; destruct (load_plain o _) as [[h ps]|]; congruence].
  - left. split; [exact (enum_of_none _ _ _ F)|].
    unfold bind, position, fail in E. cbn beta iota in E.
    assert (X : f = Err (EEnum ETCompression v 12)).
    { injection E as <-. do 3 f_equal. lia. }
    split; [exact X|]. intros t'. rewrite EH. subst f.
    unfold bind at 1, r_enum. unfold bind at 1. unfold r_i8.
    pose proof (dec_sint [] 1 v ltac:(lia) U 11 t') as D. change (Z.of_nat 1) with 1 in D. rewrite D. clear D.
    rewrite F. reflexivity.
Qed.
