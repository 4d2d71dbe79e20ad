(** Every reader of the model is [sane] (ReaderFacts.v). *)
From Coq Require Import ZArith List Bool String Lia ZifyBool ZifyNat.
From Verif Require Import Base Str Types Versions Text Props File BaseFacts ReaderFacts.
Import ListNotations.
Open Scope Z_scope.

(** The panics a read can raise; three of them only with debug assertions. *)
Definition read_panic (d : bool) (s : psite) : Prop :=
  match s with
  | PSeparator | PIndicator | PArrayIndex | PArrayStruct | PCapacity | PHistory | PGender => True
  | PByteLength | PSetLength | PStructIndex => d = true
  | PArgWidth | PBoolBody | PUtf8Slice => False
  end.

Ltac disc := let X := fresh in intros X; cbv beta in X; discriminate X.
Create HintDb sane.
Ltac sarith := cbn [num_width] in *; try lia.
Ltac snamed :=
  first [ eapply sane_weaken; [|apply Z.le_refl|]; [solve [eauto 3 with sane]|]; sarith; fail
        | eapply sane_weaken; [solve [eauto 3 with sane]| |]; sarith ].
Ltac sstep :=
  match goal with
  | |- sane _ _ _ (ret _) => apply sane_ret; sarith
  | |- sane _ _ _ (fail (Panic _)) => apply sane_panic; cbn; try exact I; auto
  | |- sane _ _ _ (bind position (fun p => fail (Err _))) =>
    apply sane_position_fail; intros; cbn in *; lia
  | |- sane _ _ _ (if ?b then _ else _) => destruct b eqn:?
  | |- sane _ _ _ (match ?x with _ => _ end) => destruct x eqn:?
  | |- sane _ _ _ (bind (rep _ _) _) => eapply sane_bind; [apply sane_rep|intros]
  | |- sane _ _ _ (bind (mapM _ _) _) => eapply sane_bind; [apply sane_mapM; intros|intros]
  | |- sane _ _ _ (bind (scoped _ _) _) => eapply sane_bind; [apply sane_scoped|intros]
  | |- sane _ _ _ (bind _ _) => eapply sane_bind; [solve [eauto 3 with sane]|intros]
  | |- sane _ _ _ (let _ := _ in _) => cbv zeta
  | |- sane _ _ _ (scoped _ _) => apply sane_scoped
  | |- sane _ _ _ _ => snamed
  end.
Ltac ssolve := repeat sstep.

Section Leaves.
Context (P : psite -> Prop).

Lemma s_position N : sane P N 0 position. Proof. apply sane_position. Qed.
Lemma s_take N n : sane P N n (take n). Proof. apply sane_take. Qed.
Hint Resolve s_position s_take sane_get_stk : sane.
Lemma s_uint N w : sane P N w (r_uint w).
Proof. unfold r_uint. ssolve. Qed.
Hint Resolve s_uint : sane.
Lemma s_sint N w : sane P N w (r_sint w).
Proof. unfold r_sint. ssolve. Qed.
Lemma s_u8 N : sane P N 1 r_u8. Proof. apply s_uint. Qed.
Lemma s_u16 N : sane P N 2 r_u16. Proof. apply s_uint. Qed.
Lemma s_u32 N : sane P N 4 r_u32. Proof. apply s_uint. Qed.
Lemma s_u64 N : sane P N 8 r_u64. Proof. apply s_uint. Qed.
Lemma s_i8 N : sane P N 1 r_i8. Proof. apply s_sint. Qed.
Lemma s_i32 N : sane P N 4 r_i32. Proof. apply s_sint. Qed.
Hint Resolve s_sint s_u8 s_u16 s_u32 s_u64 s_i8 s_i32 : sane.
Lemma s_guid N : sane P N 16 r_guid. Proof. apply s_take. Qed.
Hint Resolve s_guid : sane.

(** A reader whose errors mention the position at which it started. *)
Lemma sane_started N lo {A} (k : Z -> reader A) :
  (forall p c, pos c = p -> len (rest c) < N ->
     match k p c with
     | Ok (_, c') => exists bs, rest c = bs ++ rest c' /\ pos c' = pos c + len bs
                                /\ lo <= len bs /\ stk c' = stk c
     | Fail (Err e) => err_in (pos c) (pos c + len (rest c)) e
     | Fail (Panic s) => P s
     | Fail Oof => False
     end) -> sane P N lo (bind position k).
Proof. intros H c Hc. unfold bind, position. apply H; auto. Qed.

(** [sane] relative to an earlier position [p]: errors may point back to [p]. *)
Definition sane_from (p : Z) (N lo : Z) {A} (r : reader A) : Prop :=
  forall c, p <= pos c -> len (rest c) < N ->
     match r c with
     | Ok (_, c') => exists bs, rest c = bs ++ rest c' /\ pos c' = pos c + len bs
                                /\ lo <= len bs /\ stk c' = stk c
     | Fail (Err e) => err_in p (pos c + len (rest c)) e
     | Fail (Panic s) => P s
     | Fail Oof => False
     end.
Lemma sane_of_from N lo {A} (k : Z -> reader A) :
  (forall p, sane_from p N lo (k p)) -> sane P N lo (bind position k).
Proof.
  intros H. apply sane_started. intros p c E Hc. subst. apply H; auto; lia.
Qed.
Lemma from_sane p N lo {A} (r : reader A) : sane P N lo r -> sane_from p N lo r.
Proof.
  intros H c Hp Hc. specialize (H c Hc). destruct (r c) as [[a c']|[]]; auto.
  eapply err_in_weaken; [| |exact H]; lia.
Qed.
Lemma from_bind p N lo l1 {A B} (r : reader A) (k : A -> reader B) :
  sane_from p N l1 r -> (forall a, sane_from p (N - l1) (lo - l1) (k a)) ->
  sane_from p N lo (bind r k).
Proof.
  intros H1 H2 c Hp Hc. unfold bind. specialize (H1 c Hp Hc).
  destruct (r c) as [[a c1]|[]]; auto.
  destruct H1 as (b1 & E1 & P1 & L1 & S1).
  assert (HL : len (rest c) = len b1 + len (rest c1)) by (rewrite E1; apply len_app).
  pose proof (len_nonneg b1).
  specialize (H2 a c1 ltac:(lia) ltac:(lia)).
  destruct (k a c1) as [[x c2]|[]]; auto.
  - destruct H2 as (b2 & E2 & P2 & L2 & S2). exists (b1 ++ b2).
    rewrite E1, E2, len_app, app_assoc. repeat split; auto; lia || congruence.
  - eapply err_in_weaken; [| |exact H2]; lia.
Qed.
Lemma from_fail p N lo {A} f : (forall hi, p <= hi -> err_in p hi f) ->
  sane_from p N lo (@fail A (Err f)).
Proof. intros H c Hp Hc. apply H. pose proof (len_nonneg (rest c)). lia. Qed.
Lemma from_position_fail p N lo {A} (f : Z -> error) :
  (forall q lo hi, lo <= q <= hi -> err_in lo hi (f q)) ->
  sane_from p N lo (q <- position ;; @fail A (Err (f q))).
Proof. intros H c Hp Hc. cbn. apply H. pose proof (len_nonneg (rest c)). lia. Qed.

Lemma s_fstring N : sane P N 4 r_fstring.
Proof.
  unfold r_fstring. apply sane_of_from. intros p.
  eapply from_bind; [apply from_sane, s_i32|intros n].
  destruct (negb (inr _ _ n)) eqn:?; [apply from_fail; cbn; lia|].
  destruct (n =? 0) eqn:?; [apply from_sane, sane_ret; lia|].
  destruct (n <? 0) eqn:?.
  - eapply from_bind; [apply from_sane, s_take|intros buf].
    eapply from_bind; [apply from_sane, s_u16|intros t].
    intros c Hp Hc. unfold bind, position. pose proof (len_nonneg (rest c)).
    destruct (negb (t =? 0)); [unfold fail; cbn [err_in]; lia|].
    destruct (utf16_dec _); [|unfold fail; cbn [err_in]; lia].
    unfold ret. exists []. rewrite len_nil. repeat split; auto; lia.
  - eapply from_bind; [apply from_sane, s_take|intros buf].
    eapply from_bind; [apply from_sane, s_u8|intros t].
    intros c Hp Hc. unfold bind, position. pose proof (len_nonneg (rest c)).
    destruct (negb (t =? 0)); [unfold fail; cbn [err_in]; lia|].
    destruct (utf8_dec _); [|unfold fail; cbn [err_in]; lia].
    unfold ret. exists []. rewrite len_nil. repeat split; auto; lia.
Qed.
Hint Resolve s_fstring : sane.

(** At least a length, and one unit of terminator. *)
Lemma s_string N : sane P N 5 r_string.
Proof.
  intros c Hc. unfold r_string, bind, position.
  pose proof (s_fstring N c Hc) as H.
  destruct (r_fstring c) as [[[s|] c']|[]] eqn:E; auto.
  - cbn. destruct H as (bs & E1 & E2 & E3 & E4). exists bs. repeat split; auto.
    revert E. unfold r_fstring, bind, position, r_i32, r_sint, r_uint, r_u8, r_u16, r_uint, bind, ret, fail.
    unfold take at 1. destruct (4 <=? _) eqn:?; [|disc].
    destruct (negb _) eqn:?; [disc|]. destruct (_ =? 0) eqn:?; [disc|].
    assert (HL : forall x c0 c1 n, take n c0 = Ok (x, c1) ->
              len (rest c0) = Z.max 0 n + len (rest c1)).
    { clear. intros x c0 c1 n. unfold take. destruct (n <=? _) eqn:?; [|disc].
      intros E; injection E as <- <-. cbn. unfold len in *. rewrite skipn_length. lia. }
    assert (HR : len (rest c) = len bs + len (rest c')) by (rewrite E1; apply len_app).
    assert (H4 : len (rest c) = 4 + len (skipn (Z.to_nat 4) (rest c))).
    { unfold len in *. rewrite skipn_length. lia. }
    destruct (_ <? 0) eqn:?.
    + destruct (take _ _) as [[buf c1]|] eqn:T1; [|disc].
      destruct (take 2 _) as [[t c2]|] eqn:T2; [|disc].
      apply HL in T1, T2. cbn [rest] in T1.
      destruct (negb (le_val t =? 0)); [disc|]. destruct (utf16_dec _); [|disc].
      intros E; injection E as _ <-. lia.
    + destruct (take _ _) as [[buf c1]|] eqn:T1; [|disc].
      destruct (take 1 _) as [[t c2]|] eqn:T2; [|disc].
      apply HL in T1, T2. cbn [rest] in T1.
      destruct (negb (le_val t =? 0)); [disc|]. destruct (utf8_dec _); [|disc].
      intros E; injection E as _ <-. lia.
  - cbn. pose proof (len_nonneg (rest c)). lia.
Qed.
Hint Resolve s_string : sane.

Lemma s_boolw N w : sane P N w (r_boolw w).
Proof. unfold r_boolw. ssolve. Qed.
Lemma s_bool N : sane P N 1 r_bool. Proof. apply s_boolw. Qed.
Lemma s_b32 N : sane P N 4 r_b32. Proof. apply s_boolw. Qed.
Hint Resolve s_bool s_b32 : sane.
Lemma s_enum N {A} t (f : Z -> option A) : sane P N 1 (r_enum t f).
Proof. unfold r_enum. ssolve. Qed.
Hint Resolve s_enum : sane.

Lemma s_index0 N : sane P N 4 r_index0.
Proof.
  intros c Hc. unfold r_index0. pose proof (s_u32 N c Hc) as H. unfold bind.
  destruct (r_u32 c) as [[i c1]|[]]; auto. cbn.
  destruct H as (bs & E1 & E2 & E3 & E4).
  destruct (i =? 0); [exists bs; auto|]. cbn. rewrite E1, len_app.
  pose proof (len_nonneg (rest c1)). lia.
Qed.
Lemma s_term N : sane P N 1 r_term.
Proof.
  intros c Hc. unfold r_term. pose proof (s_u8 N c Hc) as H. unfold bind.
  destruct (r_u8 c) as [[i c1]|[]]; auto. cbn.
  destruct H as (bs & E1 & E2 & E3 & E4).
  destruct (i =? 0); [exists bs; auto|]. cbn. rewrite E1, len_app.
  pose proof (len_nonneg (rest c1)). lia.
Qed.
Hint Resolve s_index0 s_term : sane.
Lemma s_sized N lo {A} n (r : reader A) : sane P N lo r -> sane P N lo (sized n r).
Proof.
  intros H. unfold sized. apply sane_of_from. intros p.
  eapply from_bind; [apply from_sane, H|intros a].
  intros c Hp Hc. unfold bind, position. pose proof (len_nonneg (rest c)).
  destruct (_ =? n); [|unfold fail; cbn [err_in]; lia].
  unfold ret. exists []. rewrite len_nil. repeat split; auto; lia.
Qed.
Lemma s_check N n : sane P N 8 (check_size n).
Proof.
  unfold check_size. eapply sane_bind; [apply s_u64|intros v].
  intros c Hc. unfold bind, position. pose proof (len_nonneg (rest c)).
  destruct (_ =? n); [|unfold fail; cbn [err_in]; lia].
  unfold ret. exists []. rewrite len_nil. repeat split; auto; lia.
Qed.
Hint Resolve s_check : sane.
Lemma s_zero_or N lo s r : P s -> sane P N lo r -> sane P N lo (zero_or s r).
Proof.
  intros HP H. unfold zero_or. eapply sane_bind; [exact H|intros v].
  destruct (v =? 0); [apply sane_ret; lia|now apply sane_panic].
Qed.
Lemma s_headed N {V A} (vars : reader V) (body : Z -> V -> reader A) :
  sane P (N - 8) 0 vars -> (forall n v, sane P (N - 9) 0 (body n v)) ->
  sane P N 9 (headed vars body).
Proof.
  intros H1 H2. unfold headed.
  eapply sane_bind; [apply s_u32|intros n].
  eapply sane_bind; [apply s_index0|intros _].
  eapply sane_bind; [eapply sane_weaken; [exact H1|lia|apply Z.le_refl]|intros v].
  eapply sane_bind; [apply s_term|intros _].
  apply s_sized. eapply sane_weaken; [apply H2|lia|lia].
Qed.
Lemma s_headed_index N {A} (body : Z -> reader A) :
  (forall n, sane P (N - 9) 0 (body n)) -> sane P N 9 (headed_index body).
Proof.
  intros H2. unfold headed_index.
  eapply sane_bind; [apply s_u32|intros n].
  eapply sane_bind; [apply s_u32|intros i].
  eapply sane_bind; [apply s_term|intros _].
  apply s_sized. eapply sane_weaken; [apply H2|lia|lia].
Qed.
Lemma s_plain N {A} hdr (r : reader A) : sane P N 0 r -> sane P N 0 (plain hdr r).
Proof.
  intros H. unfold plain. destruct hdr; [|exact H].
  apply (sane_weaken P N 9); [apply s_headed|lia|lia].
  - apply sane_ret. lia.
  - intros. eapply sane_weaken; [exact H|lia|lia].
Qed.

(** ** Texts *)
Lemma s_numfmt N : sane P N 25 r_numfmt.
Proof. unfold r_numfmt, r_rounding. ssolve. Qed.
Hint Resolve s_numfmt : sane.
Lemma s_optfmt N : sane P N 4 r_optfmt.
Proof. unfold r_optfmt. ssolve. Qed.
Hint Resolve s_optfmt : sane.
Lemma s_count N : P PCapacity -> sane P N 4 r_count.
Proof. intros HP. unfold r_count. ssolve. Qed.

Lemma s_farg N vs rt : P PGender -> sane P (N - 1) 0 rt -> sane P N 1 (r_farg vs rt).
Proof.
  intros HP H. unfold r_farg.
  eapply sane_bind; [apply s_enum|intros ty].
  destruct ty; try (destruct (has_arg64 vs)); ssolve.
Qed.
Lemma s_named N vs rt : P PGender -> P PCapacity -> sane P (N - 1) 0 rt ->
  sane P N 4 (r_named vs rt).
Proof.
  intros HP HC H. unfold r_named.
  eapply sane_bind; [apply s_count; auto|intros n].
  eapply sane_bind; [apply sane_rep|intros l; apply sane_ret; lia].
  eapply sane_bind; [apply s_string|intros k].
  eapply sane_bind; [apply s_farg; [auto|eapply sane_weaken; [exact H|lia|lia]]|intros v].
  apply sane_ret. lia.
Qed.
Lemma s_hist N vs rt : P PGender -> P PCapacity -> P PHistory -> sane P (N - 1) 0 rt ->
  sane P N 1 (r_hist vs rt).
Proof.
  intros HP HC HH H. unfold r_hist.
  eapply sane_bind; [apply s_enum|intros ty].
  assert (Hrt : forall M, M <= N - 1 -> sane P M 0 rt)
    by (intros; eapply sane_weaken; [exact H|lia|lia]).
  assert (Hfa : forall M, M <= N -> sane P M 1 (r_farg vs rt)).
  { intros. apply s_farg; auto. apply Hrt. lia. }
  assert (Hna : forall M, M <= N -> sane P M 4 (r_named vs rt)).
  { intros. apply s_named; auto. apply Hrt. lia. }
  assert (Hfa' : forall M, M <= N -> sane P M 0 (r_farg vs rt)).
  { intros. eapply sane_weaken; [apply Hfa; eauto|lia|lia]. }
  destruct ty; unfold r_style, r_transform;
    try (destruct (has_culture vs));
    repeat first
      [ eapply sane_bind;
        [first [apply Hrt; lia | apply Hna; lia | apply Hfa; lia | apply s_count; assumption
               | apply sane_rep, Hfa'; lia]|intros]
      | sstep ].
Qed.
Lemma s_text vs : P PGender -> P PCapacity -> P PHistory ->
  forall n, sane P (Z.of_nat n) 5 (r_text n vs).
Proof.
  intros HP HC HH. induction n as [|n IH]; cbn [r_text].
  - intros c Hc. pose proof (len_nonneg (rest c)). lia.
  - eapply sane_bind; [apply s_u32|intros f].
    eapply sane_bind; [apply s_hist; auto; eapply sane_weaken; [exact IH|lia|lia]|intros h].
    ssolve.
Qed.
End Leaves.

#[export] Hint Resolve s_position s_take sane_get_stk s_uint s_sint s_u8 s_u16 s_u32 s_u64 s_i8
  s_i32 s_guid s_fstring s_string s_bool s_b32 s_enum s_index0 s_term s_check s_numfmt
  s_optfmt : sane.

(** ** Properties *)
Section Props.
Context (o : opts).
Let P := read_panic (dbg o).

Lemma s_rnum N k : sane P N (num_width k) (r_num k).
Proof. unfold r_num. destruct (num_signed k); auto with sane. Qed.
Hint Resolve s_rnum : sane.
Lemma num_width_pos k : 1 <= num_width k.
Proof. destruct k; cbn; lia. Qed.

Lemma s_zero N lo s r : P s -> sane P N lo r -> sane P N lo (zero_or s r).
Proof. apply s_zero_or. Qed.

Lemma s_pnum N k hdr : sane P N 0 (r_pnum k hdr).
Proof.
  unfold r_pnum. pose proof (num_width_pos k).
  apply sane_bind with (l1 := 0).
  - destruct hdr; [|apply sane_ret; lia].
    eapply sane_bind; [auto with sane|intros _].
    apply s_zero; [exact I|]. snamed.
  - intros _. eapply sane_bind; [auto with sane|intros z]. apply sane_ret. lia.
Qed.
Lemma s_bytev N sug : sane P N 1 (r_bytev o sug).
Proof.
  unfold r_bytev. destruct sug as [e|].
  - destruct ((e =? 0) && dbg o) eqn:E.
    + apply sane_panic. apply andb_true_iff in E as [_ E]. exact E.
    + destruct (_ || _); ssolve.
  - ssolve.
Qed.
Hint Resolve s_bytev : sane.
Lemma s_pbyte N hdr sug : sane P N 0 (r_pbyte o hdr sug).
Proof.
  unfold r_pbyte. destruct hdr.
  - eapply sane_bind; [auto with sane|intros n].
    eapply sane_bind; [apply s_zero; [exact I|auto with sane]|intros _].
    eapply sane_bind; [auto with sane|intros nm].
    eapply sane_bind; [apply s_zero; [exact I|auto with sane]|intros _].
    ssolve.
  - ssolve.
Qed.
Lemma s_pbool N hdr : sane P N 0 (r_pbool hdr).
Proof.
  unfold r_pbool. apply sane_bind with (l1 := 0).
  - destruct hdr; ssolve.
  - intros _. eapply sane_bind; [auto with sane|intros b].
    apply sane_bind with (l1 := 0).
    + destruct hdr; [|ssolve]. apply s_zero; [exact I|]. snamed.
    + intros _. ssolve.
Qed.
Lemma s_headed0 N {V A} (vars : reader V) (body : Z -> V -> reader A) :
  sane P (N - 8) 0 vars -> (forall n v, sane P (N - 9) 0 (body n v)) ->
  sane P N 0 (headed vars body).
Proof. intros. apply (sane_weaken P N 9); [apply s_headed; auto|lia|lia]. Qed.
Lemma s_penum N hdr : sane P N 0 (r_penum hdr).
Proof. unfold r_penum. destruct hdr; [apply s_headed0; intros|]; ssolve. Qed.
Lemma s_pname N hdr : sane P N 0 (r_pname hdr).
Proof.
  unfold r_pname. destruct hdr; [|ssolve].
  apply (sane_weaken P N 9); [apply s_headed_index|lia|lia]. intros. ssolve.
Qed.
Lemma s_pstr N hdr : sane P N 0 (r_pstr hdr).
Proof. apply s_plain. ssolve. Qed.
Lemma s_pobject N hdr : sane P N 0 (r_pobject hdr).
Proof. apply s_plain. ssolve. Qed.
Lemma s_delegate N : sane P N 10 r_delegate.
Proof. unfold r_delegate. ssolve. Qed.
Hint Resolve s_delegate : sane.
Lemma s_pdelegate N hdr : sane P N 0 (r_pdelegate hdr).
Proof. apply s_plain. ssolve. Qed.
Lemma s_pmulti N i hdr : sane P N 0 (r_pmulti i hdr).
Proof. apply s_plain. ssolve. Qed.
Lemma s_pfieldpath N hdr : sane P N 0 (r_pfieldpath hdr).
Proof. apply s_plain. ssolve. Qed.
Lemma s_ptext n vs hdr : sane P (Z.of_nat n) 0 (r_ptext n vs hdr).
Proof.
  apply s_plain. eapply sane_bind; [apply s_text; exact I|intros t]. ssolve.
Qed.
Lemma s_unknown N ty n : sane P N 0 (r_unknown ty n).
Proof.
  unfold r_unknown. apply sane_bind with (l1 := 0); [|intros; ssolve].
  intros c Hc. pose proof (sane_take P N n c Hc) as H.
  destruct (take n c) as [[a c']|[]]; auto. destruct H as (bs & ? & ? & ? & ?).
  exists bs. pose proof (len_nonneg bs). repeat split; auto.
Qed.
Hint Resolve s_unknown : sane.
Lemma s_unknown_header N ty : sane P N 0 (r_unknown_header ty).
Proof.
  unfold r_unknown_header.
  eapply sane_bind; [auto with sane|intros n].
  eapply sane_bind; [apply s_zero; [exact I|auto with sane]|intros _].
  eapply sane_bind; [apply s_zero; [exact I|auto with sane]|intros _].
  snamed.
Qed.

(** Containers, for fuel [n] and a nested reader that is sane below it. *)
Section Nested.
Context (n : nat) (vs : list (guid * Z)) (rp : preader).
Hypothesis Hrp : forall ty hdr sug, sane P (Z.of_nat n - 1) 0 (rp ty hdr sug).

Lemma s_rp N ty hdr sug : N < Z.of_nat n -> sane P N 0 (rp ty hdr sug).
Proof. intros. eapply sane_weaken; [apply Hrp|lia|lia]. Qed.

Lemma s_custom m : forall acc, (m <= n)%nat -> sane P (Z.of_nat m) 5 (r_custom m o rp acc).
Proof.
  induction m as [|m IH]; intros acc Hm; cbn [r_custom].
  - intros c Hc. pose proof (len_nonneg (rest c)). lia.
  - eapply sane_bind; [auto with sane|intros nm].
    destruct (str_eqb nm s_none); [ssolve|].
    eapply sane_bind; [auto with sane|intros ty].
    eapply sane_bind; [apply sane_scoped, s_rp; lia|intros p].
    destruct (dbg o && _) eqn:E.
    + apply sane_panic. apply andb_true_iff in E as [E _]. exact E.
    + eapply sane_weaken; [apply IH|lia|lia]. lia.
Qed.

Lemma s_sval N ty : N <= Z.of_nat n -> sane P N 0 (r_sval n o vs rp ty).
Proof.
  intros HN. unfold r_sval. destruct (fixed_of vs (skind_of ty)) as [x|].
  - eapply sane_bind; [apply sane_mapM; intros k|intros l; ssolve].
    pose proof (num_width_pos k). snamed.
  - assert (H : sane P N 0 (l <- r_custom n o rp [] ;; ret (SCustom l))).
    { eapply sane_bind; [eapply sane_weaken; [apply s_custom|lia|apply Z.le_refl]|intros]; [lia|].
      ssolve. }
    destruct (skind_of ty); auto.
    + ssolve.
    + eapply sane_bind; [apply s_count; exact I|intros k]. ssolve.
Qed.

Lemma s_pstruct N : N <= Z.of_nat n -> sane P N 0 (r_pstruct n o vs rp).
Proof.
  intros HN. unfold r_pstruct. apply s_headed0; [ssolve|intros k tg].
  eapply sane_bind; [apply s_sval; lia|intros v]. ssolve.
Qed.
Lemma s_hinted N : N <= Z.of_nat n -> sane P N 0 (r_hinted n o vs rp).
Proof.
  intros HN. unfold r_hinted. eapply sane_bind; [auto with sane|intros st].
  intros c Hc. unfold bind at 1, position. pose proof (len_nonneg (rest c)).
  destruct (hints o (join_path st)); [|unfold fail; cbn [err_in]; lia].
  refine (_ c Hc). eapply sane_bind; [apply s_sval; lia|intros v]. ssolve.
Qed.

Lemma s_of_array N ty l : sane P N 0 (of_outcome (array_new ty None l)).
Proof. unfold array_new. cbn. ssolve. Qed.
Lemma repn_values t k : forall c l c',
  repn k (v <- r_sval n o vs rp t ;; ret (PSValue v)) c = Ok (l, c') -> exists r, opt_map as_sval l = Some r.
Proof.
  induction k as [|k IH]; intros c l c' E; cbn [repn] in E.
  - injection E as <- _. exists []. reflexivity.
  - unfold bind in E. destruct (r_sval n o vs rp t c) as [[v c1]|]; [|discriminate]. cbn [ret] in E. unfold ret in E.
    destruct (repn k _ c1) as [[l2 c2]|] eqn:E2; [|discriminate]. injection E as <- _.
    destruct (IH _ _ _ E2) as [r Er]. exists (v :: r). cbn. now rewrite Er.
Qed.
Lemma s_struct_array N count : N <= Z.of_nat n -> sane P N 0 (r_struct_array n o vs rp count).
Proof.
  intros HN. unfold r_struct_array.
  eapply sane_bind; [auto with sane|intros fn].
  eapply sane_bind; [auto with sane|intros ty].
  destruct (negb _); [apply sane_panic; exact I|].
  eapply sane_bind; [auto with sane|intros size].
  eapply sane_bind; [auto with sane|intros tn].
  eapply sane_bind; [auto with sane|intros g].
  eapply sane_bind; [auto with sane|intros _].
  eapply sane_bind; [auto with sane|intros start].
  eapply sane_bind; [apply sane_rep|intros l].
  - eapply sane_bind; [apply s_sval; lia|intros v]. ssolve.
  - intros c Hc. unfold bind, position. pose proof (len_nonneg (rest c)).
    destruct (_ =? size); [|unfold fail; cbn [err_in]; lia].
    unfold ret. exists []. rewrite len_nil. repeat split; auto; lia.
Qed.
Lemma struct_array_values count c x c' : r_struct_array n o vs rp count c = Ok (x, c') -> exists r, opt_map as_sval (snd x) = Some r.
Proof.
  unfold r_struct_array. unfold bind at 1. destruct (r_string c) as [[fn c1]|]; [|discriminate].
  unfold bind at 1. destruct (r_string c1) as [[ty c2]|]; [|discriminate]. destruct (negb _); [discriminate|].
  unfold bind at 1. destruct (r_u64 c2) as [[size c3]|]; [|discriminate].
  unfold bind at 1. destruct (r_string c3) as [[tn c4]|]; [|discriminate].
  unfold bind at 1. destruct (r_guid c4) as [[g c5]|]; [|discriminate].
  unfold bind at 1. destruct (r_term c5) as [[u c6]|]; [|discriminate].
  unfold bind at 1. unfold position at 1. unfold bind at 1. rewrite rep_repn.
  destruct (repn _ _ c6) as [[l c7]|] eqn:E; [|discriminate]. unfold bind, position.
  destruct (_ =? size); [|discriminate]. intros H. injection H as <- _. cbn [snd]. eapply repn_values; exact E.
Qed.
Lemma s_array N length ty : N <= Z.of_nat n -> sane P N 0 (r_array n o vs rp length ty).
Proof.
  intros HN. unfold r_array. eapply sane_bind; [auto with sane|intros count].
  assert (H : sane P (N - 4) (0 - 4)
    (let sug := if (0 <? count) && (4 <=? length) then Some ((length - 4) / count) else None in
     l <- rep count (rp ty false sug) ;;
     a <- of_outcome (array_new ty None l) ;; ret (PArray a))).
  { cbv zeta. eapply sane_bind; [apply sane_rep, s_rp; lia|intros l].
    eapply sane_bind; [apply s_of_array|intros a]. ssolve. }
  destruct (kind_of ty) eqn:EK; try exact H.
  intros c Hc. pose proof (s_struct_array (N - 4) count ltac:(lia) c Hc) as S. unfold bind.
  destruct (r_struct_array n o vs rp count c) as [[x c1]|] eqn:E; [|exact S].
  apply struct_array_values in E as [r Er]. unfold array_new.
  destruct x as [[[? ?] ?] l]. cbn [fst snd] in *. rewrite EK, Er. cbn [of_outcome]. unfold ret.
  destruct S as (bs & S1 & S2 & S3 & S4). exists bs. repeat split; auto; lia.
Qed.
Lemma s_set N length ty : N <= Z.of_nat n -> sane P N 0 (r_set o rp length ty).
Proof.
  intros HN. unfold r_set. eapply sane_bind; [auto with sane|intros flags].
  eapply sane_bind; [auto with sane|intros count].
  destruct (0 <? count); [|ssolve].
  destruct ((length <? 8) && dbg o) eqn:E.
  - apply sane_panic. apply andb_true_iff in E as [_ E]. exact E.
  - eapply sane_bind; [apply sane_rep, s_rp; lia|intros l]. ssolve.
Qed.
Lemma s_map N kt vt : N <= Z.of_nat n -> sane P N 0 (r_map o rp kt vt).
Proof.
  intros HN. unfold r_map. eapply sane_bind; [auto with sane|intros flags].
  eapply sane_bind; [auto with sane|intros count].
  eapply sane_bind; [apply sane_rep|intros l; ssolve].
  unfold r_entry.
  eapply sane_bind; [apply sane_scoped, s_rp; lia|intros k].
  eapply sane_bind; [apply sane_scoped, s_rp; lia|intros v]. ssolve.
Qed.
Lemma s_body ty hdr sug : sane P (Z.of_nat n) 0 (r_body n o vs rp ty hdr sug).
Proof.
  unfold r_body. destruct (kind_of ty);
    auto using s_pnum, s_pbyte, s_pbool, s_penum, s_pstr, s_pname, s_pobject, s_pdelegate,
      s_pmulti, s_pfieldpath, s_ptext.
  - destruct hdr; [apply s_pstruct|apply s_hinted]; lia.
  - destruct hdr; [|unfold in_array; ssolve].
    apply s_headed0; [ssolve|intros]. apply s_array. lia.
  - destruct hdr; [|unfold in_array; ssolve].
    apply s_headed0; [ssolve|intros]. apply s_set. lia.
  - destruct hdr; [|unfold in_array; ssolve].
    apply s_headed0; [ssolve|intros]. apply s_map. lia.
  - destruct hdr; [apply s_unknown_header|]. destruct sug; [apply s_unknown|ssolve].
Qed.
End Nested.

Lemma s_prop vs n : forall ty hdr sug, sane P (Z.of_nat n) 0 (r_prop n o vs ty hdr sug).
Proof.
  induction n as [|n IH]; intros; cbn [r_prop].
  - intros c Hc. pose proof (len_nonneg (rest c)). lia.
  - apply sane_scoped, s_body. intros. eapply sane_weaken; [apply IH|lia|lia].
Qed.

Lemma s_entries vs m n : (n <= m)%nat -> sane P (Z.of_nat n) 5 (r_entries n m o vs).
Proof.
  induction n as [|n IH]; intros Hm; cbn [r_entries].
  - intros c Hc. pose proof (len_nonneg (rest c)). lia.
  - eapply sane_bind; [auto with sane|intros nm].
    destruct (str_eqb nm s_none); [ssolve|].
    eapply sane_bind; [auto with sane|intros ty].
    eapply sane_bind; [apply sane_scoped; eapply sane_weaken; [apply s_prop| |apply Z.le_refl]|intros p];
      [lia|].
    eapply sane_bind; [eapply sane_weaken; [apply IH| |apply Z.le_refl]|intros l]; [lia|lia|].
    ssolve.
Qed.
End Props.

(** ** Header and file *)
Lemma s_checked P N f ok : sane P N 4 (r_checked f ok).
Proof.
  unfold r_checked. eapply sane_bind; [auto with sane|intros v].
  destruct (ok v); [ssolve|apply sane_fail; cbn; auto].
Qed.
Lemma s_fengine P N : sane P N 15 r_fengine.
Proof. unfold r_fengine. ssolve. Qed.
Lemma s_version P N : sane P N 20 r_version.
Proof. unfold r_version. ssolve. Qed.
#[export] Hint Resolve s_checked s_fengine s_version : sane.
Lemma s_header P N : sane P N 40 r_header.
Proof.
  unfold r_header.
  eapply sane_bind; [auto with sane|intros _].
  eapply sane_bind; [auto with sane|intros version].
  eapply sane_bind; [auto with sane|intros package].
  apply sane_bind with (l1 := 0).
  { destruct (3 <=? version); ssolve. }
  intros ue5. ssolve.
Qed.
Lemma s_file o n : sane (read_panic (dbg o)) (Z.of_nat n) 45 (r_file n o).
Proof.
  unfold r_file. eapply sane_bind; [apply s_header|intros h].
  eapply sane_bind; [eapply sane_weaken; [apply s_entries|lia|apply Z.le_refl]|intros l]; [lia|].
  ssolve.
Qed.
