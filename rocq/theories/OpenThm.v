(** A read that runs out of input could go either way: the input followed by enough bytes 0xFF is
    decided.  (In a run of 0xFF every string is refused, so no loop goes on for long.) *)
From Coq Require Import ZArith List Bool String Lia ZifyBool ZifyNat.
From Verif Require Import Base Str Types Versions Text Props File BaseFacts ReaderFacts Rel ReadThm.
Import ListNotations.
Open Scope Z_scope.

Definition ff (m : nat) : list byte := repeat Byte.xff m.
Lemma len_ff m : len (ff m) = Z.of_nat m.
Proof. unfold len, ff. now rewrite repeat_length. Qed.
Lemma ff_app m j : ff (m + j) = ff m ++ ff j.
Proof. apply repeat_app. Qed.

(** From [s] followed by 0xFF without end: the reader ends, having used [m] of these, with a value
    and what is left of [s], or with a fault that has nothing to do with the end of the input. *)
Definition decided (s : list byte) {A} (Q : A -> list byte -> Prop) (r : reader A) : Prop :=
  forall p st, exists m,
    (exists a p' s' st', Q a s' /\ forall j, r (Cur p (s ++ ff (m + j)) st) = Ok (a, Cur p' (s' ++ ff j) st'))
    \/ (exists f, f <> Err EEof /\ f <> Oof /\ forall j, r (Cur p (s ++ ff (m + j)) st) = Fail f).
(** The same for every [s] shorter than [N]; at least [d] bytes of it are used. *)
Definition ends (N d : Z) {A} (r : reader A) : Prop :=
  forall s, len s < N -> decided s (fun _ s' => len s' + d <= len s) r.

Lemma decided_weaken s {A} (Q Q' : A -> list byte -> Prop) r :
  decided s Q r -> (forall a s', Q a s' -> Q' a s') -> decided s Q' r.
Proof.
  intros H I p st. destruct (H p st) as (m & [(a & p' & s' & st' & Hq & E)|E]); exists m; [left|right; exact E].
  exists a, p', s', st'. auto.
Qed.
Lemma decided_bind s {A B} (Q : A -> list byte -> Prop) (Q' : B -> list byte -> Prop) r k :
  decided s Q r -> (forall a s1, Q a s1 -> decided s1 Q' (k a)) -> decided s Q' (bind r k).
Proof.
  intros H1 H2 p st. destruct (H1 p st) as (m & [(a & p1 & s1 & st1 & Hq & E)|(f & F1 & F2 & E)]).
  - destruct (H2 a s1 Hq p1 st1) as (m2 & [(x & p2 & s2 & st2 & Hq2 & E2)|(f & F1 & F2 & E2)]); exists (m + m2)%nat.
    + left. exists x, p2, s2, st2. split; [exact Hq2|]. intros j. unfold bind. rewrite <- Nat.add_assoc, E. apply E2.
    + right. exists f. repeat split; auto. intros j. unfold bind. rewrite <- Nat.add_assoc, E. apply E2.
  - exists m. right. exists f. repeat split; auto. intros j. unfold bind. now rewrite E.
Qed.
Lemma ends_weaken N d N' d' {A} (r : reader A) : ends N d r -> N' <= N -> d' <= d -> ends N' d' r.
Proof. intros H L1 L2 s Hs. eapply decided_weaken; [apply H; lia|]. cbv beta. intros. lia. Qed.
Lemma ends_bind N d l1 {A B} (r : reader A) (k : A -> reader B) :
  ends N l1 r -> (forall a, ends (N - l1) (d - l1) (k a)) -> ends N d (bind r k).
Proof.
  intros H1 H2 s Hs. eapply decided_bind; [apply H1; exact Hs|]. cbv beta. intros a s1 L.
  eapply decided_weaken; [apply H2; lia|]. cbv beta. intros. lia.
Qed.
Lemma ends_ret N d {A} (a : A) : d <= 0 -> ends N d (ret a).
Proof. intros D s _ p st. exists O. left. exists a, p, s, st. split; [lia|reflexivity]. Qed.
Lemma ends_fail N d {A} f : f <> Err EEof -> f <> Oof -> ends N d (@fail A f).
Proof. intros F1 F2 s _ p st. exists O. right. exists f. auto. Qed.
Lemma ends_position N : ends N 0 position.
Proof. intros s _ p st. exists O. left. exists p, p, s, st. split; [lia|reflexivity]. Qed.
Lemma ends_get_stk N : ends N 0 get_stk.
Proof. intros s _ p st. exists O. left. exists st, p, s, st. split; [lia|reflexivity]. Qed.
Lemma decided_ret s {A} (Q : A -> list byte -> Prop) a : Q a s -> decided s Q (ret a).
Proof. intros H p st. exists O. left. exists a, p, s, st. split; [exact H|reflexivity]. Qed.
Lemma decided_position s {A} (Q : A -> list byte -> Prop) k : (forall q, decided s Q (k q)) -> decided s Q (bind position k).
Proof. intros H p st. exact (H p p st). Qed.
Lemma decided_take s n : decided s (fun a s' => len s' <= len s /\ (s <> [] -> 0 < n -> len s' < len s)
  /\ (s = [] -> a = ff (Z.to_nat n) /\ s' = [])) (take n).
Proof.
  intros p st. destruct (Z.leb_spec n (len s)) as [L|L].
  - exists O. left. exists (firstn (Z.to_nat n) s), (p + Z.max 0 n), (skipn (Z.to_nat n) s), st.
    split; [|intros j; unfold take; cbn [rest pos stk]].
    + unfold len in *. rewrite skipn_length. repeat split.
      * lia.
      * destruct s; [congruence|]. cbn [List.length] in *. lia.
      * subst s. cbn in L. replace (Z.to_nat n) with O by lia. reflexivity.
      * subst s. apply skipn_nil.
    + rewrite len_app. pose proof (len_nonneg (ff (0 + j))). destruct (Z.leb_spec n (len s + len (ff (0 + j)))); [|lia].
      rewrite firstn_app, skipn_app. replace (Z.to_nat n - List.length s)%nat with O by (unfold len in L; lia).
      cbn [firstn skipn Nat.add]. rewrite app_nil_r. reflexivity.
  - pose proof (len_nonneg s). exists (Z.to_nat n - List.length s)%nat. left.
    exists (s ++ ff (Z.to_nat n - List.length s)), (p + n), [], st. split.
    + split; [rewrite len_nil; lia|]. split; [|intros ->; cbn; now rewrite Nat.sub_0_r].
      intros NE _. rewrite len_nil. destruct s; [congruence|]. rewrite len_cons. pose proof (len_nonneg s). lia.
    + intros j. unfold take. cbn [rest pos stk]. rewrite ff_app, app_assoc, len_app.
      set (a := s ++ ff (Z.to_nat n - List.length s)).
      assert (La : List.length a = Z.to_nat n).
      { unfold a, ff. rewrite app_length, repeat_length. unfold len in L. lia. }
      replace (len a) with n by (unfold len; lia). pose proof (len_nonneg (ff j)).
      destruct (Z.leb_spec n (n + len (ff j))); [|lia].
      rewrite <- La, firstn_app, Nat.sub_diag, firstn_all, skipn_app, skipn_all, Nat.sub_diag. cbn [firstn skipn app].
      rewrite app_nil_r, Z.max_r by lia. reflexivity.
Qed.
Lemma ends_take N n : ends N 0 (take n).
Proof. intros s _. eapply decided_weaken; [apply decided_take|]. cbv beta. intros a s' (L & _). lia. Qed.
Lemma ends_scoped N d {A} s (r : reader A) : ends N d r -> ends N d (scoped s r).
Proof.
  intros H x Hx p st. destruct (H x Hx p (s :: st)) as (m & [(a & p' & s' & st' & Hq & E)|(f & F1 & F2 & E)]); exists m.
  - left. exists a, p', s', (tl st'). split; [exact Hq|]. intros j. unfold scoped, bind, push. cbn [pos rest stk]. now rewrite E.
  - right. exists f. repeat split; auto. intros j. unfold scoped, bind, push. cbn [pos rest stk]. now rewrite E.
Qed.
Lemma ends_repp N {A} (r : reader A) : ends N 0 r -> forall n, ends N 0 (rep_pos n r).
Proof.
  intros H. induction n as [n IH|n IH|]; cbn [rep_pos].
  - eapply ends_bind; [exact H|intros a]. rewrite !Z.sub_0_r. eapply ends_bind; [exact IH|intros l1].
    rewrite !Z.sub_0_r. eapply ends_bind; [exact IH|intros l2]. apply ends_ret. lia.
  - eapply ends_bind; [exact IH|intros l1].
    rewrite !Z.sub_0_r. eapply ends_bind; [exact IH|intros l2]. apply ends_ret. lia.
  - eapply ends_bind; [exact H|intros a]. apply ends_ret. lia.
Qed.
Lemma ends_rep N {A} n (r : reader A) : ends N 0 r -> ends N 0 (rep n r).
Proof. intros H. destruct n; cbn [rep]; [apply ends_ret; lia|apply ends_repp, H|apply ends_ret; lia]. Qed.
Lemma ends_mapM N {A B} (f : A -> reader B) l : (forall a, ends N 0 (f a)) -> ends N 0 (mapM f l).
Proof.
  intros H. induction l as [|a l IH]; cbn [mapM].
  - apply ends_ret. lia.
  - eapply ends_bind; [apply H|intros b]. rewrite !Z.sub_0_r.
    eapply ends_bind; [exact IH|intros l']. apply ends_ret. lia.
Qed.

Create HintDb ends.
Ltac earith := try lia.
Ltac enamed :=
  first [ eapply ends_weaken; [|apply Z.le_refl|]; [solve [eauto 3 with ends]|]; earith; fail
        | eapply ends_weaken; [solve [eauto 3 with ends]| |]; earith ].
Ltac estep :=
  match goal with
  | |- ends _ _ (ret _) => apply ends_ret; earith
  | |- ends _ _ (fail _) => apply ends_fail; discriminate
  | |- ends _ _ (if ?b then _ else _) => destruct b eqn:?
  | |- ends _ _ (match ?x with _ => _ end) => destruct x eqn:?
  | |- ends _ _ (bind (rep _ _) _) => eapply ends_bind; [apply ends_rep|intros]
  | |- ends _ _ (bind (mapM _ _) _) => eapply ends_bind; [apply ends_mapM; intros|intros]
  | |- ends _ _ (bind (scoped _ _) _) => eapply ends_bind; [apply ends_scoped|intros]
  | |- ends _ _ (bind _ _) => eapply ends_bind; [solve [eauto 3 with ends]|intros]
  | |- ends _ _ (let _ := _ in _) => cbv zeta
  | |- ends _ _ (scoped _ _) => apply ends_scoped
  | |- ends _ _ _ => enamed
  end.
Ltac esolve := repeat estep.
#[export] Hint Resolve ends_position ends_take ends_get_stk : ends.

Lemma e_uint N w : ends N 0 (r_uint w). Proof. unfold r_uint. esolve. Qed.
#[export] Hint Resolve e_uint : ends.
Lemma e_sint N w : ends N 0 (r_sint w). Proof. unfold r_sint. esolve. Qed.
Lemma e_u8 N : ends N 0 r_u8. Proof. apply e_uint. Qed.
Lemma e_u16 N : ends N 0 r_u16. Proof. apply e_uint. Qed.
Lemma e_u32 N : ends N 0 r_u32. Proof. apply e_uint. Qed.
Lemma e_u64 N : ends N 0 r_u64. Proof. apply e_uint. Qed.
Lemma e_i8 N : ends N 0 r_i8. Proof. apply e_sint. Qed.
Lemma e_i32 N : ends N 0 r_i32. Proof. apply e_sint. Qed.
Lemma e_guid N : ends N 0 r_guid. Proof. apply ends_take. Qed.
#[export] Hint Resolve e_sint e_u8 e_u16 e_u32 e_u64 e_i8 e_i32 e_guid : ends.

(** A string takes something of [s]: among the 0xFF the length is -1 and the terminator wrong. *)
Lemma take_ff n p j st : take (Z.of_nat n) (Cur p (ff (n + j)) st) = Ok (ff n, Cur (p + Z.of_nat n) (ff j) st).
Proof.
  unfold take. cbn [rest pos stk]. rewrite len_ff. destruct (Z.leb_spec (Z.of_nat n) (Z.of_nat (n + j))); [|lia].
  rewrite Nat2Z.id, ff_app, Z.max_r by lia.
  assert (L : List.length (ff n) = n) by apply repeat_length.
  rewrite firstn_app, L, Nat.sub_diag, skipn_app, L, Nat.sub_diag. cbn [firstn skipn]. rewrite app_nil_r.
  rewrite <- L at 1 4. rewrite firstn_all, skipn_all. reflexivity.
Qed.
Lemma fstring_ff p j st : r_fstring (Cur p (ff (6 + j)) st) = Fail (Err (EStrTerm 65535 (p + 6))).
Proof.
  unfold r_fstring. unfold bind at 1, position at 1. unfold bind at 1. unfold r_i32, r_sint, r_uint. unfold bind at 1. unfold bind at 1.
  change (6 + j)%nat with (4 + (2 + j))%nat. change 4 with (Z.of_nat 4) at 1. rewrite take_ff.
  unfold ret at 1. unfold ret at 1. change (to_signed 4 (le_val (ff 4))) with (-1). cbn [negb inr].
  change (negb (inr (-131072) 131072 (-1))) with false. cbv iota. change (-1 =? 0) with false. change (-1 <? 0) with true. cbv iota.
  change (2 * (- -1 - 1)) with 0. unfold bind at 1.
  change 0 with (Z.of_nat 0). change (2 + j)%nat with (0 + (2 + j))%nat. rewrite take_ff. unfold bind at 1.
  unfold r_u16, r_uint. unfold bind at 1. change 2 with (Z.of_nat 2) at 1. rewrite take_ff. unfold ret at 1.
  unfold bind, position. change (le_val (ff 2)) with 65535. cbn [negb Z.eqb pos fail]. unfold fail.
  change (Z.of_nat 0) with 0. cbn [negb]. change (p + Z.of_nat 4 + 0 + Z.of_nat 2) with (p + 4 + 0 + 2). replace (p + 4 + 0 + 2) with (p + 6) by lia. reflexivity.
Qed.
Lemma e_fstring N : ends N 1 r_fstring.
Proof.
  intros s Hs. destruct s as [|b s].
  - intros p st. exists 6%nat. right. exists (Err (EStrTerm 65535 (p + 6))). repeat split; try discriminate.
    intros j. apply fstring_ff.
  - unfold r_fstring. apply decided_position. intros start.
    eapply decided_bind with (Q := fun _ s' => len s' + 1 <= len (b :: s)).
    { unfold r_i32, r_sint, r_uint. eapply decided_bind with (Q := fun _ s' => len s' + 1 <= len (b :: s)).
      - eapply decided_bind; [apply decided_take|]. cbv beta. intros a s2 (_ & H & _).
        specialize (H ltac:(discriminate) ltac:(lia)). apply decided_ret. lia.
      - cbv beta. intros a s2 H. apply decided_ret. exact H. }
    cbv beta. intros n s1 L1. cut (ends N 0
      (if negb (inr (-131072) 131072 n) then fail (Err (EString n start))
       else if n =? 0 then ret None
       else if n <? 0 then
         buf <- take (2 * (- n - 1)) ;; t <- r_u16 ;; p <- position ;;
         if negb (t =? 0) then fail (Err (EStrTerm t p))
         else match utf16_dec (words buf) with Some s => ret (Some s) | None => fail (Err (EUtf16 start)) end
       else
         buf <- take (n - 1) ;; t <- r_u8 ;; p <- position ;;
         if negb (t =? 0) then fail (Err (EStrTerm t p))
         else match utf8_dec buf with Some s => ret (Some s) | None => fail (Err (EUtf8 start)) end)).
    { intros H. eapply decided_weaken; [apply H; lia|]. cbv beta. intros. lia. }
    esolve.
Qed.
#[export] Hint Resolve e_fstring : ends.
Lemma e_string N : ends N 1 r_string. Proof. unfold r_string. esolve. Qed.
#[export] Hint Resolve e_string : ends.
Lemma e_boolw N w : ends N 0 (r_boolw w). Proof. unfold r_boolw. esolve. Qed.
Lemma e_bool N : ends N 0 r_bool. Proof. apply e_boolw. Qed.
Lemma e_b32 N : ends N 0 r_b32. Proof. apply e_boolw. Qed.
Lemma e_enum N {A} t (f : Z -> option A) : ends N 0 (r_enum t f). Proof. unfold r_enum. esolve. Qed.
Lemma e_index0 N : ends N 0 r_index0. Proof. unfold r_index0. esolve. Qed.
Lemma e_term N : ends N 0 r_term. Proof. unfold r_term. esolve. Qed.
#[export] Hint Resolve e_bool e_b32 e_enum e_index0 e_term : ends.
Lemma e_sized N d {A} n (r : reader A) : 0 <= d -> ends N d r -> ends N d (sized n r).
Proof. intros D H. unfold sized. esolve. eapply ends_bind; [eapply ends_weaken; [exact H|lia|apply Z.le_refl]|intros]. esolve. Qed.
Lemma e_check N n : ends N 0 (check_size n). Proof. unfold check_size. esolve. Qed.
Lemma e_zero N s r : ends N 0 r -> ends N 0 (zero_or s r).
Proof. intros H. unfold zero_or. eapply ends_bind; [exact H|intros v]. esolve. Qed.
#[export] Hint Resolve e_check e_zero : ends.
Lemma e_headed N d {V A} (vars : reader V) (body : Z -> V -> reader A) :
  ends N d vars -> (forall n v, ends (N - d) 0 (body n v)) -> 0 <= d -> ends N 0 (headed vars body).
Proof.
  intros H1 H2 D. unfold headed. esolve.
  eapply ends_bind; [eapply ends_weaken; [exact H1|lia|apply Z.le_refl]|intros v]. esolve.
  apply (ends_weaken (N - d) 0); [apply e_sized; [lia|apply H2]|lia|lia].
Qed.
Lemma e_headed_index N {A} (body : Z -> reader A) : (forall n, ends N 0 (body n)) -> ends N 0 (headed_index body).
Proof. intros H. unfold headed_index. esolve. apply (ends_weaken N 0); [apply e_sized; [lia|apply H]|lia|lia]. Qed.
Lemma e_plain N {A} hdr (r : reader A) : ends N 0 r -> ends N 0 (plain hdr r).
Proof.
  intros H. unfold plain. destruct hdr; [|exact H]. apply e_headed with (d := 0); [esolve|intros|lia].
  rewrite Z.sub_0_r. exact H.
Qed.

(** ** Texts *)
Lemma e_numfmt N : ends N 0 r_numfmt. Proof. unfold r_numfmt, r_rounding. esolve. Qed.
#[export] Hint Resolve e_numfmt : ends.
Lemma e_optfmt N : ends N 0 r_optfmt. Proof. unfold r_optfmt. esolve. Qed.
Lemma e_count N : ends N 0 r_count. Proof. unfold r_count. esolve. Qed.
#[export] Hint Resolve e_optfmt e_count : ends.
Lemma e_farg N vs rt : ends N 0 rt -> ends N 0 (r_farg vs rt).
Proof.
  intros H. unfold r_farg. eapply ends_bind; [apply e_enum|intros ty].
  rewrite !Z.sub_0_r. destruct ty; try (destruct (has_arg64 vs)); esolve.
Qed.
Lemma e_named N vs rt : ends N 0 rt -> ends N 0 (r_named vs rt).
Proof.
  intros H. unfold r_named. esolve. eapply ends_bind; [eapply ends_weaken; [apply e_farg, H|lia|apply Z.le_refl]|intros]. esolve.
Qed.
(** A kind other than [TNone] is no 0xFF. *)
Lemma htype_used s : decided s (fun t s' => len s' <= len s /\ (t = TNone \/ len s' < len s)) (r_enum ETHistory (enum_of htype_z htypes)).
Proof.
  unfold r_enum, r_i8, r_sint, r_uint.
  eapply decided_bind with (Q := fun v s' => len s' <= len s /\ (v = -1 \/ len s' < len s)).
  - eapply decided_bind with (Q := fun v s' => len s' <= len s /\ (v = 255 \/ len s' < len s)).
    + eapply decided_bind; [apply decided_take|]. cbv beta. intros a s1 (L & H1 & H2). apply decided_ret.
      split; [exact L|]. destruct s as [|b s]; [left; destruct H2 as [-> _]; reflexivity|right; apply H1; [discriminate|lia]].
    + cbv beta. intros a s1 (L & H). apply decided_ret. split; [exact L|]. destruct H as [->|H]; [left; reflexivity|right; exact H].
  - cbv beta. intros v s1 (L & H). destruct (enum_of htype_z htypes v) as [t|] eqn:E.
    + apply decided_ret. split; [exact L|]. destruct H as [->|H]; [left; vm_compute in E; congruence|right; exact H].
    + apply decided_position. intros q p st. exists O. right. eexists. repeat split; discriminate.
Qed.
Lemma e_hist N vs rt : ends (N - 1) 0 rt -> ends N 0 (r_hist vs rt).
Proof.
  intros H. unfold r_hist. intros s Hs. eapply decided_bind; [apply htype_used|]. cbv beta. intros t s1 (L & Ht).
  assert (Hfa : ends (N - 1) 0 (r_farg vs rt)) by (apply e_farg, H).
  assert (Hna : ends (N - 1) 0 (r_named vs rt)) by (apply e_named, H).
  assert (G : forall r : reader fhist, (t = TNone -> ends N 0 r) -> (t <> TNone -> ends (N - 1) 0 r) ->
    decided s1 (fun _ s' => len s' + 0 <= len s) r).
  { intros r G1 G2. destruct Ht as [->|Ht].
    - eapply decided_weaken; [apply (G1 eq_refl); lia|]. cbv beta. intros. lia.
    - destruct (htype_z t =? -1) eqn:X.
      + eapply decided_weaken; [apply G1; [destruct t; try discriminate X; reflexivity|lia]|]. cbv beta. intros. lia.
      + eapply decided_weaken; [apply G2; [intros ->; discriminate X|lia]|]. cbv beta. intros. lia. }
  apply G; clear G.
  - intros ->. esolve.
  - intros NT. clear Ht. destruct t; try contradiction; unfold r_style, r_transform;
    repeat first
      [ eapply ends_bind; [first [eapply ends_weaken; [exact H|lia|apply Z.le_refl]|eapply ends_weaken; [exact Hna|lia|apply Z.le_refl]
                                 |eapply ends_weaken; [exact Hfa|lia|apply Z.le_refl]]|intros]
      | eapply ends_weaken; [exact Hfa|lia|lia]
      | estep ].
Qed.
Lemma e_text vs : forall n, ends (Z.of_nat n) 0 (r_text n vs).
Proof.
  induction n as [|n IH]; cbn [r_text].
  - intros s Hs. pose proof (len_nonneg s). lia.
  - eapply ends_bind; [apply e_u32|intros f]. rewrite !Z.sub_0_r.
    eapply ends_bind; [apply e_hist; eapply ends_weaken; [exact IH|lia|lia]|intros h]. esolve.
Qed.

(** ** Properties *)
Lemma e_rnum N k : ends N 0 (r_num k). Proof. unfold r_num. esolve. Qed.
#[export] Hint Resolve e_rnum : ends.
Lemma e_pnum N k hdr : ends N 0 (r_pnum k hdr).
Proof. unfold r_pnum. apply ends_bind with (l1 := 0); [destruct hdr; esolve; apply e_zero; esolve|intros; esolve]. Qed.
Section Props.
Context (o : opts).
Lemma e_bytev N sug : ends N 0 (r_bytev o sug). Proof. unfold r_bytev. esolve. Qed.
Hint Resolve e_bytev : ends.
Lemma e_pbyte N hdr sug : ends N 0 (r_pbyte o hdr sug). Proof. unfold r_pbyte. esolve. Qed.
Lemma e_pbool N hdr : ends N 0 (r_pbool hdr).
Proof.
  unfold r_pbool. apply ends_bind with (l1 := 0); [destruct hdr; esolve|intros; esolve].
  apply ends_bind with (l1 := 0); [destruct hdr; esolve; apply e_zero; esolve|intros; esolve].
Qed.
Lemma e_penum N hdr : ends N 0 (r_penum hdr).
Proof. unfold r_penum. destruct hdr; [|esolve]. eapply e_headed; [apply e_string|intros; esolve|lia]. Qed.
Lemma e_pname N hdr : ends N 0 (r_pname hdr).
Proof. unfold r_pname. destruct hdr; [|esolve]. apply e_headed_index. intros. esolve. Qed.
Lemma e_pstr N hdr : ends N 0 (r_pstr hdr). Proof. apply e_plain. esolve. Qed.
Lemma e_pobject N hdr : ends N 0 (r_pobject hdr). Proof. apply e_plain. esolve. Qed.
Lemma e_delegate N : ends N 0 r_delegate. Proof. unfold r_delegate. esolve. Qed.
Hint Resolve e_delegate : ends.
Lemma e_pdelegate N hdr : ends N 0 (r_pdelegate hdr). Proof. apply e_plain. esolve. Qed.
Lemma e_pmulti N i hdr : ends N 0 (r_pmulti i hdr). Proof. apply e_plain. esolve. Qed.
Lemma e_pfieldpath N hdr : ends N 0 (r_pfieldpath hdr). Proof. apply e_plain. esolve. Qed.
Lemma e_ptext n vs hdr : ends (Z.of_nat n) 0 (r_ptext n vs hdr).
Proof. apply e_plain. eapply ends_bind; [apply e_text|intros]. esolve. Qed.
Lemma e_unknown N ty n : ends N 0 (r_unknown ty n). Proof. unfold r_unknown. esolve. Qed.
Hint Resolve e_unknown : ends.
Lemma e_unknown_header N ty : ends N 0 (r_unknown_header ty). Proof. unfold r_unknown_header. esolve. Qed.

Section Nested.
Context (n : nat) (vs : list (guid * Z)) (rp : preader).
Hypothesis Hrp : forall ty hdr sug, ends (Z.of_nat n - 1) 0 (rp ty hdr sug).

Lemma e_rp N ty hdr sug : N < Z.of_nat n -> ends N 0 (rp ty hdr sug).
Proof. intros. eapply ends_weaken; [apply Hrp|lia|lia]. Qed.
Lemma e_custom m : forall acc, (m <= n)%nat -> ends (Z.of_nat m) 1 (r_custom m o rp acc).
Proof.
  induction m as [|m IH]; intros acc Hm; cbn [r_custom].
  - intros s Hs. pose proof (len_nonneg s). lia.
  - eapply ends_bind; [apply e_string|intros nm].
    destruct (str_eqb nm s_none); [esolve|].
    eapply ends_bind; [apply e_string|intros ty].
    eapply ends_bind; [apply ends_scoped, e_rp; lia|intros p].
    destruct (dbg o && _); [esolve|]. eapply ends_weaken; [apply IH|lia|lia]. lia.
Qed.
Lemma e_sval N ty : N <= Z.of_nat n -> ends N 0 (r_sval n o vs rp ty).
Proof.
  intros HN. unfold r_sval. destruct (fixed_of vs (skind_of ty)) as [x|]; [esolve|].
  assert (H : ends N 0 (l <- r_custom n o rp [] ;; ret (SCustom l))).
  { eapply ends_bind; [eapply ends_weaken; [apply e_custom|lia|apply Z.le_refl]|intros]; [lia|]. esolve. }
  destruct (skind_of ty); auto; esolve.
Qed.
Lemma e_pstruct N : N <= Z.of_nat n -> ends N 0 (r_pstruct n o vs rp).
Proof.
  intros HN. unfold r_pstruct. apply e_headed with (d := 0); [esolve|intros k tg|lia].
  eapply ends_bind; [apply e_sval; lia|intros v]. esolve.
Qed.
Lemma e_hinted N : N <= Z.of_nat n -> ends N 0 (r_hinted n o vs rp).
Proof.
  intros HN. unfold r_hinted. estep. estep. destruct (hints o _); [|esolve].
  eapply ends_bind; [apply e_sval; lia|intros v]. esolve.
Qed.
Lemma e_outcome {A} N (x : outcome A) : x <> Fail (Err EEof) -> x <> Fail Oof -> ends N 0 (of_outcome x).
Proof. intros H1 H2. destruct x; cbn [of_outcome]; [esolve|]. apply ends_fail; congruence. Qed.
Lemma e_array_new N ty i l : ends N 0 (of_outcome (array_new ty i l)).
Proof. apply e_outcome; unfold array_new; destruct i as [[[? ?] ?]|]; destruct (kind_of ty); try destruct (opt_map _ _); discriminate. Qed.
Hint Resolve e_array_new : ends.
Lemma e_struct_array N count : N <= Z.of_nat n -> ends N 0 (r_struct_array n o vs rp count).
Proof.
  intros HN. unfold r_struct_array. esolve.
  eapply ends_bind; [apply e_sval; lia|intros v]. esolve.
Qed.
Lemma e_array N length ty : N < Z.of_nat n -> ends N 0 (r_array n o vs rp length ty).
Proof.
  intros HN. unfold r_array. estep.
  assert (H : ends (N - 0) (0 - 0)
    (let sug := if (0 <? a) && (4 <=? length) then Some ((length - 4) / a) else None in
     l <- rep a (rp ty false sug) ;;
     a <- of_outcome (array_new ty None l) ;; ret (PArray a))).
  { cbv zeta. eapply ends_bind; [apply ends_rep, e_rp; lia|intros l]. esolve. }
  destruct (kind_of ty) eqn:EK; try exact H.
  eapply ends_bind; [apply e_struct_array; lia|intros x]. esolve.
Qed.
Lemma e_set N length ty : N < Z.of_nat n -> ends N 0 (r_set o rp length ty).
Proof. intros HN. unfold r_set. esolve. Qed.
Lemma e_map N kt vt : N < Z.of_nat n -> ends N 0 (r_map o rp kt vt).
Proof.
  intros HN. unfold r_map, r_entry. do 3 estep; [|esolve].
  eapply ends_bind; [apply ends_scoped, e_rp; lia|intros k].
  eapply ends_bind; [apply ends_scoped, e_rp; lia|intros v]. esolve.
Qed.
Lemma e_body ty hdr sug : ends (Z.of_nat n) 0 (r_body n o vs rp ty hdr sug).
Proof.
  unfold r_body. destruct (kind_of ty);
    auto using e_pnum, e_pbyte, e_pbool, e_penum, e_pstr, e_pname, e_pobject, e_pdelegate,
      e_pmulti, e_pfieldpath, e_ptext.
  - destruct hdr; [apply e_pstruct|apply e_hinted]; lia.
  - destruct hdr; [|unfold in_array; esolve].
    apply e_headed with (d := 1); [esolve|intros|lia]. apply e_array. lia.
  - destruct hdr; [|unfold in_array; esolve].
    apply e_headed with (d := 1); [esolve|intros|lia]. apply e_set. lia.
  - destruct hdr; [|unfold in_array; esolve].
    apply e_headed with (d := 1); [esolve|intros|lia]. apply e_map. lia.
  - destruct hdr; [apply e_unknown_header|]. destruct sug; [apply e_unknown|esolve].
Qed.
End Nested.
Lemma e_prop vs n : forall ty hdr sug, ends (Z.of_nat n) 0 (r_prop n o vs ty hdr sug).
Proof.
  induction n as [|n IH]; intros; cbn [r_prop].
  - intros s Hs. pose proof (len_nonneg s). lia.
  - apply ends_scoped, e_body. intros. eapply ends_weaken; [apply IH|lia|lia].
Qed.
Lemma e_entries vs m n : (n <= m)%nat -> ends (Z.of_nat n) 1 (r_entries n m o vs).
Proof.
  induction n as [|n IH]; intros Hm; cbn [r_entries].
  - intros s Hs. pose proof (len_nonneg s). lia.
  - eapply ends_bind; [apply e_string|intros nm].
    destruct (str_eqb nm s_none); [esolve|].
    eapply ends_bind; [apply e_string|intros ty].
    eapply ends_bind; [apply ends_scoped; eapply ends_weaken; [apply e_prop| |apply Z.le_refl]|intros p]; [lia|].
    eapply ends_bind; [eapply ends_weaken; [apply IH| |apply Z.le_refl]|intros l]; [lia|lia|]. esolve.
Qed.
Lemma e_checked N f ok : ends N 0 (r_checked f ok). Proof. unfold r_checked. esolve. Qed.
Lemma e_fengine N : ends N 0 r_fengine. Proof. unfold r_fengine. esolve. Qed.
Lemma e_version N : ends N 0 r_version. Proof. unfold r_version. esolve. Qed.
Hint Resolve e_checked e_fengine e_version : ends.
Lemma e_header N : ends N 0 r_header.
Proof.
  unfold r_header. do 3 estep. apply ends_bind with (l1 := 0); [|intros; esolve]. esolve.
Qed.
Lemma e_file n : ends (Z.of_nat n) 0 (r_file n o).
Proof.
  unfold r_file. eapply ends_bind; [apply e_header|intros h].
  eapply ends_bind; [eapply ends_weaken; [apply e_entries|lia|apply Z.le_refl]|intros l]; [lia|]. esolve.
Qed.

(** A longer input that is not cut short. *)
Lemma completed b : exists t, load_plain o (b ++ t) <> Fail (Err EEof).
Proof.
  destruct (e_file (S (List.length b)) b ltac:(unfold len; lia) 0 []) as (m & H). exists (ff m).
  assert (E : parse o (b ++ ff m) <> Fail (Err EEof)).
  { pose proof (x_file (fun f => f = Oof) [] o o (S (List.length b)) (S (List.length (b ++ ff m)))
      ltac:(cbv beta; congruence) ltac:(cbv beta; auto) ltac:(cbv beta; auto) eq_refl ltac:(rewrite app_length; lia) ltac:(cbv beta; auto) (start (b ++ ff m))) as R.
    rewrite ext_start, app_nil_r in R. unfold parse. fold (start (b ++ ff m)).
    assert (F : r_file (S (List.length b)) o (start (b ++ ff m)) <> Fail (Err EEof) /\ r_file (S (List.length b)) o (start (b ++ ff m)) <> Fail Oof).
    { unfold start. destruct H as [(a & p' & s' & st' & _ & H)|(f & F1 & F2 & H)]; specialize (H O); rewrite Nat.add_0_r in H;
      rewrite H; split; congruence. }
    destruct F as [F1 F2].
    destruct (r_file (S (List.length b)) o (start (b ++ ff m))) as [[a c']|f].
    - rewrite R. discriminate.
    - destruct R as [->|R]; [congruence|]. rewrite R. exact F1. }
  unfold load_plain. destruct (parse o (b ++ ff m)) as [[x c]|f]; congruence.
Qed.
Theorem open_iff b : load_plain o b = Fail (Err EEof) <-> exists t t', load_plain o (b ++ t) <> load_plain o (b ++ t').
Proof.
  split.
  - intros E. destruct (completed b) as [t T]. exists [], t. rewrite app_nil_r. congruence.
  - intros (t & t' & N). destruct (load_plain o b) eqn:E.
    + rewrite (load_extend o b t), (load_extend o b t') in N; congruence.
    + destruct f as [e| |]; try (rewrite (load_extend o b t), (load_extend o b t') in N; congruence).
      destruct e; try reflexivity; rewrite (load_extend o b t), (load_extend o b t') in N; congruence.
Qed.
End Props.
