(** Everything a reader accepts is representable (Spec.v). *)
From Coq Require Import ZArith List Bool String Lia ZifyBool ZifyNat.
From Verif Require Import Base Str Types Versions Text Props File Spec BaseFacts ReaderFacts Prim StrFacts
  Decode KindFacts DecodeProp DecodeMain Induct.
Import ListNotations.
Open Scope Z_scope.

(** [r], started with location stack [st], restores it and yields values in [Q]. *)
Definition acc (st : list str) {A} (Q : A -> Prop) (r : reader A) : Prop :=
  forall c a c', stk c = st -> r c = Ok (a, c') -> stk c' = st /\ Q a.

Lemma a_ret st {A} (Q : A -> Prop) a : Q a -> acc st Q (ret a).
Proof. intros H c x c' S E. injection E as <- <-. auto. Qed.
Lemma a_fail st {A} (Q : A -> Prop) f : acc st Q (fail f).
Proof. intros c x c' S E. discriminate. Qed.
Lemma a_bind st {A B} (Q : A -> Prop) (R : B -> Prop) r k :
  acc st Q r -> (forall a, Q a -> acc st R (k a)) -> acc st R (bind r k).
Proof.
  intros H1 H2 c x c' S E. unfold bind in E. destruct (r c) as [[a c1]|] eqn:E1; [|discriminate].
  destruct (H1 _ _ _ S E1) as [S1 Q1]. exact (H2 a Q1 _ _ _ S1 E).
Qed.
Lemma a_weaken st {A} (Q R : A -> Prop) r : acc st Q r -> (forall a, Q a -> R a) -> acc st R r.
Proof. intros H HQ c x c' S E. destruct (H _ _ _ S E). auto. Qed.
Lemma a_prim st {A} (r : reader A) : prim (fun _ => True) r -> acc st (fun _ => True) r.
Proof. intros H c x c' S E. apply (prim_local _ _ _ H) in E as (bs & _ & _ & S' & _). split; [congruence|exact I]. Qed.
Lemma a_position_fail st {A} (Q : A -> Prop) (f : Z -> fault) : acc st Q (p <- position ;; fail (f p)).
Proof. intros c x c' S E. discriminate. Qed.
Lemma a_position st {A} (Q : A -> Prop) k : (forall p, acc st Q (k p)) -> acc st Q (bind position k).
Proof. intros H c x c' S E. exact (H _ _ _ _ S E). Qed.
Lemma a_get_stk st {A} (Q : A -> Prop) k : acc st Q (k st) -> acc st Q (bind get_stk k).
Proof. intros H c x c' S E. unfold bind, get_stk in E. rewrite S in E. exact (H _ _ _ S E). Qed.
Lemma a_scoped st s {A} (Q : A -> Prop) r : acc (s :: st) Q r -> acc st Q (scoped s r).
Proof.
  intros H c x c' S E. unfold scoped, bind, push, pop, ret in E.
  destruct (r _) as [[y c1]|] eqn:E1; [|discriminate]. injection E as <- <-.
  apply H in E1 as [S1 Q1]; [|cbn; congruence]. cbn. rewrite S1. auto.
Qed.
Lemma a_repn st {A} (Q : A -> Prop) n r : acc st Q r ->
  acc st (fun l => len l = Z.of_nat n /\ Forall Q l) (repn n r).
Proof.
  intros H. induction n; cbn [repn]; [apply a_ret; split; [reflexivity|constructor]|].
  eapply a_bind; [exact H|intros a Qa]. eapply a_bind; [exact IHn|intros l [Hl HF]].
  apply a_ret. split; [rewrite len_cons; lia|constructor; auto].
Qed.
Lemma a_rep st {A} (Q : A -> Prop) n r : 0 <= n -> acc st Q r ->
  acc st (fun l => len l = n /\ Forall Q l) (rep n r).
Proof.
  intros Hn H c x c' S E. rewrite rep_repn in E. apply (a_repn st Q _ _ H) in E; [|exact S].
  now rewrite Z2Nat.id in E by exact Hn.
Qed.
Lemma a_take st n : 0 <= n -> acc st (fun l => len l = n) (take n).
Proof. intros Hn c x c' S E. apply take_inv in E; [|exact Hn]. split; [|tauto]. destruct E as (_ & _ & _ & E). congruence. Qed.
Lemma a_uint st w : acc st (fun z => u_ok (Z.of_nat w) z = true) (r_uint (Z.of_nat w)).
Proof.
  intros c z c' S E. apply uint_inv in E as (_ & L & _ & S'). split; [congruence|].
  unfold u_ok, in_range. rewrite andb_true_iff, !Z.leb_le. lia.
Qed.
Lemma a_sint st w : (0 < w)%nat -> acc st (fun z => s_ok (Z.of_nat w) z = true) (r_sint (Z.of_nat w)).
Proof.
  intros Hw c z c' S E. apply sint_inv in E as (_ & L & _ & S'); [|exact Hw]. split; [congruence|exact L].
Qed.
Lemma a_u8 st : acc st (fun z => u_ok 1 z = true) r_u8. Proof. apply (a_uint st 1). Qed.
Lemma a_u16 st : acc st (fun z => u_ok 2 z = true) r_u16. Proof. apply (a_uint st 2). Qed.
Lemma a_u32 st : acc st (fun z => u_ok 4 z = true) r_u32. Proof. apply (a_uint st 4). Qed.
Lemma a_u64 st : acc st (fun z => u_ok 8 z = true) r_u64. Proof. apply (a_uint st 8). Qed.
Lemma a_uint4 st : acc st (fun z => u_ok 4 z = true) (r_uint 4). Proof. apply (a_uint st 4). Qed.
Lemma a_uint8 st : acc st (fun z => u_ok 8 z = true) (r_uint 8). Proof. apply (a_uint st 8). Qed.
Lemma a_sint4 st : acc st (fun z => s_ok 4 z = true) (r_sint 4). Proof. apply (a_sint st 4). lia. Qed.
Lemma a_sint8 st : acc st (fun z => s_ok 8 z = true) (r_sint 8). Proof. apply (a_sint st 8). lia. Qed.
Lemma a_i32 st : acc st (fun z => s_ok 4 z = true) r_i32. Proof. apply a_sint4. Qed.
Lemma a_fstring st : acc st (fun x => ostr_ok x = true) r_fstring.
Proof.
  intros c z c' S E. split; [|eapply fstring_ok; eauto].
  apply fstring_inv in E as (bs & _ & _ & _ & S'). congruence.
Qed.
Lemma a_string st : acc st (fun x => str_ok x = true) r_string.
Proof.
  intros c z c' S E. split; [|eapply string_ok; eauto]. apply string_inv in E.
  apply fstring_inv in E as (bs & _ & _ & _ & S'). congruence.
Qed.
Lemma a_guid st : acc st (fun g => guid_ok g = true) r_guid.
Proof. eapply a_weaken; [apply (a_take st 16); lia|]. intros g H. apply Z.eqb_eq, H. Qed.
Lemma a_boolw st w : acc st (fun _ : bool => True) (r_boolw w).
Proof. apply a_prim, q_boolw. auto. Qed.
Lemma a_enum st {A} e f : acc st (fun a => exists z, f z = Some a) (@r_enum A e f).
Proof.
  unfold r_enum. eapply a_bind; [apply (a_prim st r_i8), q_sint; auto|]. intros z _.
  destruct (f z) eqn:E; [apply a_ret; eauto|apply a_position_fail].
Qed.
Lemma a_upto st e n : acc st (fun z => in_range 0 n z = true) (r_enum e (upto n)).
Proof.
  eapply a_weaken; [apply a_enum|]. intros a [z H]. unfold upto in H.
  destruct (inr 0 n z) eqn:E; [|discriminate]. injection H as <-. exact E.
Qed.
Lemma a_rounding st : acc st (fun z => in_range 0 6 z = true) r_rounding. Proof. apply a_upto. Qed.
Lemma a_style st : acc st (fun z => in_range 0 4 z = true) r_style. Proof. apply a_upto. Qed.
Lemma a_transform st : acc st (fun z => in_range 0 1 z = true) r_transform. Proof. apply a_upto. Qed.
Lemma a_bool st : acc st (fun _ => True) r_bool. Proof. apply a_boolw. Qed.
Lemma a_b32 st : acc st (fun _ => True) r_b32. Proof. apply a_boolw. Qed.
Lemma a_count st : acc st (fun n => 0 <= n < 2147483648) r_count.
Proof.
  unfold r_count. eapply a_bind; [apply a_i32|]. intros n H. cbv beta in H.
  unfold s_ok, in_range in H. rewrite andb_true_iff, !Z.leb_le in H.
  destruct (Z.ltb_spec n 0); [apply a_fail|]. apply a_ret. cbn in H. lia.
Qed.
Create HintDb acc.
#[export] Hint Resolve a_u8 a_u16 a_u32 a_u64 a_uint4 a_uint8 a_sint4 a_sint8 a_i32 a_fstring a_string
  a_guid a_bool a_b32 a_rounding a_style a_transform a_count : acc.
Ltac bsplit := repeat match goal with |- _ && _ = true => first [assumption | apply andb_true_iff; split] end; try assumption; auto.
Ltac astep :=
  match goal with
  | |- acc _ _ (ret _) => apply a_ret
  | |- acc _ _ (fail _) => apply a_fail
  | |- acc _ _ (bind position (fun p => fail _)) => apply a_position_fail
  | |- acc _ _ (bind position _) => apply a_position; intros
  | |- acc _ _ (bind (rep _ _) _) => eapply a_bind; [apply a_rep; [lia|]|intros ? [? ?]]
  | |- acc _ _ (bind _ _) => eapply a_bind; [solve [eauto 3 with acc]|intros]
  | |- acc _ _ (scoped _ _) => apply a_scoped
  | |- acc _ _ (if ?b then _ else _) => destruct b eqn:?
  | |- acc _ _ (match ?x with _ => _ end) => destruct x eqn:?
  end.
Ltac asolve := repeat astep.

Lemma a_numfmt st : acc st (fun f => numfmt_ok f = true) r_numfmt.
Proof. unfold r_numfmt. asolve. unfold numfmt_ok. bsplit. Qed.
#[export] Hint Resolve a_numfmt : acc.
Lemma a_optfmt st : acc st (fun f => onumfmt_ok f = true) r_optfmt.
Proof. unfold r_optfmt. asolve; cbn; auto. Qed.
#[export] Hint Resolve a_optfmt : acc.

Lemma count31_len {A} (l : list A) n : len l = n -> n < 2147483648 -> count31 l = true.
Proof. unfold count31. lia. Qed.
Lemma count32_len {A} (l : list A) n : len l = n -> u_ok 4 n = true -> count32 l = true.
Proof. intros <-. unfold count32, u_ok, in_range. change (2 ^ (8 * 4)) with 4294967296. lia. Qed.
Lemma Forall_true {A} (f : A -> bool) l : Forall (fun a => f a = true) l -> forallb f l = true.
Proof. intros H. apply forallb_forall. now apply Forall_forall. Qed.

Section Text.
Context (vs : list (guid * Z)).
Section Nested.
Context (st : list str) (rt : reader ftext).
Hypothesis Hrt : acc st (fun t => text_ok vs t = true) rt.
Hint Resolve Hrt : acc.
Lemma a_farg : acc st (fun a => arg_ok vs a = true) (r_farg vs rt).
Proof.
  unfold r_farg. eapply a_bind; [apply a_enum|]. intros t _. destruct t; asolve; cbn [arg_ok]; bsplit.
  all: now rewrite Heqb.
Qed.
Hint Resolve a_farg : acc.
Lemma ins_all_named (l : list (str * farg)) :
  Forall (fun e => str_ok (fst e) = true /\ arg_ok vs (snd e) = true) l -> len l < 2147483648 ->
  count31 (ins_all str_eqb l) = true /\ distinct str_eqb (ins_all str_eqb l) = true
  /\ forallb (fun '(k, v) => str_ok k && arg_ok vs v) (ins_all str_eqb l) = true.
Proof.
  intros H Hl. split; [|split].
  - unfold count31. pose proof (ins_all_len str_eqb l). lia.
  - rewrite distinct_fresh. apply fresh_ins_all.
  - apply (ins_all_in (fun k => str_ok k = true) (fun v => arg_ok vs v = true) str_eqb) in H.
    apply Forall_true. eapply Forall_impl; [|exact H]. intros [k v] [? ?]. cbn in *. bsplit.
Qed.
Lemma a_named : acc st (fun l => count31 l = true /\ distinct str_eqb l = true
  /\ forallb (fun '(k, v) => str_ok k && arg_ok vs v) l = true) (r_named vs rt).
Proof.
  unfold r_named. eapply a_bind; [apply a_count|]. intros n Hn. cbv beta in Hn.
  eapply a_bind; [apply (a_rep st (fun e => str_ok (fst e) = true /\ arg_ok vs (snd e) = true)); [lia|]|].
  - asolve. cbn. auto.
  - intros l [Hl HF]. apply a_ret. apply ins_all_named; auto. lia.
Qed.
Hint Resolve a_named : acc.
Lemma a_hist : acc st (fun h => hist_ok vs h = true) (r_hist vs rt).
Proof.
  unfold r_hist. eapply a_bind; [apply a_enum|]. intros t _.
  destruct t; try (asolve; cbn [hist_ok]; cbv beta in *; repeat match goal with H : _ /\ _ |- _ => destruct H end;
    bsplit; fail).
  eapply a_bind; [exact Hrt|intros u Hu]. eapply a_bind; [apply a_count|intros n Hn]. cbv beta in *.
  eapply a_bind; [apply (a_rep st _ n _ ltac:(lia) a_farg)|]. intros l [Hl HF].
  apply a_ret. cbn [hist_ok]. bsplit; [eapply count31_len; eauto; lia|now apply Forall_true].
Qed.
End Nested.
Lemma a_text n : forall st, acc st (fun t => text_ok vs t = true) (r_text n vs).
Proof.
  induction n; intros st; cbn [r_text]; [apply a_fail|].
  eapply a_bind; [apply a_u32|]. intros f Hf. eapply a_bind; [apply a_hist, IHn|]. intros h Hh.
  apply a_ret. cbn [text_ok]. bsplit.
Qed.
End Text.
