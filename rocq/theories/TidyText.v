(** Canonical form, strings and texts: it is part of the grammar, it is what is
    written, and nothing else is. *)
From Coq Require Import ZArith List Bool String Lia ZifyBool ZifyNat.
From Verif Require Import Base Str Guid Types Versions Text Props File Spec BaseFacts StrFacts Decode KindFacts
  DecodeProp StrThm MapFacts HeaderThm Grammar GrammarBase GrammarText Induct Tidy.
Import ListNotations.
Open Scope Z_scope.

(** ** What a writer appends *)
Definition writes (w : out) (b : list byte) : Prop := exists n, w = Ok (b, n).
Lemma wr_emit b n : writes (emit b n) b.
Proof. now exists n. Qed.
Lemma wr_emit_iff b n x : writes (emit b n) x <-> x = b.
Proof. split; [intros [m E]; unfold emit in E; congruence|intros ->; apply wr_emit]. Qed.
Lemma wr_int w z : writes (w_int w z) (le_bytes (Z.to_nat w) z).
Proof. apply wr_emit. Qed.
Lemma wr_int_iff w z x : writes (w_int w z) x <-> x = le_bytes (Z.to_nat w) z.
Proof. apply wr_emit_iff. Qed.
Lemma wr_seq a b x y : writes a x -> writes b y -> writes (a +> b) (x ++ y).
Proof. intros [n ->] [m ->]. exists (n + m). reflexivity. Qed.
Lemma wr_seq_iff a b z : writes (a +> b) z <-> exists x y, z = x ++ y /\ writes a x /\ writes b y.
Proof.
  split.
  - intros [n E]. apply seq_ok in E as (x & n1 & y & n2 & E1 & E2 & -> & _). exists x, y. unfold writes. eauto.
  - intros (x & y & -> & A & B). now apply wr_seq.
Qed.
Lemma wr_skip : writes skip [].
Proof. apply wr_emit. Qed.
Lemma wr_skip_iff x : writes skip x <-> x = [].
Proof. apply wr_emit_iff. Qed.
Lemma wr_unique w x y : writes w x -> writes w y -> x = y.
Proof. intros [n E] [m F]. congruence. Qed.
Lemma wr_fail f x : ~ writes (Fail f) x.
Proof. intros [n E]. discriminate. Qed.
Lemma wr_seqs_nil {A} (f : A -> out) x : writes (seqs f []) x <-> x = [].
Proof. apply wr_skip_iff. Qed.
Lemma wr_seqs_cons {A} (f : A -> out) a l z :
  writes (seqs f (a :: l)) z <-> exists x y, z = x ++ y /\ writes (f a) x /\ writes (seqs f l) y.
Proof. apply wr_seq_iff. Qed.

(** ** Strings *)
Lemma u4_le z : u4 z = le_bytes 4 z. Proof. reflexivity. Qed.
Lemma two_zeros : le_bytes 2 0 = [Byte.x00; Byte.x00]. Proof. reflexivity. Qed.
Lemma tidy_line s b : line s b <-> str_ok s = true /\ b = str_bytes s.
Proof.
  unfold line, str_ok, str_bytes. split.
  - intros H. inversion H as [|? A L|? us A C L]; subst.
    + apply ascii_iff in A. rewrite A. rewrite ascii_units, (ascii_is_str s A) by exact A. split; [lia|reflexivity].
    + assert (is_ascii s = false) as -> by (destruct (is_ascii s) eqn:E; [|reflexivity]; apply ascii_iff in E; contradiction).
      apply coded16 in C as [S ->]. rewrite S. rewrite len_utf16 in L. split; [lia|]. now rewrite two_zeros.
  - intros [H ->]. andbs. destruct (is_ascii s) eqn:E.
    + rewrite ascii_units in * by exact E. apply ts_ascii; [now apply ascii_iff|lia].
    + rewrite two_zeros. apply ts_wide.
      * intros A. apply ascii_iff in A. congruence.
      * now apply coded16.
      * rewrite len_utf16. lia.
Qed.
Lemma wr_string s b : line s b -> writes (w_string s) b.
Proof. intros H. apply tidy_line in H as [_ ->]. apply wr_emit. Qed.
Lemma wr_string_iff s b : str_ok s = true -> writes (w_string s) b -> line s b.
Proof. intros H W. apply wr_emit_iff in W. now apply tidy_line. Qed.
Lemma wr_fstring s b : tidy_str s b -> writes (w_fstring s) b.
Proof. intros H. destruct s as [s|]; [now apply wr_string|]. inversion H. apply wr_int. Qed.
Lemma wr_fstring_iff s b : ostr_ok s = true -> writes (w_fstring s) b -> tidy_str s b.
Proof.
  intros H W. destruct s as [s|]; [now apply wr_string_iff|]. apply wr_int_iff in W. subst. constructor.
Qed.
Lemma tidy_stored s b : tidy_str s b -> stored s b.
Proof.
  intros H. inversion H as [|? A L|? us A C L]; subst.
  - constructor.
  - apply ascii_iff in A. assert (E : utf8_enc s0 = s0).
    { pose proof A as A'. unfold is_ascii in A'. clear -A'. induction s0 as [|c s IH]; [reflexivity|].
      cbn [forallb] in A'. andbs. cbn [utf8_enc flat_map]. rewrite inr_iff in *. unfold utf8_enc in IH. rewrite IH by assumption.
      unfold utf8_char. destruct (Z.ltb_spec c 128); [reflexivity|lia]. }
    apply stored_8; [|exact L]. apply coded8. rewrite E. split; [now apply ascii_is_str|reflexivity].
  - now apply stored_16.
Qed.
Lemma tidy_text_of s b : line s b -> text_of s b.
Proof. apply tidy_stored. Qed.

(** ** Keys *)
Lemma distinct_fresh {V} (l : list (str * V)) : distinct str_eqb l = true -> collapsed str_eqb l l.
Proof. intros H. apply collapsed_str_eq. symmetry. now apply ins_all_fresh. Qed.

(** ** Texts *)
Scheme tidy_text_ind2 := Induction for tidy_text Sort Prop
with tidy_hist_ind2 := Induction for tidy_hist Sort Prop
with tidy_arg_ind2 := Induction for tidy_arg Sort Prop
with tidy_args_ind2 := Induction for tidy_args Sort Prop
with tidy_named_ind2 := Induction for tidy_named Sort Prop.
Combined Scheme tidy_text_mut from tidy_text_ind2, tidy_hist_ind2, tidy_arg_ind2, tidy_args_ind2, tidy_named_ind2.

Section Text.
Context (vs : list (guid * Z)).

Lemma tidy_in_text :
  (forall t b, tidy_text vs t b -> is_text vs t b) /\ (forall h b, tidy_hist vs h b -> is_hist vs h b)
  /\ (forall a b, tidy_arg vs a b -> is_arg vs a b) /\ (forall l b, tidy_args vs l b -> is_args vs l b)
  /\ (forall l b, tidy_named vs l b -> is_named vs l b).
Proof.
  apply tidy_text_mut; intros; try (econstructor; eauto using tidy_stored, tidy_text_of, distinct_fresh; fail).
Qed.

Lemma wr_numfmt f b : is_numfmt f b -> writes (w_numfmt f) b.
Proof.
  intros (-> & _). unfold w_numfmt, w_b32. repeat apply wr_seq; try apply wr_int; apply wr_emit.
Qed.
Lemma wr_optfmt f b : is_optfmt f b -> writes (w_optfmt f) b.
Proof. intros H. destruct H; [apply wr_int|]. apply wr_seq; [apply wr_int|now apply wr_numfmt]. Qed.
Lemma wr_optfmt_iff f b : onumfmt_ok f = true -> writes (w_optfmt f) b -> is_optfmt f b.
Proof.
  destruct f as [f|]; cbn [onumfmt_ok w_optfmt]; intros H W.
  - apply wr_seq_iff in W as (x & y & -> & A & B). apply wr_int_iff in A. subst x. constructor.
    unfold numfmt_ok, in_range, s_ok in H. andbs. change (2 ^ (8 * 4 - 1)) with 2147483648 in *. unfold in_range in *.
    assert (N : is_numfmt f (u4 (flag (nf_sign f)) ++ u4 (flag (nf_group f)) ++ le_bytes 1 (nf_round f)
      ++ u4 (nf_mini f) ++ u4 (nf_maxi f) ++ u4 (nf_minf f) ++ u4 (nf_maxf f))).
    { split; [reflexivity|]. split; [lia|]. repeat constructor; lia. }
    now rewrite (wr_unique _ _ _ B (wr_numfmt _ _ N)).
  - apply wr_int_iff in W. subst b. constructor.
Qed.

Lemma wr_text :
  (forall t b, tidy_text vs t b -> writes (w_text vs t) b) /\ (forall h b, tidy_hist vs h b -> writes (w_hist vs h) b)
  /\ (forall a b, tidy_arg vs a b -> writes (w_farg vs a) b)
  /\ (forall l b, tidy_args vs l b -> writes (seqs (w_farg vs) l) b)
  /\ (forall l b, tidy_named vs l b -> writes (seqs (fun '(k, v) => w_string k +> w_farg vs v) l) b).
Proof.
  apply tidy_text_mut; intros; try (rewrite app_assoc; repeat apply wr_seq; auto using wr_string; fail); cbn [w_text w_hist w_farg seqs]; unfold w_argint;
    repeat match goal with H : has_culture _ = _ |- _ => rewrite H; clear H
      | H : has_arg64 _ = _ |- _ => rewrite H; clear H end; cbn [Bool.eqb];
    try match goal with |- writes _ (?c :: ?b) => change (c :: b) with ([c] ++ b) end;
    try match goal with |- writes (_ +> skip) [?c] => change [c] with ([c] ++ []) end;
    try rewrite <- app_assoc; auto using wr_skip;
    repeat first [assumption | apply wr_string; assumption | apply wr_fstring; assumption | apply wr_optfmt; assumption
      | apply wr_skip | apply wr_int
      | match goal with |- writes (_ +> _) (_ ++ _) => apply wr_seq end
      | apply wr_emit ].
Qed.

(** Nothing else is written. *)
Ltac wr_split := repeat match goal with
  | W : writes (_ +> _) _ |- _ => apply wr_seq_iff in W as (? & ? & -> & ? & ?)
  | W : writes skip _ |- _ => apply wr_skip_iff in W; subst
  | W : writes (w_int _ _) _ |- _ => apply wr_int_iff in W; subst
  | W : writes (emit _ _) _ |- _ => apply wr_emit_iff in W; subst
  | W : writes (w_enum _) _ |- _ => apply wr_emit_iff in W; subst
  | W : writes (Fail _) _ |- _ => destruct (wr_fail _ _ W)
  | W : writes (w_string _) _ |- _ => apply wr_string_iff in W; [|assumption]
  | W : writes (w_fstring _) _ |- _ => apply wr_fstring_iff in W; [|assumption]
  | W : writes (w_optfmt _) _ |- _ => apply wr_optfmt_iff in W; [|assumption]
  end.
Lemma u8_in z : u_ok 8 z = true -> 0 <= z < 2 ^ 64.
Proof. unfold u_ok, in_range. change (2 ^ (8 * 8)) with (2 ^ 64). lia. Qed.
Lemma u4_in z : u_ok 4 z = true -> word z.
Proof. unfold u_ok, in_range, word. change (2 ^ (8 * 4)) with 4294967296. lia. Qed.
Lemma s8_in z : s_ok 8 z = true -> - 2 ^ 63 <= z < 2 ^ 63.
Proof. unfold s_ok, in_range. change (2 ^ (8 * 8 - 1)) with (2 ^ 63). lia. Qed.
Lemma s4_in z : s_ok 4 z = true -> -2147483648 <= z < 2147483648.
Proof. unfold s_ok, in_range. change (2 ^ (8 * 4 - 1)) with 2147483648. lia. Qed.
Lemma range_in a b z : in_range a b z = true -> a <= z <= b.
Proof. unfold in_range. lia. Qed.
Lemma count_in {A} (l : list A) : count31 l = true -> len l < 2147483648.
Proof. unfold count31. lia. Qed.

Definition TT t := forall b, text_ok vs t = true -> writes (w_text vs t) b -> tidy_text vs t b.
Definition TH h := forall b, hist_ok vs h = true -> writes (w_hist vs h) b -> tidy_hist vs h b.
Definition TA a := forall b, arg_ok vs a = true -> writes (w_farg vs a) b -> tidy_arg vs a b.
Lemma args_tidy l : Forall TA l -> forall b, forallb (arg_ok vs) l = true -> writes (seqs (w_farg vs) l) b -> tidy_args vs l b.
Proof.
  induction 1 as [|a l Ha _ IH]; intros b H W.
  - apply wr_seqs_nil in W. subst. constructor.
  - cbn [forallb] in H. andbs. apply wr_seqs_cons in W as (x & y & -> & W1 & W2). constructor; auto.
Qed.
Lemma named_tidy l : Forall (fun e => TA (snd e)) l -> forall b,
  forallb (fun '(k, v) => str_ok k && arg_ok vs v) l = true ->
  writes (seqs (fun '(k, v) => w_string k +> w_farg vs v) l) b -> tidy_named vs l b.
Proof.
  induction 1 as [|[k a] l Ha _ IH]; intros b H W.
  - apply wr_seqs_nil in W. subst. constructor.
  - cbn [forallb] in H. andbs. apply wr_seqs_cons in W as (x & y & -> & W1 & W2). wr_split.
    rewrite <- app_assoc. constructor; auto.
Qed.
Lemma text_tidy : (forall t, TT t) /\ (forall h, TH h) /\ (forall a, TA a).
Proof.
  apply text_all; unfold TT, TH; try unfold TA at 1; intros;
    cbn [text_ok hist_ok arg_ok w_text w_hist w_farg] in *; unfold w_argint, w_u32, w_u64, w_b32, w_enum in *; andbs;
    try match goal with W : context [if has_culture vs then _ else _] |- _ => destruct (has_culture vs) eqn:? end;
    try match goal with H : negb (has_arg64 vs) = true |- _ => apply negb_true_iff in H end;
    try match goal with H : has_arg64 vs = _, W : writes (if Bool.eqb (has_arg64 vs) _ then _ else _) _ |- _ => rewrite H in W; cbn [Bool.eqb] in W end;
    try discriminate; wr_split; change (Z.to_nat 1) with 1%nat in *;
    repeat match goal with |- context [le_bytes 1 (htype_z ?t)] => let v := eval vm_compute in (le_bytes 1 (htype_z t)) in change (le_bytes 1 (htype_z t)) with v
      | |- context [le_bytes 1 (atype_z ?t)] => let v := eval vm_compute in (le_bytes 1 (atype_z t)) in change (le_bytes 1 (atype_z t)) with v end;
    cbn [app];
    constructor; auto using u8_in, u4_in, s8_in, s4_in, range_in, count_in, args_tidy, named_tidy.
Qed.
End Text.
