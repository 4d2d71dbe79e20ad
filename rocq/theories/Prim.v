(** Every reader is built from a handful of primitives.  What holds of the
    primitives and is closed under sequencing holds of all readers. *)
From Coq Require Import ZArith List Bool String Lia ZifyBool ZifyNat.
From Verif Require Import Base Str Types Versions Text Props File BaseFacts.
Import ListNotations.
Open Scope Z_scope.

(** [F]: the faults raised explicitly. *)
Inductive prim (F : fault -> Prop) : forall A, reader A -> Prop :=
| p_ret A (a : A) : prim F A (ret a)
| p_bind A B (r : reader A) (k : A -> reader B) :
    prim F A r -> (forall a, prim F B (k a)) -> prim F B (bind r k)
| p_fail A f : F f -> prim F A (fail f)
| p_position : prim F Z position
| p_get_stk : prim F (list str) get_stk
| p_take n : prim F (list byte) (take n)
| p_scoped A s (r : reader A) : prim F A r -> prim F A (scoped s r).
Arguments prim F {A} r.

Create HintDb prim.
Ltac pstep :=
  match goal with
  | |- prim _ (ret _) => apply p_ret
  | |- prim _ (if ?b then _ else _) => destruct b eqn:?
  | |- prim _ (match ?x with _ => _ end) => destruct x eqn:?
  | |- prim _ (bind _ _) => apply p_bind; [|intros]
  | |- prim _ (scoped _ _) => apply p_scoped
  | |- prim _ (let _ := _ in _) => cbv zeta
  | |- prim _ (fail _) => apply p_fail; auto; fail
  | |- prim _ _ => solve [eauto 3 with prim]
  end.
Ltac psolve := repeat pstep.

Section Prim.
Context (F : fault -> Prop).
Hypothesis HF : forall f, match f with Err (EHint _ _) => False | _ => True end -> F f.
Ltac pfail := apply p_fail, HF; exact I.
Hint Extern 2 (prim _ (fail _)) => pfail : prim.
Ltac pstep' := first [pfail | pstep].
Ltac ps := repeat pstep'.

Lemma q_rep {A} n (r : reader A) : prim F r -> prim F (rep n r).
Proof.
  intros H. destruct n as [|p|]; [apply p_ret| |apply p_ret]. cbn.
  induction p; cbn; repeat (assumption || pstep).
Qed.
Lemma q_mapM {A B} (f : A -> reader B) l : (forall a, prim F (f a)) -> prim F (mapM f l).
Proof. intros H. induction l; cbn; repeat (apply H || assumption || pstep). Qed.
Lemma q_position : prim F position. Proof. apply p_position. Qed.
Lemma q_get_stk : prim F get_stk. Proof. apply p_get_stk. Qed.
Lemma q_take n : prim F (take n). Proof. apply p_take. Qed.
Hint Resolve q_rep q_mapM q_position q_get_stk q_take : prim.
Lemma q_uint w : prim F (r_uint w). Proof. unfold r_uint. ps. Qed.
Hint Resolve q_uint : prim.
Lemma q_sint w : prim F (r_sint w). Proof. unfold r_sint. ps. Qed.
Hint Resolve q_sint : prim.
Lemma q_guid : prim F r_guid. Proof. apply q_take. Qed.
Lemma q_fstring : prim F r_fstring.
Proof. unfold r_fstring, r_i32, r_u16, r_u8. ps. Qed.
Hint Resolve q_guid q_fstring : prim.
Lemma q_string : prim F r_string. Proof. unfold r_string. ps. Qed.
Hint Resolve q_string : prim.
Lemma q_boolw w : prim F (r_boolw w). Proof. unfold r_boolw. ps. Qed.
Hint Resolve q_boolw : prim.
Lemma q_enum {A} e (f : Z -> option A) : prim F (r_enum e f). Proof. unfold r_enum, r_i8. ps. Qed.
Hint Resolve q_enum : prim.
Lemma q_index0 : prim F r_index0. Proof. unfold r_index0, r_u32. ps. Qed.
Lemma q_term : prim F r_term. Proof. unfold r_term, r_u8. ps. Qed.
Hint Resolve q_index0 q_term : prim.
Lemma q_sized {A} n (r : reader A) : prim F r -> prim F (sized n r).
Proof. intros. unfold sized. repeat (assumption || pstep'). Qed.
Lemma q_headed {V A} (vars : reader V) (body : Z -> V -> reader A) :
  prim F vars -> (forall n v, prim F (body n v)) -> prim F (headed vars body).
Proof.
  intros. unfold headed, r_u32. do 4 (apply p_bind; [auto with prim|intros]). now apply q_sized.
Qed.
Lemma q_headed_index {A} (body : Z -> reader A) :
  (forall n, prim F (body n)) -> prim F (headed_index body).
Proof.
  intros. unfold headed_index, r_u32. do 3 (apply p_bind; [auto with prim|intros]).
  now apply q_sized.
Qed.
Lemma q_plain {A} hdr (r : reader A) : prim F r -> prim F (plain hdr r).
Proof. intros. unfold plain. destruct hdr; [apply q_headed; intros; [ps|]|]; auto. Qed.
Lemma q_numfmt : prim F r_numfmt. Proof. unfold r_numfmt, r_rounding, r_b32, r_i32. ps. Qed.
Hint Resolve q_numfmt : prim.
Lemma q_optfmt : prim F r_optfmt. Proof. unfold r_optfmt, r_b32. ps. Qed.
Lemma q_count : prim F r_count. Proof. unfold r_count, r_i32. ps. Qed.
Hint Resolve q_optfmt q_count : prim.
Lemma q_farg vs rt : prim F rt -> prim F (r_farg vs rt).
Proof. intros. unfold r_farg. repeat (assumption || pstep'). Qed.
Lemma q_named vs rt : prim F rt -> prim F (r_named vs rt).
Proof.
  intros. unfold r_named. apply p_bind; [auto with prim|intros].
  apply p_bind; [apply q_rep|intros; ps].
  apply p_bind; [auto with prim|intros]. apply p_bind; [now apply q_farg|intros; ps].
Qed.
Lemma q_hist vs rt : prim F rt -> prim F (r_hist vs rt).
Proof.
  intros. pose proof (q_farg vs rt H). pose proof (q_named vs rt H).
  unfold r_hist, r_style, r_transform, r_b32, r_u64. repeat (assumption || pstep').
Qed.
Lemma q_text vs n : prim F (r_text n vs).
Proof.
  induction n; cbn [r_text]; [pfail|]. unfold r_u32.
  apply p_bind; [auto with prim|intros]. apply p_bind; [now apply q_hist|intros; ps].
Qed.
Hint Resolve q_text : prim.
Lemma q_num k : prim F (r_num k). Proof. unfold r_num. ps. Qed.
Hint Resolve q_num : prim.
Lemma q_check n : prim F (check_size n). Proof. unfold check_size, r_u64. ps. Qed.
Lemma q_zero s r : prim F r -> prim F (zero_or s r).
Proof. intros. unfold zero_or. repeat (assumption || pstep'). Qed.
Hint Resolve q_check q_zero : prim.
Hint Unfold r_u8 r_u32 r_u64 r_bool r_b32 : prim.
Lemma q_pnum k hdr : prim F (r_pnum k hdr). Proof. unfold r_pnum, r_u8. ps. Qed.
Lemma q_bytev o sug : prim F (r_bytev o sug). Proof. unfold r_bytev. ps. Qed.
Hint Resolve q_bytev : prim.
Lemma q_pbyte o hdr sug : prim F (r_pbyte o hdr sug).
Proof. unfold r_pbyte, r_u8, r_u32. ps. Qed.
Lemma q_pbool hdr : prim F (r_pbool hdr). Proof. unfold r_pbool, r_bool, r_u8. ps. Qed.
Lemma q_penum hdr : prim F (r_penum hdr).
Proof. unfold r_penum. destruct hdr; [apply q_headed; intros|]; ps. Qed.
Lemma q_pname hdr : prim F (r_pname hdr).
Proof. unfold r_pname. destruct hdr; [apply q_headed_index; intros|]; ps. Qed.
Lemma q_pstr hdr : prim F (r_pstr hdr). Proof. apply q_plain. ps. Qed.
Lemma q_pobject hdr : prim F (r_pobject hdr). Proof. apply q_plain. ps. Qed.
Lemma q_delegate : prim F r_delegate. Proof. unfold r_delegate. ps. Qed.
Hint Resolve q_delegate : prim.
Lemma q_pdelegate hdr : prim F (r_pdelegate hdr). Proof. apply q_plain. ps. Qed.
Lemma q_pmulti i hdr : prim F (r_pmulti i hdr). Proof. apply q_plain. unfold r_u32. ps. Qed.
Lemma q_pfieldpath hdr : prim F (r_pfieldpath hdr). Proof. apply q_plain. unfold r_u32. ps. Qed.
Lemma q_ptext n vs hdr : prim F (r_ptext n vs hdr). Proof. apply q_plain. ps. Qed.
Lemma q_unknown ty n : prim F (r_unknown ty n). Proof. unfold r_unknown. ps. Qed.
Hint Resolve q_unknown : prim.
Lemma q_unknown_header ty : prim F (r_unknown_header ty).
Proof. unfold r_unknown_header, r_u32, r_u8. ps. Qed.

Section Options.
Context (o : opts).
Hypothesis Hhint : forall path p, hints o path = None -> F (Err (EHint path p)).
Section Nested.
Context (n : nat) (vs : list (guid * Z)) (rp : preader).
Hypothesis Hrp : forall ty hdr sug, prim F (rp ty hdr sug).
Hint Resolve Hrp : prim.
Lemma q_custom m : forall acc, prim F (r_custom m o rp acc).
Proof. induction m; intros; cbn [r_custom]; ps. Qed.
Hint Resolve q_custom : prim.
Lemma q_sval ty : prim F (r_sval n o vs rp ty). Proof. unfold r_sval. ps. Qed.
Hint Resolve q_sval : prim.
Lemma q_pstruct : prim F (r_pstruct n o vs rp).
Proof. unfold r_pstruct. apply q_headed; intros; ps. Qed.
Lemma q_hinted : prim F (r_hinted n o vs rp).
Proof.
  unfold r_hinted. apply p_bind; [auto with prim|intros st]. apply p_bind; [auto with prim|intros p].
  destruct (hints o _) eqn:E; [ps|]. now apply p_fail, Hhint.
Qed.
Lemma q_outcome {A} (x : outcome A) : (forall f, x = Fail f -> F f) -> prim F (of_outcome x).
Proof. intros H. destruct x; cbn; [apply p_ret|]. apply p_fail. auto. Qed.
Lemma q_array_new ty info l : prim F (of_outcome (array_new ty info l)).
Proof.
  apply q_outcome. intros f. unfold array_new.
  destruct info as [[[? ?] ?]|]; [|discriminate].
  destruct (kind_of ty); try (intros E; injection E as <-; apply HF; exact I).
  destruct (opt_map _ _); [discriminate|]. intros E; injection E as <-; apply HF; exact I.
Qed.
Hint Resolve q_array_new : prim.
Lemma q_struct_array count : prim F (r_struct_array n o vs rp count).
Proof. unfold r_struct_array, r_u64. ps. apply q_rep. ps. Qed.
Hint Resolve q_struct_array : prim.
Lemma q_array length ty : prim F (r_array n o vs rp length ty).
Proof. unfold r_array, r_u32. ps. Qed.
Lemma q_set length ty : prim F (r_set o rp length ty).
Proof. unfold r_set, r_u32. ps. Qed.
Lemma q_map kt vt : prim F (r_map o rp kt vt).
Proof. unfold r_map, r_entry, r_u32. ps. apply q_rep. ps. Qed.
Lemma q_body ty hdr sug : prim F (r_body n o vs rp ty hdr sug).
Proof.
  unfold r_body. destruct (kind_of ty);
    auto using q_pnum, q_pbyte, q_pbool, q_penum, q_pstr, q_pname, q_pobject, q_pdelegate,
      q_pmulti, q_pfieldpath, q_ptext.
  - destruct hdr; [apply q_pstruct|apply q_hinted].
  - destruct hdr; [|unfold in_array; ps]. apply q_headed; intros; [ps|apply q_array].
  - destruct hdr; [|unfold in_array; ps]. apply q_headed; intros; [ps|apply q_set].
  - destruct hdr; [|unfold in_array; ps]. apply q_headed; intros; [ps|apply q_map].
  - destruct hdr; [apply q_unknown_header|]. destruct sug; [apply q_unknown|ps].
Qed.
End Nested.

Lemma q_prop vs n : forall ty hdr sug, prim F (r_prop n o vs ty hdr sug).
Proof. induction n; intros; cbn [r_prop]; [pfail|]. now apply p_scoped, q_body. Qed.
Hint Resolve q_prop : prim.
Lemma q_entries vs n m : prim F (r_entries n m o vs).
Proof. induction n; cbn [r_entries]; ps. Qed.
Hint Resolve q_entries : prim.
End Options.

Lemma q_checked f ok : prim F (r_checked f ok). Proof. unfold r_checked, r_u32. ps. Qed.
Hint Resolve q_checked : prim.
Lemma q_fengine : prim F r_fengine. Proof. unfold r_fengine, r_u16, r_u32. ps. Qed.
Lemma q_version : prim F r_version. Proof. unfold r_version, r_u32. ps. Qed.
Hint Resolve q_fengine q_version : prim.
Lemma q_header : prim F r_header. Proof. unfold r_header, r_u32. ps. Qed.
Lemma q_file o n : (forall path p, hints o path = None -> F (Err (EHint path p))) ->
  prim F (r_file n o).
Proof.
  intros. unfold r_file. apply p_bind; [apply q_header|intros h].
  apply p_bind; [now apply q_entries|intros; ps].
Qed.
End Prim.

(** ** Success depends on the consumed bytes only *)
Definition local {A} (r : reader A) : Prop := forall c a c', r c = Ok (a, c') ->
  exists bs, rest c = bs ++ rest c' /\ pos c' = pos c + len bs /\ stk c' = stk c /\
    forall t, r (Cur (pos c) (bs ++ t) (stk c)) = Ok (a, Cur (pos c') t (stk c')).

Lemma prim_local F A (r : reader A) : prim F r -> local r.
Proof.
  induction 1 as [A a|A B r k Hr IHr Hk IHk|A f Hf| | |n|A s r Hr IH]; intros c x c' E.
  - injection E as <- <-. exists []. repeat split. cbn. lia.
  - unfold bind in E. destruct (r c) as [[y c1]|] eqn:E1; [|discriminate].
    apply IHr in E1 as (b1 & R1 & P1 & S1 & T1). apply IHk in E as (b2 & R2 & P2 & S2 & T2).
    exists (b1 ++ b2). rewrite R1, R2, app_assoc, len_app. repeat split; [lia|congruence|].
    intros t. unfold bind. rewrite <- app_assoc, T1. cbn. apply T2.
  - discriminate.
  - injection E as <- <-. exists []. repeat split. cbn. lia.
  - injection E as <- <-. exists []. repeat split. cbn. lia.
  - unfold take in E. destruct (Z.leb_spec n (len (rest c))); [|discriminate].
    injection E as <- <-. cbn. exists (firstn (Z.to_nat n) (rest c)).
    assert (HL : len (firstn (Z.to_nat n) (rest c)) = Z.max 0 n)
      by (unfold len in *; rewrite firstn_length; lia).
    rewrite firstn_skipn, HL. repeat split. intros t. unfold take. cbn.
    rewrite len_app, HL. pose proof (len_nonneg t).
    destruct (Z.leb_spec n (Z.max 0 n + len t)); [|lia].
    set (bs := firstn (Z.to_nat n) (rest c)) in *.
    assert (Hn : Z.to_nat n = (List.length bs + 0)%nat) by (unfold len in HL; lia).
    rewrite Hn, firstn_app_2, skipn_app, skipn_all2, Nat.add_0_r, Nat.sub_diag by lia.
    cbn. rewrite app_nil_r. reflexivity.
  - unfold scoped, bind, push, pop, ret in E.
    destruct (r _) as [[y c1]|] eqn:E1; [|discriminate]. injection E as <- <-.
    apply IH in E1 as (bs & R & P & S & T). cbn in *. exists bs. rewrite S. cbn.
    repeat split; auto. intros t. unfold scoped, bind, push, pop, ret. cbn. rewrite T, S. reflexivity.
Qed.

(** ** Explicit faults *)
Lemma prim_fault F A (r : reader A) : prim F r -> forall c f, r c = Fail f -> F f \/ f = Err EEof.
Proof.
  induction 1 as [A a|A B r k Hr IHr Hk IHk|A g Hg| | |n|A s r Hr IH]; intros c f E;
    try discriminate.
  - unfold bind in E. destruct (r c) as [[y c1]|] eqn:E1; eauto.
    injection E as <-. eauto.
  - injection E as <-. auto.
  - unfold take in E. destruct (n <=? _); [discriminate|]. injection E as <-. auto.
  - unfold scoped, bind, push, pop, ret in E.
    destruct (r _) as [[y c1]|] eqn:E1; [discriminate|]. injection E as <-. eauto.
Qed.
