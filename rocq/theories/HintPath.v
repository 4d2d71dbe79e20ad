(** The location stack at the point where a hint is looked up. *)
From Coq Require Import ZArith List Bool String Lia ZifyBool ZifyNat.
From Verif Require Import Base Str Types Versions Text Props File BaseFacts Prim ReadThm HintRel Spec KindFacts.
Import ListNotations.
Open Scope Z_scope.

(** Starting from stack [st], a missing hint is reported for a stack that
    extends [st] and has StructProperty on top; success leaves the stack alone. *)
Definition below {A} (r : reader A) : Prop := forall c,
  match r c with
  | Ok (_, c') => stk c' = stk c
  | Fail (Err (EHint path p)) =>
    exists s, path = dotted (s ++ stk c) /\ hd_error (s ++ stk c) = Some (s2z "StructProperty")
  | Fail _ => True
  end.
Lemma b_leaf {A} (r : reader A) : prim no_hint r -> below r.
Proof.
  intros H c. destruct (r c) as [[a c']|f] eqn:E.
  - now apply (prim_local _ _ _ H) in E as (bs & _ & _ & S0 & _).
  - apply (prim_fault _ _ _ H) in E. destruct f as [[]| |]; auto. destruct E as [[]|E]; discriminate.
Qed.
Lemma b_bind {A B} (r : reader A) (k : A -> reader B) :
  below r -> (forall a, below (k a)) -> below (bind r k).
Proof.
  intros Hr Hk c. unfold bind. specialize (Hr c). destruct (r c) as [[a c1]|f]; [|exact Hr].
  specialize (Hk a c1). rewrite Hr in Hk. exact Hk.
Qed.
Lemma b_scoped {A} s (r : reader A) : below r -> below (scoped s r).
Proof.
  intros H c. unfold scoped, bind, push, pop, ret. specialize (H (Cur (pos c) (rest c) (s :: stk c))).
  cbn [stk] in H. destruct (r _) as [[a c1]|f]; cbn [stk]; [now rewrite H|].
  destruct f as [[]| |]; auto. destruct H as (x & -> & H). exists (x ++ [s]). rewrite <- app_assoc. auto.
Qed.
Lemma b_rep {A} n (r : reader A) : below r -> below (rep n r).
Proof.
  intros H. destruct n as [|p|]; [apply b_leaf, p_ret| |apply b_leaf, p_ret]. cbn [rep].
  assert (R : forall a, below (@ret (list A) a)) by (intros; apply b_leaf, p_ret).
  induction p; cbn [rep_pos]; repeat first [assumption | apply R | apply b_bind; [|intros]].
Qed.
Lemma b_ret {A} (a : A) : below (ret a). Proof. apply b_leaf, p_ret. Qed.
Lemma b_fail {A} f : no_hint f -> below (@fail A f).
Proof. intros. now apply b_leaf, p_fail. Qed.
Lemma b_position : below position. Proof. apply b_leaf, p_position. Qed.
Lemma b_uint w : below (r_uint w). Proof. apply b_leaf, q_uint; auto. Qed.
Lemma b_string : below r_string. Proof. apply b_leaf, q_string; auto. Qed.
Lemma b_guid : below r_guid. Proof. apply b_leaf, q_guid. Qed.
Lemma b_headed {V A} (vars : reader V) (body : Z -> V -> reader A) :
  below vars -> (forall n v, below (body n v)) -> below (headed vars body).
Proof.
  intros H1 H2. unfold headed, r_u32. apply b_bind; [apply b_uint|intros n].
  apply b_bind; [apply b_leaf, q_index0; auto|intros u]. apply b_bind; [exact H1|intros v].
  apply b_bind; [apply b_leaf, q_term; auto|intros w]. unfold sized.
  apply b_bind; [apply b_position|intros p]. apply b_bind; [apply H2|intros a].
  apply b_bind; [apply b_position|intros q]. destruct (_ =? _); [apply b_ret|now apply b_fail].
Qed.

Section Opts.
Context (o : opts).
Section Nested.
Context (n : nat) (vs : list (guid * Z)) (rp : preader).
Hypothesis Hrp : forall ty hdr sug, below (rp ty hdr sug).
Lemma b_custom m : forall acc, below (r_custom m o rp acc).
Proof.
  induction m as [|m IH]; intros acc; cbn [r_custom]; [now apply b_fail|].
  apply b_bind; [apply b_string|intros nm]. destruct (str_eqb nm s_none); [apply b_ret|].
  apply b_bind; [apply b_string|intros ty]. apply b_bind; [apply b_scoped, Hrp|intros p].
  destruct (_ && _); [now apply b_fail|apply IH].
Qed.
Lemma b_sval ty : below (r_sval n o vs rp ty).
Proof.
  unfold r_sval. destruct (fixed_of vs (skind_of ty)).
  { apply b_leaf. apply p_bind; [|intros; apply p_ret]. apply q_mapM. intros. apply q_num; auto. }
  assert (C : below (l <- r_custom n o rp [] ;; ret (SCustom l))).
  { apply b_bind; [apply b_custom|intros; apply b_ret]. }
  destruct (skind_of ty); try exact C.
  - apply b_bind; [apply b_guid|intros; apply b_ret].
  - apply b_leaf. apply p_bind; [apply q_count; auto|intros]. apply p_bind; [|intros; apply p_ret].
    apply q_rep, q_string; auto.
Qed.
Lemma b_pstruct : below (r_pstruct n o vs rp).
Proof.
  unfold r_pstruct. apply b_headed.
  - apply b_bind; [apply b_string|intros]. apply b_bind; [apply b_guid|intros; apply b_ret].
  - intros _ v. apply b_bind; [apply b_sval|intros; apply b_ret].
Qed.
Lemma b_struct_array count : below (r_struct_array n o vs rp count).
Proof.
  unfold r_struct_array, r_u64. apply b_bind; [apply b_string|intros fname].
  apply b_bind; [apply b_string|intros ty]. destruct (negb _); [now apply b_fail|].
  apply b_bind; [apply b_uint|intros size]. apply b_bind; [apply b_string|intros tname].
  apply b_bind; [apply b_guid|intros g]. apply b_bind; [apply b_leaf, q_term; auto|intros u].
  apply b_bind; [apply b_position|intros p]. apply b_bind.
  { apply b_rep, b_bind; [apply b_sval|intros; apply b_ret]. }
  intros l. apply b_bind; [apply b_position|intros q]. destruct (_ =? _); [apply b_ret|now apply b_fail].
Qed.
Lemma b_outcome ty info l : below (of_outcome (array_new ty info l)).
Proof. apply b_leaf, q_array_new. auto. Qed.
Lemma b_array length ty : below (r_array n o vs rp length ty).
Proof.
  unfold r_array, r_u32. apply b_bind; [apply b_uint|intros count].
  assert (G : forall sug, below (l <- rep count (rp ty false sug) ;; a <- of_outcome (array_new ty None l) ;; ret (PArray a))).
  { intros sug. apply b_bind; [apply b_rep, Hrp|intros l].
    apply b_bind; [apply b_outcome|intros; apply b_ret]. }
  destruct (kind_of ty); cbv zeta; try apply G.
  apply b_bind; [apply b_struct_array|intros x].
  apply b_bind; [apply b_outcome|intros; apply b_ret].
Qed.
Lemma b_set length ty : below (r_set o rp length ty).
Proof.
  unfold r_set, r_u32. apply b_bind; [apply b_uint|intros flags].
  apply b_bind; [apply b_uint|intros count].
  destruct (0 <? count); [|apply b_ret]. destruct (_ && _); [now apply b_fail|].
  apply b_bind; [apply b_rep, Hrp|intros; apply b_ret].
Qed.
Lemma b_map kt vt : below (r_map o rp kt vt).
Proof.
  unfold r_map, r_u32, r_entry.
  apply b_bind; [apply b_uint|intros flags]. apply b_bind; [apply b_uint|intros count].
  apply b_bind; [|intros; apply b_ret]. apply b_rep.
  apply b_bind; [apply b_scoped, Hrp|intros k]. apply b_bind; [apply b_scoped, Hrp|intros v].
  apply b_bind; [apply b_position|intros; apply b_ret].
Qed.
(** The body runs with the type name on top of the stack. *)
Definition below_top (ty : str) {A} (r : reader A) : Prop := forall c, hd_error (stk c) = Some ty ->
  match r c with
  | Ok (_, c') => stk c' = stk c
  | Fail (Err (EHint path p)) =>
    exists s, path = dotted (s ++ stk c) /\ hd_error (s ++ stk c) = Some (s2z "StructProperty")
  | Fail _ => True
  end.
Lemma b_body ty hdr sug : below_top ty (r_body n o vs rp ty hdr sug).
Proof.
  assert (H : forall f, no_hint f -> no_hint f) by auto.
  intros c Hc. unfold r_body. destruct (kind_of ty) eqn:K.
  all: try (apply b_leaf; first [apply q_pnum | apply q_pbyte | apply q_pbool | apply q_penum | apply q_pstr | apply q_ptext | apply q_pname
    | apply q_pobject | apply q_pdelegate | apply q_pmulti | apply q_pfieldpath]; auto; fail).
  - destruct hdr; [apply b_pstruct|]. unfold r_hinted.
    change (bind get_stk ?k c) with (k (stk c) c). cbv beta.
    change (bind position ?k c) with (k (pos c) c). cbv beta.
    destruct (hints o (join_path (stk c))) as [t|].
    + apply b_bind; [apply b_sval|intros; apply b_ret].
    + cbn. exists []. cbn [app]. split; [apply dotted_join|]. rewrite Hc, (kind_of_name ty), K by (rewrite K; discriminate). reflexivity.
  - destruct hdr; [|apply b_bind; [apply b_position|intros; now apply b_fail]].
    apply b_headed; [apply b_string|intros; apply b_array].
  - destruct hdr; [|apply b_bind; [apply b_position|intros; now apply b_fail]].
    apply b_headed; [apply b_string|intros; apply b_set].
  - destruct hdr; [|apply b_bind; [apply b_position|intros; now apply b_fail]].
    apply b_headed; [|intros; apply b_map].
    apply b_bind; [apply b_string|intros]. apply b_bind; [apply b_string|intros; apply b_ret].
  - destruct hdr; [apply b_leaf, q_unknown_header; auto|].
    destruct sug; [apply b_leaf, q_unknown; auto|apply b_bind; [apply b_position|intros; now apply b_fail]].
Qed.
End Nested.
Lemma b_prop vs n : forall ty hdr sug, below (r_prop n o vs ty hdr sug).
Proof.
  induction n as [|n IH]; intros ty hdr sug; cbn [r_prop]; [now apply b_fail|].
  intros c. unfold scoped, bind, push, pop, ret.
  pose proof (b_body (S n) vs _ IH ty hdr sug (Cur (pos c) (rest c) (ty :: stk c)) eq_refl) as H.
  cbn [stk] in H. destruct (r_body _ _ _ _ _ _ _ _) as [[a c1]|f]; cbn [stk]; [now rewrite H|].
  destruct f as [[]| |]; auto. destruct H as (x & -> & H). exists (x ++ [ty]). rewrite <- app_assoc. auto.
Qed.
Lemma b_entries vs n m : below (r_entries n m o vs).
Proof.
  induction n as [|n IH]; cbn [r_entries]; [now apply b_fail|].
  apply b_bind; [apply b_string|intros nm]. destruct (str_eqb nm s_none); [apply b_ret|].
  apply b_bind; [apply b_string|intros ty]. apply b_bind; [apply b_scoped, b_prop|intros p].
  apply b_bind; [exact IH|intros; apply b_ret].
Qed.
End Opts.

Lemma prop_hint_path n o vs ty hdr sug c path p :
  r_prop n o vs ty hdr sug c = Fail (Err (EHint path p)) ->
  exists s, path = dotted (s ++ stk c) /\ hd_error (s ++ stk c) = Some (s2z "StructProperty").
Proof. intros E. pose proof (b_prop o vs n ty hdr sug c) as B. rewrite E in B. exact B. Qed.
Lemma sval_stack m o vs n ty c v c' : r_sval m o vs (r_prop n o vs) ty c = Ok (v, c') -> stk c' = stk c.
Proof. intros E. pose proof (b_sval o m vs _ (b_prop o vs n) ty c) as B. now rewrite E in B. Qed.
Lemma entry_stack o vs n kt vt c e c' : r_entry (r_prop n o vs) kt vt c = Ok (e, c') -> stk c' = stk c.
Proof.
  intros E. assert (B : below (r_entry (r_prop n o vs) kt vt)).
  { unfold r_entry. apply b_bind; [apply b_scoped, b_prop|intros k]. apply b_bind; [apply b_scoped, b_prop|intros v].
    apply b_bind; [apply b_position|intros; apply b_ret]. }
  specialize (B c). now rewrite E in B.
Qed.
