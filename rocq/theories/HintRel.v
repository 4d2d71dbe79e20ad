(** What changes when a missing hint is supplied. *)
From Coq Require Import ZArith List Bool String Lia ZifyBool ZifyNat.
From Verif Require Import Base Str Types Versions Text Props File BaseFacts Prim.
Import ListNotations.
Open Scope Z_scope.

Definition no_hint (f : fault) : Prop := match f with Err (EHint _ _) => False | _ => True end.
(** The run ends at or after [p], unless it fails for another reason than a
    missing hint; [past]: strictly after. *)
Definition onward {A} (p : Z) (x : outcome (A * cur)) : Prop :=
  match x with
  | Ok (_, c) => p <= pos c
  | Fail (Err (EHint _ q)) => p <= q
  | Fail _ => True
  end.
Definition past {A} (p : Z) (x : outcome (A * cur)) : Prop := onward (p + 1) x.
Lemma onward_le {A} p q (x : outcome (A * cur)) : q <= p -> onward p x -> onward q x.
Proof. destruct x as [[a c]|[[]| |]]; cbn; lia. Qed.

Section Adv.
Context (o o' : opts).
(** [r'] does the same as [r] until [r] misses a hint that [o'] has; from there
    on it moves forward. *)
Definition adv {A} (r r' : reader A) : Prop := forall c,
  onward (pos c) (r' c)
  /\ match r c with
     | Ok x => r' c = Ok x
     | Fail (Err (EHint path p)) =>
       (hints o' path = None /\ r' c = Fail (Err (EHint path p))) \/ (pos c <= p /\ past p (r' c))
     | Fail f => r' c = Fail f
     end.

Lemma adv_same {A} (r : reader A) : prim no_hint r -> adv r r.
Proof.
  intros H c. destruct (r c) as [[a c']|f] eqn:E.
  - split; [|reflexivity]. apply (prim_local _ _ _ H) in E as (bs & _ & P & _).
    cbn. pose proof (len_nonneg bs). lia.
  - apply (prim_fault _ _ _ H) in E. destruct f as [[]| |]; cbn in *; auto.
    destruct E as [[]|E]. discriminate.
Qed.
Lemma adv_bind {A B} (r r' : reader A) (k k' : A -> reader B) :
  adv r r' -> (forall a, adv (k a) (k' a)) -> adv (bind r k) (bind r' k').
Proof.
  intros Hr Hk c. unfold bind. destruct (Hr c) as [M H]. destruct (r c) as [[a c1]|f] eqn:E.
  - rewrite H. rewrite H in M. destruct (Hk a c1) as [M1 H1]. cbn in M.
    split; [eapply onward_le; [|exact M1]; lia|].
    destruct (k a c1) as [x|[[]| |]]; auto.
    destruct H1 as [H1|[H1 H2]]; [auto|right; split; [lia|exact H2]].
  - assert (Hgo : forall f', r' c = Fail f' -> onward (pos c) (match r' c with Ok (a, c') => k' a c' | Fail g => Fail g end)
        /\ match r' c with Ok (a, c') => k' a c' | Fail g => Fail g end = Fail f').
    { intros f' E'. rewrite E' in *. auto. }
    destruct f as [[]| |]; try (destruct (Hgo _ H) as [G1 G2]; split; [exact G1|exact G2]).
    destruct H as [[Hp H]|[Hp H]].
    + destruct (Hgo _ H) as [G1 G2]. split; [exact G1|]. left. split; [exact Hp|exact G2].
    + destruct (r' c) as [[a c1]|f] eqn:E'.
      * destruct (Hk a c1) as [M1 _]. cbn in H, M. split; [eapply onward_le; [|exact M1]; lia|].
        right. split; [exact Hp|]. unfold past. eapply onward_le; [|exact M1]. lia.
      * split; [exact M|]. right. split; [exact Hp|exact H].
Qed.
Lemma adv_scoped {A} s (r r' : reader A) : adv r r' -> adv (scoped s r) (scoped s r').
Proof.
  intros H c. unfold scoped, bind, push, pop, ret. destruct (H (Cur (pos c) (rest c) (s :: stk c))) as [M H1].
  cbn [pos] in *. destruct (r _) as [[a c1]|f] eqn:E.
  - rewrite H1 in *. cbn in *. auto.
  - destruct (r' _) as [[a' c1]|f'] eqn:E'; cbn [pos] in *.
    + split; [exact M|]. destruct f as [[]| |]; try discriminate H1.
      destruct H1 as [[_ H1]|H1]; [discriminate H1|right; exact H1].
    + split; [exact M|]. destruct f as [[]| |]; try (injection H1 as ->; reflexivity).
      destruct H1 as [[Hp H1]|H1]; [left; split; [exact Hp|]; injection H1 as ->; reflexivity|right; exact H1].
Qed.
Lemma adv_rep {A} n (r r' : reader A) : adv r r' -> adv (rep n r) (rep n r').
Proof.
  intros H. destruct n as [|p|]; [apply adv_same, p_ret| |apply adv_same, p_ret]. cbn [rep].
  assert (R : forall a, adv (@ret (list A) a) (ret a)) by (intros; apply adv_same, p_ret).
  induction p; cbn [rep_pos]; repeat first [assumption | apply R | apply adv_bind; [|intros]].
Qed.

Lemma adv_ret {A} (a : A) : adv (ret a) (ret a). Proof. apply adv_same, p_ret. Qed.
Lemma adv_position : adv position position. Proof. apply adv_same, p_position. Qed.
Lemma adv_uint w : adv (r_uint w) (r_uint w). Proof. apply adv_same, q_uint; auto. Qed.
Lemma adv_string : adv r_string r_string. Proof. apply adv_same, q_string; auto. Qed.
Lemma adv_guid : adv r_guid r_guid. Proof. apply adv_same, q_guid. Qed.
Lemma adv_index0 : adv r_index0 r_index0. Proof. apply adv_same, q_index0; auto. Qed.
Lemma adv_term : adv r_term r_term. Proof. apply adv_same, q_term; auto. Qed.
Lemma adv_fail {A} f : no_hint f -> adv (@fail A f) (fail f).
Proof. intros. now apply adv_same, p_fail. Qed.
Lemma adv_sized {A} n (r r' : reader A) : adv r r' -> adv (sized n r) (sized n r').
Proof.
  intros H. unfold sized. apply adv_bind; [apply adv_position|intros p].
  apply adv_bind; [exact H|intros a]. apply adv_bind; [apply adv_position|intros q].
  destruct (_ =? _); [apply adv_ret|now apply adv_fail].
Qed.
Lemma adv_headed {V A} (vars : reader V) (body body' : Z -> V -> reader A) :
  adv vars vars -> (forall n v, adv (body n v) (body' n v)) -> adv (headed vars body) (headed vars body').
Proof.
  intros H1 H2. unfold headed, r_u32. apply adv_bind; [apply adv_uint|intros n].
  apply adv_bind; [apply adv_index0|intros u]. apply adv_bind; [exact H1|intros v].
  apply adv_bind; [apply adv_term|intros w]. apply adv_sized, H2.
Qed.

Hypothesis Hmore : dbg o' = dbg o /\ probe o' = probe o
  /\ forall path ty, hints o path = Some ty -> hints o' path = Some ty.

Section Nested.
Context (n : nat) (vs : list (guid * Z)) (rp rp' : preader).
Hypothesis Hrp : forall ty hdr sug, adv (rp ty hdr sug) (rp' ty hdr sug).

Lemma adv_custom m : forall acc, adv (r_custom m o rp acc) (r_custom m o' rp' acc).
Proof.
  induction m as [|m IH]; intros acc; cbn [r_custom]; [now apply adv_fail|].
  apply adv_bind; [apply adv_string|intros nm]. destruct (str_eqb nm s_none); [apply adv_ret|].
  apply adv_bind; [apply adv_string|intros ty]. apply adv_bind; [apply adv_scoped, Hrp|intros p].
  destruct Hmore as (-> & _). destruct (_ && _); [now apply adv_fail|apply IH].
Qed.
Lemma adv_sval ty : adv (r_sval n o vs rp ty) (r_sval n o' vs rp' ty).
Proof.
  unfold r_sval. destruct (fixed_of vs (skind_of ty)).
  { apply adv_same. apply p_bind; [|intros; apply p_ret]. apply q_mapM. intros. apply q_num; auto. }
  assert (C : adv (l <- r_custom n o rp [] ;; ret (SCustom l)) (l <- r_custom n o' rp' [] ;; ret (SCustom l))).
  { apply adv_bind; [apply adv_custom|intros; apply adv_ret]. }
  destruct (skind_of ty); try exact C.
  - apply adv_bind; [apply adv_guid|intros; apply adv_ret].
  - apply adv_same. apply p_bind; [apply q_count; auto|intros]. apply p_bind; [|intros; apply p_ret].
    apply q_rep, q_string; auto.
Qed.
Lemma adv_pstruct : adv (r_pstruct n o vs rp) (r_pstruct n o' vs rp').
Proof.
  unfold r_pstruct. apply adv_headed.
  - apply adv_bind; [apply adv_string|intros]. apply adv_bind; [apply adv_guid|intros; apply adv_ret].
  - intros _ v. apply adv_bind; [apply adv_sval|intros; apply adv_ret].
Qed.
(** A struct value always takes at least one byte before anything nested. *)
Lemma past_bind {A B} (r : reader A) (k : A -> reader B) :
  (forall c, match r c with Ok (_, c') => pos c + 1 <= pos c' | Fail f => no_hint f end) ->
  (forall a c, onward (pos c) (k a c)) -> forall c, past (pos c) (bind r k c).
Proof.
  intros Hr Hk c. unfold bind, past. specialize (Hr c). destruct (r c) as [[a c1]|f].
  - eapply onward_le; [exact Hr|apply Hk].
  - destruct f as [[]| |]; cbn in *; tauto.
Qed.
Lemma firm {A} (r : reader A) lo : prim no_hint r ->
  (forall c a c', r c = Ok (a, c') -> pos c + lo <= pos c') -> 1 <= lo ->
  forall c, match r c with Ok (_, c') => pos c + 1 <= pos c' | Fail f => no_hint f end.
Proof.
  intros H Hl L c. destruct (r c) as [[a c']|f] eqn:E; [apply Hl in E; lia|].
  apply (prim_fault _ _ _ H) in E as [E| ->]; [exact E|exact I].
Qed.
Lemma firm_take w : 1 <= w -> forall c, match take w c with Ok (_, c') => pos c + 1 <= pos c' | Fail f => no_hint f end.
Proof.
  intros H c. unfold take. destruct (_ <=? _); cbn; [lia|exact I].
Qed.
Lemma firm_uint w : 1 <= w -> forall c, match r_uint w c with Ok (_, c') => pos c + 1 <= pos c' | Fail f => no_hint f end.
Proof.
  intros H c. unfold r_uint, bind. pose proof (firm_take w H c) as F. destruct (take w c) as [[a c']|f]; exact F.
Qed.
Lemma firm_sint w : 1 <= w -> forall c, match r_sint w c with Ok (_, c') => pos c + 1 <= pos c' | Fail f => no_hint f end.
Proof.
  intros H c. unfold r_sint, bind. pose proof (firm_uint w H c) as F. destruct (r_uint w c) as [[a c']|f]; exact F.
Qed.
Lemma firm_bind {A B} (r : reader A) (k : A -> reader B) :
  (forall c, match r c with Ok (_, c') => pos c + 1 <= pos c' | Fail f => no_hint f end) ->
  (forall a, prim no_hint (k a)) ->
  forall c, match bind r k c with Ok (_, c') => pos c + 1 <= pos c' | Fail f => no_hint f end.
Proof.
  intros Hr Hk c. unfold bind. specialize (Hr c). destruct (r c) as [[a c1]|f]; [|exact Hr].
  destruct (k a c1) as [[b c2]|f] eqn:E.
  - apply (prim_local _ _ _ (Hk a)) in E as (bs & _ & P & _). pose proof (len_nonneg bs). lia.
  - apply (prim_fault _ _ _ (Hk a)) in E as [E| ->]; [exact E|exact I].
Qed.
Lemma firm_string c : match r_string c with Ok (_, c') => pos c + 1 <= pos c' | Fail f => no_hint f end.
Proof.
  unfold r_string. change (bind position ?k c) with (k (pos c) c). cbv beta.
  unfold r_fstring. unfold bind at 1. change (bind position ?k c) with (k (pos c) c). cbv beta.
  match goal with |- match (match ?x with _ => _ end) with _ => _ end => change x with
    (bind r_i32 (fun n => if negb (inr (-131072) 131072 n) then fail (Err (EString n (pos c)))
      else if n =? 0 then ret None else if n <? 0 then
      buf <- take (2 * (- n - 1)) ;; t <- r_u16 ;; p <- position ;;
      if negb (t =? 0) then fail (Err (EStrTerm t p))
      else match utf16_dec (words buf) with Some s => ret (Some s) | None => fail (Err (EUtf16 (pos c))) end
      else buf <- take (n - 1) ;; t <- r_u8 ;; p <- position ;;
      if negb (t =? 0) then fail (Err (EStrTerm t p))
      else match utf8_dec buf with Some s => ret (Some s) | None => fail (Err (EUtf8 (pos c))) end) c) end.
  match goal with |- match (match bind ?r ?k c with _ => _ end) with _ => _ end =>
    pose proof (firm_bind r k) as F end.
  specialize (F (firm_sint 4 ltac:(lia))).
  match type of F with ?P -> _ => assert (HP : P) end.
  { intros a. unfold r_u16, r_u8. repeat first [apply p_ret | apply p_fail; exact I | apply p_position | apply p_take
      | apply q_uint; auto | apply p_bind; [|intros] | match goal with |- prim _ (if ?b then _ else _) => destruct b end
      | match goal with |- prim _ (match ?b with _ => _ end) => destruct b end]. }
  specialize (F HP c). destruct (bind _ _ c) as [[[s|] c1]|f]; [exact F| |exact F]. exact I.
Qed.
Lemma past_sval ty c : past (pos c) (r_sval n o' vs rp' ty c).
Proof.
  unfold r_sval.
  assert (R : forall A (a : A) c, onward (pos c) (ret a c)) by (intros; cbn; lia).
  assert (Pm : forall A (r : reader A), prim no_hint r -> forall c, onward (pos c) (r c)).
  { intros A r Hr k. apply (adv_same r Hr k). }
  destruct (fixed_of vs (skind_of ty)) as [x|].
  { apply past_bind; [|intros; apply R].
    assert (F : exists k ks, layout x = k :: ks) by (destruct x; cbn; eauto).
    destruct F as (k & ks & ->). cbn [mapM]. apply firm_bind.
    - unfold r_num. destruct (num_signed k); [apply firm_sint|apply firm_uint]; destruct k; cbn; lia.
    - intros a. apply p_bind; [apply q_mapM; intros; apply q_num; auto|intros; apply p_ret]. }
  assert (C : past (pos c) ((l <- r_custom n o' rp' [] ;; ret (SCustom l)) c)).
  { generalize (@nil (str * list property)). destruct n as [|m]; intros l; [exact I|]. cbn [r_custom].
    unfold bind at 1.
    match goal with |- past _ (match ?x with _ => _ end) => assert (P : past (pos c) x) end.
    { apply past_bind; [apply firm_string|]. intros nm k. destruct (str_eqb nm s_none); [apply R|].
      assert (G : adv (ty0 <- r_string ;; p <- scoped nm (rp ty0 true None) ;;
         (if dbg o && negb (index_ok l nm p) then fail (Panic PStructIndex) else r_custom m o rp (group_add l nm p)))
        (ty0 <- r_string ;; p <- scoped nm (rp' ty0 true None) ;;
         (if dbg o' && negb (index_ok l nm p) then fail (Panic PStructIndex) else r_custom m o' rp' (group_add l nm p)))).
      { apply adv_bind; [apply adv_string|intros ty']. apply adv_bind; [apply adv_scoped, Hrp|intros p].
        destruct Hmore as (-> & _). destruct (_ && _); [now apply adv_fail|apply adv_custom]. }
      apply G. }
    destruct (_ : outcome (list (str * list property) * cur)) as [[a c1]|f]; [|exact P]. exact P. }
  destruct (skind_of ty); try exact C.
  - apply past_bind; [apply firm_take; lia|intros; apply R].
  - apply past_bind.
    + unfold r_count. apply firm_bind; [apply firm_sint; lia|]. intros a. destruct (_ <? _); [apply p_fail; exact I|apply p_ret].
    + intros a k. apply Pm. apply p_bind; [apply q_rep, q_string; auto|intros; apply p_ret].
Qed.
Lemma adv_hinted : adv (r_hinted n o vs rp) (r_hinted n o' vs rp').
Proof.
  unfold r_hinted. apply adv_bind; [apply adv_same, p_get_stk|intros st]. intros c.
  change (bind position ?k c) with (k (pos c) c). cbv beta.
  destruct Hmore as (_ & _ & Hh). destruct (hints o (join_path st)) as [ty|] eqn:E.
  - rewrite (Hh _ _ E). apply adv_bind; [apply adv_sval|intros; apply adv_ret].
  - destruct (hints o' (join_path st)) as [ty|] eqn:E'.
    + assert (P : past (pos c) ((v <- r_sval n o' vs rp' ty ;; ret (PSValue v)) c)).
      { unfold bind. pose proof (past_sval ty c) as P. destruct (r_sval n o' vs rp' ty c) as [[a c1]|f]; exact P. }
      split; [eapply onward_le; [|exact P]; lia|]. cbn. right. split; [lia|exact P].
    + split; cbn; [lia|]. left. auto.
Qed.
Lemma adv_outcome ty info l : adv (of_outcome (array_new ty info l)) (of_outcome (array_new ty info l)).
Proof. apply adv_same, q_array_new; auto. Qed.
Lemma adv_struct_array count : adv (r_struct_array n o vs rp count) (r_struct_array n o' vs rp' count).
Proof.
  unfold r_struct_array, r_u64. apply adv_bind; [apply adv_string|intros fname].
  apply adv_bind; [apply adv_string|intros ty]. destruct (negb _); [now apply adv_fail|].
  apply adv_bind; [apply adv_uint|intros size]. apply adv_bind; [apply adv_string|intros tname].
  apply adv_bind; [apply adv_guid|intros g]. apply adv_bind; [apply adv_term|intros u].
  apply adv_bind; [apply adv_position|intros p]. apply adv_bind.
  { apply adv_rep, adv_bind; [apply adv_sval|intros; apply adv_ret]. }
  intros l. apply adv_bind; [apply adv_position|intros q]. destruct (_ =? _); [apply adv_ret|now apply adv_fail].
Qed.
Lemma adv_array length ty : adv (r_array n o vs rp length ty) (r_array n o' vs rp' length ty).
Proof.
  unfold r_array, r_u32. apply adv_bind; [apply adv_uint|intros count].
  assert (G : forall sug, adv (l <- rep count (rp ty false sug) ;; a <- of_outcome (array_new ty None l) ;; ret (PArray a))
                              (l <- rep count (rp' ty false sug) ;; a <- of_outcome (array_new ty None l) ;; ret (PArray a))).
  { intros sug. apply adv_bind; [apply adv_rep, Hrp|intros l].
    apply adv_bind; [apply adv_outcome|intros; apply adv_ret]. }
  destruct (kind_of ty); cbv zeta; try apply G.
  apply adv_bind; [apply adv_struct_array|intros x].
  apply adv_bind; [apply adv_outcome|intros; apply adv_ret].
Qed.
Lemma adv_set length ty : adv (r_set o rp length ty) (r_set o' rp' length ty).
Proof.
  unfold r_set, r_u32. apply adv_bind; [apply adv_uint|intros flags].
  apply adv_bind; [apply adv_uint|intros count]. destruct Hmore as (-> & _).
  destruct (0 <? count); [|apply adv_ret]. destruct (_ && _); [now apply adv_fail|].
  apply adv_bind; [apply adv_rep, Hrp|intros; apply adv_ret].
Qed.
Lemma adv_map kt vt : adv (r_map o rp kt vt) (r_map o' rp' kt vt).
Proof.
  unfold r_map, r_u32, r_entry, mins_all. destruct Hmore as (_ & -> & _).
  apply adv_bind; [apply adv_uint|intros flags]. apply adv_bind; [apply adv_uint|intros count].
  apply adv_bind; [|intros; apply adv_ret]. apply adv_rep.
  apply adv_bind; [apply adv_scoped, Hrp|intros k]. apply adv_bind; [apply adv_scoped, Hrp|intros v].
  apply adv_bind; [apply adv_position|intros; apply adv_ret].
Qed.
Lemma adv_body ty hdr sug : adv (r_body n o vs rp ty hdr sug) (r_body n o' vs rp' ty hdr sug).
Proof.
  assert (H : forall f, no_hint f -> no_hint f) by auto.
  unfold r_body. destruct (kind_of ty).
  1: apply adv_same, q_pnum; auto.
  1: { unfold r_pbyte, r_bytev. destruct Hmore as (-> & _). apply adv_same, (q_pbyte no_hint H o). }
  all: try (apply adv_same; first [apply q_pbool | apply q_penum | apply q_pstr | apply q_ptext | apply q_pname
    | apply q_pobject | apply q_pdelegate | apply q_pmulti | apply q_pfieldpath]; auto; fail).
  - destruct hdr; [apply adv_pstruct|apply adv_hinted].
  - destruct hdr; [|apply adv_bind; [apply adv_position|intros; now apply adv_fail]].
    apply adv_headed; [apply adv_string|intros; apply adv_array].
  - destruct hdr; [|apply adv_bind; [apply adv_position|intros; now apply adv_fail]].
    apply adv_headed; [apply adv_string|intros; apply adv_set].
  - destruct hdr; [|apply adv_bind; [apply adv_position|intros; now apply adv_fail]].
    apply adv_headed; [|intros; apply adv_map].
    apply adv_bind; [apply adv_string|intros]. apply adv_bind; [apply adv_string|intros; apply adv_ret].
  - destruct hdr; [apply adv_same, q_unknown_header; auto|].
    destruct sug; [apply adv_same, q_unknown; auto|apply adv_bind; [apply adv_position|intros; now apply adv_fail]].
Qed.
End Nested.

Lemma adv_prop vs n : forall ty hdr sug, adv (r_prop n o vs ty hdr sug) (r_prop n o' vs ty hdr sug).
Proof.
  induction n as [|n IH]; intros; cbn [r_prop]; [now apply adv_fail|]. apply adv_scoped, adv_body, IH.
Qed.
Lemma adv_entries vs n m : adv (r_entries n m o vs) (r_entries n m o' vs).
Proof.
  induction n as [|n IH]; cbn [r_entries]; [now apply adv_fail|].
  apply adv_bind; [apply adv_string|intros nm]. destruct (str_eqb nm s_none); [apply adv_ret|].
  apply adv_bind; [apply adv_string|intros ty]. apply adv_bind; [apply adv_scoped, adv_prop|intros p].
  apply adv_bind; [exact IH|intros; apply adv_ret].
Qed.
Lemma adv_file n : adv (r_file n o) (r_file n o').
Proof.
  unfold r_file. apply adv_bind; [apply adv_same, q_header; auto|intros h].
  apply adv_bind; [apply adv_entries|intros; apply adv_ret].
Qed.
End Adv.

(** ** Supplying hints one at a time *)
Definition add_hint (o : opts) (path ty : str) : opts :=
  Opts (dbg o) (fun p => if str_eqb p path then Some ty else hints o p) (probe o).
Lemma add_hint_more o path ty : hints o path = None ->
  dbg (add_hint o path ty) = dbg o /\ probe (add_hint o path ty) = probe o
  /\ forall p t, hints o p = Some t -> hints (add_hint o path ty) p = Some t.
Proof.
  intros H. repeat split. intros p t E. cbn. destruct (str_eqb p path) eqn:X; [|exact E].
  apply str_eqb_eq in X. congruence.
Qed.
