(** [rr] (ReaderFacts.v) for every reader of the model. *)
From Coq Require Import ZArith List Bool String Lia ZifyBool ZifyNat.
From Verif Require Import Base Str Types Versions Text Props File BaseFacts ReaderFacts.
Import ListNotations.
Open Scope Z_scope.

Create HintDb rr.
Ltac rstep :=
  match goal with
  | |- rr _ _ (ret _) _ => apply rr_ret
  | |- rr _ _ (fail _) (fail _) => apply rr_fail
  | |- rr _ _ (if ?b then _ else _) _ => destruct b eqn:?
  | |- rr _ _ (match ?x with _ => _ end) _ => destruct x eqn:?
  | |- rr _ _ (bind _ _) _ => apply rr_bind; [|intros]
  | |- rr _ _ (rep _ _) _ => apply rr_rep
  | |- rr _ _ (mapM _ _) _ => apply rr_mapM; intros
  | |- rr _ _ (scoped _ _) _ => apply rr_scoped
  | |- rr _ _ (let _ := _ in _) _ => cbv zeta
  | |- rr _ _ _ _ => solve [eauto 3 with rr]
  end.
Ltac rsolve := repeat rstep.

Section Rel.
Context (Bad : fault -> Prop) (t : list byte).
Hypothesis Heof : t <> [] -> Bad (Err EEof).
Notation R := (rr Bad t).

Lemma x_position : R position position. Proof. apply rr_position. Qed.
Lemma x_get_stk : R get_stk get_stk. Proof. apply rr_get_stk. Qed.
Lemma x_take n : R (take n) (take n). Proof. now apply rr_take. Qed.
Hint Resolve x_position x_get_stk x_take : rr.
Lemma x_uint w : R (r_uint w) (r_uint w).
Proof. unfold r_uint. rsolve. Qed.
Hint Resolve x_uint : rr.
Lemma x_sint w : R (r_sint w) (r_sint w).
Proof. unfold r_sint. rsolve. Qed.
Hint Resolve x_sint : rr.
Lemma x_guid : R r_guid r_guid. Proof. apply x_take. Qed.
Lemma x_fstring : R r_fstring r_fstring.
Proof. unfold r_fstring, r_i32, r_u16, r_u8. rsolve. Qed.
Hint Resolve x_guid x_fstring : rr.
Lemma x_string : R r_string r_string.
Proof. unfold r_string. rsolve. Qed.
Hint Resolve x_string : rr.
Lemma x_boolw w : R (r_boolw w) (r_boolw w).
Proof. unfold r_boolw. rsolve. Qed.
Hint Resolve x_boolw : rr.
Lemma x_enum {A} e (f : Z -> option A) : R (r_enum e f) (r_enum e f).
Proof. unfold r_enum, r_i8. rsolve. Qed.
Hint Resolve x_enum : rr.
Lemma x_index0 : R r_index0 r_index0.
Proof. unfold r_index0, r_u32. rsolve. Qed.
Lemma x_term : R r_term r_term.
Proof. unfold r_term, r_u8. rsolve. Qed.
Hint Resolve x_index0 x_term : rr.
Lemma x_sized {A} n (r r' : reader A) : R r r' -> R (sized n r) (sized n r').
Proof. intros. unfold sized. rsolve; auto. Qed.
Lemma x_headed {V A} (vars vars' : reader V) (body body' : Z -> V -> reader A) :
  R vars vars' -> (forall n v, R (body n v) (body' n v)) ->
  R (headed vars body) (headed vars' body').
Proof.
  intros. unfold headed, r_u32. do 4 (apply rr_bind; [auto with rr|intros]). apply x_sized. auto.
Qed.
Lemma x_headed_index {A} (body : Z -> reader A) :
  (forall n, R (body n) (body n)) -> R (headed_index body) (headed_index body).
Proof.
  intros. unfold headed_index, r_u32. do 3 (apply rr_bind; [auto with rr|intros]). apply x_sized. auto.
Qed.
Lemma x_plain {A} hdr (r r' : reader A) : R r r' -> R (plain hdr r) (plain hdr r').
Proof. intros. unfold plain. destruct hdr; [|auto]. apply x_headed; auto. apply rr_ret. Qed.
Lemma x_check n : R (check_size n) (check_size n).
Proof. unfold check_size, r_u64. rsolve. Qed.
Lemma x_zero s r : R r r -> R (zero_or s r) (zero_or s r).
Proof. intros. unfold zero_or. rsolve; auto. Qed.
Hint Resolve x_check : rr.

(** Texts: the nested reader may differ. *)
Lemma x_numfmt : R r_numfmt r_numfmt.
Proof. unfold r_numfmt, r_rounding, r_b32, r_i32. rsolve. Qed.
Hint Resolve x_numfmt : rr.
Lemma x_optfmt : R r_optfmt r_optfmt.
Proof. unfold r_optfmt, r_b32. rsolve. Qed.
Lemma x_count : R r_count r_count.
Proof. unfold r_count, r_i32. rsolve. Qed.
Hint Resolve x_optfmt x_count : rr.
Section Texts.
Context (vs : list (guid * Z)) (rt rt' : reader ftext).
Hypothesis Hrt : R rt rt'.
Hint Resolve Hrt : rr.
Lemma x_farg : R (r_farg vs rt) (r_farg vs rt').
Proof. unfold r_farg. rsolve. Qed.
Hint Resolve x_farg : rr.
Lemma x_named : R (r_named vs rt) (r_named vs rt').
Proof. unfold r_named. rsolve. Qed.
Hint Resolve x_named : rr.
Lemma x_hist : R (r_hist vs rt) (r_hist vs rt').
Proof. unfold r_hist, r_b32, r_u64, r_style, r_transform. rsolve. Qed.
End Texts.
Lemma x_text vs n : forall n', (n <= n')%nat -> (n <> n' -> Bad Oof) ->
  R (r_text n vs) (r_text n' vs).
Proof.
  induction n as [|n IH]; intros [|n'] Hn Ho; cbn [r_text].
  - apply rr_fail.
  - apply rr_bad, Ho. lia.
  - lia.
  - unfold r_u32. apply rr_bind; [auto with rr|intros]. apply rr_bind; [|intros; apply rr_ret].
    apply x_hist, IH; [lia|]. intros. apply Ho. lia.
Qed.

(** Properties *)
Lemma x_rnum k : R (r_num k) (r_num k).
Proof. unfold r_num. destruct (num_signed k); auto with rr. Qed.
Hint Resolve x_rnum : rr.
Lemma x_pnum k hdr : R (r_pnum k hdr) (r_pnum k hdr).
Proof.
  unfold r_pnum. apply rr_bind; [destruct hdr|intros; rsolve].
  - apply rr_bind; [auto with rr|intros]. apply x_zero. apply x_uint.
  - apply rr_ret.
Qed.
Lemma x_pbool hdr : R (r_pbool hdr) (r_pbool hdr).
Proof.
  unfold r_pbool, r_bool. apply rr_bind; [destruct hdr; rsolve|intros].
  apply rr_bind; [auto with rr|intros]. apply rr_bind; [|intros; apply rr_ret].
  destruct hdr; [apply x_zero, x_uint|apply rr_ret].
Qed.
Lemma x_penum hdr : R (r_penum hdr) (r_penum hdr).
Proof. unfold r_penum. destruct hdr; [apply x_headed; intros|]; rsolve. Qed.
Lemma x_pname hdr : R (r_pname hdr) (r_pname hdr).
Proof. unfold r_pname. destruct hdr; [apply x_headed_index; intros|]; rsolve. Qed.
Lemma x_pstr hdr : R (r_pstr hdr) (r_pstr hdr).
Proof. apply x_plain. rsolve. Qed.
Lemma x_pobject hdr : R (r_pobject hdr) (r_pobject hdr).
Proof. apply x_plain. rsolve. Qed.
Lemma x_delegate : R r_delegate r_delegate.
Proof. unfold r_delegate. rsolve. Qed.
Hint Resolve x_delegate : rr.
Lemma x_pdelegate hdr : R (r_pdelegate hdr) (r_pdelegate hdr).
Proof. apply x_plain. rsolve. Qed.
Lemma x_pmulti i hdr : R (r_pmulti i hdr) (r_pmulti i hdr).
Proof. apply x_plain. unfold r_u32. rsolve. Qed.
Lemma x_pfieldpath hdr : R (r_pfieldpath hdr) (r_pfieldpath hdr).
Proof. apply x_plain. unfold r_u32. rsolve. Qed.
Lemma x_ptext n n' vs hdr : (n <= n')%nat -> (n <> n' -> Bad Oof) ->
  R (r_ptext n vs hdr) (r_ptext n' vs hdr).
Proof. intros. apply x_plain. apply rr_bind; [now apply x_text|intros; apply rr_ret]. Qed.
Lemma x_unknown ty n : R (r_unknown ty n) (r_unknown ty n).
Proof. unfold r_unknown. rsolve. Qed.
Lemma x_unknown_header ty : R (r_unknown_header ty) (r_unknown_header ty).
Proof.
  unfold r_unknown_header, r_u32. apply rr_bind; [auto with rr|intros].
  apply rr_bind; [apply x_zero; auto with rr|intros].
  apply rr_bind; [apply x_zero; apply x_uint|intros]. apply x_unknown.
Qed.

Section Options.
Context (o o' : opts).
(** The second run may know more hints, and may be a release build when the
    first is a debug build. *)
Hypothesis Hhint : forall path, hints o path = hints o' path
  \/ (hints o path = None /\ forall p, Bad (Err (EHint path p))).
Hypothesis Hdbg : dbg o = dbg o'
  \/ (dbg o = true /\ dbg o' = false
      /\ Bad (Panic PByteLength) /\ Bad (Panic PSetLength) /\ Bad (Panic PStructIndex)).
Hypothesis Hprobe : probe o = probe o'.

Lemma x_bytev sug : R (r_bytev o sug) (r_bytev o' sug).
Proof.
  unfold r_bytev. destruct sug as [e|]; [|rsolve].
  destruct Hdbg as [<-|(-> & -> & H & _)]; [rsolve|].
  destruct (e =? 0) eqn:E; cbn [andb].
  - now apply rr_bad.
  - rsolve.
Qed.
Lemma x_pbyte hdr sug : R (r_pbyte o hdr sug) (r_pbyte o' hdr sug).
Proof.
  unfold r_pbyte, r_u32, r_u8. destruct hdr.
  - apply rr_bind; [auto with rr|intros].
    apply rr_bind; [apply x_zero; auto with rr|intros].
    apply rr_bind; [auto with rr|intros].
    apply rr_bind; [apply x_zero; auto with rr|intros].
    apply rr_bind; [apply x_bytev|intros]. rsolve.
  - apply rr_bind; [apply x_bytev|intros]. rsolve.
Qed.

Section Nested.
Context (n n' : nat) (vs : list (guid * Z)) (rp rp' : preader).
Hypothesis Hn : (n <= n')%nat.
Hypothesis Hoof : n <> n' -> Bad Oof.
Hypothesis Hrp : forall ty hdr sug, R (rp ty hdr sug) (rp' ty hdr sug).
Hint Resolve Hrp : rr.

Lemma x_custom m : forall m' acc, (m <= m')%nat -> (m <> m' -> Bad Oof) ->
  R (r_custom m o rp acc) (r_custom m' o' rp' acc).
Proof.
  induction m as [|m IH]; intros [|m'] acc Hm Ho; cbn [r_custom].
  - apply rr_fail.
  - apply rr_bad, Ho. lia.
  - lia.
  - apply rr_bind; [auto with rr|intros nm]. destruct (str_eqb nm s_none); [apply rr_ret|].
    apply rr_bind; [auto with rr|intros ty]. apply rr_bind; [apply rr_scoped; auto|intros p].
    assert (HIH : R (r_custom m o rp (group_add acc nm p)) (r_custom m' o' rp' (group_add acc nm p)))
      by (apply IH; [lia|intros; apply Ho; lia]).
    destruct Hdbg as [<-|(-> & -> & _ & _ & H)].
    + destruct (dbg o && _); [apply rr_fail|exact HIH].
    + cbn [andb]. destruct (negb _); [now apply rr_bad|exact HIH].
Qed.
Lemma x_sval ty : R (r_sval n o vs rp ty) (r_sval n' o' vs rp' ty).
Proof.
  unfold r_sval. destruct (fixed_of vs (skind_of ty)); [rsolve|].
  assert (H : R (l <- r_custom n o rp [] ;; ret (SCustom l)) (l <- r_custom n' o' rp' [] ;; ret (SCustom l))).
  { apply rr_bind; [now apply x_custom|intros; apply rr_ret]. }
  destruct (skind_of ty); auto; rsolve.
Qed.
Hint Resolve x_sval : rr.
Lemma x_pstruct : R (r_pstruct n o vs rp) (r_pstruct n' o' vs rp').
Proof. unfold r_pstruct. apply x_headed; [|intros]; rsolve. Qed.
Lemma x_hinted : R (r_hinted n o vs rp) (r_hinted n' o' vs rp').
Proof.
  unfold r_hinted. apply rr_bind; [auto with rr|intros st]. apply rr_bind; [auto with rr|intros p].
  destruct (Hhint (join_path st)) as [<-|[-> H]].
  - destruct (hints o _); rsolve.
  - apply rr_bad, H.
Qed.
Lemma x_outcome {A} (x : outcome A) : R (of_outcome x) (of_outcome x).
Proof. destruct x; cbn; rsolve. Qed.
Hint Resolve x_outcome : rr.
Lemma x_struct_array count : R (r_struct_array n o vs rp count) (r_struct_array n' o' vs rp' count).
Proof. unfold r_struct_array, r_u64. rsolve. Qed.
Hint Resolve x_struct_array : rr.
Lemma x_array length ty : R (r_array n o vs rp length ty) (r_array n' o' vs rp' length ty).
Proof.
  unfold r_array, r_u32. apply rr_bind; [auto with rr|intros count].
  destruct (kind_of ty); rsolve.
Qed.
Lemma x_set length ty : R (r_set o rp length ty) (r_set o' rp' length ty).
Proof.
  unfold r_set, r_u32. apply rr_bind; [auto with rr|intros flags].
  apply rr_bind; [auto with rr|intros count]. destruct (0 <? count); [|rsolve].
  destruct Hdbg as [<-|(-> & -> & _ & H & _)]; [rsolve|].
  rewrite andb_true_r, andb_false_r. destruct (length <? 8); [now apply rr_bad|rsolve].
Qed.
Lemma x_map kt vt : R (r_map o rp kt vt) (r_map o' rp' kt vt).
Proof.
  unfold r_map, r_u32, r_entry. unfold mins_all. rewrite Hprobe. rsolve.
Qed.
Lemma x_body ty hdr sug : R (r_body n o vs rp ty hdr sug) (r_body n' o' vs rp' ty hdr sug).
Proof.
  unfold r_body. destruct (kind_of ty);
    auto using x_pnum, x_pbyte, x_pbool, x_penum, x_pstr, x_pname, x_pobject, x_pdelegate,
      x_pmulti, x_pfieldpath, x_ptext.
  - destruct hdr; [apply x_pstruct|apply x_hinted].
  - destruct hdr; [|unfold in_array; rsolve].
    apply x_headed; [rsolve|intros]. apply x_array.
  - destruct hdr; [|unfold in_array; rsolve].
    apply x_headed; [rsolve|intros]. apply x_set.
  - destruct hdr; [|unfold in_array; rsolve].
    apply x_headed; [rsolve|intros]. apply x_map.
  - destruct hdr; [apply x_unknown_header|]. destruct sug; [apply x_unknown|rsolve].
Qed.
End Nested.

Lemma x_prop vs n : forall n' ty hdr sug, (n <= n')%nat -> (n <> n' -> Bad Oof) ->
  R (r_prop n o vs ty hdr sug) (r_prop n' o' vs ty hdr sug).
Proof.
  induction n as [|n IH]; intros [|n'] ty hdr sug Hn Ho; cbn [r_prop].
  - apply rr_fail.
  - apply rr_bad, Ho. lia.
  - lia.
  - apply rr_scoped, x_body; auto. intros. apply IH; [lia|]. intros. apply Ho. lia.
Qed.
Lemma x_entries vs n m m' : (m <= m')%nat -> (m <> m' -> Bad Oof) ->
  forall n', (n <= n')%nat -> (n <> n' -> Bad Oof) ->
  R (r_entries n m o vs) (r_entries n' m' o' vs).
Proof.
  intros Hm Hmo. induction n as [|n IH]; intros [|n'] Hn Ho; cbn [r_entries].
  - apply rr_fail.
  - apply rr_bad, Ho. lia.
  - lia.
  - apply rr_bind; [auto with rr|intros nm]. destruct (str_eqb nm s_none); [apply rr_ret|].
    apply rr_bind; [auto with rr|intros ty].
    apply rr_bind; [apply rr_scoped, x_prop; auto|intros p].
    apply rr_bind; [apply IH; [lia|intros; apply Ho; lia]|intros l]. apply rr_ret.
Qed.
End Options.

Lemma x_checked f ok : R (r_checked f ok) (r_checked f ok).
Proof. unfold r_checked, r_u32. rsolve. Qed.
Hint Resolve x_checked : rr.
Lemma x_fengine : R r_fengine r_fengine.
Proof. unfold r_fengine, r_u16, r_u32. rsolve. Qed.
Lemma x_version : R r_version r_version.
Proof. unfold r_version, r_u32. rsolve. Qed.
Hint Resolve x_fengine x_version : rr.
Lemma x_header : R r_header r_header.
Proof. unfold r_header, r_u32. rsolve. Qed.
End Rel.

Lemma x_file (Bad : fault -> Prop) t o o' n n' :
  (t <> [] -> Bad (Err EEof)) ->
  (forall path, hints o path = hints o' path
     \/ (hints o path = None /\ forall p, Bad (Err (EHint path p)))) ->
  (dbg o = dbg o' \/ (dbg o = true /\ dbg o' = false
      /\ Bad (Panic PByteLength) /\ Bad (Panic PSetLength) /\ Bad (Panic PStructIndex))) ->
  probe o = probe o' ->
  (n <= n')%nat -> (n <> n' -> Bad Oof) ->
  rr Bad t (r_file n o) (r_file n' o').
Proof.
  intros. unfold r_file. apply rr_bind; [now apply x_header|intros h].
  apply rr_bind; [|intros; apply rr_ret]. apply x_entries; auto.
Qed.
