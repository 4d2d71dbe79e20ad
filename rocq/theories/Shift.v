(** Two runs of a reader on the same bytes, the second starting [d] bytes later in
    its stream and with a version table that supports the same features. *)
From Coq Require Import ZArith List Bool String Lia ZifyBool ZifyNat.
From Verif Require Import Base Str Types Versions Text Props File BaseFacts ReaderFacts.
Import ListNotations.
Open Scope Z_scope.

(** Positions in errors. *)
Definition moved_err (d : Z) (e : error) : error :=
  match e with
  | EEof | EIo | EHeader _ _ | EMagic _ | ESerialize _ => e
  | EValueSize a b p => EValueSize a b (p + d)
  | EString n p => EString n (p + d)
  | EStrTerm t p => EStrTerm t (p + d)
  | EBool v p => EBool v (p + d)
  | EHint s p => EHint s (p + d)
  | EProperty s p => EProperty s (p + d)
  | EEnum t v p => EEnum t v (p + d)
  | EArrayIndex i p => EArrayIndex i (p + d)
  | ETerm t p => ETerm t (p + d)
  | EUtf16 p => EUtf16 (p + d)
  | EUtf8 p => EUtf8 (p + d)
  end.
Definition moved_fault (d : Z) (f : fault) : fault :=
  match f with Err e => Err (moved_err d e) | _ => f end.
Definition moved (d : Z) (c : cur) : cur := Cur (pos c + d) (rest c) (stk c).
Definition moved_result {A} (d : Z) (x : outcome (A * cur)) : outcome (A * cur) :=
  match x with Ok (a, c) => Ok (a, moved d c) | Fail f => Fail (moved_fault d f) end.

Section Shift.
Context (d : Z).
Definition sh {A} (r r' : reader A) : Prop := forall c, r' (moved d c) = moved_result d (r c).

Lemma sh_ret {A} (a : A) : sh (ret a) (ret a).
Proof. intros c. reflexivity. Qed.
Lemma sh_fail {A} f f' : f' = moved_fault d f -> sh (@fail A f) (fail f').
Proof. intros ->. intros c. reflexivity. Qed.
Lemma sh_bind {A B} (r r' : reader A) (k k' : A -> reader B) :
  sh r r' -> (forall a, sh (k a) (k' a)) -> sh (bind r k) (bind r' k').
Proof.
  intros H1 H2 c. unfold bind. rewrite H1. destruct (r c) as [[a c1]|f]; cbn [moved_result]; [apply H2|reflexivity].
Qed.
Lemma sh_position {B} (k k' : Z -> reader B) :
  (forall p, sh (k p) (k' (p + d))) -> sh (bind position k) (bind position k').
Proof. intros H c. apply H. Qed.
Lemma sh_get_stk : sh get_stk get_stk.
Proof. intros c. reflexivity. Qed.
Lemma sh_take n : sh (take n) (take n).
Proof.
  intros c. unfold take, moved. cbn [pos rest stk]. destruct (n <=? len (rest c)); [|reflexivity].
  cbn [moved_result]. unfold moved. cbn [pos rest stk]. do 3 f_equal. lia.
Qed.
Lemma sh_scoped {A} s (r r' : reader A) : sh r r' -> sh (scoped s r) (scoped s r').
Proof.
  intros H c. unfold scoped, bind, push, pop, ret. specialize (H (Cur (pos c) (rest c) (s :: stk c))).
  unfold moved in *. cbn [pos rest stk] in *. rewrite H.
  destruct (r _) as [[a c']|f]; reflexivity.
Qed.
Lemma sh_repn {A} n (r r' : reader A) : sh r r' -> sh (repn n r) (repn n r').
Proof.
  intros H. induction n as [|n IH]; cbn [repn]; [apply sh_ret|].
  apply sh_bind; [exact H|intros]. apply sh_bind; [exact IH|intros]. apply sh_ret.
Qed.
Lemma sh_rep {A} n (r r' : reader A) : sh r r' -> sh (rep n r) (rep n r').
Proof. intros H c. rewrite !rep_repn. exact (sh_repn _ r r' H c). Qed.
Lemma sh_mapM {A B} (f f' : A -> reader B) l : (forall a, sh (f a) (f' a)) -> sh (mapM f l) (mapM f' l).
Proof.
  intros H. induction l as [|a l IH]; cbn [mapM]; [apply sh_ret|].
  apply sh_bind; [apply H|intros]. apply sh_bind; [exact IH|intros]. apply sh_ret.
Qed.
(** The two tests on positions. *)
Lemma sub_sub a b : a + d - (b + d) = a - b.
Proof. lia. Qed.
End Shift.

Create HintDb sh.
Ltac sstep :=
  match goal with
  | |- sh _ (ret _) _ => apply sh_ret
  | |- sh _ (fail _) (fail _) => apply sh_fail; cbn [moved_fault moved_err]; try reflexivity; do 2 f_equal; lia
  | |- sh _ (if ?b then _ else _) _ => destruct b eqn:?
  | |- sh _ (match ?x with _ => _ end) _ => destruct x eqn:?
  | |- sh _ (bind position _) _ => apply sh_position; intros; rewrite ?sub_sub
  | |- sh _ (bind _ _) _ => apply sh_bind; [|intros; rewrite ?sub_sub]
  | |- sh _ (rep _ _) _ => apply sh_rep
  | |- sh _ (mapM _ _) _ => apply sh_mapM; intros
  | |- sh _ (scoped _ _) _ => apply sh_scoped
  | |- sh _ (let _ := _ in _) _ => cbv zeta
  | |- sh _ _ _ => solve [eauto 3 with sh]
  end.
Ltac ssolve := repeat sstep.

Section Readers.
Context (d : Z).
Notation R := (sh d).
Lemma s_get_stk : R get_stk get_stk. Proof. apply sh_get_stk. Qed.
Lemma s_take n : R (take n) (take n). Proof. apply sh_take. Qed.
Hint Resolve s_get_stk s_take : sh.
Lemma s_uint w : R (r_uint w) (r_uint w).
Proof. unfold r_uint. ssolve. Qed.
Hint Resolve s_uint : sh.
Lemma s_sint w : R (r_sint w) (r_sint w).
Proof. unfold r_sint. ssolve. Qed.
Hint Resolve s_sint : sh.
Lemma s_guid : R r_guid r_guid. Proof. apply s_take. Qed.
Lemma s_fstring : R r_fstring r_fstring.
Proof. unfold r_fstring, r_i32, r_u16, r_u8. ssolve. Qed.
Hint Resolve s_guid s_fstring : sh.
Lemma s_string : R r_string r_string.
Proof. unfold r_string. ssolve. Qed.
Hint Resolve s_string : sh.
Lemma s_boolw w : R (r_boolw w) (r_boolw w).
Proof. unfold r_boolw. ssolve. Qed.
Hint Resolve s_boolw : sh.
Lemma s_enum {A} e (f : Z -> option A) : R (r_enum e f) (r_enum e f).
Proof. unfold r_enum, r_i8. ssolve. Qed.
Hint Resolve s_enum : sh.
Lemma s_index0 : R r_index0 r_index0.
Proof. unfold r_index0, r_u32. ssolve. Qed.
Lemma s_term : R r_term r_term.
Proof. unfold r_term, r_u8. ssolve. Qed.
Hint Resolve s_index0 s_term : sh.
Lemma s_sized {A} n (r r' : reader A) : R r r' -> R (sized n r) (sized n r').
Proof. intros. unfold sized. ssolve; auto. Qed.
Lemma s_headed {V A} (vars vars' : reader V) (body body' : Z -> V -> reader A) :
  R vars vars' -> (forall n v, R (body n v) (body' n v)) ->
  R (headed vars body) (headed vars' body').
Proof.
  intros. unfold headed, r_u32. do 4 (apply sh_bind; [auto with sh|intros]). apply s_sized. auto.
Qed.
Lemma s_headed_index {A} (body : Z -> reader A) :
  (forall n, R (body n) (body n)) -> R (headed_index body) (headed_index body).
Proof.
  intros. unfold headed_index, r_u32. do 3 (apply sh_bind; [auto with sh|intros]). apply s_sized. auto.
Qed.
Lemma s_plain {A} hdr (r r' : reader A) : R r r' -> R (plain hdr r) (plain hdr r').
Proof. intros. unfold plain. destruct hdr; [|auto]. apply s_headed; auto. apply sh_ret. Qed.
Lemma s_check n : R (check_size n) (check_size n).
Proof. unfold check_size, r_u64. ssolve. Qed.
Lemma s_zero s r : R r r -> R (zero_or s r) (zero_or s r).
Proof. intros. unfold zero_or. ssolve; auto. Qed.
Hint Resolve s_check : sh.
Lemma s_numfmt : R r_numfmt r_numfmt.
Proof. unfold r_numfmt, r_rounding, r_b32, r_i32. ssolve. Qed.
Hint Resolve s_numfmt : sh.
Lemma s_optfmt : R r_optfmt r_optfmt.
Proof. unfold r_optfmt, r_b32. ssolve. Qed.
Lemma s_count : R r_count r_count.
Proof. unfold r_count, r_i32. ssolve. Qed.
Hint Resolve s_optfmt s_count : sh.

Section Versions.
Context (vs vs' : list (guid * Z)).
Hypothesis Hlwc : has_lwc vs' = has_lwc vs.
Hypothesis Harg : has_arg64 vs' = has_arg64 vs.
Hypothesis Hcul : has_culture vs' = has_culture vs.
Section Texts.
Context (rt rt' : reader ftext).
Hypothesis Hrt : R rt rt'.
Hint Resolve Hrt : sh.
Lemma s_farg : R (r_farg vs rt) (r_farg vs' rt').
Proof. unfold r_farg. rewrite Harg. ssolve. Qed.
Hint Resolve s_farg : sh.
Lemma s_named : R (r_named vs rt) (r_named vs' rt').
Proof. unfold r_named. ssolve. Qed.
Hint Resolve s_named : sh.
Lemma s_hist : R (r_hist vs rt) (r_hist vs' rt').
Proof. unfold r_hist, r_b32, r_u64, r_style, r_transform. rewrite Hcul. ssolve. Qed.
End Texts.
Lemma s_text n : R (r_text n vs) (r_text n vs').
Proof.
  induction n as [|n IH]; cbn [r_text]; [now apply sh_fail|].
  unfold r_u32. apply sh_bind; [auto with sh|intros]. apply sh_bind; [now apply s_hist|intros; apply sh_ret].
Qed.

Lemma s_rnum k : R (r_num k) (r_num k).
Proof. unfold r_num. destruct (num_signed k); auto with sh. Qed.
Hint Resolve s_rnum : sh.
Lemma s_pnum k hdr : R (r_pnum k hdr) (r_pnum k hdr).
Proof.
  unfold r_pnum. apply sh_bind; [destruct hdr|intros; ssolve].
  - apply sh_bind; [auto with sh|intros]. apply s_zero. apply s_uint.
  - apply sh_ret.
Qed.
Lemma s_pbool hdr : R (r_pbool hdr) (r_pbool hdr).
Proof.
  unfold r_pbool, r_bool. apply sh_bind; [destruct hdr; ssolve|intros].
  apply sh_bind; [auto with sh|intros]. apply sh_bind; [|intros; apply sh_ret].
  destruct hdr; [apply s_zero, s_uint|apply sh_ret].
Qed.
Lemma s_penum hdr : R (r_penum hdr) (r_penum hdr).
Proof. unfold r_penum. destruct hdr; [apply s_headed; intros|]; ssolve. Qed.
Lemma s_pname hdr : R (r_pname hdr) (r_pname hdr).
Proof. unfold r_pname. destruct hdr; [apply s_headed_index; intros|]; ssolve. Qed.
Lemma s_pstr hdr : R (r_pstr hdr) (r_pstr hdr).
Proof. apply s_plain. ssolve. Qed.
Lemma s_pobject hdr : R (r_pobject hdr) (r_pobject hdr).
Proof. apply s_plain. ssolve. Qed.
Lemma s_delegate : R r_delegate r_delegate.
Proof. unfold r_delegate. ssolve. Qed.
Hint Resolve s_delegate : sh.
Lemma s_pdelegate hdr : R (r_pdelegate hdr) (r_pdelegate hdr).
Proof. apply s_plain. ssolve. Qed.
Lemma s_pmulti i hdr : R (r_pmulti i hdr) (r_pmulti i hdr).
Proof. apply s_plain. unfold r_u32. ssolve. Qed.
Lemma s_pfieldpath hdr : R (r_pfieldpath hdr) (r_pfieldpath hdr).
Proof. apply s_plain. unfold r_u32. ssolve. Qed.
Lemma s_ptext n hdr : R (r_ptext n vs hdr) (r_ptext n vs' hdr).
Proof. apply s_plain. apply sh_bind; [apply s_text|intros; apply sh_ret]. Qed.
Lemma s_unknown ty n : R (r_unknown ty n) (r_unknown ty n).
Proof. unfold r_unknown. ssolve. Qed.
Lemma s_unknown_header ty : R (r_unknown_header ty) (r_unknown_header ty).
Proof.
  unfold r_unknown_header, r_u32. apply sh_bind; [auto with sh|intros].
  apply sh_bind; [apply s_zero; auto with sh|intros].
  apply sh_bind; [apply s_zero; apply s_uint|intros]. apply s_unknown.
Qed.

Section Options.
(** The second run sees the same collisions at its later positions. *)
Context (o o' : opts).
Hypothesis Hhint : forall path, hints o' path = hints o path.
Hypothesis Hdbg : dbg o' = dbg o.
Hypothesis Hprobe : forall p i, probe o' (p + d) i = probe o p i.

Lemma s_bytev sug : R (r_bytev o sug) (r_bytev o' sug).
Proof. unfold r_bytev. rewrite Hdbg. ssolve. Qed.
Lemma s_pbyte hdr sug : R (r_pbyte o hdr sug) (r_pbyte o' hdr sug).
Proof.
  unfold r_pbyte, r_u32, r_u8. destruct hdr.
  - apply sh_bind; [auto with sh|intros].
    apply sh_bind; [apply s_zero; auto with sh|intros].
    apply sh_bind; [auto with sh|intros].
    apply sh_bind; [apply s_zero; auto with sh|intros].
    apply sh_bind; [apply s_bytev|intros]. ssolve.
  - apply sh_bind; [apply s_bytev|intros]. ssolve.
Qed.

Section Nested.
Context (n : nat) (rp rp' : preader).
Hypothesis Hrp : forall ty hdr sug, R (rp ty hdr sug) (rp' ty hdr sug).
Hint Resolve Hrp : sh.

Lemma s_custom m : forall acc, R (r_custom m o rp acc) (r_custom m o' rp' acc).
Proof.
  induction m as [|m IH]; intros acc; cbn [r_custom]; [now apply sh_fail|]. rewrite Hdbg. ssolve.
Qed.
Lemma s_sval ty : R (r_sval n o vs rp ty) (r_sval n o' vs' rp' ty).
Proof.
  unfold r_sval. replace (fixed_of vs' (skind_of ty)) with (fixed_of vs (skind_of ty)) by (unfold fixed_of; now rewrite Hlwc).
  destruct (fixed_of vs (skind_of ty)); [ssolve|].
  assert (H : R (l <- r_custom n o rp [] ;; ret (SCustom l)) (l <- r_custom n o' rp' [] ;; ret (SCustom l))).
  { apply sh_bind; [apply s_custom|intros; apply sh_ret]. }
  destruct (skind_of ty); auto; ssolve.
Qed.
Hint Resolve s_sval : sh.
Lemma s_pstruct : R (r_pstruct n o vs rp) (r_pstruct n o' vs' rp').
Proof. unfold r_pstruct. apply s_headed; [|intros]; ssolve. Qed.
Lemma s_hinted : R (r_hinted n o vs rp) (r_hinted n o' vs' rp').
Proof.
  unfold r_hinted. apply sh_bind; [auto with sh|intros st]. apply sh_position. intros p.
  rewrite Hhint. ssolve.
Qed.
Lemma array_new_err ty i l f : array_new ty i l = Fail f -> moved_fault d f = f.
Proof.
  unfold array_new. destruct i as [[[? ?] ?]|]; [|discriminate].
  destruct (kind_of ty); try (intros X; injection X as <-; reflexivity).
  destruct (opt_map as_sval l); [discriminate|]. intros X. injection X as <-. reflexivity.
Qed.
Lemma s_array_new ty i l : R (of_outcome (array_new ty i l)) (of_outcome (array_new ty i l)).
Proof.
  destruct (array_new ty i l) eqn:E; cbn [of_outcome]; [apply sh_ret|]. apply sh_fail. symmetry.
  eapply array_new_err; eauto.
Qed.
Hint Resolve s_array_new : sh.
Lemma s_struct_array count : R (r_struct_array n o vs rp count) (r_struct_array n o' vs' rp' count).
Proof. unfold r_struct_array, r_u64. ssolve. Qed.
Hint Resolve s_struct_array : sh.
Lemma s_array length ty : R (r_array n o vs rp length ty) (r_array n o' vs' rp' length ty).
Proof.
  unfold r_array, r_u32. apply sh_bind; [auto with sh|intros count]. destruct (kind_of ty); ssolve.
Qed.
Lemma s_set length ty : R (r_set o rp length ty) (r_set o' rp' length ty).
Proof. unfold r_set, r_u32. rewrite Hdbg. ssolve. Qed.
(** Entries carry their position. *)
Definition later (l : list (property * property * Z)) : list (property * property * Z) :=
  map (fun e => (fst e, snd e + d)) l.
Lemma s_entry kt vt c :
  r_entry rp' kt vt (moved d c)
  = match r_entry rp kt vt c with
    | Ok (e, c') => Ok ((fst e, snd e + d), moved d c')
    | Fail f => Fail (moved_fault d f)
    end.
Proof.
  unfold r_entry. unfold bind at 1 4. rewrite (sh_scoped d _ _ _ (Hrp kt false None)).
  destruct (scoped s_key _ c) as [[k c1]|f]; [|reflexivity]. cbn [moved_result].
  unfold bind at 1 3. rewrite (sh_scoped d _ _ _ (Hrp vt false None)).
  destruct (scoped s_value _ c1) as [[v c2]|f]; reflexivity.
Qed.
Lemma s_entries_rep kt vt m : forall c,
  repn m (r_entry rp' kt vt) (moved d c)
  = match repn m (r_entry rp kt vt) c with
    | Ok (l, c') => Ok (later l, moved d c')
    | Fail f => Fail (moved_fault d f)
    end.
Proof.
  induction m as [|m IH]; intros c; cbn [repn]; [reflexivity|]. unfold bind. rewrite s_entry.
  destruct (r_entry rp kt vt c) as [[e c1]|f]; [|reflexivity]. rewrite IH.
  destruct (repn m _ c1) as [[l c2]|f]; reflexivity.
Qed.
Lemma hit_ext f g k : (forall i, f i = g i) -> forall l i, hit f k l i = hit g k l i.
Proof.
  intros E. induction l as [|[k' v] l IH]; intros i; cbn [hit]; [reflexivity|]. now rewrite E, IH.
Qed.
Lemma mins_later l : mins_all o' (later l) = mins_all o l.
Proof.
  unfold mins_all, later. generalize (@nil (property * property)).
  induction l as [|e l IH]; intros acc; cbn [map fold_left fst snd]; [reflexivity|]. rewrite IH. f_equal.
  unfold mins. now rewrite (hit_ext _ (probe o (snd e)) (fst (fst e)) (Hprobe (snd e))).
Qed.
Lemma s_map kt vt : R (r_map o rp kt vt) (r_map o' rp' kt vt).
Proof.
  unfold r_map, r_u32. apply sh_bind; [auto with sh|intros flags]. apply sh_bind; [auto with sh|intros count].
  intros c. unfold bind. rewrite !rep_repn, s_entries_rep.
  destruct (repn _ _ c) as [[l c1]|f]; [|reflexivity]. cbn [moved_result]. unfold ret. now rewrite mins_later.
Qed.
Lemma s_body ty hdr sug : R (r_body n o vs rp ty hdr sug) (r_body n o' vs' rp' ty hdr sug).
Proof.
  unfold r_body. destruct (kind_of ty);
    auto using s_pnum, s_pbyte, s_pbool, s_penum, s_pstr, s_pname, s_pobject, s_pdelegate,
      s_pmulti, s_pfieldpath, s_ptext.
  - destruct hdr; [apply s_pstruct|apply s_hinted].
  - destruct hdr; [|unfold in_array; ssolve].
    apply s_headed; [ssolve|intros]. apply s_array.
  - destruct hdr; [|unfold in_array; ssolve].
    apply s_headed; [ssolve|intros]. apply s_set.
  - destruct hdr; [|unfold in_array; ssolve].
    apply s_headed; [ssolve|intros]. apply s_map.
  - destruct hdr; [apply s_unknown_header|]. destruct sug; [apply s_unknown|ssolve].
Qed.
End Nested.

Lemma s_prop n : forall ty hdr sug, R (r_prop n o vs ty hdr sug) (r_prop n o' vs' ty hdr sug).
Proof.
  induction n as [|n IH]; intros ty hdr sug; cbn [r_prop]; [now apply sh_fail|].
  apply sh_scoped, s_body. exact IH.
Qed.
Lemma s_entries n m : R (r_entries n m o vs) (r_entries n m o' vs').
Proof.
  induction n as [|n IH]; cbn [r_entries]; [now apply sh_fail|].
  apply sh_bind; [auto with sh|intros nm]. destruct (str_eqb nm s_none); [apply sh_ret|].
  apply sh_bind; [auto with sh|intros ty].
  apply sh_bind; [apply sh_scoped, s_prop|intros p].
  apply sh_bind; [apply IH|intros l]. apply sh_ret.
Qed.
End Options.
End Versions.

Lemma s_checked f ok : R (r_checked f ok) (r_checked f ok).
Proof. unfold r_checked, r_u32. ssolve. Qed.
Hint Resolve s_checked : sh.
Lemma s_fengine : R r_fengine r_fengine.
Proof. unfold r_fengine, r_u16, r_u32. ssolve. Qed.
Lemma s_version : R r_version r_version.
Proof. unfold r_version, r_u32. ssolve. Qed.
Hint Resolve s_fengine s_version : sh.
Lemma s_header : R r_header r_header.
Proof. unfold r_header, r_u32. ssolve. Qed.
Lemma s_file n o o' : (forall path, hints o' path = hints o path) -> dbg o' = dbg o ->
  (forall p i, probe o' (p + d) i = probe o p i) -> R (r_file n o) (r_file n o').
Proof.
  intros H1 H2 H3. unfold r_file. apply sh_bind; [apply s_header|intros h].
  apply sh_bind; [|intros; apply sh_ret]. apply s_entries; auto.
Qed.
End Readers.
