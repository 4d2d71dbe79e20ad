(** The names and paths inside of errors are made of characters (C75). *)
From Coq Require Import ZArith List Bool String Lia ZifyBool ZifyNat.
From Verif Require Import Base Str Types Versions Text Props File Guid BaseFacts StrFacts Spec MessageThm.
Import ListNotations.
Open Scope Z_scope.

Definition okc (s : str) : Prop := Forall (fun c => 0 <= c) s.
Definition okerr (e : error) : Prop := match e with EHint s _ | EProperty s _ => okc s | _ => True end.
Definition clean {A} (Q : A -> Prop) (r : reader A) : Prop :=
  forall c, Forall okc (stk c) ->
  match r c with Ok (a, c') => Q a /\ Forall okc (stk c') /\ pos c <= pos c' | Fail (Err e) => okerr e | Fail _ => True end.
Definition any {A} (_ : A) : Prop := True.

Lemma clean_bind {A B} (Q : A -> Prop) (Q' : B -> Prop) r k :
  clean Q r -> (forall a, Q a -> clean Q' (k a)) -> clean Q' (bind r k).
Proof.
  intros H1 H2 c C. unfold bind. specialize (H1 c C). destruct (r c) as [[a c']|f]; [|exact H1]. destruct H1 as (H1 & C1 & P1).
  specialize (H2 a H1 c' C1). destruct (k a c') as [[b c2]|f]; [|exact H2]. intuition lia.
Qed.
Lemma clean_ret {A} (Q : A -> Prop) a : Q a -> clean Q (ret a).
Proof. intros H c C. cbn. intuition lia. Qed.
Lemma clean_fail {A} (Q : A -> Prop) f : (forall e, f = Err e -> okerr e) -> clean Q (fail f).
Proof. intros H c C. cbn. destruct f; auto. Qed.
Lemma clean_position : clean any position. Proof. intros c C. cbn. repeat split; [exact C|lia]. Qed.
Lemma clean_get_stk : clean (Forall okc) get_stk. Proof. intros c C. cbn. repeat split; try exact C. lia. Qed.
Lemma clean_take n : clean any (take n).
Proof. intros c C. unfold take. destruct (n <=? _); [cbn; repeat split; [exact C|lia]|exact I]. Qed.
Lemma clean_scoped {A} (Q : A -> Prop) s r : okc s -> clean Q r -> clean Q (scoped s r).
Proof.
  intros S H c C. unfold scoped, bind, push. specialize (H (Cur (pos c) (rest c) (s :: stk c)) ltac:(constructor; assumption)).
  cbn [pos rest stk] in *. destruct (r _) as [[a c']|f]; [|exact H]. cbn. split; [tauto|]. destruct H as (_ & H & P).
  split; [|exact P]. destruct (stk c'); [constructor|]. now inversion H.
Qed.
Lemma clean_repp {A} (r : reader A) : clean any r -> forall n, clean any (rep_pos n r).
Proof.
  intros H. induction n as [n IH|n IH|]; cbn [rep_pos].
  - eapply clean_bind; [exact H|intros a _]. eapply clean_bind; [exact IH|intros l1 _]. eapply clean_bind; [exact IH|intros l2 _]. now apply clean_ret.
  - eapply clean_bind; [exact IH|intros l1 _]. eapply clean_bind; [exact IH|intros l2 _]. now apply clean_ret.
  - eapply clean_bind; [exact H|intros a _]. now apply clean_ret.
Qed.
Lemma clean_rep {A} n (r : reader A) : clean any r -> clean any (rep n r).
Proof. intros H. destruct n; cbn [rep]; [now apply clean_ret|apply clean_repp, H|now apply clean_ret]. Qed.
Lemma clean_mapM {A B} (f : A -> reader B) l : (forall a, clean any (f a)) -> clean any (mapM f l).
Proof.
  intros H. induction l as [|a l IH]; cbn [mapM]; [now apply clean_ret|].
  eapply clean_bind; [apply H|intros b _]. eapply clean_bind; [exact IH|intros l' _]. now apply clean_ret.
Qed.
Lemma clean_any {A} (Q : A -> Prop) r : clean Q r -> clean any r.
Proof. intros H c C. specialize (H c C). destruct (r c) as [[a c']|f]; [|exact H]. split; [exact I|tauto]. Qed.

Create HintDb clean.
Ltac cfine := intros ?e ?E; match goal with E : _ = Err _ |- _ => try discriminate E; try (injection E as <-; exact I) end.
Ltac cstep :=
  match goal with
  | |- clean any (ret _) => apply clean_ret; exact I
  | |- clean any (fail _) => apply clean_fail; cfine
  | |- clean _ (if ?b then _ else _) => destruct b eqn:?
  | |- clean _ (match ?x with _ => _ end) => destruct x eqn:?
  | |- clean _ (bind (rep _ _) _) => eapply clean_bind; [apply clean_rep|intros]
  | |- clean _ (bind (mapM _ _) _) => eapply clean_bind; [apply clean_mapM; intros|intros]
  | |- clean _ (bind _ _) => eapply clean_bind; [solve [eauto 3 with clean]|intros]
  | |- clean _ (let _ := _ in _) => cbv zeta
  | |- clean any _ => solve [eauto 3 with clean]
  end.
Ltac csolve := repeat cstep.
#[export] Hint Resolve clean_position clean_take clean_get_stk : clean.

Lemma c_uint w : clean any (r_uint w). Proof. unfold r_uint. csolve. Qed.
#[export] Hint Resolve c_uint : clean.
Lemma c_sint w : clean any (r_sint w). Proof. unfold r_sint. csolve. Qed.
Lemma c_u8 : clean any r_u8. Proof. apply c_uint. Qed.
Lemma c_u16 : clean any r_u16. Proof. apply c_uint. Qed.
Lemma c_u32 : clean any r_u32. Proof. apply c_uint. Qed.
Lemma c_u64 : clean any r_u64. Proof. apply c_uint. Qed.
Lemma c_i8 : clean any r_i8. Proof. apply c_sint. Qed.
Lemma c_i32 : clean any r_i32. Proof. apply c_sint. Qed.
Lemma c_guid : clean any r_guid. Proof. apply clean_take. Qed.
#[export] Hint Resolve c_sint c_u8 c_u16 c_u32 c_u64 c_i8 c_i32 c_guid : clean.

Lemma ok_ascii s : okc (s2z s).
Proof. unfold s2z. apply Forall_forall. intros c H. apply in_map_iff in H as (a & <- & _). lia. Qed.
Definition okopt (x : option str) : Prop := match x with Some s => okc s | None => True end.
Lemma str_ok s : is_str s = true -> okc s.
Proof.
  intros H. unfold is_str in H. rewrite forallb_forall in H. apply Forall_forall. intros c C. specialize (H c C).
  apply scalar_iff in H. lia.
Qed.
Lemma ocons_ok c x : 0 <= c -> okopt x -> okopt (ocons c x).
Proof. intros C. destruct x as [s|]; cbn; [intros H; constructor; assumption|auto]. Qed.
Lemma dec16_ok : forall n ws, (List.length ws <= n)%nat -> Forall (fun w => 0 <= w) ws -> okopt (utf16_dec ws).
Proof.
  induction n as [|n IH]; intros [|u ws] L H; try (cbn in L; lia); try constructor; cbn [utf16_dec].
  inversion H as [|? ? U W]; subst. cbn in L. destruct (inr 55296 56319 u) eqn:E1.
  - destruct ws as [|v q]; [exact I|]. destruct (inr 56320 57343 v) eqn:E2; [|exact I]. unfold inr in E1, E2. inversion W; subst.
    apply ocons_ok; [lia|]. apply IH; [cbn in L; lia|assumption].
  - destruct (inr 56320 57343 u); [exact I|]. apply ocons_ok; [lia|]. apply IH; [lia|assumption].
Qed.
Lemma words_ok : forall n l, (List.length l <= n)%nat -> Forall (fun w => 0 <= w) (words l).
Proof.
  induction n as [|n IH]; intros [|a [|b l]] L; cbn [words]; try constructor; try (cbn in L; lia).
  - pose proof (b2z_nonneg a). pose proof (b2z_nonneg b). lia.
  - apply IH. cbn in L. lia.
Qed.
Lemma c_fstring : clean okopt r_fstring.
Proof.
  unfold r_fstring. do 2 (eapply clean_bind; [solve [eauto 3 with clean]|intros]).
  destruct (negb _); [apply clean_fail; cfine|]. destruct (_ =? 0); [now apply clean_ret|]. destruct (_ <? 0).
  - do 3 (eapply clean_bind; [solve [eauto 3 with clean]|intros]). destruct (negb _); [apply clean_fail; cfine|].
    match goal with |- context [utf16_dec ?ws] => pose proof (dec16_ok _ ws (le_n _) (words_ok _ _ (le_n _))) as H'; destruct (utf16_dec ws) end;
      [now apply clean_ret|apply clean_fail; cfine].
  - do 3 (eapply clean_bind; [solve [eauto 3 with clean]|intros]). destruct (negb _); [apply clean_fail; cfine|].
    match goal with |- context [utf8_dec ?b] => destruct (utf8_dec b) as [s|] eqn:E end; [|apply clean_fail; cfine].
    apply clean_ret. apply utf8_dec_inv in E as [E _]. now apply str_ok.
Qed.
#[export] Hint Resolve c_fstring : clean.
Lemma c_string : clean okc r_string.
Proof.
  unfold r_string. eapply clean_bind; [apply clean_position|intros start _]. eapply clean_bind; [apply c_fstring|intros [s|] H].
  - now apply clean_ret.
  - apply clean_fail. cfine.
Qed.
#[export] Hint Resolve c_string : clean.
Lemma c_string' : clean any r_string. Proof. eapply clean_any, c_string. Qed.
Lemma c_fstring' : clean any r_fstring. Proof. eapply clean_any, c_fstring. Qed.
#[export] Hint Resolve c_string' c_fstring' : clean.
Lemma c_boolw w : clean any (r_boolw w). Proof. unfold r_boolw. csolve. Qed.
Lemma c_bool : clean any r_bool. Proof. apply c_boolw. Qed.
Lemma c_b32 : clean any r_b32. Proof. apply c_boolw. Qed.
Lemma c_enum {A} t (f : Z -> option A) : clean any (r_enum t f). Proof. unfold r_enum. csolve. Qed.
Lemma c_index0 : clean any r_index0. Proof. unfold r_index0. csolve. Qed.
Lemma c_term : clean any r_term. Proof. unfold r_term. csolve. Qed.
#[export] Hint Resolve c_bool c_b32 c_enum c_index0 c_term : clean.
Lemma c_sized {A} n (r : reader A) : clean any r -> clean any (sized n r).
Proof. intros H. unfold sized. cstep. eapply clean_bind; [exact H|intros]. csolve. Qed.
Lemma c_check n : clean any (check_size n). Proof. unfold check_size. csolve. Qed.
Lemma c_zero s r : clean any r -> clean any (zero_or s r).
Proof. intros H. unfold zero_or. eapply clean_bind; [exact H|intros v _]. csolve. Qed.
#[export] Hint Resolve c_check c_zero : clean.
Lemma c_headed {V A} (Q : V -> Prop) (vars : reader V) (body : Z -> V -> reader A) :
  clean Q vars -> (forall n v, Q v -> clean any (body n v)) -> clean any (headed vars body).
Proof.
  intros H1 H2. unfold headed. do 2 cstep. eapply clean_bind; [exact H1|intros v HQ]. cstep. apply c_sized, H2, HQ.
Qed.
Lemma c_headed_index {A} (body : Z -> reader A) : (forall n, clean any (body n)) -> clean any (headed_index body).
Proof. intros H. unfold headed_index. do 3 cstep. apply c_sized, H. Qed.
Lemma c_plain {A} hdr (r : reader A) : clean any r -> clean any (plain hdr r).
Proof. intros H. unfold plain. destruct hdr; [|exact H]. eapply c_headed with (Q := any); [csolve|intros; exact H]. Qed.

Lemma c_u64' : clean (fun v => 0 <= v) r_u64.
Proof.
  unfold r_u64, r_uint. eapply clean_bind; [apply clean_take|intros bs _]. apply clean_ret. induction bs; cbn [le_val]; [lia|].
  pose proof (b2z_nonneg a). lia.
Qed.
Lemma clean_span {A B} (Q : A -> Prop) (Q' : B -> Prop) r k : clean Q r -> (forall n a m, n <= m -> Q a -> clean Q' (k n a m)) ->
  clean Q' (start <- position ;; a <- r ;; stop <- position ;; k start a stop).
Proof.
  intros H1 H2 c C. unfold bind at 1, position at 1. unfold bind at 1. specialize (H1 c C). destruct (r c) as [[a c']|f]; [|exact H1].
  destruct H1 as (Q1 & C1 & P1). unfold bind, position. specialize (H2 (pos c) a (pos c') P1 Q1 c' C1).
  destruct (k _ _ _ c') as [[b c2]|f]; [|exact H2]. intuition lia.
Qed.

(** ** Texts *)
Lemma c_numfmt : clean any r_numfmt. Proof. unfold r_numfmt, r_rounding. csolve. Qed.
#[export] Hint Resolve c_numfmt : clean.
Lemma c_optfmt : clean any r_optfmt. Proof. unfold r_optfmt. csolve. Qed.
Lemma c_count : clean any r_count. Proof. unfold r_count. csolve. Qed.
#[export] Hint Resolve c_optfmt c_count : clean.
Lemma c_farg vs rt : clean any rt -> clean any (r_farg vs rt).
Proof. intros H. unfold r_farg. csolve. Qed.
#[export] Hint Resolve c_farg : clean.
Lemma c_named vs rt : clean any rt -> clean any (r_named vs rt).
Proof. intros H. unfold r_named. csolve. Qed.
#[export] Hint Resolve c_named : clean.
Lemma c_hist vs rt : clean any rt -> clean any (r_hist vs rt).
Proof. intros H. unfold r_hist, r_style, r_transform. cstep. csolve. Qed.
#[export] Hint Resolve c_hist : clean.
Lemma c_text vs : forall n, clean any (r_text n vs).
Proof. induction n as [|n IH]; cbn [r_text]; csolve. Qed.
#[export] Hint Resolve c_text : clean.

(** ** Properties *)
Lemma c_rnum k : clean any (r_num k). Proof. unfold r_num. csolve. Qed.
#[export] Hint Resolve c_rnum : clean.
Lemma c_pnum k hdr : clean any (r_pnum k hdr).
Proof. unfold r_pnum. eapply clean_bind with (Q := any); [destruct hdr; csolve|intros; csolve]. Qed.
Section Props.
Context (o : opts).
Lemma c_bytev sug : clean any (r_bytev o sug). Proof. unfold r_bytev. csolve. Qed.
Hint Resolve c_bytev : clean.
Lemma c_pbyte hdr sug : clean any (r_pbyte o hdr sug). Proof. unfold r_pbyte. csolve. Qed.
Lemma c_pbool hdr : clean any (r_pbool hdr).
Proof.
  unfold r_pbool. eapply clean_bind with (Q := any); [destruct hdr; csolve|intros]. cstep.
  eapply clean_bind with (Q := any); [destruct hdr; csolve|intros; csolve].
Qed.
Lemma c_penum hdr : clean any (r_penum hdr).
Proof. unfold r_penum. destruct hdr; [|csolve]. eapply c_headed; [apply c_string|intros; csolve]. Qed.
Lemma c_pname hdr : clean any (r_pname hdr).
Proof. unfold r_pname. destruct hdr; [|csolve]. apply c_headed_index. intros. csolve. Qed.
Lemma c_pstr hdr : clean any (r_pstr hdr). Proof. apply c_plain. csolve. Qed.
Lemma c_pobject hdr : clean any (r_pobject hdr). Proof. apply c_plain. csolve. Qed.
Lemma c_delegate : clean any r_delegate. Proof. unfold r_delegate. csolve. Qed.
Hint Resolve c_delegate : clean.
Lemma c_pdelegate hdr : clean any (r_pdelegate hdr). Proof. apply c_plain. csolve. Qed.
Lemma c_pmulti i hdr : clean any (r_pmulti i hdr). Proof. apply c_plain. csolve. Qed.
Lemma c_pfieldpath hdr : clean any (r_pfieldpath hdr). Proof. apply c_plain. csolve. Qed.
Lemma c_ptext n vs hdr : clean any (r_ptext n vs hdr). Proof. apply c_plain. csolve. Qed.
Lemma c_unknown ty n : clean any (r_unknown ty n). Proof. unfold r_unknown. csolve. Qed.
Hint Resolve c_unknown : clean.
Lemma c_unknown_header ty : clean any (r_unknown_header ty). Proof. unfold r_unknown_header. csolve. Qed.
Lemma path_ok st : Forall okc st -> okc (join_path st).
Proof.
  intros H. unfold join_path. apply Forall_rev in H. induction (rev st) as [|a l IH]; [constructor|]. inversion H; subst.
  cbn [join_dots]. destruct l; [assumption|]. apply Forall_app. split; [assumption|]. constructor; [lia|]. apply IH. assumption.
Qed.
Lemma digits_ok f : forall z, 0 <= z -> okc (digits f z).
Proof.
  induction f as [|f IH]; intros z Z0; cbn [digits]; [constructor|]. destruct (z <? 10); [constructor; [lia|constructor]|].
  pose proof (Z.div_pos z 10 Z0 ltac:(lia)). pose proof (Z.mod_pos_bound z 10 ltac:(lia)).
  apply Forall_app. split; [now apply IH|]. constructor; [lia|constructor].
Qed.
Lemma decimal_ok z : 0 <= z -> okc (decimal z).
Proof. apply digits_ok. Qed.

Section Nested.
Context (n : nat) (vs : list (guid * Z)) (rp : preader).
Hypothesis Hrp : forall ty hdr sug, okc ty -> clean any (rp ty hdr sug).
Lemma c_custom m : forall acc, clean any (r_custom m o rp acc).
Proof.
  induction m as [|m IH]; intros acc; cbn [r_custom]; [csolve|].
  eapply clean_bind; [apply c_string|intros nm N].
  destruct (str_eqb nm s_none); [csolve|].
  eapply clean_bind; [apply c_string|intros ty T].
  eapply clean_bind; [apply clean_scoped; [exact N|apply Hrp, T]|intros p _].
  destruct (dbg o && _); [csolve|]. apply IH.
Qed.
Hint Resolve c_custom : clean.
Lemma c_sval ty : clean any (r_sval n o vs rp ty).
Proof. unfold r_sval. cbv zeta. destruct (fixed_of vs (skind_of ty)) as [x|]; [csolve|]. destruct (skind_of ty); csolve. Qed.
Hint Resolve c_sval : clean.
Lemma c_pstruct : clean any (r_pstruct n o vs rp).
Proof. unfold r_pstruct. eapply c_headed with (Q := any); [csolve|intros k tg _]. csolve. Qed.
Lemma c_hinted : clean any (r_hinted n o vs rp).
Proof.
  unfold r_hinted. eapply clean_bind; [apply clean_get_stk|intros st S]. cstep. destruct (hints o _); [csolve|].
  apply clean_fail. intros e E. injection E as <-. now apply path_ok.
Qed.
Lemma c_array_new ty i l : clean any (of_outcome (array_new ty i l)).
Proof. unfold array_new. destruct i as [[[? ?] ?]|]; destruct (kind_of ty); try destruct (opt_map _ _); cbn [of_outcome]; csolve. Qed.
Hint Resolve c_array_new : clean.
Lemma c_struct_array count : clean any (r_struct_array n o vs rp count).
Proof.
  unfold r_struct_array. do 2 cstep. destruct (negb _); [csolve|]. eapply clean_bind; [apply c_u64'|intros size S]. do 3 cstep.
  eapply (clean_span any any (rep count (v <- r_sval n o vs rp a1 ;; ret (PSValue v)))
    (fun start l stop => if stop - start =? size then ret (a, a1, a2, l)
      else fail (Err (EProperty (decimal (stop - start) ++ s2z " != " ++ decimal size) stop)))).
  - apply clean_rep. csolve.
  - intros x l y L _. destruct (_ =? size); [csolve|]. apply clean_fail. intros e E. injection E as <-. cbn [okerr].
    apply Forall_app. split; [apply decimal_ok; lia|]. repeat (constructor; [lia|]). apply decimal_ok, S.
Qed.
Hint Resolve c_struct_array : clean.
Lemma c_array length ty : okc ty -> clean any (r_array n o vs rp length ty).
Proof.
  intros T. unfold r_array. cstep. destruct (kind_of ty); cbv zeta;
    (eapply clean_bind; [first [apply c_struct_array|apply clean_rep, Hrp, T]|intros; csolve]).
Qed.
Lemma c_set length ty : okc ty -> clean any (r_set o rp length ty).
Proof. intros T. unfold r_set. csolve. Qed.
Lemma c_map kt vt : okc kt -> okc vt -> clean any (r_map o rp kt vt).
Proof.
  intros K V. unfold r_map, r_entry. do 3 cstep; [|csolve].
  eapply clean_bind; [apply clean_scoped; [apply (ok_ascii "Key")|apply Hrp, K]|intros k _].
  eapply clean_bind; [apply clean_scoped; [apply (ok_ascii "Value")|apply Hrp, V]|intros v _]. csolve.
Qed.
Lemma c_in_array what : clean any (in_array what).
Proof. unfold in_array. cstep. apply clean_fail. intros e E. injection E as <-. apply ok_ascii. Qed.
Lemma c_body ty hdr sug : okc ty -> clean any (r_body n o vs rp ty hdr sug).
Proof.
  intros T. unfold r_body. destruct (kind_of ty);
    auto using c_pnum, c_pbyte, c_pbool, c_penum, c_pstr, c_pname, c_pobject, c_pdelegate,
      c_pmulti, c_pfieldpath, c_ptext.
  - destruct hdr; [apply c_pstruct|apply c_hinted].
  - destruct hdr; [|apply c_in_array]. eapply c_headed; [apply c_string|intros; now apply c_array].
  - destruct hdr; [|apply c_in_array]. eapply c_headed; [apply c_string|intros; now apply c_set].
  - destruct hdr; [|apply c_in_array].
    eapply c_headed with (Q := fun ab => okc (fst ab) /\ okc (snd ab)).
    + eapply clean_bind; [apply c_string|intros a A]. eapply clean_bind; [apply c_string|intros b B]. apply clean_ret. auto.
    + intros _ [a b] [A B]. now apply c_map.
  - destruct hdr; [apply c_unknown_header|]. destruct sug; [apply c_unknown|]. cstep.
    apply clean_fail. intros e E. injection E as <-. exact T.
Qed.
End Nested.
Lemma c_prop vs n : forall ty hdr sug, okc ty -> clean any (r_prop n o vs ty hdr sug).
Proof.
  induction n as [|n IH]; intros ty hdr sug T; cbn [r_prop]; [csolve|]. apply clean_scoped; [exact T|]. apply c_body; [exact IH|exact T].
Qed.
Lemma c_entries vs m n : clean any (r_entries n m o vs).
Proof.
  induction n as [|n IH]; cbn [r_entries]; [csolve|].
  eapply clean_bind; [apply c_string|intros nm N].
  destruct (str_eqb nm s_none); [csolve|].
  eapply clean_bind; [apply c_string|intros ty T].
  eapply clean_bind; [apply clean_scoped; [exact N|apply c_prop, T]|intros p _].
  eapply clean_bind; [exact IH|intros l _]. csolve.
Qed.
Lemma c_checked f ok : clean any (r_checked f ok). Proof. unfold r_checked. csolve. Qed.
Lemma c_fengine : clean any r_fengine. Proof. unfold r_fengine. csolve. Qed.
Lemma c_version : clean any r_version. Proof. unfold r_version. csolve. Qed.
Hint Resolve c_checked c_fengine c_version : clean.
Lemma c_header : clean any r_header.
Proof. unfold r_header. do 3 cstep. eapply clean_bind with (Q := any); [csolve|intros; csolve]. Qed.
Lemma c_file n : clean any (r_file n o).
Proof. unfold r_file. eapply clean_bind; [apply c_header|intros h _]. eapply clean_bind; [apply c_entries|intros l _]. csolve. Qed.
Lemma plain_clean b e : load_plain o b = Fail (Err e) -> okerr e.
Proof.
  unfold load_plain, parse. intros E. pose proof (c_file (S (List.length b)) (Cur 0 b []) (Forall_nil _)) as H.
  destruct (r_file _ _ _) as [[x c]|f]; [discriminate|]. injection E as ->. exact H.
Qed.
Lemma load_clean z v b e : load z o v b = Fail (Err e) -> okerr e.
Proof.
  intros E. destruct v; cbn [load] in E.
  - destruct (load_plain o b) as [[h ps]|f] eqn:L; [discriminate|]. injection E as ->. eapply plain_clean; exact L.
  - destruct (r_palworld z (Cur 0 b [])) as [[[c d] k]|f] eqn:R.
    + destruct (load_plain o d) as [[h ps]|f] eqn:L; [discriminate|]. injection E as ->. eapply plain_clean; exact L.
    + injection E as ->. revert R. unfold r_palworld.
      assert (H : clean any (r_palworld z)).
      { unfold r_palworld. do 3 cstep. destruct (negb _); [csolve|]. cstep. intros k C.
        destruct a2; unfold take, zread_exact, zread_to_end.
        - destruct (_ <=? _); cbn; [repeat split; auto; lia|exact I].
        - destruct (_ <=? _); cbn; [repeat split; auto; lia|]. destruct (snd _); exact I.
        - destruct (snd _); cbn; repeat split; auto; lia. }
      fold (r_palworld z). intros R. specialize (H (Cur 0 b []) (Forall_nil _)). rewrite R in H. exact H.
Qed.
End Props.
