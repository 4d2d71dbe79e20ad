(** A missing hint is one the file asks for. *)
From Coq Require Import ZArith List Bool String Lia ZifyBool ZifyNat.
From Verif Require Import Base Str Types Versions Text Props File Spec BaseFacts StrFacts Decode KindFacts
  DecodeProp DecodeMain StrThm EqFacts MapFacts CtorThm OrderThm HeaderThm Grammar GrammarBase GrammarText GrammarCtor
  GrammarProp GrammarComplete GrammarFile Prim ReadThm HintRel AskSpec.
Import ListNotations.
Open Scope Z_scope.

Section Ask.
Context (o : opts).
Hypothesis Q : forall p i, probe o p i = false.

(** A hint missing in [r] is that of a struct behind some bytes of [R]. *)
Definition asking {A} (st : list str) (r : reader A) (R : list byte -> list str -> Prop) : Prop :=
  forall q b path p, r (Cur q b st) = Fail (Err (EHint path p)) ->
    exists d t way, b = d ++ t /\ p = q + len d /\ path = dotted way /\ hints o path = None /\ R d way.

Section Comb.
Context (st : list str).
Lemma ak_weaken {A} (r : reader A) (R R' : list byte -> list str -> Prop) :
  asking st r R -> (forall d w, R d w -> R' d w) -> asking st r R'.
Proof. intros H K q b path p E. destruct (H _ _ _ _ E) as (d & t & w & ? & ? & ? & ? & ?). exists d, t, w. auto 6. Qed.
Lemma ak_leaf {A} (r : reader A) R : prim no_hint r -> asking st r R.
Proof. intros H q b path p E. apply (prim_fault _ _ _ H) in E as [[]|E]. discriminate. Qed.
Lemma ak_bind {A B} (r : reader A) (k : A -> reader B) L R :
  sound st r L -> asking st r R -> (forall a x, L a x -> asking st (k a) (fun d w => R (x ++ d) w)) ->
  asking st (bind r k) R.
Proof.
  intros S H K q b path p E. unfold bind in E. destruct (r (Cur q b st)) as [[a c]|f] eqn:F.
  - apply S in F as (x & t & -> & -> & HL). apply (K _ _ HL) in E as (d & t' & w & -> & -> & ? & ? & ?).
    exists (x ++ d), t', w. rewrite app_assoc, len_app, Z.add_assoc. auto 6.
  - injection E as ->. exact (H _ _ _ _ F).
Qed.
Lemma ak_skip {A B} (r : reader A) (k : A -> reader B) L R :
  sound st r L -> prim no_hint r -> (forall a x, L a x -> asking st (k a) (fun d w => R (x ++ d) w)) ->
  asking st (bind r k) R.
Proof. intros S P. apply ak_bind; [exact S|now apply ak_leaf]. Qed.
Lemma ak_ret {A} (a : A) R : asking st (ret a) R.
Proof. intros q b path p E. discriminate. Qed.
Lemma ak_fail {A} f R : no_hint f -> asking st (@fail A f) R.
Proof. intros H q b path p E. injection E as ->. destruct H. Qed.
Lemma ak_position {A} (k : Z -> reader A) R : (forall p, asking st (k p) R) -> asking st (bind position k) R.
Proof. intros H q b path p E. exact (H q q b path p E). Qed.
(** Behind [r] nothing is asked for. *)
Lemma ak_first {A B} (r : reader A) (k : A -> reader B) R :
  asking st r R -> (forall a, prim no_hint (k a)) -> asking st (bind r k) R.
Proof.
  intros H K q b path p E. unfold bind in E. destruct (r (Cur q b st)) as [[a c]|f] eqn:F.
  - apply (prim_fault _ _ _ (K a)) in E as [[]|E]. discriminate.
  - injection E as ->. exact (H _ _ _ _ F).
Qed.
Lemma ak_scoped {A} s (r : reader A) R : asking (s :: st) r R -> asking st (scoped s r) R.
Proof.
  intros H q b path p E. unfold scoped, bind, push, pop, ret in E. cbn [pos rest stk] in E.
  destruct (r (Cur q b (s :: st))) as [[y d]|] eqn:F; [discriminate|]. injection E as ->. exact (H _ _ _ _ F).
Qed.
Lemma ak_repn {A} n (r : reader A) L R : sound st r L -> asking st r R ->
  asking st (repn n r) (fun b w => exists l y d, b = y ++ d /\ many L l y /\ (List.length l < n)%nat /\ R d w).
Proof.
  intros S H. induction n as [|n IH]; cbn [repn]; [apply ak_ret|].
  eapply ak_bind; [exact S| |].
  - eapply ak_weaken; [exact H|]. intros d w Hd. exists [], [], d. split; [reflexivity|].
    split; [constructor|]. split; [cbn; lia|exact Hd].
  - intros a x Ha. apply ak_first; [|intros; apply p_ret]. eapply ak_weaken; [exact IH|].
    intros b w (l & y & d & -> & Hl & Ln & Hd). exists (a :: l), (x ++ y), d. rewrite <- app_assoc.
    split; [reflexivity|]. split; [now constructor|]. split; [cbn; lia|exact Hd].
Qed.
Lemma ak_rep {A} n (r : reader A) L R : sound st r L -> asking st r R ->
  asking st (rep n r) (fun b w => exists l y d, b = y ++ d /\ many L l y /\ len l < n /\ R d w).
Proof.
  intros S H q b path p E. rewrite rep_repn in E. apply (ak_repn _ _ _ _ S H) in E as (d & t & w & E1 & E2 & E3 & E4 & l & y & d' & Ed & Hl & Ln & Hd).
  exists d, t, w. repeat (split; [assumption|]). exists l, y, d'. repeat (split; [assumption|]). split; [unfold len; lia|exact Hd].
Qed.
Lemma ak_headed {V A} (vars : reader V) (body : Z -> V -> reader A) LV (R : list byte -> list str -> Prop) :
  sound st vars LV -> prim no_hint vars ->
  (forall n v x, LV v x -> word n -> asking st (body n v) (fun d w => R (opened n x d) w)) ->
  asking st (headed vars body) R.
Proof.
  intros S P H. assert (HH : forall f, no_hint f -> no_hint f) by auto. unfold headed.
  eapply ak_skip; [apply so_u32|apply q_uint; auto|]. intros n x1 [-> Hn].
  eapply ak_skip; [apply so_index0|apply q_index0; auto|]. intros u x2 ->.
  eapply ak_skip; [exact S|exact P|]. intros v x Hv.
  eapply ak_skip; [apply so_term|apply q_term; auto|]. intros u' x4 ->.
  unfold sized. apply ak_position. intros p. apply ak_first; [now apply H|].
  intros a. apply p_bind; [apply p_position|intros s]. destruct (_ =? _); [apply p_ret|now apply p_fail].
Qed.
End Comb.

Section Props.
Context (vs : list (guid * Z)).

Lemma asks_type path ty d w : asks o vs path ty false d w -> ty = s2z "StructProperty".
Proof. intros H. inversion H; reflexivity. Qed.
Lemma elem_size path s s' p x : is_prop o vs path (s2z "StructProperty") false s p x ->
  is_prop o vs path (s2z "StructProperty") false s' p x.
Proof.
  intros H. inversion H as [? ? ? ? ? HP| | | | | | | | | |? ? ? N|  |? ? ? ? ? HH HS| | | | |]; subst; try discriminate.
  - exfalso. inversion HP as [k| | | | | | |]; try discriminate. destruct k; discriminate.
  - exfalso. apply N. apply type_names_iff. reflexivity.
  - eapply p_struct; eassumption.
Qed.
Lemma elems_size path s s' l x : is_elems o vs path (s2z "StructProperty") s l x ->
  is_elems o vs path (s2z "StructProperty") s' l x.
Proof.
  intros H. remember (s2z "StructProperty") as ty eqn:T. induction H; constructor; subst; auto. eapply elem_size; eassumption.
Qed.

Section Nested.
Context (rp : preader) (n : nat).
Hypothesis Hso : forall st ty hdr s, size_ok s -> sound st (rp ty hdr s) (is_prop o vs st ty hdr s).
Hypothesis Hrp : forall st ty hdr s, size_ok s -> asking st (rp ty hdr s) (asks o vs st ty hdr).
Let HH : forall f, no_hint f -> no_hint f. Proof. auto. Qed.

Lemma ak_custom m : forall st acc, asking st (r_custom m o rp acc) (fun b w => exists l y k x kty z d,
  b = y ++ x ++ z ++ d /\ is_fields o vs st l y /\ (dbg o = true -> chain acc l = true)
  /\ text_of k x /\ k <> s2z "None" /\ text_of kty z /\ asks o vs (k :: st) kty true d w).
Proof.
  induction m as [|m IH]; intros st acc; cbn [r_custom]; [now apply ak_fail|].
  eapply ak_skip; [apply so_string|apply q_string; auto|]. intros name x Hx.
  destruct (str_eqb name s_none) eqn:E; [apply ak_ret|].
  assert (N : name <> s2z "None") by (intros ->; vm_compute in E; discriminate).
  eapply ak_skip; [apply so_string|apply q_string; auto|]. intros ty y Hy.
  eapply ak_bind; [apply so_scoped, Hso; exact I| |].
  - eapply ak_weaken; [apply ak_scoped, Hrp; exact I|]. intros d w Hd.
    exists [], [], name, x, ty, y, d. split; [reflexivity|]. split; [constructor|]. auto 6.
  - intros p z Hz. destruct (dbg o && negb (index_ok acc name p)) eqn:D; [now apply ak_fail|].
    eapply ak_weaken; [apply IH|]. intros b w (l & y' & k & x' & kty & z' & d & -> & Hl & Hc & H1 & H2 & H3 & H4).
    exists ((name, p) :: l), (x ++ y ++ z ++ y'), k, x', kty, z', d. rewrite <- !app_assoc. split; [reflexivity|].
    split; [econstructor; eauto|]. split; [|auto].
    intros Dd. cbn [chain]. rewrite (Hc Dd), andb_true_r. rewrite Dd in D. cbn [andb] in D. now apply negb_false_iff.
Qed.
Lemma ak_sval st ty : asking st (r_sval n o vs rp ty) (asks_inside o vs st ty).
Proof.
  unfold r_sval. destruct (fixed_of vs (skind_of ty)) as [x|] eqn:F.
  { apply ak_leaf. apply p_bind; [|intros; apply p_ret]. apply q_mapM. intros. apply q_num; auto. }
  assert (C : skind_of ty = SkCustom -> asking st (l <- r_custom n o rp [] ;; ret (SCustom l)) (asks_inside o vs st ty)).
  { intros K. apply ak_first; [|intros; apply p_ret]. eapply ak_weaken; [apply ak_custom|].
    intros b w (l & y & k & x & kty & z & d & -> & Hl & Hc & H1 & H2 & H3 & H4).
    apply as_field with (l := l) (k := k) (kty := kty); auto; [now apply custom_name_iff|].
    intros D. apply indexed_chain. exact (Hc D). }
  destruct (skind_of ty) eqn:K; try discriminate F; try (apply C; reflexivity).
  - apply ak_leaf. apply p_bind; [apply q_guid|intros; apply p_ret].
  - apply ak_leaf. apply p_bind; [apply q_count; auto|intros]. apply p_bind; [|intros; apply p_ret].
    apply q_rep, q_string; auto.
Qed.
Lemma so_value st ty : sound st (r_sval n o vs rp ty) (is_struct o vs st ty).
Proof. now apply so_sval. Qed.
Lemma ak_array st length ty x : word length -> text_of ty x ->
  asking (s2z "ArrayProperty" :: st) (r_array n o vs rp length ty)
    (fun d w => asks o vs st (s2z "ArrayProperty") true (opened length x d) w).
Proof.
  intros Hlen Hx. unfold r_array. eapply ak_skip; [apply so_u32|apply q_uint; auto|]. intros count ? [-> Hc].
  assert (HG : ty <> s2z "StructProperty" -> forall R,
    asking (s2z "ArrayProperty" :: st)
      (l <- rep count (rp ty false (if (0 <? count) && (4 <=? length) then Some ((length - 4) / count) else None)) ;;
       a <- of_outcome (array_new ty None l) ;; ret (PArray a)) R).
  { intros NS R. apply ak_first.
    - assert (Z1 : size_ok (if (0 <? count) && (4 <=? length) then Some ((length - 4) / count) else None)).
      { destruct (Z.ltb_spec 0 count); cbn [andb]; [|exact I].
        destruct (Z.leb_spec 4 length); [|exact I]. cbn [size_ok]. apply Z.div_pos; lia. }
      eapply ak_weaken; [eapply ak_rep; [now apply Hso|now apply Hrp]|].
      intros b w (l & y & d & _ & _ & _ & Hd). apply asks_type in Hd. contradiction.
    - intros l. apply p_bind; [apply q_array_new; auto|intros; apply p_ret]. }
  destruct (kind_of ty) eqn:K; try (apply HG; intros ->; vm_compute in K; discriminate K).
  apply is_name in K; [|discriminate]. subst ty. clear HG.
  apply ak_first; [|intros; apply p_bind; [apply q_array_new; auto|intros; apply p_ret]].
  unfold r_struct_array. eapply ak_skip; [apply so_string|apply q_string; auto|]. intros f xf Hf.
  eapply ak_skip; [apply so_string|apply q_string; auto|]. intros ty xs Hs.
  destruct (str_eqb ty (kind_name KStruct)) eqn:E; cbn [negb]; [|now apply ak_fail].
  apply str_eqb_eq in E. subst ty.
  eapply ak_skip; [apply so_u64|apply q_uint; auto|]. intros size ? [-> Hsz].
  eapply ak_skip; [apply so_string|apply q_string; auto|]. intros ty xt Ht.
  eapply ak_skip; [apply so_guid|apply q_guid|]. intros g ? [<- Hg].
  eapply ak_skip; [apply so_term|apply q_term; auto|]. intros u ? ->.
  apply ak_position. intros p0. apply ak_first.
  - eapply ak_weaken; [eapply ak_rep with (L := fun p b => exists v, p = PSValue v /\ is_struct o vs (s2z "ArrayProperty" :: st) ty v b)
        (R := asks_inside o vs (s2z "ArrayProperty" :: st) ty)|].
    + eapply so_last; [apply so_value|]. eauto.
    + apply ak_first; [apply ak_sval|intros; apply p_ret].
    + intros b w (l & y & d & -> & Hl & Ln & Hd). apply many_svals in Hl as (r & -> & Hr). rewrite len_map in Ln.
      apply as_structs with (f := f) (ty := ty) (l := r) (xf := xf) (y := y) (d := d); auto.
  - intros l. apply p_bind; [apply p_position|intros s]. destruct (_ =? _); [apply p_ret|now apply p_fail].
Qed.
Lemma ak_set st length ty x : word length -> text_of ty x ->
  asking (s2z "SetProperty" :: st) (r_set o rp length ty)
    (fun d w => asks o vs st (s2z "SetProperty") true (opened length x d) w).
Proof.
  intros Hlen Hx. unfold r_set. eapply ak_skip; [apply so_u32|apply q_uint; auto|]. intros flags ? [-> Hf].
  eapply ak_skip; [apply so_u32|apply q_uint; auto|]. intros count ? [-> Hc].
  destruct (Z.ltb_spec 0 count) as [C|C]; [|apply ak_ret].
  destruct ((length <? 8) && dbg o) eqn:D; [now apply ak_fail|].
  apply ak_first; [|intros; apply p_ret].
  assert (Z1 : size_ok (Some ((length - 8) mod 4294967296 / count))).
  { cbn [size_ok]; apply Z.div_pos; [apply Z.mod_pos_bound|]; lia. }
  eapply ak_weaken; [eapply ak_rep; [now apply Hso|now apply Hrp]|].
  intros b w (l & y & d & -> & Hl & Ln & Hd). pose proof (asks_type _ _ _ _ Hd) as ->.
  apply many_elems in Hl. apply elems_size with (s' := None) in Hl.
  eapply as_set; eauto. intros Dd. rewrite Dd in D. lia.
Qed.
Lemma ak_map st length kt vt xk xv : word length -> text_of kt xk -> text_of vt xv ->
  asking (s2z "MapProperty" :: st) (r_map o rp kt vt)
    (fun d w => asks o vs st (s2z "MapProperty") true (opened length (xk ++ xv) d) w).
Proof.
  intros Hlen Hk Hv. unfold r_map. eapply ak_skip; [apply so_u32|apply q_uint; auto|]. intros flags ? [-> Hf].
  eapply ak_skip; [apply so_u32|apply q_uint; auto|]. intros count ? [-> Hc].
  apply ak_first; [|intros; apply p_ret].
  eapply ak_weaken; [eapply ak_rep with
    (L := fun e b => exists x y, b = x ++ y
      /\ is_prop o vs (s2z "Key" :: s2z "MapProperty" :: st) kt false None (fst (fst e)) x
      /\ is_prop o vs (s2z "Value" :: s2z "MapProperty" :: st) vt false None (snd (fst e)) y)
    (R := fun d w => asks o vs (s2z "Key" :: s2z "MapProperty" :: st) kt false d w
      \/ exists k z d', d = z ++ d' /\ is_prop o vs (s2z "Key" :: s2z "MapProperty" :: st) kt false None k z
         /\ asks o vs (s2z "Value" :: s2z "MapProperty" :: st) vt false d' w)|].
  - unfold r_entry. eapply so_bind; [apply so_scoped, Hso; exact I|]. intros k x Hk'.
    eapply so_bind; [apply so_scoped, Hso; exact I|]. intros v y Hv'.
    apply so_position. intros p. apply so_ret. rewrite app_nil_r. exists x, y. auto.
  - unfold r_entry. eapply ak_bind; [apply so_scoped, Hso; exact I| |].
    + eapply ak_weaken; [apply ak_scoped, Hrp; exact I|]. auto.
    + intros k x Hk'. apply ak_first; [|intros; apply p_bind; [apply p_position|intros; apply p_ret]].
      eapply ak_weaken; [apply ak_scoped, Hrp; exact I|]. intros d w Hd. right. exists k, x, d. auto.
  - intros b w (l & y & d & -> & Hl & Ln & Hd).
    assert (He : is_entries o vs (s2z "MapProperty" :: st) kt vt (map fst l) y).
    { clear - Hl. induction Hl as [|[[k v] p] l x y (x1 & x2 & -> & H1 & H2) _ IH]; [constructor|].
      rewrite <- app_assoc. cbn [map fst]. now constructor. }
    rewrite <- (len_map fst l) in Ln.
    destruct Hd as [Hd|(k & z & d' & -> & Hp & Hd)]; [eapply as_key; eauto|eapply as_value; eauto].
Qed.
Lemma ak_body st ty hdr size : size_ok size -> asking (ty :: st) (r_body n o vs rp ty hdr size) (asks o vs st ty hdr).
Proof.
  intros Hsize. unfold r_body. destruct (kind_of ty) eqn:K.
  all: try (apply ak_leaf; first [apply q_pnum | apply q_pbyte | apply q_pbool | apply q_penum | apply q_pstr | apply q_ptext | apply q_pname
    | apply q_pobject | apply q_pdelegate | apply q_pmulti | apply q_pfieldpath]; auto; fail).
  - apply is_name in K; [|discriminate]. subst ty. destruct hdr.
    + unfold r_pstruct.
      eapply ak_headed with (LV := fun tg x => exists xt, x = xt ++ snd tg /\ text_of (fst tg) xt /\ len (snd tg) = 16).
      * eapply so_bind; [apply so_string|]. intros t xt Ht. eapply so_last; [apply so_guid|].
        intros g ? [<- Hg]. exists xt. auto.
      * apply p_bind; [apply q_string; auto|intros]. apply p_bind; [apply q_guid|intros; apply p_ret].
      * intros m [t g] x (xt & -> & Ht & Hg) Hm. cbn [fst snd] in *. apply ak_first; [|intros; apply p_ret].
        eapply ak_weaken; [apply ak_sval|]. intros d w Hd. now apply as_struct with (ty := t).
    + unfold r_hinted. intros q b path p E. unfold bind at 1, get_stk in E. cbn [stk] in E. unfold bind at 1, position in E. cbn [pos] in E.
      destruct (hints o _) as [t|] eqn:Hh in E.
      * rewrite dotted_join in Hh.
        apply (ak_first _ _ _ _ (ak_sval _ t) (fun v => p_ret _ _ _)) in E as (d & t' & w & ? & ? & ? & ? & Hd).
        exists d, t', w. repeat (split; [assumption|]). eapply as_hinted; eauto.
      * injection E as <- <-. exists [], b, (s2z "StructProperty" :: st). rewrite len_nil, Z.add_0_r.
        split; [reflexivity|]. split; [reflexivity|]. split; [apply dotted_join|]. split; [exact Hh|constructor].
  - apply is_name in K; [|discriminate]. subst ty. destruct hdr; [|apply ak_leaf, p_bind; [apply p_position|intros; now apply p_fail]].
    eapply ak_headed with (LV := text_of); [apply so_string|apply q_string; auto|].
    intros m t x Ht Hm. now apply ak_array.
  - apply is_name in K; [|discriminate]. subst ty. destruct hdr; [|apply ak_leaf, p_bind; [apply p_position|intros; now apply p_fail]].
    eapply ak_headed with (LV := text_of); [apply so_string|apply q_string; auto|].
    intros m t x Ht Hm. now apply ak_set.
  - apply is_name in K; [|discriminate]. subst ty. destruct hdr; [|apply ak_leaf, p_bind; [apply p_position|intros; now apply p_fail]].
    eapply ak_headed with (LV := fun kv x => exists xk xv, x = xk ++ xv /\ text_of (fst kv) xk /\ text_of (snd kv) xv).
    + eapply so_bind; [apply so_string|]. intros a x Ha. eapply so_last; [apply so_string|]. intros b y Hb. exists x, y. auto.
    + apply p_bind; [apply q_string; auto|intros]. apply p_bind; [apply q_string; auto|intros; apply p_ret].
    + intros m [kt vt] x (xk & xv & -> & Hk & Hv) Hm. cbn [fst snd] in *. now apply ak_map.
  - apply ak_leaf. destruct hdr; [apply q_unknown_header; auto|].
    destruct size; [apply q_unknown; auto|apply p_bind; [apply p_position|intros; now apply p_fail]].
Qed.
End Nested.
Lemma ak_prop n : forall st ty hdr s, size_ok s -> asking st (r_prop n o vs ty hdr s) (asks o vs st ty hdr).
Proof.
  induction n as [|n IH]; intros st ty hdr s Hs; cbn [r_prop]; [now apply ak_fail|].
  apply ak_scoped. apply ak_body; auto. intros. now apply so_prop.
Qed.
Lemma ak_entries n m : asking [] (r_entries n m o vs) (fun b w => exists l y k xk ty xt d,
  b = y ++ xk ++ xt ++ d /\ is_fields o vs [] l y /\ text_of k xk /\ k <> s2z "None" /\ text_of ty xt
  /\ asks o vs [k] ty true d w).
Proof.
  assert (HH : forall f, no_hint f -> no_hint f) by auto.
  induction n as [|n IH]; cbn [r_entries]; [now apply ak_fail|].
  eapply ak_skip; [apply so_string|apply q_string; auto|]. intros name x Hx.
  destruct (str_eqb name s_none) eqn:E; [apply ak_ret|].
  assert (N : name <> s2z "None") by (intros ->; vm_compute in E; discriminate).
  eapply ak_skip; [apply so_string|apply q_string; auto|]. intros ty y Hy.
  eapply ak_bind; [apply so_scoped, so_prop; [exact Q|exact I]| |].
  - eapply ak_weaken; [apply ak_scoped, ak_prop; exact I|]. intros d w Hd.
    exists [], [], name, x, ty, y, d. split; [reflexivity|]. split; [constructor|]. auto 6.
  - intros p z Hz. apply ak_first; [|intros; apply p_ret].
    eapply ak_weaken; [exact IH|]. intros b w (l & y' & k & xk & ty' & xt & d & -> & Hl & H1 & H2 & H3 & H4).
    exists ((name, p) :: l), (x ++ y ++ z ++ y'), k, xk, ty', xt, d. rewrite <- !app_assoc. split; [reflexivity|].
    split; [econstructor; eauto|]. auto.
Qed.
End Props.

Lemma ak_file n : asking [] (r_file n o) (file_asks o).
Proof.
  assert (HH : forall f, no_hint f -> no_hint f) by auto.
  unfold r_file. eapply ak_skip; [apply so_header|apply q_header; auto|]. intros h x (vl & Hh & Hv).
  apply ak_first; [|intros; apply p_ret]. eapply ak_weaken; [apply ak_entries|].
  intros b w (l & y & k & xk & ty & xt & d & -> & Hl & H1 & H2 & H3 & H4).
  exists h, vl, l, k, ty, x, y, xk, xt, d. auto 10.
Qed.
End Ask.
