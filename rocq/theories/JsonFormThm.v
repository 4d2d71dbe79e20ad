(** The functions of Json.v write exactly what JsonForm.v says (C54). *)
From Coq Require Import ZArith List Bool String Lia ZifyBool ZifyNat QArith.
From Verif Require Import Base Str Types Versions Text Props File Spec BaseFacts Decode Induct Guid GuidThm Json JsonSpec
  JsonFloat Nearest JsonForm.
Import ListNotations.
Open Scope Z_scope.

Lemma f2_map {A B} (R : A -> B -> Prop) (f : A -> B) l : Forall (fun x => forall y, R x y <-> y = f x) l ->
  forall m, Forall2 R l m <-> m = map f l.
Proof.
  induction 1 as [|x l H _ IH]; intros m; cbn [map]; split.
  - now inversion 1.
  - intros ->. constructor.
  - inversion 1 as [|? y ? m' HR HF]; subst. apply H in HR. apply IH in HF. now subst.
  - intros ->. constructor; [now apply H|now apply IH].
Qed.
Lemma f2_all {A B} (R : A -> B -> Prop) (f : A -> B) l : (forall x y, R x y <-> y = f x) ->
  forall m, Forall2 R l m <-> m = map f l.
Proof. intros H. apply f2_map. apply Forall_forall. auto. Qed.
Lemma entry_all {A} (R : A -> json -> Prop) (f : A -> json) (l : list (str * A)) : (forall x y, R x y <-> y = f x) ->
  forall m, Forall2 (entry R) l m <-> m = map (fun '(k, v) => (k, f v)) l.
Proof.
  intros H. apply f2_all. intros [k a] [k' j]. unfold entry. cbn [fst snd]. rewrite H. split.
  - intros [-> ->]. reflexivity.
  - intros E. injection E as -> ->. auto.
Qed.
Lemma entries {A} (R : A -> json -> Prop) (f : A -> json) (l : list (str * A)) : Forall (fun e => forall y, R (snd e) y <-> y = f (snd e)) l ->
  forall m, Forall2 (fun x y => fst x = fst y /\ R (snd x) (snd y)) l m <-> m = map (fun '(k, v) => (k, f v)) l.
Proof.
  intros H. apply f2_map. eapply Forall_impl; [|exact H]. intros [k a] G [k' j]. cbn [fst snd] in *. rewrite G. split.
  - intros [-> ->]. reflexivity.
  - intros E. injection E as -> ->. auto.
Qed.
Lemma forallb_Forall {A} (f : A -> bool) (P : A -> Prop) l :
  Forall (fun x => f x = true -> P x) l -> forallb f l = true -> Forall P l.
Proof. intros H E. rewrite forallb_forall in E. rewrite Forall_forall in *. auto. Qed.

Lemma maybe_text k o l : maybe k is_text o l <-> l = e_optstr (s2z k) o.
Proof.
  split.
  - intros [|a j ->]; reflexivity.
  - intros ->. destruct o; constructor. reflexivity.
Qed.
Lemma zero_field k z l : unless_zero k z l <-> l = e_nonzero (s2z k) z.
Proof.
  unfold e_nonzero. split.
  - intros [|x N]; [reflexivity|]. destruct (x =? 0) eqn:E; [lia|reflexivity].
  - intros ->. destruct (z =? 0) eqn:E; [replace z with 0 by lia|]; constructor. lia.
Qed.
Lemma nil_field k g l : guid_ok g = true -> unless_nil k g l <-> l = e_optguid (s2z k) g.
Proof.
  intros G. assert (L : len g = 16) by (unfold guid_ok in G; lia). unfold e_optguid. split.
  - intros X. inversion X as [|x N]; subst; [reflexivity|]. destruct (guid_is_zero g) eqn:E; [|reflexivity]. apply zero_iff in E; [contradiction|exact L].
  - intros ->. destruct (guid_is_zero g) eqn:E.
    + apply zero_iff in E; [|exact L]. subst g. constructor.
    + constructor. intros ->. discriminate.
Qed.
Lemma named_iff (names : list string) z j : 0 <= z < len names ->
  named (combine (map Z.of_nat (List.seq 0 (List.length names))) names) z j <-> j = e_name (map s2z names) z.
Proof.
  intros R. unfold e_name, named, txt. split.
  - intros (s & I & ->). f_equal. apply In_nth_error in I as [i I].
    revert I. assert (G : forall k n, nth_error (combine (map Z.of_nat (List.seq k (List.length n))) n) i = Some (z, s) ->
       z = Z.of_nat (k + i) /\ nth_error n i = Some s).
    { clear. revert i. induction i; intros k n; destruct n as [|a n]; cbn [List.length List.seq map combine nth_error]; try discriminate.
      - intros H. injection H as <- <-. split; [lia|reflexivity].
      - intros H. apply IHi in H as [-> ->]. split; [lia|reflexivity]. }
    intros H. apply G in H as [-> H]. rewrite Nat2Z.id. symmetry. apply nth_error_nth. rewrite nth_error_map. cbn [Nat.add]. now rewrite H.
  - intros ->. assert (L : (Z.to_nat z < List.length names)%nat) by (unfold len in R; lia).
    destruct (nth_error names (Z.to_nat z)) as [s|] eqn:E; [|apply nth_error_None in E; lia].
    exists s. split.
    + apply (nth_error_In _ (Z.to_nat z)).
      assert (G : forall i k n, nth_error n i = Some s -> nth_error (combine (map Z.of_nat (List.seq k (List.length n))) n) i = Some (Z.of_nat (k + i), s)).
      { clear. induction i; intros k n; destruct n as [|a n]; cbn [List.length List.seq map combine nth_error]; try discriminate.
        - intros H. injection H as <-. do 3 f_equal. lia.
        - intros H. rewrite (IHi (S k) n H). do 3 f_equal. lia. }
      rewrite (G _ 0%nat _ E). do 2 f_equal. lia.
    + f_equal. apply nth_error_nth. rewrite nth_error_map. now rewrite E.
Qed.
Lemma rounding_iff z j : in_range 0 6 z = true -> named roundings z j <-> j = e_name rounding_names z.
Proof.
  intros R. apply (named_iff ["HalfToEven"; "HalfFromZero"; "HalfToZero"; "FromZero"; "ToZero"; "ToNegativeInfinity"; "ToPositiveInfinity"]%string).
  unfold in_range in R. cbn. lia.
Qed.
Lemma style_iff z j : in_range 0 4 z = true -> named styles z j <-> j = e_style z.
Proof. intros R. apply (named_iff ["Default"; "Short"; "Medium"; "Long"; "Full"]%string). unfold in_range in R. cbn. lia. Qed.
Lemma transform_iff z j : in_range 0 1 z = true -> named transforms z j <-> j = e_name transform_names z.
Proof. intros R. apply (named_iff ["ToLower"; "ToUpper"]%string). unfold in_range in R. cbn. lia. Qed.

Lemma double_iff z j : u_ok 8 z = true -> double_form z j <-> j = e_f64 z.
Proof.
  intros U. unfold e_f64. rewrite finite64_eq by exact U. split.
  - intros [b F|b F]; now rewrite F.
  - intros ->. destruct (finite64 z) eqn:F; now constructor.
Qed.
Lemma single_iff z j : u_ok 4 z = true -> single_form z j <-> j = e_f32 z.
Proof.
  intros U. destruct (finite32 z) eqn:F.
  - destruct (widened z U F) as (c & E & Uc & _ & S & N). rewrite E. split.
    + intros X. inversion X as [b c' F' Uc' S' N'|b F']; subst; [|congruence]. f_equal. rewrite <- N in N'.
      apply number_inj in N'; [|lia|apply Z.mod_pos_bound; lia|apply Z.mod_pos_bound; lia]. unfold u_ok, in_range in *. change (2 ^ (8 * 8) - 1) with 18446744073709551615 in *. lia.
    + intros ->. now constructor.
  - unfold e_f32. rewrite finite32_eq, F by exact U. split.
    + intros X. inversion X; subst; [congruence|reflexivity].
    + intros ->. now constructor.
Qed.
Lemma num_iff k z j : num_ok k z = true -> num_form k z j <-> j = e_num k z.
Proof.
  destruct k; cbn [num_form e_num]; intros U; try reflexivity; [apply single_iff|apply double_iff]; exact U.
Qed.
Lemma format_iff o j : numfmt_ok o = true -> format_form o j <-> j = e_numfmt o.
Proof.
  intros H. unfold numfmt_ok in H. andbs. split.
  - intros F. inversion F as [? ? ? ? ? ? ? r N]; subst. cbn [nf_round] in *. apply rounding_iff in N; [|assumption]. now subst r.
  - intros ->. destruct o. constructor. now apply rounding_iff.
Qed.
Lemma maybe_format o l : onumfmt_ok o = true ->
  maybe "format_options" format_form o l <-> l = e_opt (s2z "format_options") (option_map e_numfmt o).
Proof.
  intros H. split.
  - intros X. inversion X as [|a j F]; subst; [reflexivity|]. apply format_iff in F; [|exact H]. now subst j.
  - intros ->. destruct o as [o|]; constructor. now apply format_iff.
Qed.

Ltac known := repeat match goal with
  | H : maybe _ is_text _ _ |- _ => apply maybe_text in H; subst
  | H : unless_zero _ _ _ |- _ => apply zero_field in H; subst
  | H : maybe _ format_form _ _ |- _ => apply maybe_format in H; [subst|assumption]
  | H : named styles _ _ |- _ => apply style_iff in H; [subst|assumption]
  | H : named transforms _ _ |- _ => apply transform_iff in H; [subst|assumption]
  | H : single_form _ _ |- _ => apply single_iff in H; [subst|assumption]
  | H : double_form _ _ |- _ => apply double_iff in H; [subst|assumption]
  end.
Ltac make := repeat match goal with
  | |- maybe _ is_text _ _ => now apply maybe_text
  | |- unless_zero _ _ _ => now apply zero_field
  | |- maybe _ format_form _ _ => now apply maybe_format
  | |- named styles _ _ => now apply style_iff
  | |- named transforms _ _ => now apply transform_iff
  | |- single_form _ _ => now apply single_iff
  | |- double_form _ _ => now apply double_iff
  end.
Lemma text_iff :
  (forall t, t_text t = true -> forall l, text_form t l <-> l = e_text t)
  /\ (forall h, t_hist h = true -> forall l, hist_form h l <-> l = e_hist h)
  /\ (forall a, t_arg a = true -> forall j, arg_form a j <-> j = e_arg a).
Proof.
  apply text_all; intros; cbn [t_text t_hist t_arg e_text e_hist e_arg] in *; andbs;
    repeat match goal with IH : ?b = true -> forall x, _, H : ?b = true |- _ => specialize (IH H) end;
    try (match goal with H : Forall _ ?l, G : forallb t_arg ?l = true |- _ =>
      pose proof (f2_map arg_form e_arg l (forallb_Forall _ _ _ H G)) as HL end);
    try (match goal with H : Forall _ ?l, G : forallb _ ?l = true |- context [HNamed _ ?l] =>
      assert (HL : forall m, Forall2 (fun x y => fst x = fst y /\ arg_form (snd x) (snd y)) l m <-> m = map (fun '(k, v) => (k, e_arg v)) l)
        by (apply entries; refine (forallb_Forall _ _ _ _ G); eapply Forall_impl; [|exact H]; intros [k a] I E; andbs; cbn [snd] in *; auto) end);
    try (match goal with H : Forall _ ?l, G : forallb _ ?l = true |- context [HArgument _ ?l] =>
      assert (HL : forall m, Forall2 (fun x y => fst x = fst y /\ arg_form (snd x) (snd y)) l m <-> m = map (fun '(k, v) => (k, e_arg v)) l)
        by (apply entries; refine (forallb_Forall _ _ _ _ G); eapply Forall_impl; [|exact H]; intros [k a] I E; andbs; cbn [snd] in *; auto) end);
    (split; [intros X; inversion X; subst; known;
       repeat match goal with
       | IH : forall l, text_form ?t l <-> _, H : text_form ?t _ |- _ => apply IH in H; subst
       | IH : forall l, hist_form ?t l <-> _, H : hist_form ?t _ |- _ => apply IH in H; subst
       | IH : forall l, arg_form ?t l <-> _, H : arg_form ?t _ |- _ => apply IH in H; subst
       | IH : forall m, Forall2 _ ?t m <-> _, H : Forall2 _ ?t _ |- _ => apply IH in H; subst
       end; try reflexivity
     |intros ->; cbn [app]; try (econstructor; make;
       repeat match goal with
       | IH : forall l, text_form ?t l <-> _ |- text_form ?t _ => now apply IH
       | IH : forall l, hist_form ?t l <-> _ |- hist_form ?t _ => now apply IH
       | IH : forall l, arg_form ?t l <-> _ |- arg_form ?t _ => now apply IH
       | IH : forall m, Forall2 _ ?t m <-> _ |- Forall2 _ ?t _ => now apply IH
       end; fail)]).
Qed.

Lemma parts_iff names ks l f : List.length names = List.length ks -> nums_ok ks l = true ->
  parts_form (combine names ks) l f <-> f = e_fields (map s2z names) ks l.
Proof.
  revert ks l f. induction names as [|n names IH]; intros [|k ks] l f L H; try discriminate; cbn [combine map e_fields].
  - destruct l; [|discriminate]. split; [now inversion 1|intros ->; constructor].
  - destruct l as [|z l]; [discriminate|]. cbn [nums_ok] in H. andbs. injection L as L. split.
    + inversion 1 as [|? ? ? ? ? j g N G]; subst. apply num_iff in N; [|assumption]. apply IH in G; [|assumption|assumption]. now subst.
    + intros ->. constructor; [now apply num_iff|now apply IH].
Qed.
Lemma fixed_parts x : snd (fixed_table x) = combine (map fst (snd (fixed_table x))) (layout x)
  /\ map s2z (map fst (snd (fixed_table x))) = field_names x /\ s2z (fst (fixed_table x)) = fixed_variant x
  /\ List.length (map fst (snd (fixed_table x))) = List.length (layout x).
Proof. destruct x; repeat split. Qed.
Lemma fixed_iff x l f : nums_ok (layout x) l = true ->
  parts_form (snd (fixed_table x)) l f <-> f = e_fields (field_names x) (layout x) l.
Proof.
  intros H. destruct (fixed_parts x) as (E & F & _ & L). rewrite E, <- F. now apply parts_iff.
Qed.
Lemma digit_iff i c : 0 <= i < 16 -> nth_error digits (Z.to_nat i) = Some c <-> c = hex_lower i.
Proof.
  intros R. assert (C : i = 0 \/ i = 1 \/ i = 2 \/ i = 3 \/ i = 4 \/ i = 5 \/ i = 6 \/ i = 7 \/ i = 8 \/ i = 9 \/ i = 10
    \/ i = 11 \/ i = 12 \/ i = 13 \/ i = 14 \/ i = 15) by lia.
  repeat (destruct C as [->|C]; [cbn; split; [intros H; now injection H|now intros ->]|]). subst i.
  cbn; split; [intros H; now injection H|now intros ->].
Qed.
Lemma hex_iff l s : hex_form l s <-> s = e_hex l.
Proof.
  revert s. induction l as [|b l IH]; intros s; [|change (e_hex (b :: l)) with (hex_lower (b2z b / 16) :: hex_lower (b2z b mod 16) :: e_hex l)]; split.
  - now inversion 1.
  - intros ->. constructor.
  - inversion 1 as [|? ? t hi lo c d E C D T]; subst. apply IH in T. subst t.
    assert (HI : (hi < 16)%nat) by (apply (nth_error_Some digits hi); congruence).
    assert (LO : (lo < 16)%nat) by (apply (nth_error_Some digits lo); congruence).
    replace (b2z b / 16) with (Z.of_nat hi) by lia. replace (b2z b mod 16) with (Z.of_nat lo) by lia.
    rewrite <- (Nat2Z.id hi) in C. rewrite <- (Nat2Z.id lo) in D.
    apply digit_iff in C; [|lia]. apply digit_iff in D; [|lia]. now subst.
  - intros ->. pose proof (b2z_range b) as B.
    apply (HexCons _ _ _ (Z.to_nat (b2z b / 16)) (Z.to_nat (b2z b mod 16))).
    + rewrite !Z2Nat.id by lia. lia.
    + apply digit_iff; [lia|reflexivity].
    + apply digit_iff; [lia|reflexivity].
    + now apply IH.
Qed.
Lemma null_iff o j : is_null_or_text o j <-> j = e_ostr o.
Proof. reflexivity. Qed.

Section Props.
Context (sep : property -> property -> bool).
Ltac lists := repeat match goal with
  | H : Forall2 _ ?t _ |- _ => first
     [ match goal with IH : forall m, Forall2 _ t m <-> _ |- _ => apply IH in H; subst end ]
  end.
Lemma prop_iff :
  (forall p, t_prop sep p = true -> forall j, prop_form p j <-> j = e_prop p)
  /\ (forall v, t_sval sep v = true -> forall f, value_form v f <-> f = e_sval v)
  /\ (forall a, t_array sep a = true -> forall l, array_form a l <-> l = e_array a)
  /\ (forall m, t_map sep m = true -> forall l, map_form m l <-> l = e_map m).
Proof.
  apply prop_all; intros; cbn [t_prop t_sval t_array t_map e_prop e_sval e_array e_map] in *; andbs;
    repeat match goal with IH : ?b = true -> forall x, _, H : ?b = true |- _ => specialize (IH H) end.
  - (* PNum *) split.
    + inversion 1 as [? ? ? N| | | | | | | | | | | | | | | | | |]; subst. apply num_iff in N; [|assumption]. subst. now destruct k.
    + intros ->. replace (JObj _) with (of_type (num_type k) ["value" ↦ e_num k z]) by now destruct k.
      constructor. now apply num_iff.
  - split; [now inversion 1|intros ->; constructor].
  - destruct v; cbn [e_bytev]; (split; [inversion 1; subst; known; reflexivity|intros ->; constructor; make]).
  - split; [inversion 1; subst; known; reflexivity|intros ->; constructor; make].
  - split; [inversion 1; subst; known; reflexivity|intros ->; constructor; make].
  - pose proof (proj1 text_iff _ H) as T. split; [inversion 1 as [| | | | | |? ? X| | | | | | | | | | | |]; subst; apply T in X; now subst|].
    intros ->. constructor. now apply T.
  - split; [inversion 1; subst; known; reflexivity|intros ->; constructor; make].
  - split; [now inversion 1|intros ->; constructor].
  - split; [now inversion 1|intros ->; constructor].
  - destruct i; (split; [now inversion 1|intros ->; constructor]).
  - split; [now inversion 1|intros ->; constructor].
  - split; [now inversion 1|intros ->; constructor].
  - (* PArray *) split.
    + intros X. inversion X as [| | | | | | | | | | | | | |? ? Y| | | |]; subst. apply H in Y. now subst.
    + intros ->. constructor. now apply H.
  - (* PSet *) pose proof (f2_map prop_form e_prop l (forallb_Forall _ _ _ H ltac:(eassumption))) as HL. split.
    + intros X. inversion X; subst. lists. reflexivity.
    + intros ->. constructor. now apply HL.
  - (* PMap *) split.
    + intros X. inversion X as [| | | | | | | | | | | | | | | |? ? Y| |]; subst. apply H in Y. now subst.
    + intros ->. constructor. now apply H.
  - (* PStruct *) split.
    + intros X. inversion X as [| | | | | | | | | | | | | | | | |? ? ? ? ? N Y|]; subst. apply H in Y. apply nil_field in N; [|assumption]. now subst.
    + intros ->. constructor; [now apply nil_field|now apply H].
  - (* PSValue *) split.
    + intros X. inversion X as [| | | | | | | | | | | | | | | | | |? ? Y]; subst. apply H in Y. now subst.
    + intros ->. constructor. now apply H.
  - (* SFixed *) destruct (fixed_parts x) as (_ & _ & E & _). split.
    + intros X. inversion X as [? ? ? Y| | |]; subst. apply fixed_iff in Y; [|assumption]. now rewrite E, Y.
    + intros ->. rewrite <- E. constructor. now apply fixed_iff.
  - split; [now inversion 1|intros ->; constructor].
  - split; [now inversion 1|intros ->; constructor].
  - (* SCustom *)
    assert (HL : forall m, Forall2 (fun x y => fst x = fst y /\ exists a, snd y = JArr a /\ Forall2 prop_form (snd x) a) l m
        <-> m = map (fun '(k, ps) => (k, JArr (map e_prop ps))) l).
    { apply f2_map. refine (forallb_Forall _ _ _ _ ltac:(eassumption)). eapply Forall_impl; [|exact H].
      intros [k ps] I E [k' j]. andbs. cbn [fst snd] in *. pose proof (f2_map prop_form e_prop ps (forallb_Forall _ _ _ I ltac:(eassumption))) as HP.
      split.
      - intros (-> & a & -> & F). apply HP in F. now subst.
      - intros G. injection G as -> ->. split; [reflexivity|]. eexists. split; [reflexivity|]. now apply HP. }
    split; [intros X; inversion X; subst; lists; reflexivity|intros ->; constructor; now apply HL].
  - split; [now inversion 1|intros ->; constructor].
  - split; [inversion 1 as [|? ? Y| | | | | | |]; subst; apply hex_iff in Y; now subst|intros ->; constructor; now apply hex_iff].
  - split; [now inversion 1|intros ->; constructor].
  - assert (HL : forall m, Forall2 single_form l m <-> m = map e_f32 l).
    { apply f2_map. refine (forallb_Forall _ _ _ _ ltac:(eassumption)). apply Forall_forall. intros z _ U y. now apply single_iff. }
    split; [intros X; inversion X; subst; lists; reflexivity|intros ->; constructor; now apply HL].
  - split; [now inversion 1|intros ->; constructor].
  - pose proof (f2_all is_null_or_text e_ostr l null_iff) as HL.
    split; [intros X; inversion X; subst; lists; reflexivity|intros ->; constructor; now apply HL].
  - pose proof (f2_all is_null_or_text e_ostr l null_iff) as HL.
    split; [intros X; inversion X; subst; lists; reflexivity|intros ->; constructor; now apply HL].
  - (* AStructs *)
    assert (HL : forall m, Forall2 (fun v j => exists x, value_form v x /\ j = JObj [x]) l m <-> m = map (fun v => JObj [e_sval v]) l).
    { apply f2_map. refine (forallb_Forall _ _ _ _ ltac:(eassumption)). eapply Forall_impl; [|exact H].
      intros v I E j. specialize (I E). split.
      - intros (x & F & ->). apply I in F. now subst.
      - intros ->. eexists. split; [now apply I|reflexivity]. }
    split.
    + intros X. inversion X as [| | | | | | |? ? ? ? ? ? N Y|]; subst. apply nil_field in N; [|assumption]. lists. now subst.
    + intros ->. cbn [app]. constructor; [now apply nil_field|now apply HL].
  - pose proof (f2_map prop_form e_prop l (forallb_Forall _ _ _ H ltac:(eassumption))) as HL.
    split; [intros X; inversion X; subst; lists; reflexivity|intros ->; constructor; now apply HL].
  - pose proof (entry_all (fun b j => j = JBool b) JBool l ltac:(reflexivity)) as HL.
    split; [intros X; inversion X; subst; lists; reflexivity|intros ->; constructor; now apply HL].
  - pose proof (entry_all (fun z j => j = JInt z) JInt l ltac:(reflexivity)) as HL.
    split; [intros X; inversion X; subst; lists; reflexivity|intros ->; constructor; now apply HL].
  - assert (HL : forall m, Forall2 (fun x y => fst x = fst y /\ prop_form (snd x) (snd y)) l m <-> m = map (fun '(k, v) => (k, e_prop v)) l).
    { apply entries. refine (forallb_Forall _ _ _ _ ltac:(eassumption)). eapply Forall_impl; [|exact H].
      intros [s p] I E. andbs. cbn [snd] in *. auto. }
    split; [intros X; inversion X; subst; lists; reflexivity|intros ->; constructor; now apply HL].
  - pose proof (entry_all is_null_or_text e_ostr l null_iff) as HL.
    split; [intros X; inversion X; subst; lists; reflexivity|intros ->; constructor; now apply HL].
  - assert (HL : forall m, Forall2 (fun x j => exists k v, j = JArr [k; v] /\ prop_form (fst x) k /\ prop_form (snd x) v) l m
        <-> m = map (fun '(k, v) => JArr [e_prop k; e_prop v]) l).
    { apply f2_map. refine (forallb_Forall _ _ _ _ ltac:(eassumption)). eapply Forall_impl; [|exact H].
      intros [k v] [I J] E j. andbs. cbn [fst snd] in *. split.
      - intros (a & b & -> & F & G). apply I in F; [|assumption]. apply J in G; [|assumption]. now subst.
      - intros ->. do 2 eexists. split; [reflexivity|]. split; [now apply I|now apply J]. }
    split; [intros X; inversion X; subst; lists; reflexivity|intros ->; constructor; now apply HL].
Qed.
Lemma header_iff h j : header_form h j <-> j = e_header h.
Proof.
  assert (HL : forall m, Forall2 (fun x y => fst y = guid_display (fst x) /\ snd y = JInt (snd x)) (h_versions h) m
    <-> m = map (fun '(g, v) => (guid_display g, JInt v)) (h_versions h)).
  { apply f2_all. intros [g v] [s i]. cbn [fst snd]. split; [intros [-> ->]; reflexivity|]. intros E. injection E as -> ->. auto. }
  split.
  - intros X. inversion X as [? l m M V]; subst. apply HL in V. subst m. unfold e_header, of_type, txt. cbn [app].
    destruct (h_ue5 h) as [v|]; inversion M; subst; reflexivity.
  - intros ->. unfold e_header. cbn [app]. pose proof (proj2 (HL _) eq_refl) as V.
    assert (M : maybe "package_file_version_ue5" (fun z j => j = JInt z) (h_ue5 h)
      (e_opt (s2z "package_file_version_ue5") (option_map JInt (h_ue5 h)))) by (destruct (h_ue5 h); now constructor).
    pose proof (HeaderForm h _ _ M V) as F. unfold of_type, txt in F. now destruct (h_ue5 h).
Qed.
Lemma file_iff g j : t_file sep g = true -> file_form g j <-> j = to_json g.
Proof.
  intros T. destruct g as [v h ps]. unfold t_file in T. cbn [g_header g_props] in T. andbs.
  assert (HL : forall m, Forall2 (fun x y => fst x = fst y /\ prop_form (snd x) (snd y)) ps m <-> m = map (fun '(k, v) => (k, e_prop v)) ps).
  { apply entries. refine (forallb_Forall _ _ _ _ ltac:(eassumption)). apply Forall_forall.
    intros [s p] _ E. andbs. cbn [snd] in *. now apply (proj1 prop_iff). }
  unfold to_json. cbn [g_version g_header g_props]. split.
  - intros X. inversion X as [? ? ? l i f G Hd F]; subst. apply HL in F. apply header_iff in Hd. subst.
    inversion G as [|c]; subst; [reflexivity|]. now destruct c.
  - intros ->. constructor; [|now apply header_iff|now apply HL]. destruct v as [|c]; [constructor|]. now destruct c; constructor.
Qed.
End Props.
