(** The trees that [Debug] prints: they have the shape of DebugShow.v, and they are
    equal exactly if the values are, up to the bits of NaNs (C70). *)
From Coq Require Import ZArith List Bool String Lia ZifyBool ZifyNat.
From Verif Require Import Base Str Guid Types Versions Text Props File Spec BaseFacts Decode Induct Json JsonSpec
  Message Numeral MessageThm Display GuidThm Debug DebugSpec DebugShow.
Import ListNotations.
Open Scope Z_scope.

(** ** Words *)
Definition wordcb (c : Z) : bool :=
  in_range 48 57 c || in_range 65 90 c || in_range 97 122 c || (c =? 43) || (c =? 45) || (c =? 46) || (c =? 95).
Lemma word_b s : negb (match s with [] => true | _ => false end) && forallb wordcb s = true -> word s.
Proof.
  intros H. apply andb_prop in H as [N F]. split; [destruct s; discriminate|]. apply Forall_forall. intros c I.
  rewrite forallb_forall in F. specialize (F c I). unfold wordcb, in_range, wordc in *. lia.
Qed.
Ltac wd := apply word_b; vm_compute; reflexivity.
Lemma signed_word z : word (signed z).
Proof.
  assert (D : forall z, 0 <= z -> word (decimal z)).
  { intros y H. destruct (decimal_numeral y H) as (N & F & _). split; [exact N|]. eapply Forall_impl; [|exact F].
    unfold wordc, Numeral.digit. cbv beta. intros; lia. }
  unfold signed. destruct (z <? 0) eqn:E; [|apply D; lia]. destruct (D (- z) ltac:(lia)) as [N F].
  split; [discriminate|]. cbn [s2z app]. constructor; [unfold wordc; cbn; lia|exact F].
Qed.
Lemma word_app a b : word a -> word b -> word (a ++ b).
Proof. intros [N F] [_ G]. split; [destruct a; [contradiction|discriminate]|]. apply Forall_app; auto. Qed.

(** ** Numbers, strings and names *)
Lemma is_str_pos s : is_str s = true -> Forall (fun c => 0 <= c) s.
Proof.
  intros H. apply Forall_forall. intros c I. unfold is_str in H. rewrite forallb_forall in H. specialize (H c I).
  unfold scalar, in_range in H. lia.
Qed.
Lemma sh_str s : is_str s = true -> shaped (DStr s). Proof. apply is_str_pos. Qed.
Lemma sh_opt {A} (f : A -> dtree) o : (forall a, o = Some a -> shaped (f a)) -> shaped (dg_opt f o).
Proof.
  intros H. destruct o as [a|]; [|wd]. apply shaped_tuple. split; [wd|]. split; [discriminate|]. split; [discriminate|].
  constructor; [now apply H|constructor].
Qed.
Lemma sh_ostr o : ois_str o = true -> shaped (dg_opt DStr o).
Proof. intros H. apply sh_opt. intros a ->. now apply sh_str. Qed.
Lemma sh_int z : shaped (dg_int z). Proof. apply signed_word. Qed.
Lemma sh_bool b : shaped (dg_bool b). Proof. destruct b; wd. Qed.
Lemma sh_guid g : guid_ok g = true -> shaped (dg_guid g).
Proof.
  unfold guid_ok. intros H. cbn [dg_guid shaped]. destruct (list_eq_dec Byte.byte_eq_dec g (repeat Byte.x00 16)) as [E|N].
  - apply display_zero in E; [|lia]. rewrite E. split; [discriminate|]. constructor; [unfold guidc; lia|constructor].
  - unfold guid_display. destruct (guid_is_zero g) eqn:Z; [apply zero_iff in Z; [contradiction|lia]|].
    assert (U : forall l, Forall guidc (flat_map hex2 l)).
    { intros l. eapply Forall_impl; [|apply (proj1 (hex_upper l))]. unfold upper, guidc. cbv beta. intros; lia. }
    split; [|rewrite !Forall_app; repeat split; try apply U; constructor; try constructor; unfold guidc; lia].
    intros E. apply app_eq_nil in E as [_ E]. discriminate.
Qed.
Lemma sh_hashable l : Forall (fun e => shaped (fst e) /\ shaped (snd e)) l -> shaped (dg_hashable l).
Proof.
  intros H. apply shaped_tuple. split; [wd|]. split; [discriminate|]. split; [discriminate|].
  constructor; [now apply shaped_map|constructor].
Qed.
Lemma sh_struct n l : word n -> l <> [] -> Forall (fun e => word (fst e) /\ shaped (snd e)) l -> shaped (DStruct n l).
Proof. intros. apply shaped_struct. auto. Qed.
Lemma sh_tuple n d : word n -> (n = s2z "Guid" -> starts_guid [d]) -> shaped d -> shaped (DTuple n [d]).
Proof. intros W G S. apply shaped_tuple. split; [exact W|]. split; [discriminate|]. split; [exact G|]. constructor; [exact S|constructor]. Qed.
Lemma sh_list l : Forall shaped l -> shaped (DList l). Proof. apply shaped_list. Qed.
Lemma sh_lmap {A} (f : A -> dtree) l : (forall x, In x l -> shaped (f x)) -> shaped (DList (map f l)).
Proof. intros H. apply sh_list, Forall_map, Forall_forall. exact H. Qed.
Lemma sh_hmap {A} (f : A -> dtree * dtree) l : (forall x, In x l -> shaped (fst (f x)) /\ shaped (snd (f x))) -> shaped (dg_hashable (map f l)).
Proof. intros H. apply sh_hashable, Forall_map, Forall_forall. exact H. Qed.
Lemma sh_mmap {A} (f : A -> dtree * dtree) l : (forall x, In x l -> shaped (fst (f x)) /\ shaped (snd (f x))) -> shaped (DMap (map f l)).
Proof. intros H. apply shaped_map, Forall_map, Forall_forall. exact H. Qed.
Lemma sh_wrap ty l : word (s2z ty) -> s2z ty <> s2z "Guid" -> l <> [] -> Forall (fun e => word (fst e) /\ shaped (snd e)) l ->
  shaped (dg_wrap ty l).
Proof. intros W G N F. apply sh_tuple; [exact W|intros E; contradiction|]. now apply sh_struct. Qed.
Lemma cases5 z : in_range 0 4 z = true -> z = 0 \/ z = 1 \/ z = 2 \/ z = 3 \/ z = 4. Proof. unfold in_range. lia. Qed.
Lemma cases7 z : in_range 0 6 z = true -> z = 0 \/ z = 1 \/ z = 2 \/ z = 3 \/ z = 4 \/ z = 5 \/ z = 6. Proof. unfold in_range. lia. Qed.
Lemma cases2 z : in_range 0 1 z = true -> z = 0 \/ z = 1. Proof. unfold in_range. lia. Qed.
Lemma sh_style z : in_range 0 4 z = true -> shaped (dg_unit style_names z).
Proof. intros H. destruct (cases5 z H) as [->|[->|[->|[->| ->]]]]; wd. Qed.
Lemma sh_round z : in_range 0 6 z = true -> shaped (dg_unit rounding_names z).
Proof. intros H. destruct (cases7 z H) as [->|[->|[->|[->|[->|[->| ->]]]]]]; wd. Qed.
Lemma sh_trans z : in_range 0 1 z = true -> shaped (dg_unit transform_names z).
Proof. intros H. destruct (cases2 z H) as [->| ->]; wd. Qed.
Ltac andsplit := repeat match goal with H : _ && _ = true |- _ => apply andb_prop in H; destruct H end.
Ltac fields := repeat (apply Forall_cons; cbn [fst snd]; [split; [wd|]|]); [..|apply Forall_nil].
Lemma sh_numfmt o : numfmt_ok o = true -> shaped (dg_numfmt o).
Proof.
  unfold numfmt_ok. intros H. andsplit. apply sh_struct; [wd|discriminate|]. fields; auto using sh_bool, sh_int, sh_round.
Qed.
Lemma sh_onumfmt o : onumfmt_ok o = true -> shaped (dg_opt dg_numfmt o).
Proof. intros H. apply sh_opt. intros a ->. now apply sh_numfmt. Qed.

Section Float.
Context (fl : bool -> num -> Z -> str) (FL : float_texts fl).
Lemma sh_num k z : num_ok k z = true -> shaped (dg_num fl k z).
Proof.
  intros H. destruct k; try apply sh_int; cbn [dg_num shaped]; [apply (FL false F32 z z)|apply (FL false F64 z z)]; unfold is_float; auto.
Qed.
Lemma sh_fields names ks l : Forall word names -> nums_ok ks l = true -> Forall (fun e => word (fst e) /\ shaped (snd e)) (dg_fields fl names ks l).
Proof.
  revert ks l. induction names as [|n names IH]; intros [|k ks] [|z l] W H; cbn [dg_fields]; try constructor; cbn [nums_ok] in H; andsplit; inversion W; subst.
  - cbn [fst snd]. split; [assumption|now apply sh_num].
  - now apply IH.
Qed.
Lemma sh_fixed x l : nums_ok (layout x) l = true -> shaped (dg_fixed fl x l).
Proof.
  intros H. apply sh_struct; [destruct x; wd| |].
  - destruct x, l as [|z l]; try discriminate H; discriminate.
  - apply sh_fields; [|exact H]. destruct x; repeat (apply Forall_cons; [wd|]); apply Forall_nil.
Qed.
Lemma sh_ticks z : u_ok 8 z = true -> shaped (dg_ticks fl z).
Proof. intros H. apply sh_fixed. cbn [layout nums_ok]. unfold num_ok. cbn [num_signed num_width]. now rewrite H. Qed.

Ltac inall := match goal with H : forallb _ ?l = true, I : In ?x ?l |- _ => rewrite forallb_forall in H; specialize (H x I); cbv beta iota in H end.
Lemma shaped_text_all :
  (forall t, t_text t = true -> shaped (dg_text fl t)) /\ (forall h, t_hist h = true -> shaped (dg_hist fl h))
  /\ (forall a, t_arg a = true -> shaped (dg_arg fl a)).
Proof.
  apply text_all; intros; cbn [dg_text dg_hist dg_arg]; cbn [t_text t_hist t_arg] in *; andsplit; try wd;
    try (apply sh_tuple; [wd|discriminate|]); try (apply sh_struct; [wd|discriminate|fields]);
    auto using sh_int, sh_ostr, sh_str, sh_onumfmt, sh_style, sh_ticks, sh_trans.
  - apply sh_hmap. intros [k v] I. inall. cbn [fst snd]. andsplit. split; [now apply sh_str|]. rewrite Forall_forall in H0. now apply (H0 _ I).
  - apply sh_lmap. intros v I. inall. rewrite Forall_forall in H0. now apply (H0 _ I).
  - apply sh_hmap. intros [k v] I. inall. cbn [fst snd]. andsplit. split; [now apply sh_str|]. rewrite Forall_forall in H0. now apply (H0 _ I).
  - now apply (sh_num F32).
  - now apply (sh_num F64).
Qed.
Lemma sh_text t : t_text t = true -> shaped (dg_text fl t). Proof. apply shaped_text_all. Qed.
Lemma sh_delegate p : is_str (fst p) = true -> is_str (snd p) = true -> shaped (dg_delegate p).
Proof. intros. apply sh_struct; [wd|discriminate|fields]; now apply sh_str. Qed.
Lemma sh_bytev v : t_bytev v = true -> shaped (dg_bytev v).
Proof. destruct v; intros H; (apply sh_tuple; [wd|discriminate|]); [apply sh_int|now apply sh_str]. Qed.
Lemma sh_pnum k z : num_ok k z = true -> shaped (DWord (debug_num (fl true) k z)).
Proof.
  intros H. cbn [shaped]. unfold debug_num. apply word_app; [|destruct k; wd].
  destruct k; cbn [printed]; try apply signed_word; [apply (FL true F32 z z)|apply (FL true F64 z z)]; unfold is_float; auto.
Qed.
Section Sep.
Context (sep : property -> property -> bool).
Lemma shaped_all_values :
  (forall p, t_prop sep p = true -> shaped (dg_prop fl p)) /\ (forall v, t_sval sep v = true -> shaped (dg_sval fl v))
  /\ (forall a, t_array sep a = true -> shaped (dg_array fl a)) /\ (forall m, t_map sep m = true -> shaped (dg_map fl m)).
Proof.
  apply prop_all; intros; cbn [dg_prop dg_sval dg_array dg_map]; cbn [t_prop t_sval t_array t_map] in *; andsplit;
    try (apply sh_wrap; [wd|discriminate|discriminate|fields]);
    try (apply sh_tuple; [try wd; destruct k; wd|discriminate|]); try (apply sh_struct; [try wd; destruct k; wd|discriminate|fields]);
    auto using sh_int, sh_ostr, sh_str, sh_guid, sh_text, sh_bool, sh_bytev.
  all: try (apply sh_lmap; intros x I; try inall; auto using sh_int, sh_ostr, sh_str, sh_bool; fail).
  - destruct k; apply sh_tuple; try wd; try discriminate; now apply sh_pnum.
  - apply sh_wrap; [destruct i; wd|destruct i; discriminate|discriminate|fields].
    apply sh_struct; [wd|discriminate|fields]. apply sh_lmap. intros [a b] I. inall. andsplit. now apply sh_delegate.
  - apply sh_lmap. intros x I. inall. rewrite Forall_forall in H. now apply H.
  - apply sh_tuple; [destruct x; wd|destruct x; discriminate|]. now apply sh_fixed.
  - apply sh_tuple; [wd|intros _; exact I|]. now apply sh_guid.
  - apply sh_hmap. intros [k ps] I. inall. andsplit. cbn [fst snd]. split; [now apply sh_str|]. apply sh_lmap. intros x J. inall.
    rewrite Forall_forall in H. specialize (H _ I). cbn [snd] in H. rewrite Forall_forall in H. now apply H.
  - apply sh_lmap. intros x I. inall. now apply (sh_num F32).
  - apply sh_lmap. intros x I. inall. rewrite Forall_forall in H. now apply H.
  - apply sh_lmap. intros x I. inall. rewrite Forall_forall in H. now apply H.
  - apply sh_struct; [destruct k; wd|discriminate|]. constructor; [|constructor]. cbn [fst snd]. split; [destruct k; wd|].
    apply sh_hmap. intros [a b] I. inall. cbn [fst snd]. split; [now apply sh_str|apply sh_bool].
  - apply sh_struct; [destruct k; wd|discriminate|]. constructor; [|constructor]. cbn [fst snd]. split; [destruct k; wd|].
    apply sh_hmap. intros [a b] I. inall. andsplit. cbn [fst snd]. split; [now apply sh_str|apply sh_int].
  - apply sh_struct; [destruct k; wd|discriminate|]. constructor; [|constructor; [|constructor]]; cbn [fst snd]; [split; [wd|now apply sh_str]|split; [destruct k; wd|]].
    apply sh_hmap. intros [a b] I. inall. andsplit. cbn [fst snd]. split; [now apply sh_str|]. rewrite Forall_forall in H. now apply (H _ I).
  - apply sh_mmap. intros [a b] I. inall. andsplit. cbn [fst snd]. split; [now apply sh_str|now apply sh_ostr].
  - apply sh_mmap. intros [a b] I. inall. andsplit. cbn [fst snd]. rewrite Forall_forall in H. destruct (H _ I) as [H9 H8]. split; auto.
Qed.

(** ** Equal trees *)
Lemma ostr_inj o o' : dg_opt DStr o = dg_opt DStr o' -> o = o'.
Proof. destruct o, o'; intros E; try discriminate E; [|reflexivity]. injection E as ->. reflexivity. Qed.
Lemma guid_inj g g' : guid_ok g = true -> guid_ok g' = true -> guid_display g = guid_display g' -> g = g'.
Proof.
  unfold guid_ok. intros H H' E. assert (P : Parsed g = Parsed g') by (rewrite <- !display_parse, E by lia; reflexivity). now injection P.
Qed.
Lemma style_inj z z' : in_range 0 4 z = true -> in_range 0 4 z' = true ->
  nth (Z.to_nat z) style_names [] = nth (Z.to_nat z') style_names [] -> z = z'.
Proof.
  intros H H'. destruct (cases5 z H) as [->|[->|[->|[->| ->]]]]; destruct (cases5 z' H') as [->|[->|[->|[->| ->]]]];
    intros E; first [reflexivity|vm_compute in E; discriminate E].
Qed.
Lemma round_inj z z' : in_range 0 6 z = true -> in_range 0 6 z' = true ->
  nth (Z.to_nat z) rounding_names [] = nth (Z.to_nat z') rounding_names [] -> z = z'.
Proof.
  intros H H'. destruct (cases7 z H) as [->|[->|[->|[->|[->|[->| ->]]]]]]; destruct (cases7 z' H') as [->|[->|[->|[->|[->|[->| ->]]]]]];
    intros E; first [reflexivity|vm_compute in E; discriminate E].
Qed.
Lemma trans_inj z z' : in_range 0 1 z = true -> in_range 0 1 z' = true ->
  nth (Z.to_nat z) transform_names [] = nth (Z.to_nat z') transform_names [] -> z = z'.
Proof.
  intros H H'. destruct (cases2 z H) as [->| ->]; destruct (cases2 z' H') as [->| ->];
    intros E; first [reflexivity|vm_compute in E; discriminate E].
Qed.
Lemma bool_inj b b' : debug_bool b = debug_bool b' -> b = b'.
Proof. destruct b, b'; intros E; try reflexivity; discriminate E. Qed.
Lemma numfmt_inj o o' : numfmt_ok o = true -> numfmt_ok o' = true -> dg_numfmt o = dg_numfmt o' -> o = o'.
Proof.
  unfold numfmt_ok. destruct o as [a b c d e f g], o' as [a' b' c' d' e' f' g']; cbn [nf_sign nf_group nf_round nf_mini nf_maxi nf_minf nf_maxf]. intros H H' E.
  andsplit. unfold dg_numfmt in E. cbn [nf_sign nf_group nf_round nf_mini nf_maxi nf_minf nf_maxf] in E. unfold dg_unit, dg_int, dg_bool in E.
  assert (X : forall n l l', DStruct n l = DStruct n l' -> map snd l = map snd l') by (intros ? ? ? Q; injection Q as ->; reflexivity).
  apply X in E. cbn [map snd] in E.
  assert (Y : forall s s' (l l' : list dtree), DWord s :: l = DWord s' :: l' -> s = s' /\ l = l') by (intros ? ? ? ? Q; injection Q; auto).
  repeat (apply Y in E; let F := fresh "F" in destruct E as [F E]).
  apply bool_inj in F, F0. apply round_inj in F1; [|assumption..]. apply signed_inj in F2, F3, F4, F5. congruence.
Qed.
Lemma onumfmt_inj o o' : onumfmt_ok o = true -> onumfmt_ok o' = true -> dg_opt dg_numfmt o = dg_opt dg_numfmt o' -> o = o'.
Proof.
  destruct o as [o|], o' as [o'|]; intros H H' E; try discriminate E; [|reflexivity]. f_equal.
  assert (X : forall n (a b : dtree), DTuple n [a] = DTuple n [b] -> a = b) by (intros ? ? ? Q; injection Q; auto).
  apply X in E. now apply numfmt_inj.
Qed.
Lemma num_inj k z z' : num_ok k z = true -> num_ok k z' = true -> dg_num fl k z = dg_num fl k z' -> quiet_num k z = quiet_num k z'.
Proof.
  intros H H' E. destruct k; cbn [dg_num quiet_num] in *; try (unfold dg_int in E; assert (E' : signed z = signed z') by congruence; now apply signed_inj).
  - apply (FL false F32); unfold is_float; auto; congruence.
  - apply (FL false F64); unfold is_float; auto; congruence.
Qed.
Lemma num_quiet k z : num_ok k z = true -> num_ok k (quiet_num k z) = true /\ quiet_num k (quiet_num k z) = quiet_num k z.
Proof.
  intros H. destruct k; cbn [quiet_num]; auto.
  - destruct (f32_nan z) eqn:E; [split; reflexivity|]. rewrite E. auto.
  - destruct (f64_nan z) eqn:E; [split; reflexivity|]. rewrite E. auto.
Qed.
Lemma num_back k z : num_ok k z = true -> dg_num fl k (quiet_num k z) = dg_num fl k z.
Proof.
  intros H. destruct (num_quiet k z H) as [K Q].
  destruct k; try reflexivity; cbn [dg_num]; f_equal; [apply (FL false F32)|apply (FL false F64)]; unfold is_float; auto.
Qed.
Lemma pnum_inj k z z' : num_ok k z = true -> num_ok k z' = true -> debug_num (fl true) k z = debug_num (fl true) k z' -> quiet_num k z = quiet_num k z'.
Proof.
  intros H H' E. unfold debug_num in E. apply app_inv_tail in E. destruct k; cbn [printed quiet_num] in *; try (now apply signed_inj).
  - apply (FL true F32); unfold is_float; auto.
  - apply (FL true F64); unfold is_float; auto.
Qed.
Lemma pnum_back k z : num_ok k z = true -> debug_num (fl true) k (quiet_num k z) = debug_num (fl true) k z.
Proof.
  intros H. destruct (num_quiet k z H) as [K Q]. unfold debug_num.
  destruct k; try reflexivity; cbn [printed]; f_equal; [apply (FL true F32)|apply (FL true F64)]; unfold is_float; auto.
Qed.
Lemma fields_inj names : forall ks l l', List.length names = List.length ks -> nums_ok ks l = true -> nums_ok ks l' = true ->
  dg_fields fl names ks l = dg_fields fl names ks l' -> quiet_nums ks l = quiet_nums ks l'.
Proof.
  induction names as [|n names IH]; intros [|k ks] [|z l] [|z' l'] L H H'; try discriminate L; try discriminate H; try discriminate H'; intros E; try reflexivity.
  cbn [dg_fields] in E. cbn [nums_ok] in H, H'. andsplit. cbn [quiet_nums].
  assert (X : dg_num fl k z = dg_num fl k z' /\ dg_fields fl names ks l = dg_fields fl names ks l').
  { assert (Y : forall (a b : str * dtree) r r', a :: r = b :: r' -> snd a = snd b /\ r = r') by (intros ? ? ? ? Q; injection Q; intros; subst; auto).
    apply Y in E. exact E. }
  destruct X as [X1 X2]. f_equal; [now apply num_inj|]. apply IH; auto.
Qed.
Lemma fields_back names : forall ks l, nums_ok ks l = true -> dg_fields fl names ks (quiet_nums ks l) = dg_fields fl names ks l.
Proof.
  induction names as [|n names IH]; intros [|k ks] [|z l] H; try discriminate H; cbn [quiet_nums dg_fields]; try reflexivity.
  cbn [nums_ok] in H. andsplit. now rewrite num_back, IH by assumption.
Qed.
Lemma fixed_inj x l x' l' : nums_ok (layout x) l = true -> nums_ok (layout x') l' = true -> dg_fixed fl x l = dg_fixed fl x' l' ->
  x = x' /\ quiet_nums (layout x) l = quiet_nums (layout x') l'.
Proof.
  intros H H' E. unfold dg_fixed in E.
  assert (X : fixed_variant x = fixed_variant x' /\ dg_fields fl (field_names x) (layout x) l = dg_fields fl (field_names x') (layout x') l')
    by (split; congruence). clear E. destruct X as [X Y].
  assert (x = x') by (destruct x, x'; first [reflexivity|discriminate X]). subst x'. split; [reflexivity|].
  eapply fields_inj; eauto. now destruct x.
Qed.
Lemma ticks_inj t t' : u_ok 8 t = true -> u_ok 8 t' = true -> dg_ticks fl t = dg_ticks fl t' -> t = t'.
Proof. intros H H' E. apply fixed_inj in E; [|cbn; unfold num_ok; cbn [num_signed num_width]; now rewrite ?H, ?H'..]. destruct E as [_ E]. cbn in E. congruence. Qed.
Lemma map_rel {A B C} (f : A -> B) (g : A -> C) (l l' : list A) :
  (forall x y, In x l -> In y l' -> f x = f y -> g x = g y) -> map f l = map f l' -> map g l = map g l'.
Proof.
  revert l'. induction l as [|a l IH]; intros [|b l'] H E; try discriminate E; [reflexivity|]. cbn [map] in *. injection E as E1 E2.
  f_equal; [apply H; cbn; auto|]. apply IH; [|exact E2]. intros x y I J. apply H; cbn; auto.
Qed.
Ltac open E := injection E; clear E; intros.
Ltac leafs := repeat match goal with
  | H : signed _ = signed _ |- _ => apply signed_inj in H
  | H : debug_bool _ = debug_bool _ |- _ => apply bool_inj in H
  | H : dg_opt DStr _ = dg_opt DStr _ |- _ => apply ostr_inj in H
  | H : dg_opt dg_numfmt _ = dg_opt dg_numfmt _ |- _ => apply onumfmt_inj in H; [|assumption..]
  | H : guid_display _ = guid_display _ |- _ => apply guid_inj in H; [|assumption..]
  | H : match Z.to_nat ?a with _ => _ end = match Z.to_nat ?b with _ => _ end |- _ =>
    first [assert (a = b) by (apply style_inj; assumption)|assert (a = b) by (apply trans_inj; assumption)]; clear H
  end.
Ltac inb I := match type of I with In ?x ?l => match goal with H : forallb _ l = true |- _ =>
  let K := fresh "K" in pose proof (proj1 (forallb_forall _ _) H x I) as K; cbv beta iota in K end end.
Ltac inF I := match type of I with In ?x ?l => match goal with H : Forall _ l |- _ =>
  let K := fresh "Q" in pose proof (proj1 (Forall_forall _ _) H x I) as K; cbv beta iota in K; cbn [fst snd] in K end end.
Ltac pairs := intros [? ?] [? ?] I J; inb I; inb J; try inF I; cbn [fst snd] in *; andsplit; let E := fresh "E" in intros E; cbn [fst snd] in E; open E; leafs; subst.
Lemma pair_eq {A B} (a a' : A) (b b' : B) : a = a' -> b = b' -> (a, b) = (a', b'). Proof. congruence. Qed.
Lemma text_trees :
  (forall t, forall t', t_text t = true -> t_text t' = true -> dg_text fl t = dg_text fl t' -> quiet_text t = quiet_text t')
  /\ (forall h, forall h', t_hist h = true -> t_hist h' = true -> dg_hist fl h = dg_hist fl h' -> quiet_hist h = quiet_hist h')
  /\ (forall a, forall a', t_arg a = true -> t_arg a' = true -> dg_arg fl a = dg_arg fl a' -> quiet_arg a = quiet_arg a').
Proof.
  apply text_all.
  - intros f h IH [f' h'] T T' E. cbn [t_text] in T, T'. andsplit. cbn [dg_text] in E. open E. leafs. subst. cbn [quiet_text]. f_equal. auto.
  - intros h' T T' E. destruct h'; cbn [dg_hist] in E; try discriminate E. reflexivity.
  - intros s h' T T' E. destruct h'; cbn [dg_hist] in E; try discriminate E. open E. leafs. subst. reflexivity.
  - intros a b c h' T T' E. destruct h'; cbn [dg_hist] in E; try discriminate E. open E. leafs. subst. reflexivity.
  - intros t l IH F h' T T' E. destruct h' as [| | |t' l'| | | | | | | | | |]; cbn [dg_hist] in E; try discriminate E. cbn [t_hist] in T, T'. andsplit. open E.
    cbn [quiet_hist]. f_equal; [apply IH; assumption|]. refine (map_rel (fun e : str * farg => (DStr (fst e), dg_arg fl (snd e))) _ _ _ _ _); [|assumption]. pairs. apply pair_eq; auto.
  - intros t l IH F h' T T' E. destruct h' as [| | | |t' l'| | | | | | | | |]; cbn [dg_hist] in E; try discriminate E. cbn [t_hist] in T, T'. andsplit. open E.
    cbn [quiet_hist]. f_equal; [apply IH; assumption|]. refine (map_rel (dg_arg fl) _ _ _ _ _); [|assumption]. intros x y I J. inb I. inb J. inF I. auto.
  - intros t l IH F h' T T' E. destruct h' as [| | | | |t' l'| | | | | | | |]; cbn [dg_hist] in E; try discriminate E. cbn [t_hist] in T, T'. andsplit. open E.
    cbn [quiet_hist]. f_equal; [apply IH; assumption|]. refine (map_rel (fun e : str * farg => (DStr (fst e), dg_arg fl (snd e))) _ _ _ _ _); [|assumption]. pairs. apply pair_eq; auto.
  - intros v o c IH h' T T' E. destruct h'; cbn [dg_hist] in E; try discriminate E. cbn [t_hist] in T, T'. andsplit. open E. leafs. subst.
    cbn [quiet_hist]. f_equal. auto.
  - intros v o c IH h' T T' E. destruct h'; cbn [dg_hist] in E; try discriminate E. cbn [t_hist] in T, T'. andsplit. open E. leafs. subst.
    cbn [quiet_hist]. f_equal. auto.
  - intros d v o c IH h' T T' E. destruct h'; cbn [dg_hist] in E; try discriminate E. cbn [t_hist] in T, T'. andsplit. open E. leafs. subst.
    cbn [quiet_hist]. f_equal. auto.
  - intros t s c h' T T' E. destruct h'; cbn [dg_hist] in E; try discriminate E. cbn [t_hist] in T, T'. andsplit. open E. leafs. subst. reflexivity.
  - intros t s z c h' T T' E. destruct h'; cbn [dg_hist] in E; try discriminate E. cbn [t_hist] in T, T'. andsplit. open E. leafs. subst. reflexivity.
  - intros t s u z c h' T T' E. destruct h'; cbn [dg_hist] in E; try discriminate E. cbn [t_hist] in T, T'. andsplit. open E. leafs. subst. reflexivity.
  - intros t x IH h' T T' E. destruct h'; cbn [dg_hist] in E; try discriminate E. cbn [t_hist] in T, T'. andsplit. open E. leafs. subst.
    cbn [quiet_hist]. f_equal. auto.
  - intros a b h' T T' E. destruct h'; cbn [dg_hist] in E; try discriminate E. open E. subst. reflexivity.
  - intros z a' T T' E. destruct a'; cbn [dg_arg] in E; try discriminate E. open E. leafs. subst. reflexivity.
  - intros z a' T T' E. destruct a'; cbn [dg_arg] in E; try discriminate E. open E. leafs. subst. reflexivity.
  - intros z a' T T' E. destruct a' as [| |z'| | | |]; cbn [dg_arg] in E; try discriminate E. cbn [quiet_arg]. f_equal.
    apply num_inj; [exact T|exact T'|]. congruence.
  - intros z a' T T' E. destruct a' as [| | |z'| | |]; cbn [dg_arg] in E; try discriminate E. cbn [quiet_arg]. f_equal.
    apply num_inj; [exact T|exact T'|]. congruence.
  - intros t IH a' T T' E. destruct a'; cbn [dg_arg] in E; try discriminate E. cbn [t_arg] in T, T'. open E. cbn [quiet_arg]. f_equal. auto.
  - intros z a' T T' E. destruct a'; cbn [dg_arg] in E; try discriminate E. open E. leafs. subst. reflexivity.
  - intros z a' T T' E. destruct a'; cbn [dg_arg] in E; try discriminate E. open E. leafs. subst. reflexivity.
Qed.
Lemma bytes_inj l l' : map (fun b => dg_int (b2z b)) l = map (fun b => dg_int (b2z b)) l' -> l = l'.
Proof.
  intros E. rewrite <- (map_id l), <- (map_id l'). eapply map_rel; [|exact E]. cbv beta. intros x y _ _ X. open X. leafs. now apply b2z_inj.
Qed.
Lemma bytev_inj v v' : dg_bytev v = dg_bytev v' -> v = v'.
Proof. destruct v, v'; intros E; try discriminate E; cbn [dg_bytev] in E; open E; leafs; [f_equal; now apply b2z_inj|congruence]. Qed.
Lemma same_map {A B} (f : A -> B) l l' : (forall x y, f x = f y -> x = y) -> map f l = map f l' -> l = l'.
Proof. intros H E. rewrite <- (map_id l), <- (map_id l'). eapply map_rel; [|exact E]. auto. Qed.
Lemma strs_inj l l' : map DStr l = map DStr l' -> l = l'. Proof. apply same_map. congruence. Qed.
Lemma ostrs_inj l l' : map (dg_opt DStr) l = map (dg_opt DStr) l' -> l = l'. Proof. apply same_map, ostr_inj. Qed.
Lemma delegates_inj l l' : map dg_delegate l = map dg_delegate l' -> l = l'.
Proof. apply same_map. intros [a b] [a' b'] E. unfold dg_delegate in E. cbn [fst snd] in E. open E. congruence. Qed.
Ltac more := repeat match goal with
  | H : map DStr _ = map DStr _ |- _ => apply strs_inj in H
  | H : map (dg_opt DStr) _ = map (dg_opt DStr) _ |- _ => apply ostrs_inj in H
  | H : map dg_delegate _ = map dg_delegate _ |- _ => apply delegates_inj in H
  | H : map (fun b => dg_int (b2z b)) _ = _ |- _ => apply bytes_inj in H
  | H : dg_bytev _ = dg_bytev _ |- _ => apply bytev_inj in H
  end.
Lemma variant_inj suffix k k' : map_variant k suffix = map_variant k' suffix -> k = k'.
Proof. destruct k, k'; intros E; try reflexivity; discriminate E. Qed.
Lemma prop_trees :
  (forall p, forall q, t_prop sep p = true -> t_prop sep q = true -> dg_prop fl p = dg_prop fl q -> quiet p = quiet q)
  /\ (forall v, forall w, t_sval sep v = true -> t_sval sep w = true -> dg_sval fl v = dg_sval fl w -> quiet_sval v = quiet_sval w)
  /\ (forall a, forall b, t_array sep a = true -> t_array sep b = true -> dg_array fl a = dg_array fl b -> quiet_array a = quiet_array b)
  /\ (forall m, forall n, t_map sep m = true -> t_map sep n = true -> dg_map fl m = dg_map fl n -> quiet_map m = quiet_map n).
Proof.
  apply prop_all.
  - intros k z q T T' E. destruct q as [k' z'| | | | | | | | |i' ?| | | | | | |]; cbn [dg_prop] in E;
      try (destruct k; discriminate E); try (destruct k, i'; discriminate E). cbn [t_prop] in T, T'.
    assert (k = k') by (destruct k, k'; first [reflexivity|discriminate E]). subst k'. cbn [quiet]. f_equal. apply pnum_inj; auto. congruence.
  - intros b q T T' E. destruct q as [k' z'| | | | | | | | |i' ?| | | | | | |]; try discriminate E; try (destruct k'; discriminate E); try (destruct i'; discriminate E).
    cbn [dg_prop] in E. open E. leafs. subst. reflexivity.
  - intros n v q T T' E. destruct q as [k' z'| | | | | | | | |i' ?| | | | | | |]; try discriminate E; try (destruct k'; discriminate E); try (destruct i'; discriminate E).
    cbn [dg_prop] in E. open E. leafs. more. subst. reflexivity.
  - intros t v q T T' E. destruct q as [k' z'| | | | | | | | |i' ?| | | | | | |]; try discriminate E; try (destruct k'; discriminate E); try (destruct i'; discriminate E).
    cbn [dg_prop] in E. open E. leafs. more. subst. reflexivity.
  - intros v q T T' E. destruct q as [k' z'| | | | | | | | |i' ?| | | | | | |]; try discriminate E; try (destruct k'; discriminate E); try (destruct i'; discriminate E).
    cbn [dg_prop] in E. open E. leafs. more. subst. reflexivity.
  - intros t q T T' E. destruct q as [k' z'| | | | |t'| | | |i' ?| | | | | | |]; try discriminate E; try (destruct k'; discriminate E); try (destruct i'; discriminate E).
    cbn [dg_prop] in E. open E. cbn [quiet]. f_equal. now apply text_trees.
  - intros i v q T T' E. destruct q as [k' z'| | | | | | | | |i' ?| | | | | | |]; try discriminate E; try (destruct k'; discriminate E); try (destruct i'; discriminate E).
    cbn [dg_prop] in E. open E. leafs. more. subst. reflexivity.
  - intros v q T T' E. destruct q as [k' z'| | | | | | | | |i' ?| | | | | | |]; try discriminate E; try (destruct k'; discriminate E); try (destruct i'; discriminate E).
    cbn [dg_prop] in E. open E. leafs. more. subst. reflexivity.
  - intros a b q T T' E. destruct q as [k' z'| | | | | | | | |i' ?| | | | | | |]; try discriminate E; try (destruct k'; discriminate E); try (destruct i'; discriminate E).
    cbn [dg_prop] in E. open E. leafs. more. subst. reflexivity.
  - intros i l q T T' E. destruct q as [k' z'| | | | | | | | |i' l'| | | | | | |]; try (destruct i; discriminate E); try (destruct i, k'; discriminate E).
    assert (i = i') by (destruct i, i'; first [reflexivity|discriminate E]). subst i'. destruct i; cbn [dg_prop] in E; open E; more; subst; reflexivity.
  - intros l s q T T' E. destruct q as [k' z'| | | | | | | | |i' ?| | | | | | |]; try discriminate E; try (destruct k'; discriminate E); try (destruct i'; discriminate E).
    cbn [dg_prop] in E. open E. leafs. more. subst. reflexivity.
  - intros n r q T T' E. destruct q as [k' z'| | | | | | | | |i' ?| | | | | | |]; try discriminate E; try (destruct k'; discriminate E); try (destruct i'; discriminate E).
    cbn [dg_prop] in E. open E. leafs. more. subst. reflexivity.
  - intros a IH q T T' E. destruct q as [k' z'| | | | | | | | |i' ?| | |b| | | |]; try discriminate E; try (destruct k'; discriminate E); try (destruct i'; discriminate E).
    cbn [dg_prop] in E. open E. cbn [quiet]. f_equal. now apply IH.
  - intros t f l IH q T T' E. destruct q as [k' z'| | | | | | | | |i' ?| | | |t' f' l'| | |]; try discriminate E; try (destruct k'; discriminate E); try (destruct i'; discriminate E).
    cbn [dg_prop] in E. open E. leafs. subst. cbn [quiet]. f_equal. cbn [t_prop] in T, T'. andsplit.
    refine (map_rel (dg_prop fl) _ _ _ _ _); [|assumption]. intros x y I J. inb I. inb J. inF I. auto.
  - intros m IH q T T' E. destruct q as [k' z'| | | | | | | | |i' ?| | | | |n| |]; try discriminate E; try (destruct k'; discriminate E); try (destruct i'; discriminate E).
    cbn [dg_prop] in E. open E. cbn [quiet]. f_equal. now apply IH.
  - intros g t v IH q T T' E. destruct q as [k' z'| | | | | | | | |i' ?| | | | | |g' t' w|]; try discriminate E; try (destruct k'; discriminate E); try (destruct i'; discriminate E).
    cbn [dg_prop] in E. cbn [t_prop] in T, T'. andsplit. open E. leafs. subst. cbn [quiet]. f_equal. now apply IH.
  - intros v IH q T T' E. destruct q as [k' z'| | | | | | | | |i' ?| | | | | | |w]; try discriminate E; try (destruct k'; discriminate E); try (destruct i'; discriminate E).
    cbn [dg_prop] in E. open E. cbn [quiet]. f_equal. now apply IH.
  - intros x l w T T' E. destruct w as [x' l'| | |]; cbn [dg_sval] in E; try (destruct x; discriminate E). cbn [t_sval] in T, T'.
    assert (X : dg_fixed fl x l = dg_fixed fl x' l') by congruence. apply fixed_inj in X; [|assumption..]. destruct X as [-> X]. cbn [quiet_sval]. now rewrite X.
  - intros g w T T' E. destruct w as [x'| | |]; cbn [dg_sval] in E; try discriminate E; try (destruct x'; discriminate E). cbn [t_sval] in T, T'. open E. leafs. subst. reflexivity.
  - intros l w T T' E. destruct w as [x'| | |]; cbn [dg_sval] in E; try discriminate E; try (destruct x'; discriminate E). open E. more. subst. reflexivity.
  - intros l IH w T T' E. destruct w as [x'| | |l']; cbn [dg_sval] in E; try discriminate E; try (destruct x'; discriminate E). cbn [t_sval] in T, T'. andsplit. open E.
    cbn [quiet_sval]. f_equal. refine (map_rel (fun e : str * list property => (DStr (fst e), DList (map (dg_prop fl) (snd e)))) _ _ _ _ _); [|assumption]. pairs. apply pair_eq; [reflexivity|].
    refine (map_rel (dg_prop fl) _ _ _ _ _); [|assumption]. intros x y I' J'. inb I'. inb J'. inF I'. auto.
  - intros l b T T' E. destruct b; cbn [dg_array] in E; try discriminate E. open E. cbn [quiet_array]. f_equal.
    eapply same_map; [|eassumption]. intros x y X. open X. now apply bool_inj.
  - intros l b T T' E. destruct b; cbn [dg_array] in E; try discriminate E. open E. more. subst. reflexivity.
  - intros l b T T' E. destruct b; cbn [dg_array] in E; try discriminate E. open E. more. subst. reflexivity.
  - intros l b T T' E. destruct b; cbn [dg_array] in E; try discriminate E. cbn [t_array] in T, T'. open E. cbn [quiet_array]. f_equal.
    refine (map_rel (dg_num fl F32) _ _ _ _ _); [|assumption]. intros x y I J. inb I. inb J. now apply (num_inj F32).
  - intros l b T T' E. destruct b; cbn [dg_array] in E; try discriminate E. open E. cbn [quiet_array]. f_equal.
    eapply same_map; [|eassumption]. intros x y X. open X. now apply signed_inj.
  - intros l b T T' E. destruct b; cbn [dg_array] in E; try discriminate E. open E. more. subst. reflexivity.
  - intros l b T T' E. destruct b; cbn [dg_array] in E; try discriminate E. open E. more. subst. reflexivity.
  - intros f t g l IH b T T' E. destruct b; cbn [dg_array] in E; try discriminate E. cbn [t_array] in T, T'. andsplit. open E. leafs. subst. cbn [quiet_array]. f_equal.
    refine (map_rel (dg_sval fl) _ _ _ _ _); [|assumption]. intros x y I J. inb I. inb J. inF I. auto.
  - intros t l IH b T T' E. destruct b; cbn [dg_array] in E; try discriminate E. cbn [t_array] in T, T'. andsplit. open E. leafs. subst. cbn [quiet_array]. f_equal.
    refine (map_rel (dg_prop fl) _ _ _ _ _); [|assumption]. intros x y I J. inb I. inb J. inF I. auto.
  - intros k l n T T' E. destruct n as [k' l'|k' l'|k' vt' l'|l'|kt' vt' f' l']; cbn [dg_map] in E; try (destruct k; discriminate E); try (destruct k, k'; discriminate E).
    assert (k = k') by (destruct k, k'; first [reflexivity|discriminate E]). subst k'. cbn [t_map] in T, T'. andsplit. cbn [quiet_map]. f_equal.
    assert (X : map (fun e => (DStr (fst e), dg_bool (snd e))) l = map (fun e => (DStr (fst e), dg_bool (snd e))) l') by (destruct k; open E; assumption).
    eapply same_map; [|exact X]. intros [a b] [a' b'] Y. cbn [fst snd] in Y. open Y. leafs. now subst.
  - intros k l n T T' E. destruct n as [k' l'|k' l'|k' vt' l'|l'|kt' vt' f' l']; cbn [dg_map] in E; try (destruct k; discriminate E); try (destruct k, k'; discriminate E).
    assert (k = k') by (destruct k, k'; first [reflexivity|discriminate E]). subst k'. cbn [t_map] in T, T'. andsplit. cbn [quiet_map]. f_equal.
    assert (X : map (fun e => (DStr (fst e), dg_int (snd e))) l = map (fun e => (DStr (fst e), dg_int (snd e))) l') by (destruct k; open E; assumption).
    eapply same_map; [|exact X]. intros [a b] [a' b'] Y. cbn [fst snd] in Y. open Y. leafs. now subst.
  - intros k vt l IH n T T' E. destruct n as [k' l'|k' l'|k' vt' l'|l'|kt' vt' f' l']; cbn [dg_map] in E; try (destruct k; discriminate E); try (destruct k, k'; discriminate E).
    assert (k = k') by (destruct k, k'; first [reflexivity|discriminate E]). subst k'. cbn [t_map] in T, T'. andsplit. cbn [quiet_map].
    assert (X : vt = vt' /\ map (fun e => (DStr (fst e), dg_prop fl (snd e))) l = map (fun e => (DStr (fst e), dg_prop fl (snd e))) l') by (destruct k; open E; split; assumption).
    destruct X as [-> X]. f_equal. eapply map_rel; [|exact X]. pairs. apply pair_eq; auto.
  - intros l n T T' E. destruct n as [k' l'|k' l'|k' vt' l'|l'|kt' vt' f' l']; cbn [dg_map] in E; try discriminate E; try (destruct k'; discriminate E). open E. cbn [quiet_map]. f_equal.
    eapply same_map; [|eassumption]. intros [a b] [a' b'] Y. cbn [fst snd] in Y. open Y. leafs. now subst.
  - intros kt vt f l IH n T T' E. destruct n as [k' l'|k' l'|k' vt' l'|l'|kt' vt' f' l']; cbn [dg_map] in E; try discriminate E; try (destruct k'; discriminate E).
    cbn [t_map] in T, T'. andsplit. open E. leafs. subst. cbn [quiet_map]. f_equal.
    refine (map_rel (fun e : property * property => (dg_prop fl (fst e), dg_prop fl (snd e))) _ _ _ _ _); [|assumption]. intros [a b] [a' b'] I J. inb I. inb J. inF I. cbn [fst snd] in *. andsplit. intros X. cbn [fst snd] in X. open X.
    match goal with Q : _ /\ _ |- _ => destruct Q as [Q1 Q2] end. apply pair_eq; auto.
Qed.

(** ** The bits of NaNs do not show *)
Lemma map_back {A B} (f : A -> B) (g : A -> A) l : (forall x, In x l -> f (g x) = f x) -> map f (map g l) = map f l.
Proof. intros H. rewrite map_map. now apply map_ext_in. Qed.
Lemma text_back :
  (forall t, t_text t = true -> dg_text fl (quiet_text t) = dg_text fl t)
  /\ (forall h, t_hist h = true -> dg_hist fl (quiet_hist h) = dg_hist fl h)
  /\ (forall a, t_arg a = true -> dg_arg fl (quiet_arg a) = dg_arg fl a).
Proof.
  assert (N : forall (l : list (str * farg)), Forall (fun e => t_arg (snd e) = true -> dg_arg fl (quiet_arg (snd e)) = dg_arg fl (snd e)) l ->
    forallb (fun '(k, v) => is_str k && t_arg v) l = true ->
    map (fun e => (DStr (fst e), dg_arg fl (snd e))) (map (fun e => (fst e, quiet_arg (snd e))) l) = map (fun e => (DStr (fst e), dg_arg fl (snd e))) l).
  { intros l F H. apply (map_back (fun e => (DStr (fst e), dg_arg fl (snd e)))). intros [k v] I. inb I. inF I. andsplit. cbn [fst snd]. f_equal. auto. }
  assert (M : forall (l : list farg), Forall (fun e => t_arg e = true -> dg_arg fl (quiet_arg e) = dg_arg fl e) l -> forallb t_arg l = true ->
    map (dg_arg fl) (map quiet_arg l) = map (dg_arg fl) l).
  { intros l F H. apply map_back. intros v I. inb I. inF I. auto. }
  apply text_all; intros; try reflexivity; cbn [t_text t_hist t_arg] in *; andsplit.
  - change (DStruct (s2z "FText") [(s2z "flags", dg_int f); (s2z "history", dg_hist fl (quiet_hist h))] = DStruct (s2z "FText") [(s2z "flags", dg_int f); (s2z "history", dg_hist fl h)]).
    now rewrite H.
  - specialize (N l ltac:(assumption) ltac:(assumption)).
    change (DStruct (s2z "NamedFormat") [(s2z "source_format", dg_text fl (quiet_text t)); (s2z "arguments", dg_hashable (map (fun e => (DStr (fst e), dg_arg fl (snd e))) (map (fun e => (fst e, quiet_arg (snd e))) l)))]
      = DStruct (s2z "NamedFormat") [(s2z "source_format", dg_text fl t); (s2z "arguments", dg_hashable (map (fun e => (DStr (fst e), dg_arg fl (snd e))) l))]).
    now rewrite N, H.
  - specialize (M l ltac:(assumption) ltac:(assumption)).
    change (DStruct (s2z "OrderedFormat") [(s2z "source_format", dg_text fl (quiet_text t)); (s2z "arguments", DList (map (dg_arg fl) (map quiet_arg l)))]
      = DStruct (s2z "OrderedFormat") [(s2z "source_format", dg_text fl t); (s2z "arguments", DList (map (dg_arg fl) l))]).
    now rewrite M, H.
  - specialize (N l ltac:(assumption) ltac:(assumption)).
    change (DStruct (s2z "ArgumentFormat") [(s2z "source_format", dg_text fl (quiet_text t)); (s2z "arguments", dg_hashable (map (fun e => (DStr (fst e), dg_arg fl (snd e))) (map (fun e => (fst e, quiet_arg (snd e))) l)))]
      = DStruct (s2z "ArgumentFormat") [(s2z "source_format", dg_text fl t); (s2z "arguments", dg_hashable (map (fun e => (DStr (fst e), dg_arg fl (snd e))) l))]).
    now rewrite N, H.
  - change (dg_hist fl (HNumber (quiet_arg v) o c) = dg_hist fl (HNumber v o c)).
    change (DStruct (s2z "AsNumber") [(s2z "source_value", dg_arg fl (quiet_arg v)); (s2z "format_options", dg_opt dg_numfmt o); (s2z "target_culture", dg_opt DStr c)]
      = DStruct (s2z "AsNumber") [(s2z "source_value", dg_arg fl v); (s2z "format_options", dg_opt dg_numfmt o); (s2z "target_culture", dg_opt DStr c)]). now rewrite H.
  - change (DStruct (s2z "AsPercent") [(s2z "source_value", dg_arg fl (quiet_arg v)); (s2z "format_options", dg_opt dg_numfmt o); (s2z "target_culture", dg_opt DStr c)]
      = DStruct (s2z "AsPercent") [(s2z "source_value", dg_arg fl v); (s2z "format_options", dg_opt dg_numfmt o); (s2z "target_culture", dg_opt DStr c)]). now rewrite H.
  - change (DStruct (s2z "AsCurrency") [(s2z "currency_code", dg_opt DStr d); (s2z "source_value", dg_arg fl (quiet_arg v)); (s2z "format_options", dg_opt dg_numfmt o); (s2z "target_culture", dg_opt DStr c)]
      = DStruct (s2z "AsCurrency") [(s2z "currency_code", dg_opt DStr d); (s2z "source_value", dg_arg fl v); (s2z "format_options", dg_opt dg_numfmt o); (s2z "target_culture", dg_opt DStr c)]). now rewrite H.
  - change (DStruct (s2z "Transform") [(s2z "source_text", dg_text fl (quiet_text t)); (s2z "transform_type", dg_unit transform_names x)]
      = DStruct (s2z "Transform") [(s2z "source_text", dg_text fl t); (s2z "transform_type", dg_unit transform_names x)]). now rewrite H.
  - change (DTuple (s2z "Float") [dg_num fl F32 (quiet_num F32 z)] = DTuple (s2z "Float") [dg_num fl F32 z]). now rewrite num_back.
  - change (DTuple (s2z "Double") [dg_num fl F64 (quiet_num F64 z)] = DTuple (s2z "Double") [dg_num fl F64 z]). now rewrite num_back.
  - change (DTuple (s2z "Text") [dg_text fl (quiet_text t)] = DTuple (s2z "Text") [dg_text fl t]). now rewrite H.
Qed.
Lemma values_back :
  (forall p, t_prop sep p = true -> dg_prop fl (quiet p) = dg_prop fl p) /\ (forall v, t_sval sep v = true -> dg_sval fl (quiet_sval v) = dg_sval fl v)
  /\ (forall a, t_array sep a = true -> dg_array fl (quiet_array a) = dg_array fl a) /\ (forall m, t_map sep m = true -> dg_map fl (quiet_map m) = dg_map fl m).
Proof.
  assert (L : forall l, Forall (fun p => t_prop sep p = true -> dg_prop fl (quiet p) = dg_prop fl p) l -> forallb (t_prop sep) l = true ->
    map (dg_prop fl) (map quiet l) = map (dg_prop fl) l).
  { intros l F H. apply map_back. intros v I. inb I. inF I. auto. }
  apply prop_all; intros; try reflexivity; cbn [t_prop t_sval t_array t_map] in *; andsplit.
  - change (DTuple (num_name k) [DWord (debug_num (fl true) k (quiet_num k z))] = DTuple (num_name k) [DWord (debug_num (fl true) k z)]). now rewrite pnum_back.
  - change (dg_wrap "TextProperty" [(s2z "value", dg_text fl (quiet_text t))] = dg_wrap "TextProperty" [(s2z "value", dg_text fl t)]). now rewrite (proj1 text_back).
  - change (DTuple (s2z "ArrayProperty") [dg_array fl (quiet_array a)] = DTuple (s2z "ArrayProperty") [dg_array fl a]). now rewrite H.
  - change (dg_wrap "SetProperty" [(s2z "property_type", DStr t); (s2z "allocation_flags", dg_int f); (s2z "properties", DList (map (dg_prop fl) (map quiet l)))]
      = dg_wrap "SetProperty" [(s2z "property_type", DStr t); (s2z "allocation_flags", dg_int f); (s2z "properties", DList (map (dg_prop fl) l))]). now rewrite L.
  - change (DTuple (s2z "MapProperty") [dg_map fl (quiet_map m)] = DTuple (s2z "MapProperty") [dg_map fl m]). now rewrite H.
  - change (dg_wrap "StructProperty" [(s2z "guid", dg_guid g); (s2z "type_name", DStr t); (s2z "value", dg_sval fl (quiet_sval v))]
      = dg_wrap "StructProperty" [(s2z "guid", dg_guid g); (s2z "type_name", DStr t); (s2z "value", dg_sval fl v)]). now rewrite H.
  - change (DTuple (s2z "StructPropertyValue") [dg_sval fl (quiet_sval v)] = DTuple (s2z "StructPropertyValue") [dg_sval fl v]). now rewrite H.
  - change (DTuple (fixed_variant x) [DStruct (fixed_variant x) (dg_fields fl (field_names x) (layout x) (quiet_nums (layout x) l))]
      = DTuple (fixed_variant x) [DStruct (fixed_variant x) (dg_fields fl (field_names x) (layout x) l)]). now rewrite fields_back.
  - change (DTuple (s2z "CustomStruct") [dg_hashable (map (fun e => (DStr (fst e), DList (map (dg_prop fl) (snd e)))) (map (fun e => (fst e, map quiet (snd e))) l))]
      = DTuple (s2z "CustomStruct") [dg_hashable (map (fun e => (DStr (fst e), DList (map (dg_prop fl) (snd e)))) l)]).
    do 3 f_equal. apply (map_back (fun e => (DStr (fst e), DList (map (dg_prop fl) (snd e))))). intros [k ps] I. inb I. inF I. andsplit. cbn [fst snd]. now rewrite L.
  - change (DStruct (s2z "Floats") [(s2z "floats", DList (map (dg_num fl F32) (map (quiet_num F32) l)))] = DStruct (s2z "Floats") [(s2z "floats", DList (map (dg_num fl F32) l))]).
    rewrite (map_back (dg_num fl F32)); [reflexivity|]. intros x I. inb I. now apply num_back.
  - change (DStruct (s2z "Structs") [(s2z "field_name", DStr f); (s2z "type_name", DStr t); (s2z "guid", dg_guid g); (s2z "structs", DList (map (dg_sval fl) (map quiet_sval l)))]
      = DStruct (s2z "Structs") [(s2z "field_name", DStr f); (s2z "type_name", DStr t); (s2z "guid", dg_guid g); (s2z "structs", DList (map (dg_sval fl) l))]).
    rewrite (map_back (dg_sval fl)); [reflexivity|]. intros x I. inb I. inF I. auto.
  - change (DStruct (s2z "Properties") [(s2z "property_type", DStr t); (s2z "properties", DList (map (dg_prop fl) (map quiet l)))]
      = DStruct (s2z "Properties") [(s2z "property_type", DStr t); (s2z "properties", DList (map (dg_prop fl) l))]). now rewrite L.
  - change (DStruct (map_variant k "Property") [(s2z "value_type", DStr vt); (map_field k "_props", dg_hashable (map (fun e => (DStr (fst e), dg_prop fl (snd e))) (map (fun e => (fst e, quiet (snd e))) l)))]
      = DStruct (map_variant k "Property") [(s2z "value_type", DStr vt); (map_field k "_props", dg_hashable (map (fun e => (DStr (fst e), dg_prop fl (snd e))) l))]).
    rewrite (map_back (fun e => (DStr (fst e), dg_prop fl (snd e)))); [reflexivity|]. intros [a b] I. inb I. inF I. andsplit. cbn [fst snd]. f_equal. auto.
  - change (DStruct (s2z "Properties") [(s2z "key_type", DStr kt); (s2z "value_type", DStr vt); (s2z "allocation_flags", dg_int f);
        (s2z "value", dg_hashable (map (fun e => (dg_prop fl (fst e), dg_prop fl (snd e))) (map (fun e => (quiet (fst e), quiet (snd e))) l)))]
      = DStruct (s2z "Properties") [(s2z "key_type", DStr kt); (s2z "value_type", DStr vt); (s2z "allocation_flags", dg_int f);
        (s2z "value", dg_hashable (map (fun e => (dg_prop fl (fst e), dg_prop fl (snd e))) l))]).
    rewrite (map_back (fun e => (dg_prop fl (fst e), dg_prop fl (snd e)))); [reflexivity|]. intros [a b] I. inb I. inF I. andsplit. cbn [fst snd].
    match goal with Q : _ /\ _ |- _ => destruct Q as [Q1 Q2] end. f_equal; auto.
Qed.

(** ** Properties and files *)
Theorem prop_texts plain i p q : t_prop sep p = true -> t_prop sep q = true ->
  (show plain i (dg_prop fl p) = show plain i (dg_prop fl q) <-> quiet p = quiet q).
Proof.
  intros T T'. split; intros E.
  - apply show_inj in E; [|now apply (proj1 shaped_all_values)..]. now apply (proj1 prop_trees).
  - f_equal. rewrite <- (proj1 values_back p T), <- (proj1 values_back q T'). now rewrite E.
Qed.
Lemma sh_header h : t_header h = true -> shaped (dg_header h).
Proof.
  unfold t_header, dg_header. intros H. andsplit. apply sh_struct; [destruct (h_ue5 h); wd|discriminate|].
  apply Forall_cons; cbn [fst snd]; [split; [wd|apply sh_int]|]. apply Forall_app. split.
  - destruct (h_ue5 h); [|apply Forall_nil]. apply Forall_cons; [|apply Forall_nil]. cbn [fst snd]. split; [wd|apply sh_int].
  - fields; auto using sh_int, sh_str.
    + apply sh_struct; [wd|discriminate|fields]; auto using sh_int, sh_str.
    + apply sh_hmap. intros [g v] I. inb I. andsplit. cbn [fst snd]. split; [now apply sh_guid|apply sh_int].
Qed.
Lemma sh_file g : t_file sep g = true -> shaped (dg_file fl g).
Proof.
  unfold t_file, dg_file. intros H. andsplit. apply sh_struct; [wd|discriminate|fields].
  - destruct (g_version g) as [|[]]; [wd|..]; (apply sh_tuple; [wd|discriminate|wd]).
  - now apply sh_header.
  - apply sh_hmap. intros [k p] I. inb I. andsplit. cbn [fst snd]. split; [now apply sh_str|]. now apply (proj1 shaped_all_values).
Qed.
Lemma header_inj h h' : t_header h = true -> t_header h' = true -> dg_header h = dg_header h' -> h = h'.
Proof.
  destruct h as [pk ue [ma mi pa ch br] fm vs cl], h' as [pk' ue' [ma' mi' pa' ch' br'] fm' vs' cl']. unfold t_header, dg_header.
  cbn [h_package h_ue5 h_engine h_format h_versions h_class fe_major fe_minor fe_patch fe_change fe_branch]. unfold dg_engine.
  cbn [fe_major fe_minor fe_patch fe_change fe_branch]. intros T T' E. andsplit.
  assert (V : forall l l', forallb (fun '(g, v) => guid_ok g && u_ok 4 v) l = true -> forallb (fun '(g, v) => guid_ok g && u_ok 4 v) l' = true ->
    map (fun e => (dg_guid (fst e), dg_int (snd e))) l = map (fun e => (dg_guid (fst e), dg_int (snd e))) l' -> l = l').
  { intros l l' F F' X. rewrite <- (map_id l), <- (map_id l'). refine (map_rel _ _ _ _ _ X). intros [g v] [g' v'] I J Y. inb I. inb J. andsplit.
    cbn [fst snd] in Y. open Y. leafs. congruence. }
  destruct ue, ue'; cbn [app] in E; try discriminate E; open E; leafs; subst;
    (assert (vs = vs') by (apply V; assumption)); subst; reflexivity.
Qed.
Theorem file_texts plain i f g : t_file sep f = true -> t_file sep g = true ->
  (show plain i (dg_file fl f) = show plain i (dg_file fl g) <-> quiet_file f = quiet_file g).
Proof.
  intros T T'. split; intros E.
  - apply show_inj in E; [|now apply sh_file..]. unfold t_file in T, T'. andsplit. unfold dg_file in E.
    assert (X : dg_version (g_version f) = dg_version (g_version g) /\ dg_header (g_header f) = dg_header (g_header g)
      /\ map (fun e => (DStr (fst e), dg_prop fl (snd e))) (g_props f) = map (fun e => (DStr (fst e), dg_prop fl (snd e))) (g_props g)).
    { assert (Y : forall n a b c d a' b' c', DStruct n [a; b; (c, dg_hashable d)] = DStruct n [a'; b'; (c, dg_hashable c')] -> snd a = snd a' /\ snd b = snd b' /\ d = c').
      { intros n a b c d a' b' c' Q. injection Q. intros; subst; auto. }
      exact (Y _ _ _ _ _ _ _ _ E). }
    destruct X as (X1 & X2 & X3). unfold quiet_file. f_equal.
    + destruct (g_version f) as [|c], (g_version g) as [|c']; try discriminate X1; [reflexivity|]. destruct c, c'; try discriminate X1; reflexivity.
    + now apply header_inj.
    + refine (map_rel _ _ _ _ _ X3). intros [a b] [a' b'] I J Y. inb I. inb J. andsplit. cbn [fst snd] in *. apply pair_eq; [congruence|].
      apply (proj1 prop_trees); auto. congruence.
  - f_equal. unfold t_file in T, T'. andsplit.
    assert (B : forall h, forallb (fun '(k, p) => is_str k && t_prop sep p) (g_props h) = true -> dg_file fl (quiet_file h) = dg_file fl h).
    { intros h F. unfold dg_file, quiet_file. cbn [g_version g_header g_props]. do 6 f_equal.
      rewrite (map_back (fun e => (DStr (fst e), dg_prop fl (snd e)))); [reflexivity|]. intros [a b] I. inb I. andsplit. cbn [fst snd]. f_equal. now apply (proj1 values_back). }
    rewrite <- (B f), <- (B g) by assumption. now rewrite E.
Qed.
End Sep.
End Float.
