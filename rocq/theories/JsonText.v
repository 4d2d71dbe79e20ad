(** Reading the JSON form of a typed value back: the value itself if all its numbers are
    finite, an error otherwise. *)
From Coq Require Import ZArith List Bool String Lia ZifyBool ZifyNat.
From Verif Require Import Base Str Types Versions Text Props File Spec BaseFacts Decode Induct
  DecodeProp EqFacts Guid GuidThm Json JsonSpec JsonFloat.
Import ListNotations.
Open Scope Z_scope.

(** ** Looking fields up *)
Lemma need_hit {A} (f : json -> jres A) k v r : need f k ((k, v) :: r) = f v.
Proof. unfold need. cbn [get]. now rewrite str_eqb_refl. Qed.
Lemma need_miss {A} (f : json -> jres A) k k' v r : str_eqb k k' = false ->
  need f k ((k', v) :: r) = need f k r.
Proof. intros E. unfold need. cbn [get]. now rewrite E. Qed.
Lemma need_nil {A} (f : json -> jres A) k : need f k [] = JErr.
Proof. reflexivity. Qed.
Lemma dflt_hit {A} (f : json -> jres A) d k v r : dflt f d k ((k, v) :: r) = f v.
Proof. unfold dflt. cbn [get]. now rewrite str_eqb_refl. Qed.
Lemma dflt_miss {A} (f : json -> jres A) d k k' v r : str_eqb k k' = false ->
  dflt f d k ((k', v) :: r) = dflt f d k r.
Proof. intros E. unfold dflt. cbn [get]. now rewrite E. Qed.
Lemma dflt_nil {A} (f : json -> jres A) d k : dflt f d k [] = JOk d.
Proof. reflexivity. Qed.
Lemma d_once_t {A} names o (r : jres A) : unrepeated names o = true -> d_once names o r = r.
Proof. unfold d_once. now intros ->. Qed.
Lemma d_struct_obj {A} names (f : list (str * json) -> jres A) o :
  d_struct names f (JObj o) = d_once names o (f o).
Proof. reflexivity. Qed.
Ltac all_keys o := lazymatch o with [] => idtac | (_, _) :: ?r => all_keys r end.
Ltac no_repeat :=
  match goal with |- context [d_once ?n ?o ?r] => all_keys o; rewrite (d_once_t n o r) by (vm_compute; exact eq_refl) end.
Ltac look := unfold opt;
  repeat first [no_repeat | rewrite need_hit | rewrite need_nil | rewrite dflt_hit | rewrite dflt_nil
               |rewrite need_miss by (vm_compute; exact eq_refl) | rewrite dflt_miss by (vm_compute; exact eq_refl)];
  cbn [jbind].

(** ** Scalars *)
Lemma d_int_ok lo hi z : inr lo hi z = true -> d_int lo hi (JInt z) = JOk z.
Proof. intros H. cbn [d_int]. now rewrite H. Qed.
Lemma u32_j z : u_ok 4 z = true -> d_u32 (JInt z) = JOk z.
Proof. intros H. apply d_int_ok. exact H. Qed.
Lemma u64_j z : u_ok 8 z = true -> d_u64 (JInt z) = JOk z.
Proof. intros H. apply d_int_ok. exact H. Qed.
Lemma u16_j z : u_ok 2 z = true -> d_u16 (JInt z) = JOk z.
Proof. intros H. apply d_int_ok. exact H. Qed.
Lemma i32_j z : s_ok 4 z = true -> d_i32 (JInt z) = JOk z.
Proof. intros H. apply d_int_ok. exact H. Qed.
Lemma i64_j z : s_ok 8 z = true -> d_i64 (JInt z) = JOk z.
Proof. intros H. apply d_int_ok. exact H. Qed.
Lemma num_j k z : num_ok k z = true -> d_num k (e_num k z) = if finite_num k z then JOk z else JErr.
Proof.
  destruct k; cbn [d_num e_num finite_num]; intros H; try (apply d_int_ok; exact H).
  - now apply f32_back. - now apply f64_back.
Qed.
Lemma d_option_str o : d_option d_str (e_ostr o) = JOk o.
Proof. now destruct o. Qed.
Lemma u8_j b : d_u8byte (JInt (b2z b)) = JOk b.
Proof. destruct b; reflexivity. Qed.
Lemma guid_j g : guid_ok g = true -> d_guid (e_guid g) = JOk g.
Proof.
  intros H. cbn [d_guid e_guid]. unfold d_guidstr. rewrite display_parse; [reflexivity|].
  unfold guid_ok in H. lia.
Qed.
Lemma guid_zero g : guid_ok g = true -> guid_is_zero g = true -> g = no_guid.
Proof. unfold guid_ok. intros H Z. apply zero_iff in Z; auto. lia. Qed.
Lemma hex_j l : hex_bytes (e_hex l) = JOk l.
Proof.
  induction l as [|b l IH]; [reflexivity|]. cbn [e_hex flat_map app].
  fold (e_hex l). cbn [hex_bytes]. rewrite IH. destruct b; reflexivity.
Qed.
Lemma in_range_lt a b z : in_range a b z = true -> a <= z <= b.
Proof. unfold in_range. lia. Qed.
Lemma style_j z : in_range 0 4 z = true -> d_style (e_style z) = JOk z.
Proof.
  intros H%in_range_lt. assert (z = 0 \/ z = 1 \/ z = 2 \/ z = 3 \/ z = 4) as [->|[->|[->|[->| ->]]]] by lia; reflexivity.
Qed.
Lemma transform_j z : in_range 0 1 z = true ->
  d_tag transform_names (e_name transform_names z) = JOk z.
Proof. intros H%in_range_lt. assert (z = 0 \/ z = 1) as [-> | ->] by lia; reflexivity. Qed.
Lemma rounding_j z : in_range 0 6 z = true ->
  d_tag rounding_names (e_name rounding_names z) = JOk z.
Proof.
  intros H%in_range_lt.
  assert (z = 0 \/ z = 1 \/ z = 2 \/ z = 3 \/ z = 4 \/ z = 5 \/ z = 6)
    as [->|[->|[->|[->|[->|[->| ->]]]]]] by lia; reflexivity.
Qed.
Lemma numfmt_j f : numfmt_ok f = true -> d_numfmt (e_numfmt f) = JOk f.
Proof.
  unfold numfmt_ok. intros H. andbs. unfold d_numfmt, e_numfmt. look.
  rewrite !i32_j by auto. cbn [jbind]. rewrite rounding_j by auto. cbn [jbind]. now destruct f.
Qed.
Lemma ticks_j t : u_ok 8 t = true -> d_ticks (e_ticks t) = JOk t.
Proof. intros H. unfold d_ticks, e_ticks. rewrite d_struct_obj. look. now rewrite u64_j. Qed.

(** ** Lists and maps *)
Section Collections.
Context {A : Type} (d : json -> jres A) (e : A -> json) (fin : A -> bool).
Definition back (a : A) : Prop := d (e a) = if fin a then JOk a else JErr.
Lemma d_all_back l : Forall back l -> d_all d (map e l) = if forallb fin l then JOk l else JErr.
Proof.
  induction 1 as [|a l H _ IH]; [reflexivity|]. cbn [map d_all forallb]. rewrite H.
  destruct (fin a); cbn [jbind andb]; [|reflexivity]. rewrite IH. now destruct (forallb fin l).
Qed.
Lemma d_list_back l : Forall back l -> d_list d (JArr (map e l)) = if forallb fin l then JOk l else JErr.
Proof. apply d_all_back. Qed.
Lemma d_entries_back (l : list (str * A)) : Forall (fun x => back (snd x)) l ->
  d_entries d (map (fun '(k, a) => (k, e a)) l) = if forallb (fun '(_, a) => fin a) l then JOk l else JErr.
Proof.
  induction 1 as [|[k a] l H _ IH]; [reflexivity|]. cbn [map d_entries forallb snd] in *. rewrite H.
  destruct (fin a); cbn [jbind andb]; [|reflexivity]. rewrite IH.
  now destruct (forallb _ l).
Qed.
Lemma d_map_back (l : list (str * A)) : distinct str_eqb l = true -> Forall (fun x => back (snd x)) l ->
  d_map d (JObj (map (fun '(k, a) => (k, e a)) l))
  = if forallb (fun '(_, a) => fin a) l then JOk l else JErr.
Proof.
  intros D H. unfold d_map. rewrite d_entries_back by auto.
  destruct (forallb _ l); [|reflexivity]. cbn [jbind]. now rewrite ins_all_fresh by (rewrite <- distinct_fresh; auto).
Qed.
End Collections.
(** Values without floats. *)
Lemma d_list_plain {A} (d : json -> jres A) e l : (forall a, In a l -> d (e a) = JOk a) ->
  d_list d (JArr (map e l)) = JOk l.
Proof.
  intros H. rewrite (d_list_back d e (fun _ => true)) by (apply Forall_forall; exact H).
  now rewrite (proj2 (forallb_forall _ _)) by auto.
Qed.
Lemma d_map_plain {A} (d : json -> jres A) e (l : list (str * A)) : distinct str_eqb l = true ->
  (forall x, In x l -> d (e (snd x)) = JOk (snd x)) ->
  d_map d (JObj (map (fun '(k, a) => (k, e a)) l)) = JOk l.
Proof.
  intros D H. rewrite (d_map_back d e (fun _ => true)) by (auto; apply Forall_forall; exact H).
  now rewrite (proj2 (forallb_forall _ _)) by (now intros [? ?]).
Qed.

(** ** Texts *)
Lemma d_text_eq o : d_text (JObj o)
  = d_once [s2z "flags"] o
      (f <~ dflt d_u32 0 (s2z "flags") o ;; h <~ d_hist d_text d_arg o ;; JOk (FText f h)).
Proof. reflexivity. Qed.
Lemma d_arg_eq k v : d_arg (JObj [(k, v)]) = single [d_argv d_text k v].
Proof. reflexivity. Qed.
Lemma hist_type dt da v o : d_hist dt da ((s2z "type", v) :: o) = d_hist dt da o.
Proof.
  unfold d_hist. rewrite need_miss by reflexivity.
  destruct (need d_hname (s2z "history") o) as [n| |]; [destruct n| |]; reflexivity.
Qed.
Lemma hist_flags dt da v o : d_hist dt da ((s2z "flags", v) :: o) = d_hist dt da o.
Proof.
  unfold d_hist. rewrite need_miss by reflexivity.
  destruct (need d_hname (s2z "history") o) as [n| |]; [destruct n| |]; reflexivity.
Qed.
Lemma flags_once h : unrepeated [s2z "flags"] (e_hist h) = true.
Proof.
  destruct h; repeat match goal with x : option _ |- _ => destruct x end; reflexivity.
Qed.
Lemma flags_more v o : times (s2z "flags") o = O -> unrepeated [s2z "flags"] ((s2z "flags", v) :: o) = true.
Proof. intros E. unfold unrepeated. cbn [forallb]. change (times (s2z "flags") ((s2z "flags", v) :: o)) with (S (times (s2z "flags") o)). now rewrite E. Qed.
Lemma flags_none h : times (s2z "flags") (e_hist h) = O.
Proof.
  destruct h; repeat match goal with x : option _ |- _ => destruct x end; reflexivity.
Qed.
Lemma no_flags h : dflt d_u32 0 (s2z "flags") (e_hist h) = JOk 0.
Proof.
  destruct h; repeat match goal with x : option _ |- _ => destruct x end; reflexivity.
Qed.
Definition j_hist (h : fhist) : Prop := t_hist h = true ->
  d_hist d_text d_arg (e_hist h) = if fin_hist h then JOk h else JErr.
Definition j_text (t : ftext) : Prop := t_text t = true ->
  d_text (JObj (e_text t)) = if fin_text t then JOk t else JErr.
Definition j_arg (a : farg) : Prop := t_arg a = true ->
  d_arg (e_arg a) = if fin_arg a then JOk a else JErr.

Lemma text_tagged v t : t_text t = true -> j_hist (match t with FText _ h => h end) ->
  d_text (JObj ((s2z "type", v) :: e_text t)) = (if fin_text t then JOk t else JErr)
  /\ d_text (JObj (e_text t)) = if fin_text t then JOk t else JErr.
Proof.
  destruct t as [f h]. cbn [t_text fin_text e_text]. intros H J. andbs. rewrite !d_text_eq.
  rewrite hist_type. rewrite dflt_miss by reflexivity.
  unfold e_nonzero. destruct (f =? 0) eqn:E.
  - apply Z.eqb_eq in E. subst f. cbn [app]. rewrite !d_once_t by exact (flags_once h).
    rewrite no_flags. cbn [jbind]. rewrite J by auto.
    destruct (fin_hist h); auto.
  - cbn [app]. rewrite !d_once_t by exact (flags_more (JInt f) _ (flags_none h)). rewrite hist_flags. look. rewrite u32_j by auto. cbn [jbind]. rewrite J by auto.
    destruct (fin_hist h); auto.
Qed.
Ltac opts := repeat match goal with x : option _ |- _ => destruct x end;
  cbn [option_map e_opt e_optstr app].
Ltac split_if := cbn [andb];
  match goal with |- jbind (if ?b then _ else _) _ = _ => destruct b; reflexivity end.
Ltac ends := cbn [jbind]; try reflexivity.
Lemma numfmt_opt o : onumfmt_ok o = true ->
  forall x, o = Some x -> d_numfmt (e_numfmt x) = JOk x.
Proof. intros H x ->. now apply numfmt_j. Qed.
Lemma d_option_numfmt x : numfmt_ok x = true -> d_option d_numfmt (e_numfmt x) = JOk (Some x).
Proof. intros H. pose proof (numfmt_j x H) as E. unfold e_numfmt in *. cbn [d_option]. now rewrite E. Qed.

Lemma hname_j n o : need d_hname (s2z "history") ((s2z "history", JStr (hname_str n)) :: o) = JOk n.
Proof. destruct n; reflexivity. Qed.
Ltac hist n := unfold d_hist;
  match goal with |- context [need d_hname _ ?o] =>
    replace (need d_hname (s2z "history") o) with (JOk n) by (symmetry; reflexivity) end;
  cbn [jbind].
Lemma text_json : (forall t, j_text t) /\ (forall h, j_hist h) /\ (forall a, j_arg a).
Proof.
  apply text_all; unfold j_text, j_hist, j_arg.
  - intros f h J H. exact (proj2 (text_tagged JNull (FText f h) H J)).
  - reflexivity.
  - intros s _. destruct s; reflexivity.
  - intros a b c _. destruct a, b, c; reflexivity.
  - intros t l Ht Hl H. cbn [t_hist] in H. andbs. cbn [e_hist fin_hist]. hist NNamed. look.
    rewrite Ht by auto. destruct (fin_text t); ends. look.
    rewrite (d_map_back d_arg e_arg fin_arg); auto.
    + split_if.
    + rewrite Forall_forall in *. intros [k v] I. apply Hl; auto.
      rewrite forallb_forall in *. match goal with F : forall x, In x l -> _ |- _ => specialize (F _ I) end.
      cbn [snd] in *. now andbs.
  - intros t l Ht Hl H. cbn [t_hist] in H. andbs. cbn [e_hist fin_hist]. hist NOrdered. look.
    rewrite Ht by auto. destruct (fin_text t); ends. look.
    rewrite (d_list_back d_arg e_arg fin_arg); auto.
    + split_if.
    + rewrite Forall_forall in *. intros v I. apply Hl; auto.
      rewrite forallb_forall in *. auto.
  - intros t l Ht Hl H. cbn [t_hist] in H. andbs. cbn [e_hist fin_hist]. hist NArgument. look.
    rewrite Ht by auto. destruct (fin_text t); ends. look.
    rewrite (d_map_back d_arg e_arg fin_arg); auto.
    + split_if.
    + rewrite Forall_forall in *. intros [k v] I. apply Hl; auto.
      rewrite forallb_forall in *. match goal with F : forall x, In x l -> _ |- _ => specialize (F _ I) end.
      cbn [snd] in *. now andbs.
  - intros v o c Hv H. cbn [t_hist] in H. andbs. cbn [e_hist fin_hist].
    opts; hist NNumber; look; cbn [d_option d_str jbind]; look;
      (rewrite Hv by auto; destruct (fin_arg v); ends; look;
       try (rewrite d_option_numfmt by auto; ends; look); reflexivity).
  - intros v o c Hv H. cbn [t_hist] in H. andbs. cbn [e_hist fin_hist].
    opts; hist NPercent; look; cbn [d_option d_str jbind]; look;
      (rewrite Hv by auto; destruct (fin_arg v); ends; look;
       try (rewrite d_option_numfmt by auto; ends; look); reflexivity).
  - intros d v o c Hv H. cbn [t_hist] in H. andbs. cbn [e_hist fin_hist].
    opts; hist NCurrency; look; cbn [d_option d_str jbind]; look;
      (rewrite Hv by auto; destruct (fin_arg v); ends; look;
       try (rewrite d_option_numfmt by auto; ends; look); reflexivity).
  - intros t s c H. cbn [t_hist] in H. andbs. cbn [e_hist fin_hist]. hist NDate. look.
    rewrite ticks_j by auto. ends. look. rewrite style_j by auto. reflexivity.
  - intros t s z c H. cbn [t_hist] in H. andbs. cbn [e_hist fin_hist]. hist NTime. look.
    rewrite ticks_j by auto. ends. look. rewrite style_j by auto. reflexivity.
  - intros t s u z c H. cbn [t_hist] in H. andbs. cbn [e_hist fin_hist]. hist NDateTime. look.
    rewrite ticks_j by auto. ends. look. rewrite style_j by auto. ends. look.
    rewrite style_j by auto. reflexivity.
  - intros t x Ht H. cbn [t_hist] in H. andbs. cbn [e_hist fin_hist]. hist NTransform. look.
    rewrite Ht by auto. destruct (fin_text t); ends. look. rewrite transform_j by auto. reflexivity.
  - reflexivity.
  - intros z H. cbn [t_arg e_arg fin_arg] in *. rewrite d_arg_eq.
    cbn [single]. change (d_argv d_text (s2z "Int") (JInt z)) with (Some (z <~ d_i32 (JInt z) ;; JOk (AInt z))).
    cbn [single]. now rewrite i32_j.
  - intros z H. cbn [t_arg e_arg fin_arg] in *. rewrite d_arg_eq.
    change (d_argv d_text (s2z "UInt") (JInt z)) with (Some (z <~ d_u32 (JInt z) ;; JOk (AUInt z))).
    cbn [single]. now rewrite u32_j.
  - intros z H. cbn [t_arg e_arg fin_arg] in *. rewrite d_arg_eq.
    change (d_argv d_text (s2z "Float") (e_f32 z)) with (Some (z <~ d_f32 (e_f32 z) ;; JOk (AFloat z))).
    cbn [single]. rewrite f32_back by auto. now destruct (finite32 z).
  - intros z H. cbn [t_arg e_arg fin_arg] in *. rewrite d_arg_eq.
    change (d_argv d_text (s2z "Double") (e_f64 z)) with (Some (z <~ d_f64 (e_f64 z) ;; JOk (ADouble z))).
    cbn [single]. rewrite f64_back by auto. now destruct (finite64 z).
  - intros t Ht H. cbn [t_arg e_arg fin_arg] in *. rewrite d_arg_eq.
    change (d_argv d_text (s2z "Text") (JObj (e_text t)))
      with (Some (t <~ d_text (JObj (e_text t)) ;; JOk (AText t))).
    cbn [single]. rewrite Ht by auto. now destruct (fin_text t).
  - intros z H. cbn [t_arg e_arg fin_arg] in *. rewrite d_arg_eq.
    change (d_argv d_text (s2z "Int64") (JInt z)) with (Some (z <~ d_i64 (JInt z) ;; JOk (AInt64 z))).
    cbn [single]. now rewrite i64_j.
  - intros z H. cbn [t_arg e_arg fin_arg] in *. rewrite d_arg_eq.
    change (d_argv d_text (s2z "UInt64") (JInt z)) with (Some (z <~ d_u64 (JInt z) ;; JOk (AUInt64 z))).
    cbn [single]. now rewrite u64_j.
Qed.
