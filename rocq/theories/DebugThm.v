(** Lemmas for C70. *)
From Coq Require Import ZArith List Bool String Lia ZifyBool ZifyNat.
From Verif Require Import Base Str Types Versions Text Props File Spec BaseFacts JsonSpec Message MessageThm Debug DebugSpec DebugShow DebugTree DebugEq.
Import ListNotations.
Open Scope Z_scope.

(** ** One line *)
Lemma class_not (P : Z -> Prop) c s : ~ P c -> Forall P s -> ~ In c s.
Proof. intros N F I. rewrite Forall_forall in F. auto. Qed.
Lemma word_line s : word s -> ~ In 10 s.
Proof. intros [_ F]. eapply class_not; [|exact F]. unfold wordc. lia. Qed.
Lemma join_line l : (forall s, In s l -> ~ In 10 s) -> ~ In 10 (join l).
Proof.
  induction l as [|a l IH]; intros H; [auto|]. destruct l as [|b l]; [apply H; now left|].
  change (join (a :: b :: l)) with (a ++ [44; 32] ++ join (b :: l)). rewrite !in_app_iff. intros [X|[X|X]].
  - eapply H; [now left|exact X].
  - cbn in X. lia.
  - eapply IH; [|exact X]. intros s I. apply H. now right.
Qed.
Lemma inside_line pad close l : ~ In 10 pad -> ~ In 10 close -> (forall s, In s l -> ~ In 10 s) -> ~ In 10 (inside None pad close l).
Proof.
  intros P C H. destruct l as [|a l]; [exact C|]. cbn [inside]. rewrite !in_app_iff. pose proof (join_line _ H). tauto.
Qed.
Lemma quote_line plain s : Forall (fun c => 0 <= c) s -> ~ In 10 (quote plain s).
Proof.
  intros F. unfold quote. cbn [In]. rewrite in_app_iff. cbn [In]. intros [X|[X|[X|[]]]]; try lia. apply in_flat_map in X as (c & I & X).
  rewrite Forall_forall in F. specialize (F c I).
  assert (D : c = 10 \/ c <> 10) by lia. destruct D as [->|D]; [cbn in X; lia|].
  destruct (esc_cases plain c F) as [(k & E & S & _)|[(E & _)|(h & E & (_ & H & _))]]; rewrite E in X; cbn in X.
  - destruct X as [X|[X|[]]]; [lia|]. subst k. unfold esc in E.
    repeat match type of E with context [c =? ?n] => destruct (c =? n); [discriminate E|] end. destruct (plain c); discriminate E.
  - lia.
  - destruct X as [X|[X|[X|X]]]; try lia. apply in_app_iff in X as [X|X]; [|cbn in X; lia]. revert X. eapply class_not; [|exact H]. unfold hex_digit. lia.
Qed.
Lemma show_line plain : forall d, shaped d -> ~ In 10 (show plain None d).
Proof.
  apply (tree_all (fun d => shaped d -> ~ In 10 (show plain None d))).
  - intros s S. now apply word_line.
  - intros s S. now apply quote_line.
  - intros s [_ F]. cbn [show s2z]. rewrite !in_app_iff. intros [X|[X|X]]; [cbn in X; lia| |cbn in X; lia].
    revert X. eapply class_not; [|exact F]. unfold guidc. lia.
  - intros n l IH S. apply shaped_struct in S as (W & N & F). destruct l as [|e l]; [contradiction|]. cbn [show]. rewrite !in_app_iff.
    intros [X|[X|X]]; [now apply word_line in X|cbn in X; lia|]. revert X. apply inside_line; [cbn; lia|cbn; lia|].
    intros s I. apply in_map_iff in I as (x & <- & I). rewrite Forall_forall in IH, F. destruct (F x I) as [Wx Sx]. cbn [deeper]. rewrite !in_app_iff.
    intros [X|[X|X]]; [now apply word_line in X|cbn in X; lia|]. now apply (IH x I).
  - intros n l IH S. apply shaped_tuple in S as (W & N & _ & F). cbn [show]. rewrite !in_app_iff.
    intros [X|[X|X]]; [now apply word_line in X|cbn in X; lia|]. revert X. apply inside_line; [cbn; lia|cbn; lia|].
    intros s I. apply in_map_iff in I as (x & <- & I). rewrite Forall_forall in IH, F. cbn [deeper]. auto.
  - intros l IH S. apply (proj1 (shaped_list _)) in S. cbn [show]. rewrite !in_app_iff.
    intros [X|X]; [cbn in X; lia|]. revert X. apply inside_line; [cbn; lia|cbn; lia|].
    intros s I. apply in_map_iff in I as (x & <- & I). rewrite Forall_forall in IH, S. cbn [deeper]. auto.
  - intros l IH S. apply (proj1 (shaped_map _)) in S. cbn [show]. rewrite !in_app_iff.
    intros [X|X]; [cbn in X; lia|]. revert X. apply inside_line; [cbn; lia|cbn; lia|].
    intros s I. apply in_map_iff in I as (x & <- & I). rewrite Forall_forall in IH, S. destruct (S x I), (IH x I). cbn [deeper]. rewrite !in_app_iff.
    intros [X|[X|X]]; [tauto|cbn in X; lia|tauto].
Qed.

Section T.
Context (fl : bool -> num -> Z -> str) (plain : Z -> bool) (sep : property -> property -> bool).
Hypothesis FL : float_texts fl.
Lemma tells_prop p q : t_prop sep p = true -> t_prop sep q = true ->
  (debug_prop fl plain p = debug_prop fl plain q <-> quiet p = quiet q) /\ (pretty_prop fl plain p = pretty_prop fl plain q <-> quiet p = quiet q).
Proof. intros T T'. split; unfold debug_prop, pretty_prop; now apply (prop_texts fl FL sep). Qed.
Lemma tells_file f g : t_file sep f = true -> t_file sep g = true ->
  (debug_file fl plain f = debug_file fl plain g <-> quiet_file f = quiet_file g) /\ (pretty_file fl plain f = pretty_file fl plain g <-> quiet_file f = quiet_file g).
Proof. intros T T'. split; unfold debug_file, pretty_file; now apply (file_texts fl FL sep). Qed.
Lemma tells_finite f g : t_file sep f = true -> t_file sep g = true -> fin_file f = true -> fin_file g = true ->
  (debug_file fl plain f = debug_file fl plain g <-> f = g) /\ (pretty_file fl plain f = pretty_file fl plain g <-> f = g).
Proof.
  intros T T' F F'. pose proof (tells_file f g T T') as H. rewrite (finite_file f F), (finite_file g F') in H. exact H.
Qed.
Lemma unequal_differ s p q : t_prop sep p = true -> t_prop sep q = true -> prop_eqb s p q = false ->
  debug_prop fl plain p <> debug_prop fl plain q /\ pretty_prop fl plain p <> pretty_prop fl plain q.
Proof.
  intros T T' N. destruct (tells_prop p q T T') as [A B].
  split; intros E; [apply A in E|apply B in E]; apply (quiet_equal s) in E; congruence.
Qed.
Lemma one_line g : t_file sep g = true -> ~ In 10 (debug_file fl plain g).
Proof. intros T. apply show_line. now apply (sh_file fl FL sep). Qed.
Lemma one_line_prop p : t_prop sep p = true -> ~ In 10 (debug_prop fl plain p).
Proof. intros T. apply show_line. now apply (proj1 (shaped_all_values fl FL sep)). Qed.
Lemma zeros k z : is_float k -> (k = F32 -> z = 2147483648) -> (k = F64 -> z = 9223372036854775808) ->
  prop_eqb true (PNum k 0) (PNum k z) = true /\ debug_prop fl plain (PNum k 0) <> debug_prop fl plain (PNum k z).
Proof.
  intros K A B.
  assert (T : t_prop sep (PNum k 0) = true /\ t_prop sep (PNum k z) = true /\ prop_eqb true (PNum k 0) (PNum k z) = true /\ quiet (PNum k 0) <> quiet (PNum k z)).
  { destruct K as [-> | ->]; [rewrite (A eq_refl)|rewrite (B eq_refl)]; repeat split; vm_compute; congruence. }
  destruct T as (T & T' & E & N). split; [exact E|]. intros X. apply N. now apply (proj1 (tells_prop _ _ T T')).
Qed.
End T.
Lemma refusal_text fl plain ty info l : array_new ty info l = Fail (Err (ESerialize SArrayElem)) ->
  exists a p b, l = a ++ p :: b /\ Forall (fun x => exists v, x = PSValue v) a /\ (forall v, p <> PSValue v)
  /\ array_refusal fl plain ty l = Some (s2z "Invalid value Array property_type StructProperty doesn't match property inside array: " ++ pretty_prop fl plain p).
Proof.
  unfold array_new. destruct info as [[[f t] g]|]; [|discriminate]. destruct (kind_of ty) eqn:K; try discriminate.
  destruct (opt_map as_sval l) eqn:O; [discriminate|]. intros _.
  assert (TY : ty = s2z "StructProperty").
  { unfold kind_of in K. cbn [find_kind kinds] in K.
    repeat match type of K with (if str_eqb ty ?n then _ else _) = _ => destruct (str_eqb ty n) eqn:?; [try discriminate K|] end; try discriminate K.
    now apply str_eqb_eq. }
  clear K. unfold array_refusal. subst ty.
  induction l as [|x l IH]; [discriminate O|]. cbn [opt_map find] in *. destruct (as_sval x) as [v|] eqn:X.
  - destruct (opt_map as_sval l) eqn:R; [discriminate O|]. destruct (IH eq_refl) as (a & p & b & -> & Fa & Np & E).
    exists (x :: a), p, b. repeat split; auto. constructor; [|exact Fa]. destruct x; try discriminate X. eauto.
  - exists [], x, l. repeat split; auto. intros v ->. discriminate X.
Qed.
