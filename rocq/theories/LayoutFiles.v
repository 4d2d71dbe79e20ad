(** Lemmas for C76 about files and errors. *)
From Coq Require Import ZArith List Bool String Lia ZifyBool ZifyNat.
From Verif Require Import Base Str Types Versions Text Props File Spec Json JsonSpec JsonFile JsonWell JsonThm JsonBack JsonSyntax JsonGrammar JsonPrint JsonWhole
  JsonDirect Singles DirectTree DirectThm Message MessageThm Debug DebugSpec DebugShow DebugTree ErrorText ErrorSpec ErrorThm ErrorClean LayoutSpec LayoutThm LayoutDebug.
Import ListNotations.
Open Scope Z_scope.

(** ** Nothing but blanks is added *)
Lemma unblank_spaces n s : unblank Elsewhere (repeat 32 n ++ s) = unblank Elsewhere s.
Proof. induction n as [|n IH]; [reflexivity|]. cbn [repeat app unblank]. exact IH. Qed.
Lemma unblank_line n s : unblank Elsewhere (new_line 2 n ++ s) = unblank Elsewhere s.
Proof. unfold new_line. exact (unblank_spaces (2 * n) s). Qed.
Definition seen (p : place) : place := match p with Opened => Elsewhere | _ => p end.
Lemma kept c s : ~ In c [32; 9; 10; 13] -> unblank Elsewhere (c :: s) = c :: unblank (if c =? 34 then InString else Elsewhere) s.
Proof. intros N. cbn [unblank]. replace ((c =? 32) || (c =? 9) || (c =? 10) || (c =? 13)) with false by (cbn [In] in N; lia). reflexivity. Qed.
Lemma unblank_lines s : forall d p, tight p s -> unblank (seen p) (json_lines d p s) = s.
Proof.
  induction s as [|c s IH]; intros d p T; [reflexivity|].
  assert (O : forall (pre : str) d' p' q (X : str), (forall x, unblank Elsewhere (pre ++ x) = unblank Elsewhere x) -> (forall x, unblank Elsewhere (X ++ x) = unblank Elsewhere x) -> X = [] \/ c <> 34 ->
    ~ In c [32; 9; 10; 13] -> tight p' s -> seen p' = (if c =? 34 then InString else Elsewhere) -> q = Elsewhere ->
    unblank q (pre ++ c :: X ++ json_lines d' p' s) = c :: s).
  { intros pre d' p' q X P XX XN N T' S ->. rewrite P, kept by exact N. f_equal. destruct XN as [-> |XN].
    - rewrite <- S. apply IH. exact T'.
    - replace (c =? 34) with false in * by lia. rewrite XX, <- S. apply IH. exact T'. }
  assert (L0 : forall x, unblank Elsewhere ([] ++ x) = unblank Elsewhere x) by reflexivity.
  assert (OT : tight Opened s <-> tight Elsewhere s) by (destruct s; reflexivity).
  destruct p; cbn [tight json_lines seen] in *.
  - cbn [unblank]. f_equal. specialize (IH d _ T). destruct (c =? 92); [exact IH|]. destruct (c =? 34); exact IH.
  - cbn [unblank]. f_equal. exact (IH d _ T).
  - destruct T as [N T]. destruct (c =? 34) eqn:E3.
    { replace (closing c) with false by (unfold closing; lia). replace (opening c) with false by (unfold opening; lia).
      apply (O (new_line 2 d) _ InString _ []); auto using unblank_line. }
    destruct (closing c) eqn:E1; [apply (O [] _ Elsewhere _ []); auto using unblank_line|].
    destruct (opening c) eqn:E2; [apply (O (new_line 2 d) _ Opened _ []); auto using unblank_line; tauto|].
    destruct (c =? 44) eqn:E4; [apply (O (new_line 2 d) _ Elsewhere _ (new_line 2 d)); auto using unblank_line; lia|].
    destruct (c =? 58) eqn:E5; [apply (O (new_line 2 d) _ Elsewhere _ [32]); auto using unblank_line; lia|].
    apply (O (new_line 2 d) _ Elsewhere _ []); auto using unblank_line.
  - destruct T as [N T]. destruct (c =? 34) eqn:E3.
    { replace (closing c) with false by (unfold closing; lia). replace (opening c) with false by (unfold opening; lia).
      apply (O [] _ InString _ []); auto using unblank_line. }
    destruct (closing c) eqn:E1; [apply (O (new_line 2 (pred d)) _ Elsewhere _ []); auto using unblank_line|].
    destruct (opening c) eqn:E2; [apply (O [] _ Opened _ []); auto using unblank_line; tauto|].
    destruct (c =? 44) eqn:E4; [apply (O [] _ Elsewhere _ (new_line 2 d)); auto using unblank_line; lia|].
    destruct (c =? 58) eqn:E5; [apply (O [] _ Elsewhere _ [32]); auto using unblank_line; lia|].
    apply (O [] _ Elsewhere _ []); auto using unblank_line.
Qed.

(** ** JSON of files *)
(** The second text is the first on several lines, and the first is the second without its blanks. *)
Definition laid_out (one many : str) : Prop := many = json_lines 0 Elsewhere one /\ tight Elsewhere one /\ unblank Elsewhere many = one.
Lemma lay one many : many = json_lines 0 Elsewhere one /\ tight Elsewhere one -> laid_out one many.
Proof. intros [-> T]. split; [reflexivity|]. split; [exact T|]. exact (unblank_lines one 0 Elsewhere T). Qed.
Lemma value_laid float j : prints_floats float -> j_ok j = true -> laid_out (print float j) (pretty float 0 j).
Proof. intros FL J. apply lay. now apply value_layout. Qed.
Lemma direct_laid float32 float z o v b g : prints_singles float32 -> prints_floats float -> load z o v b = Ok g ->
  laid_out (direct_text float32 float g) (direct_pretty float32 float g).
Proof.
  intros F32s F64s L. apply loaded_typed in L. apply lay. unfold direct_text, direct_pretty.
  apply (json_layout _ same_float).
  - intros x J. eapply num_ord. exact (denoted float32 float F32s F64s x J).
  - rewrite (same_tree same g L). eapply file_well; eassumption.
Qed.

(** ** [Debug] *)
Section Debug.
Context (fl : bool -> num -> Z -> str) (plain : Z -> bool) (sep : property -> property -> bool) (FL : float_texts fl).
Lemma file_laid g : t_file sep g = true -> Debug.pretty_file fl plain g = debug_lines 0 DElse (debug_file fl plain g).
Proof. intros T. apply tree_layout. now apply (sh_file fl FL sep). Qed.
Lemma prop_laid p : t_prop sep p = true -> pretty_prop fl plain p = debug_lines 0 DElse (debug_prop fl plain p).
Proof. intros T. apply tree_layout. now apply (proj1 (shaped_all_values fl FL sep)). Qed.
End Debug.
Lemma error_laid names lone plain e raw m : good_names names -> failed e raw -> (forall p, e <> EUtf16 p) ->
  debug_error names lone plain None raw e = Some m -> debug_error names lone plain (Some 0%nat) raw e = Some (debug_lines 0 DElse m).
Proof.
  intros G F N E. destruct (failed_ok _ _ F) as (O & D & ->). unfold debug_error in *.
  destruct (dg_error names lone (raw_of D e) e) as [d|] eqn:X; [|discriminate E]. cbn [option_map] in *. apply some_inj in E. subst m. f_equal.
  apply tree_layout. eapply shaped_err; [exact G|exact O| |exact X]. destruct e; try reflexivity. exfalso. eapply N. reflexivity.
Qed.
