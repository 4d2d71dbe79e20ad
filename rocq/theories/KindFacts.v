(** Type names: the model's dispatch against the specification's name lists. *)
From Coq Require Import ZArith List Bool String Lia.
From Verif Require Import Base Str Types Versions Text Props File Spec BaseFacts.
Import ListNotations.
Open Scope Z_scope.

Lemma join_snoc l a : l <> [] -> join_dots (l ++ [a]) = join_dots l ++ 46 :: a.
Proof.
  induction l as [|b [|c l] IH]; [congruence|reflexivity|]. intros _.
  change (join_dots ((b :: c :: l) ++ [a])) with (b ++ 46 :: join_dots ((c :: l) ++ [a])).
  rewrite IH by discriminate. cbn [join_dots]. now rewrite <- app_assoc.
Qed.
Lemma dotted_join way : join_path way = dotted way.
Proof.
  unfold join_path. induction way as [|a [|b l] IH]; [reflexivity|reflexivity|].
  change (dotted (a :: b :: l)) with (dotted (b :: l) ++ 46 :: a). rewrite <- IH.
  cbn [rev]. rewrite join_snoc; [reflexivity|]. destruct (rev l); discriminate.
Qed.
Lemma find_kind_name l ty : find_kind l ty <> KOther -> ty = kind_name (find_kind l ty).
Proof.
  induction l as [|k l IH]; cbn [find_kind]; [now intros []|].
  destruct (str_eqb ty (kind_name k)) eqn:E; [|auto]. intros _. now apply str_eqb_eq.
Qed.
Lemma kind_of_name ty : kind_of ty <> KOther -> ty = kind_name (kind_of ty).
Proof. apply find_kind_name. Qed.
Lemma find_kind_none l ty : find_kind l ty = KOther -> ~ In KOther l ->
  forall k, In k l -> str_eqb ty (kind_name k) = false.
Proof.
  induction l as [|k l IH]; cbn [find_kind In]; [intros _ _ k []|].
  destruct (str_eqb ty (kind_name k)) eqn:E.
  - intros -> H. exfalso. auto.
  - intros H1 H2 k' [<-|Hin]; auto.
Qed.
Lemma mem_in s l : mem s l = true <-> In s l.
Proof.
  unfold mem. rewrite existsb_exists. split.
  - intros (x & Hin & E). apply str_eqb_eq in E. now subst.
  - intros H. exists s. split; auto. apply str_eqb_refl.
Qed.
Lemma kind_other ty : kind_of ty = KOther <-> mem ty known_types = false.
Proof.
  split.
  - intros H. destruct (mem ty known_types) eqn:E; auto. apply mem_in in E.
    exfalso. revert H. cbn [known_types map app In] in E.
    repeat (destruct E as [<-|E]; [vm_compute; discriminate|]). destruct E.
  - intros H. destruct (kind_of ty) eqn:E; auto;
      (assert (Hn : kind_of ty <> KOther) by (rewrite E; discriminate);
       apply kind_of_name in Hn; rewrite E in Hn; subst ty; clear E;
       repeat match goal with k : num |- _ => destruct k | b : bool |- _ => destruct b end;
       vm_compute in H; discriminate).
Qed.
Lemma kind_of_kind_name k : kind_of (kind_name k) = k.
Proof. destruct k as [[]| | | | | | | | |[]| | | | | |]; reflexivity. Qed.
Lemma kind_of_num k : kind_of (num_name k) = KNum k.
Proof. destruct k; reflexivity. Qed.

Lemma find_skind_name l ty : find_skind l ty <> SkCustom -> ty = skind_name (find_skind l ty).
Proof.
  induction l as [|k l IH]; cbn [find_skind]; [now intros []|].
  destruct (str_eqb ty (skind_name k)) eqn:E; [|auto]. intros _. now apply str_eqb_eq.
Qed.
Lemma skind_of_name ty : skind_of ty <> SkCustom -> ty = skind_name (skind_of ty).
Proof. apply find_skind_name. Qed.
Lemma skind_custom ty : skind_of ty = SkCustom <-> mem ty known_structs = false.
Proof.
  split.
  - intros H. destruct (mem ty known_structs) eqn:E; auto. apply mem_in in E.
    exfalso. revert H. cbn [known_structs map app In] in E.
    repeat (destruct E as [<-|E]; [vm_compute; discriminate|]). destruct E.
  - intros H. destruct (skind_of ty) eqn:E; auto;
      (assert (Hn : skind_of ty <> SkCustom) by (rewrite E; discriminate);
       apply skind_of_name in Hn; rewrite E in Hn; subst ty; vm_compute in H; discriminate).
Qed.
(** A layout is the one selected for its name. *)
Lemma fixed_of_name vs x : precision_ok (has_lwc vs) x = true ->
  fixed_of vs (skind_of (fixed_name x)) = Some x.
Proof.
  destruct x; cbn [precision_ok fixed_name]; intros H;
    match goal with |- context [skind_of ?s] => let v := eval vm_compute in (skind_of s) in
      change (skind_of s) with v end; cbn [fixed_of];
    try (apply negb_true_iff in H); try rewrite H; reflexivity.
Qed.
Lemma fixed_of_spec vs ty x : fixed_of vs (skind_of ty) = Some x ->
  ty = fixed_name x /\ precision_ok (has_lwc vs) x = true /\ fixed_lwc x = None \/
  ty = fixed_name x /\ precision_ok (has_lwc vs) x = true /\ fixed_lwc x = Some (has_lwc vs).
Proof.
  intros H. assert (Hn : skind_of ty <> SkCustom) by (intros E; rewrite E in H; discriminate).
  apply skind_of_name in Hn. destruct (skind_of ty); cbn [fixed_of skind_name] in *; try discriminate;
    destruct (has_lwc vs); injection H as <-; subst ty;
    (left; repeat split; reflexivity) || (right; repeat split; reflexivity).
Qed.

(** Type names are short ASCII strings. *)
Lemma kind_name_ok k : str_ok (kind_name k) = true.
Proof. destruct k as [[]| | | | | | | | |[]| | | | | |]; reflexivity. Qed.
