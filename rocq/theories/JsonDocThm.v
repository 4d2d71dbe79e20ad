(** Consequences of JsonExactFile.v, as used by PropDoc.v. *)
From Coq Require Import ZArith List Bool String Lia.
From Verif Require Import Base Str Types Versions Text Props File Spec BaseFacts MapFacts Guid
  Json JsonForm JsonBack JsonPanic JsonFile JsonSyntax JsonGrammar JsonComplete JsonDepth JsonWhole JsonThm
  JsonDoc JsonExact JsonExactProp JsonExactFile JsonFormThm JsonSpec.
Import ListNotations.
Open Scope Z_scope.

(** The rules with enough nesting for the document. *)
Definition reads (g : gfile) (j : json) : Prop := file_doc (collapsed same) (S (jsize j)) g j.
Definition reads_prop (p : property) (j : json) : Prop := top_doc (collapsed same) (S (jsize j)) p j.

Lemma reads_exact hp j g : calm hp -> mild j -> from_json hp j = JOk g <-> reads g j.
Proof. intros C M. apply from_json_exact; auto. Qed.
Lemma reads_any hp n j g : mild j -> (jsize j < n)%nat ->
  from_json hp j = JOk g <-> file_doc (fun l m => m = m_insert hp l) n g j.
Proof. intros M S. apply (file_exact hp _); auto. reflexivity. Qed.
Lemma reads_prop_exact hp j p : calm hp -> mild j -> d_property hp j = JOk p <-> reads_prop p j.
Proof. intros C M. apply (top_exact hp (collapsed same)); auto. intros l m. now apply calm_collapsed. Qed.
Lemma reads_bound n g j : mild j -> (jsize j < n)%nat -> file_doc (collapsed same) n g j <-> reads g j.
Proof. intros M S. rewrite <- (reads_exact still) by (auto using still_calm). symmetry. apply from_json_exact; auto using still_calm. Qed.
Lemma reads_one g g' j : mild j -> reads g j -> reads g' j -> g = g'.
Proof. intros M H H'. apply (reads_exact still) in H, H'; auto using still_calm. congruence. Qed.
Lemma mild_no_panic hp j : mild j -> from_json hp j <> JPanic.
Proof. intros M H. destruct (file_safe hp j H) as (s & O & P). now apply (M s). Qed.
Lemma reads_none hp j : calm hp -> mild j -> from_json hp j = JErr <-> forall g, ~ reads g j.
Proof.
  intros C M. split.
  - intros E g H. apply (reads_exact hp) in H; auto. congruence.
  - intros N. pose proof (mild_no_panic hp j M). destruct (from_json hp j) as [g| |] eqn:E; [|reflexivity|congruence].
    apply reads_exact in E; auto. now apply N in E.
Qed.
Lemma reads_text hp s g : calm hp -> (forall d j, document d j s -> mild j) ->
  text_file hp s = JOk g <-> exists d j, document d j s /\ (d <= 127)%nat /\ reads g j.
Proof.
  intros C M. unfold text_file. split.
  - destruct (from_text s) as [j|] eqn:E; [|discriminate]. apply from_text_iff in E as (d & D & L). intros H.
    exists d, j. repeat split; auto. apply (reads_exact hp); eauto.
  - intros (d & j & D & L & H). assert (E : from_text s = POk j) by (apply from_text_iff; eauto).
    rewrite E. apply (reads_exact hp); eauto.
Qed.

(** ** Telling that no string panics as a guid *)
Fixpoint mildb (j : json) : bool :=
  match j with
  | JStr s => match guid_parse s with Panicked => false | _ => true end
  | JArr l => forallb mildb l
  | JObj l => forallb (fun e => match guid_parse (fst e) with Panicked => false | _ => true end && mildb (snd e)) l
  | _ => true
  end.
Lemma mildb_mild j : mildb j = true -> mild j.
Proof.
  intros H s O. revert H. induction O as [|l v I|l k v I O IH|l v I O IH]; cbn [mildb]; intros H.
  - now destruct (guid_parse s).
  - rewrite forallb_forall in H. specialize (H _ I). cbn [fst snd] in H. apply andb_true_iff in H as [H _]. now destruct (guid_parse s).
  - rewrite forallb_forall in H. specialize (H _ I). cbn [fst snd] in H. apply andb_true_iff in H as [_ H]. auto.
  - rewrite forallb_forall in H. auto.
Qed.
(** Documents without characters outside of ASCII are mild. *)
Lemma ascii_mild j : j_fit j = true -> (forall s c, occurs s j -> In c s -> c < 128) -> mild j.
Proof.
  intros J A s O P. pose proof (occurs_str s j J O) as S. destruct (ascii_parse s S P) as (c & I & L).
  specialize (A s c O I). lia.
Qed.
Lemma form_reads g j : t_file same g = true -> fin_file g = true -> mild j -> file_form g j -> reads g j.
Proof.
  intros T F M H. apply (reads_exact still); auto using still_calm. apply (file_iff same) in H; [|exact T]. subst j.
  rewrite file_calm, F; auto using still_calm.
Qed.
