(** Engine and custom version tables (C25, C37). *)
From Coq Require Import ZArith List Bool String Lia ZifyBool ZifyNat.
From Verif Require Import Base Str Types Versions VersionTables BaseFacts MapFacts.
Import ListNotations.
Open Scope Z_scope.

(** ** Specification *)
Definition engine_spec (major minor : Z) : engine :=
  if (major =? 4) && (0 <=? minor) && (minor <=? 27) then UE4 minor
  else if (major =? 5) && (0 <=? minor) && (minor <=? 2) then UE5 minor
  else EUnknown.
(** Age of an engine version: the order in which they are declared. *)
Definition age (e : engine) : Z :=
  match e with
  | EUnknown => 0 | EOldest => 1 | UE4 n => 2 + n | UE5 n => 30 + n
  | EAutomatic => 33 | EAutomaticPlusOne => 34
  end.
(** The number of the last entry for [g], 0 if there is none. *)
Definition last_version (g : guid) (l : list (guid * Z)) : Z :=
  match last_of guid_eqb g l with Some v => v | None => 0 end.

(** ** Proofs *)
Lemma engine_of_spec v : engine_of v = engine_spec (fe_major v) (fe_minor v).
Proof.
  unfold engine_of, engine_spec. generalize (fe_major v) (fe_minor v). intros a b.
  destruct (Z.eqb_spec a 4) as [->|Ha].
  - cbn [andb]. destruct ((0 <=? b) && (b <=? 27)) eqn:R.
    + assert (H : In b (map Z.of_nat (List.seq 0 28))).
      { apply in_map_iff. exists (Z.to_nat b). split; [lia|]. apply in_seq. lia. }
      cbn [List.seq map In] in H. repeat (destruct H as [<-|H]; [reflexivity|]). destruct H.
    + change (4 =? 5) with false. cbn [andb]. unfold engine_table. cbn [find_engine].
      repeat match goal with |- context [(4 =? ?x) && (b =? ?y)] =>
        replace ((4 =? x) && (b =? y)) with false by lia; cbn [find_engine] end. reflexivity.
  - destruct (Z.eqb_spec a 5) as [->|Hb].
    + cbn [andb]. destruct ((0 <=? b) && (b <=? 2)) eqn:R.
      * assert (H : b = 0 \/ b = 1 \/ b = 2) by lia. destruct H as [ -> | [ -> | -> ]]; reflexivity.
      * unfold engine_table. cbn [find_engine].
        repeat match goal with |- context [(5 =? ?x) && (b =? ?y)] =>
          replace ((5 =? x) && (b =? y)) with false by lia end. reflexivity.
    + cbn [andb]. unfold engine_table. cbn [find_engine].
      repeat match goal with |- context [(a =? ?x) && (b =? ?y)] =>
        replace ((a =? x) && (b =? y)) with false by lia end. reflexivity.
Qed.
Lemma engine_injective a b : engine_of a = engine_of b -> engine_of a <> EUnknown ->
  fe_major a = fe_major b /\ fe_minor a = fe_minor b.
Proof.
  rewrite !engine_of_spec. unfold engine_spec.
  repeat match goal with |- context [if ?x then _ else _] => destruct x eqn:? end;
    intros E N; try discriminate; try (now destruct N); injection E as E; lia.
Qed.
(** Every row names an existing enumerator, and later engines have higher numbers
    except for the automatic version. *)
Definition rows_monotone (rows : list (engine * option Z)) : Prop :=
  forall e v e' v', In (e, Some v) rows -> In (e', Some v') rows -> age e < age e' ->
    v < v' \/ (e = EAutomatic /\ e' = EAutomaticPlusOne).
Lemma editor_monotone : rows_monotone editor_mappings.
Proof.
  assert (C : forallb (fun r => forallb (fun r' =>
     match snd r, snd r' with
     | Some v, Some v' => negb (age (fst r) <? age (fst r')) || (v <? v')
                          || match fst r, fst r' with EAutomatic, EAutomaticPlusOne => true | _, _ => false end
     | _, _ => false end) editor_mappings) editor_mappings = true) by (vm_compute; reflexivity).
  intros e v e' v' H H' L. rewrite forallb_forall in C. specialize (C _ H). rewrite forallb_forall in C.
  specialize (C _ H'). cbn [fst snd] in C. apply orb_true_iff in C as [C|C].
  - left. lia.
  - right. destruct e; try discriminate. destruct e'; try discriminate. auto.
Qed.
Lemma editor_complete : forall e o, In (e, o) editor_mappings -> exists v, o = Some v /\ 0 <= v <= 42.
Proof.
  assert (C : forallb (fun r => match snd r with Some v => (0 <=? v) && (v <=? 42) | None => false end) editor_mappings = true)
    by (vm_compute; reflexivity).
  intros e o H. rewrite forallb_forall in C. specialize (C _ H). cbn [snd] in C.
  destruct o as [v|]; [|discriminate]. exists v. split; [reflexivity|]. lia.
Qed.
Lemma editor_rows_unique : NoDup (map (fun r => age (fst r)) editor_mappings).
Proof.
  assert (C : forall l, fresh Z.eqb (map (fun x : Z => (x, tt)) l) = true -> NoDup l).
  { induction l as [|a l IH]; cbn [map fresh fst]; [constructor|]. rewrite andb_true_iff. intros [H1 H2].
    constructor; [|auto]. intros Hin. rewrite forallb_forall in H1.
    specialize (H1 (a, tt) ltac:(apply in_map_iff; eauto)). cbn [fst] in H1. rewrite Z.eqb_refl in H1. discriminate. }
  apply C. vm_compute. reflexivity.
Qed.
Lemma latest_above_plus_one : exists a b,
  In (EAutomatic, Some a) editor_mappings /\ In (EAutomaticPlusOne, Some b) editor_mappings
  /\ age EAutomatic < age EAutomaticPlusOne /\ b < a.
Proof. exists 42, 41. split; [|split]; [cbv; tauto|cbv; tauto|split; reflexivity]. Qed.

(** ** Version lookups *)
Lemma get_version_last l g : get_version (ins_all guid_eqb l) g = last_version g l.
Proof.
  unfold get_version, last_version.
  rewrite (collapsed_lookup guid_eqb guid_sy guid_tr l _ g
    (ins_all_collapsed guid_eqb guid_eqb_refl guid_sy guid_tr l)). reflexivity.
Qed.
Lemma supports_last l g n : supports (ins_all guid_eqb l) g n = true <-> n <= last_version g l.
Proof. unfold supports. rewrite get_version_last. apply Z.leb_le. Qed.
