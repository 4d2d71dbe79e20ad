(** C74: what a value feeds to the hasher is what [derive(Hash)] makes of the declarations. *)
From Coq Require Import ZArith List Bool String.
From Verif Require Import Base Str Types Versions Guid Message Debug DebugSpec DebugTree DebugEq Hash Json JsonSpec FedSpec FedThm FedOne Samples.
Import ListNotations.
Open Scope Z_scope.

(** For every way to print floats that keeps them apart. *)
Theorem C74_property : forall fl sep p, float_texts fl -> t_prop sep p = true ->
  forall b, fed fl (TEnum "Property") (dg_prop fl p) b <-> b = h_prop p.
Proof.
  intros fl sep p F T b. pose proof (proj1 (fed_props fl sep) p T) as H. split; [|intros ->; exact H].
  intros G. exact (proj1 (fed_one fl F) _ _ _ G _ H).
Qed.
Print Assumptions C74_property.
Theorem C74_struct : forall fl sep v, float_texts fl -> t_sval sep v = true ->
  forall b, fed fl (TEnum "StructPropertyValue") (dg_sval fl v) b <-> b = h_sval v.
Proof.
  intros fl sep p F T b. pose proof (proj1 (proj2 (fed_props fl sep)) p T) as H. split; [|intros ->; exact H].
  intros G. exact (proj1 (fed_one fl F) _ _ _ G _ H).
Qed.
Print Assumptions C74_struct.
Theorem C74_text : forall fl t, float_texts fl -> t_text t = true ->
  forall b, fed fl (TRef "FText") (dg_text fl t) b <-> b = h_text t.
Proof.
  intros fl p F T b. pose proof (proj1 (fed_text fl) p T) as H. split; [|intros ->; exact H].
  intros G. exact (proj1 (fed_one fl F) _ _ _ G _ H).
Qed.
Print Assumptions C74_text.
(** Of values that [Debug] shows alike the hasher sees the same. *)
Theorem C74_shown : forall fl sep a b, float_texts fl -> t_prop sep a = true -> t_prop sep b = true ->
  dg_prop fl a = dg_prop fl b -> h_prop a = h_prop b.
Proof.
  intros fl sep a b F A B E. apply (C74_property fl sep b F B). rewrite <- E. now apply (C74_property fl sep a F A).
Qed.
Print Assumptions C74_shown.

(** 1.0 as a [FloatProperty]: its place among the variants, then 2^23, -23 and a sign bit. *)
Example C74_float : t_prop eqv (PNum F32 1065353216) = true /\ float_texts bits_text
  /\ h_prop (PNum F32 1065353216) = [Byte.x05; Byte.x00; Byte.x00; Byte.x00; Byte.x00; Byte.x00; Byte.x00; Byte.x00;
                                     Byte.x00; Byte.x00; Byte.x80; Byte.x00; Byte.x00; Byte.x00; Byte.x90; Byte.xfe].
Proof. split; [reflexivity|]. split; [exact bits_ok|]. vm_compute. reflexivity. Qed.
(** The hypotheses are met by all sample properties. *)
Example C74_applies : forallb (fun e => t_prop eqv (snd e)) sample_props = true /\ (20 <? len sample_props) = true.
Proof. split; vm_compute; reflexivity. Qed.
(** The fields of a delegate in the other order are not what is hashed. *)
Example C74_swapped : exists b, b <> h_prop (PDelegate (s2z "a") (s2z "b"))
  /\ fed bits_text (TEnum "Property") (dg_prop bits_text (PDelegate (s2z "b") (s2z "a"))) b.
Proof.
  exists (h_prop (PDelegate (s2z "b") (s2z "a"))). split; [vm_compute; discriminate|].
  apply (C74_property bits_text eqv); [exact bits_ok|reflexivity|reflexivity].
Qed.
