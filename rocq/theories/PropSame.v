(** C79: hash collisions while JSON is read. *)
From Coq Require Import ZArith List Bool String.
From Verif Require Import Base Str Types Versions Text Props File Samples Spec WholeSave HashFree HashSame Json JsonHash JsonSpec JsonSyntax JsonWhole JsonFrom.
Import ListNotations.
Open Scope Z_scope.

(** C79.  Whatever keys of maps are found by hash ([hashing], Json.v), a document is refused alike and panics
    alike ... *)
Theorem C79_failures : forall hp hp' j,
  (from_json hp j = JErr <-> from_json hp' j = JErr) /\ (from_json hp j = JPanic <-> from_json hp' j = JPanic).
Proof. exact json_fails. Qed.
Print Assumptions C79_failures.
Theorem C79_texts : forall hp hp' s,
  (text_file hp s = JErr <-> text_file hp' s = JErr) /\ (text_file hp s = JPanic <-> text_file hp' s = JPanic)
  /\ (read_direct hp s = JErr <-> read_direct hp' s = JErr) /\ (read_direct hp s = JPanic <-> read_direct hp' s = JPanic).
Proof. exact text_fails. Qed.
Print Assumptions C79_texts.
(** ... or gives the same version, the same header and properties of the same names in the same order. *)
Theorem C79_successes : forall hp hp' j f, from_json hp j = JOk f -> exists f', from_json hp' j = JOk f'
  /\ g_version f' = g_version f /\ g_header f' = g_header f /\ map fst (g_props f') = map fst (g_props f).
Proof. exact json_shape. Qed.
Print Assumptions C79_successes.
(** The values are the same for every hash function exactly if no two keys of a map in them are equal up to
    the order of fields ([uniq], Spec.v). *)
Theorem C79_decides : forall hp j f, (forall l k i, hp l k i = false) -> from_json hp j = JOk f ->
  (forallb (fun e => uniq (snd e)) (g_props f) = true <-> forall hp', from_json hp' j = JOk f).
Proof. exact json_decides. Qed.
Print Assumptions C79_decides.
Theorem C79_all_hits : forall hp j f, (forall l k i, hp l k i = true) -> from_json hp j = JOk f ->
  forallb (fun e => uniq (snd e)) (g_props f) = true.
Proof. exact (fun hp j f H => lo_file hp H j f). Qed.
Print Assumptions C79_all_hits.
(** A map whose two keys differ in the order of their fields, and the sample (without its nan). *)
Example C79_applies :
  let f := GFile DDefault (fst twin_keys) (snd twin_keys) in let g := GFile DDefault (fst sample) (filter (fun e => fin_prop (snd e)) (snd sample)) in
  from_json (fun _ _ _ => false) (to_json f) = JOk f /\ from_json (fun _ _ _ => true) (to_json f) <> JOk f
  /\ forallb (fun e => uniq (snd e)) (g_props f) = false
  /\ from_json (fun _ _ _ => false) (to_json g) = JOk g /\ from_json (fun _ _ _ => true) (to_json g) = JOk g
  /\ forallb (fun e => uniq (snd e)) (g_props g) = true.
Proof. cbv zeta. split; [vm_compute; reflexivity|]. split; [vm_compute; discriminate|]. split; [vm_compute; reflexivity|]. split; [vm_compute; reflexivity|]. split; vm_compute; reflexivity. Qed.
