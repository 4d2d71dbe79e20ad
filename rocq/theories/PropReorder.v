(** Claim C57: reading JSON does not depend on the order of members. *)
From Coq Require Import ZArith List Bool String Lia Permutation.
From Verif Require Import Base Str Types Versions Text Props File Spec Samples Guid
  Json JsonSpec JsonThm Reorder ReorderEx PropJson.
Import ListNotations.
Open Scope Z_scope.

(** C57.  Two documents that differ only in the order in which objects list their
    members, at any depth, are both rejected or both read, as files that are equal up to
    the order of maps ([same_file]).  [plain]: no member is named twice, no property
    selects two kinds of value, no guid panics.  [plain_versions]: no custom version is
    given twice under two spellings.  [keyed]: hash values depend on keys only. *)
Theorem C57_file : forall hp j j', keyed hp -> reorder j j' -> plain j -> plain_versions j ->
  alike same_file (from_json hp j) (from_json hp j').
Proof. exact (fun hp j j' K => file_like hp K j j'). Qed.
Print Assumptions C57_file.
(** Single properties: equal in the sense of the library's [==].  ([d_property] reads one
    on its own, [d_prop] one inside another.) *)
Theorem C57_property : forall hp j j', keyed hp -> reorder j j' -> plain j ->
  alike (fun p q => eqv p q = true) (d_property hp j) (d_property hp j')
  /\ alike (fun p q => eqv p q = true) (d_prop hp j) (d_prop hp j').
Proof.
  exact (fun hp j j' K R P => conj (property_like hp K (S (JsonBack.jsize j)) j j' (le_n _) R P)
                                   (prop_like hp K (S (JsonBack.jsize j)) j j' (le_n _) R P)).
Qed.
Print Assumptions C57_property.
Theorem C57_text : forall j j', reorder j j' -> plain j ->
  alike (fun t u => text_eqb false t u = true) (d_text j) (d_text j').
Proof. exact (fun j j' R => proj1 (text_like (S (JsonBack.jsize j))) j j' (le_n _) R). Qed.
Print Assumptions C57_text.
(** Any order can be asked for: for example all objects backwards. *)
Theorem C57_backwards : forall hp j, keyed hp -> plain j -> plain_versions j ->
  alike same_file (from_json hp j) (from_json hp (flip j)).
Proof. exact (fun hp j K => file_like hp K j (flip j) (flip_ok j)). Qed.
Print Assumptions C57_backwards.

(** Order matters inside the keys of a map, since the hash of a struct depends on it. *)
Theorem C57_keys_refuted : exists hp j j', keyed hp /\ plain j /\ plain_versions j /\ shuffle j j'
  /\ exists g g', from_json hp j = JOk g /\ from_json hp j' = JOk g' /\ ~ same_file g g'.
Proof. exact keys_matter. Qed.
Print Assumptions C57_keys_refuted.
(** It matters in a property that gives two kinds of value: the first one counts. *)
Theorem C57_kinds_refuted : exists j j', plain_versions j /\ shuffle j j' /\ forall hp,
  exists g g', from_json hp j = JOk g /\ from_json hp j' = JOk g' /\ ~ same_file g g'.
Proof. exact kinds_matter. Qed.
Print Assumptions C57_kinds_refuted.
(** It matters for a custom version given under two spellings: the last one counts. *)
Theorem C57_spellings_refuted : exists j j', plain j /\ reorder j j' /\ forall hp,
  exists g g', from_json hp j = JOk g /\ from_json hp j' = JOk g' /\ ~ same_file g g'.
Proof. exact spellings_matter. Qed.
Print Assumptions C57_spellings_refuted.

Example C57_applies :
  let j := to_json finite_sample in
  keyed by_hash /\ plain j /\ plain_versions j /\ reorder j (flip j) /\ flip j <> j
  /\ match from_json by_hash j, from_json by_hash (flip j) with
     | JOk g, JOk g' => map fst (g_props g') = rev (map fst (g_props g)) /\ List.length (g_props g) = 25%nat
     | _, _ => False
     end.
Proof.
  split; [exact by_hash_keyed|]. split; [apply plainb_ok; vm_compute; reflexivity|].
  split; [apply versionsb_ok; vm_compute; reflexivity|]. split; [apply flip_ok|].
  split; [vm_compute; discriminate|]. vm_compute. split; reflexivity.
Qed.
