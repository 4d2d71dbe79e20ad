(** Claim C32: equality and hashing of values. *)
From Coq Require Import ZArith List Bool String Lia Permutation.
From Verif Require Import Base Str Types Versions Text Props File Spec Samples EqFacts EqSym Hash HashFacts UniqThm
  EqSpec EqLevel EqMove MapEq RealThm.
Import ListNotations.
Open Scope Z_scope.

(** [eqv] is the derived [PartialEq]. *)
Theorem C32_reflexive : forall a, eqv a a = true.
Proof. exact (proj1 (prop_refl false)). Qed.
Print Assumptions C32_reflexive.
Theorem C32_transitive : forall a b c, eqv a b = true -> eqv b c = true -> eqv a c = true.
Proof. exact (proj1 (prop_trans false)). Qed.
Print Assumptions C32_transitive.
(** [uniq]: no map inside the value holds two equal keys. *)
Theorem C32_symmetric : forall a b, uniq a = true -> eqv a b = true -> eqv b a = true.
Proof. exact (fun a b U => proj1 (prop_sym false) a U b). Qed.
Print Assumptions C32_symmetric.
Theorem C32_representable_unique : forall o vs hdr path p,
  wf_prop o vs eqv hdr path p = true -> uniq p = true.
Proof. exact (fun o vs hdr path p => proj1 (wf_uniq o vs) p hdr path). Qed.
Print Assumptions C32_representable_unique.
(** Without unique keys symmetry can fail (such a value cannot be built in Rust). *)
Theorem C32_symmetric_refuted : exists a b, eqv a b = true /\ eqv b a = false.
Proof.
  exists (PSValue (SCustom [(s2z "x", []); (s2z "x", [])])), (PSValue (SCustom [(s2z "x", []); (s2z "y", [])])).
  split; vm_compute; reflexivity.
Qed.
Print Assumptions C32_symmetric_refuted.

(** What [==] decides: after moving entries of maps, at any depth, the values are identical up to the bits of
    NaNs and the sign of zero.  [same], the comparison without moving, is identity up to these bits. *)
Theorem C32_equal_iff : forall a b, uniq a = true ->
  (eqv a b = true <-> exists c, moved a c /\ level c = level b).
Proof. exact eqv_moved. Qed.
Print Assumptions C32_equal_iff.
Theorem C32_same_iff : forall a b, same a b = true <-> level a = level b.
Proof. exact same_level. Qed.
Print Assumptions C32_same_iff.
(** Two entries of a map in another order, one with a key -0 instead of 0, the other with another NaN inside. *)
Definition eq_left : property :=
  PMap (MGen (s2z "FloatProperty") (s2z "StructProperty") 0
    [(PNum F32 0, PBool true); (PNum F32 1065353216, PSValue (SFixed XVectorD [9221120237041090560; 0; 7]))]).
Definition eq_right : property :=
  PMap (MGen (s2z "FloatProperty") (s2z "StructProperty") 0
    [(PNum F32 1065353216, PSValue (SFixed XVectorD [9221120237041090561; 9223372036854775808; 7])); (PNum F32 2147483648, PBool true)]).
Example C32_equal_case : uniq eq_left = true /\ eqv eq_left eq_right = true /\ level eq_left <> level eq_right.
Proof. split; [|split]; [vm_compute; reflexivity..|vm_compute; discriminate]. Qed.
Example C32_same_case : level (PNum F64 0) = level (PNum F64 9223372036854775808) /\ level (PNum I64 0) <> level (PNum I64 9223372036854775808).
Proof. split; [reflexivity|discriminate]. Qed.

(** Maps keyed by properties are searched through hashes.  [real hit] is [==] with these searches; [hit] is only
    known to come across keys that feed the same bytes to the hasher. *)
Theorem C32_lookups : forall hit, (forall m k k', h_prop k = h_prop k' -> hit m k k' = true) ->
  forall a b, uniq a = true -> (same a b = true -> real hit a b = true) /\ (real hit a b = true -> eqv a b = true).
Proof. exact (fun hit F a b U => conj (proj1 (same_real hit F) a U b) (proj1 (real_eqv hit) a b)). Qed.
Print Assumptions C32_lookups.
(** If the keys hold nothing that could be reordered, the searches make no difference. *)
Theorem C32_lookups_exact : forall hit, (forall m k k', h_prop k = h_prop k' -> hit m k k' = true) ->
  forall a b, uniq a = true -> stiff_keys a -> (real hit a b = true <-> eqv a b = true).
Proof. exact (fun hit F a b U S => conj (proj1 (real_eqv hit) a b) (proj1 (eqv_real hit F) a U S b)). Qed.
Print Assumptions C32_lookups_exact.
(** Otherwise they can: here the search comes across keys with the same bytes only. *)
Definition by_hash (m : list (property * property)) (k k' : property) : bool := list_eqb Byte.eqb (h_prop k) (h_prop k').
Definition key_one : property := PSValue (SCustom [(s2z "x", [PBool true]); (s2z "y", [PBool false])]).
Definition key_two : property := PSValue (SCustom [(s2z "y", [PBool false]); (s2z "x", [PBool true])]).
Definition keyed (k : property) : property := PMap (MGen (s2z "StructProperty") (s2z "BoolProperty") 0 [(k, PBool true)]).
Theorem C32_lookups_exact_refuted : exists hit a b, (forall m k k', h_prop k = h_prop k' -> hit m k k' = true)
  /\ uniq a = true /\ eqv a b = true /\ real hit a b = false.
Proof.
  exists by_hash, (keyed key_one), (keyed key_two). split; [|split; [|split]; vm_compute; reflexivity].
  intros m k k' E. unfold by_hash. rewrite E. apply bytes_leaf. reflexivity.
Qed.
Print Assumptions C32_lookups_exact_refuted.
Example C32_lookups_case : uniq eq_left = true /\ stiff_keys eq_left /\ real by_hash eq_left eq_right = true.
Proof.
  split; [vm_compute; reflexivity|]. split; [|vm_compute; reflexivity].
  cbn. unfold stiff. repeat split; intros c H; inversion H; reflexivity.
Qed.

(** Custom structs are equal exactly when their fields are, in some order. *)
Theorem C32_fields_iff : forall l l', distinct str_eqb l = true ->
  eqv (PSValue (SCustom l)) (PSValue (SCustom l')) = true <->
  exists l'', Permutation l'' l' /\ Forall2 same_field l l''.
Proof. exact custom_eq_iff. Qed.
Print Assumptions C32_fields_iff.
(** Floats: same bits, both NaN, or both zero. *)
Theorem C32_floats : forall x y, 0 <= x < 2 ^ 32 -> 0 <= y < 2 ^ 32 ->
  eqv (PNum F32 x) (PNum F32 y) = true <-> (nan32 x /\ nan32 y) \/ x = y \/ (zero32 x /\ zero32 y).
Proof. exact f32_eq_iff. Qed.
Print Assumptions C32_floats.
Theorem C32_doubles : forall x y, 0 <= x < 2 ^ 64 -> 0 <= y < 2 ^ 64 ->
  eqv (PNum F64 x) (PNum F64 y) = true <-> (nan64 x /\ nan64 y) \/ x = y \/ (zero64 x /\ zero64 y).
Proof. exact f64_eq_iff. Qed.
Print Assumptions C32_doubles.

(** Hashing.  [same] is [eqv] with the order of entries respected; [h_prop] are the
    bytes fed to the hasher. *)
Theorem C32_hash_agrees : forall a b, same a b = true -> h_prop a = h_prop b.
Proof. exact (proj1 prop_hash). Qed.
Print Assumptions C32_hash_agrees.
(** The Hash contract is broken for every pair of structs differing in field order. *)
Theorem C32_order_equal : forall l l', Permutation l l' ->
  eqv (PSValue (SCustom l)) (PSValue (SCustom l')) = true.
Proof. exact perm_eqv. Qed.
Print Assumptions C32_order_equal.
Theorem C32_order_hashes_differ : forall l l',
  forallb (fun e => is_str (fst e)) l = true -> distinct str_eqb l = true -> Permutation l l' -> l <> l' ->
  h_prop (PSValue (SCustom l)) <> h_prop (PSValue (SCustom l')).
Proof. exact custom_order. Qed.
Print Assumptions C32_order_hashes_differ.
Theorem C32_hash_contract_refuted : exists a b, uniq a = true /\ eqv a b = true /\ h_prop a <> h_prop b.
Proof.
  exists (PSValue (SCustom [(s2z "x", [PBool true]); (s2z "y", [PBool true])])),
         (PSValue (SCustom [(s2z "y", [PBool true]); (s2z "x", [PBool true])])).
  split; [vm_compute; reflexivity|]. split; [vm_compute; reflexivity|]. vm_compute. discriminate.
Qed.
Print Assumptions C32_hash_contract_refuted.

Example C32_applies :
  eqv (PNum F32 2143289345) (PNum F32 4290772992) = true   (* two NaNs *)
  /\ eqv (PNum F64 0) (PNum F64 9223372036854775808) = true (* 0 and -0 *)
  /\ eqv (PNum F32 1) (PNum F32 2) = false
  /\ same (PNum F32 2143289345) (PNum F32 4290772992) = true
  /\ forallb (fun e => wf_prop o_sample (h_versions hdr4) eqv true [fst e] (snd e)) sample_props = true.
Proof.
  split; [vm_compute; reflexivity|]. split; [vm_compute; reflexivity|]. split; [vm_compute; reflexivity|].
  split; [vm_compute; reflexivity|vm_compute; reflexivity].
Qed.
