(** C67: what the hasher sees of a value. *)
From Coq Require Import ZArith List Bool String.
From Verif Require Import Base Str Types Versions Text Props File Hash Spec Json JsonSpec HashSpec HashTell HashTellAll HashBlur HashCollide Samples.
Import ListNotations.
Open Scope Z_scope.

(** Values without maps in them are told apart, whatever is hashed after them, but for doubles
    that look alike to the hasher. *)
Theorem C67_flat_prefix : forall sep a b s t,
  flat a = true -> t_prop sep a = true -> t_prop sep b = true -> len (h_prop a ++ s) < 2 ^ 64 ->
  h_prop a ++ s = h_prop b ++ t -> same (blur a) (blur b) = true /\ s = t.
Proof. intros sep a b s t F A B. exact (proj1 (prop_tells sep) a F A b s t B). Qed.
Print Assumptions C67_flat_prefix.
Theorem C67_texts_prefix : forall a b s t,
  flat_text a = true -> t_text a = true -> t_text b = true -> len (h_text a ++ s) < 2 ^ 64 ->
  h_text a ++ s = h_text b ++ t -> text_eqb true (blur_text a) (blur_text b) = true /\ s = t.
Proof. intros a b s t F A B. exact (proj1 text_tells a F A b s t B). Qed.
Print Assumptions C67_texts_prefix.

(** So are values that end in a map of such values, and nothing else is told apart. *)
Theorem C67_told_apart : forall sep a b,
  ends_flat a = true -> t_prop sep a = true -> t_prop sep b = true -> len (h_prop a) < 2 ^ 64 ->
  (h_prop a = h_prop b <-> same (blur a) (blur b) = true).
Proof.
  intros sep a b F A B L. split; [exact (prop_ends sep a b F A B L)|]. intros E. apply (proj1 HashFacts.prop_hash) in E.
  rewrite (proj1 (prop_blur sep)), (proj1 (prop_blur sep)) in E; assumption.
Qed.
Print Assumptions C67_told_apart.

(** Doubles are not always told apart: among others 0 and 2^-1023 are hashed alike, as are NaN and
    -1.5 * 2^51. *)
Theorem C67_doubles_refuted :
  h_prop (PNum F64 0) = h_prop (PNum F64 2251799813685248) /\ eqv (PNum F64 0) (PNum F64 2251799813685248) = false
  /\ h_prop (PNum F64 9221120237041090560) = h_prop (PNum F64 14062489836464373760)
  /\ eqv (PNum F64 9221120237041090560) (PNum F64 14062489836464373760) = false
  /\ forallb (fun z => t_prop eqv (PNum F64 z)) [0; 2251799813685248; 9221120237041090560; 14062489836464373760] = true.
Proof. repeat split; vm_compute; reflexivity. Qed.
Print Assumptions C67_doubles_refuted.

(** Every variant is numbered by its place in the declaration, under the name it has in JSON. *)
Theorem C67_property_position : forall p, exists i r name l, h_prop p = h_disc (Z.of_nat i) ++ r
  /\ nth_error prop_order i = Some name /\ e_prop p = JObj ((s2z "type", JStr (s2z name)) :: l).
Proof. exact prop_position. Qed.
Print Assumptions C67_property_position.
Theorem C67_history_position : forall h, exists i r name l, h_hist h = h_disc (Z.of_nat i) ++ r
  /\ nth_error hist_order i = Some name /\ e_hist h = (s2z "history", JStr (s2z name)) :: l.
Proof. exact hist_position. Qed.
Print Assumptions C67_history_position.
Theorem C67_argument_position : forall a, exists i r name j, h_arg a = h_disc (Z.of_nat i) ++ r
  /\ nth_error arg_order i = Some name /\ e_arg a = JObj [(s2z name, j)].
Proof. exact arg_position. Qed.
Print Assumptions C67_argument_position.
Theorem C67_struct_position : forall v, exists i r name, h_sval v = h_disc (Z.of_nat i) ++ r
  /\ nth_error sval_order i = Some name /\ fst (e_sval v) = s2z name.
Proof. exact sval_position. Qed.
Print Assumptions C67_struct_position.

(** Structs inside structs are not told apart: the fields of a struct are hashed without their
    number, so it is not seen where an inner struct ends. *)
Theorem C67_nested_refuted : exists a b, t_prop eqv a = true /\ t_prop eqv b = true /\ len (h_prop a) < 2 ^ 64
  /\ h_prop a = h_prop b /\ eqv a b = false.
Proof.
  exists (key 1 1), (key 1 0). split; [apply key_typed|]. split; [apply key_typed|]. split; [vm_compute; reflexivity|].
  split; [apply key_stream; repeat constructor|]. apply key_differ. repeat constructor.
Qed.
Print Assumptions C67_nested_refuted.
(** There are arbitrarily many different keys that feed one and the same sequence of bytes to the
    hasher, whatever the hasher and its seed ... *)
Theorem C67_crowd : forall n, len (keys n) = Z.of_nat n + 1
  /\ (forall a b, In a (keys n) -> In b (keys n) -> h_prop a = h_prop b)
  /\ distinct eqv (map (fun k => (k, tt)) (keys n)) = true
  /\ forallb (t_prop eqv) (keys n) = true.
Proof. exact crowd_keys. Qed.
Print Assumptions C67_crowd.
(** ... and a file with a map of them is loaded. *)
Theorem C67_crowd_loads : forall n, Z.of_nat n <= 131071 -> exists b,
  save_plain (hdr4, [(s2z "m", PMap (MGen (s2z "StructProperty") (s2z "BoolProperty") 0
                       (map (fun k => (k, PBool true)) (keys n))))]) = Ok b
  /\ (len b < 4294967296 -> load_plain o_keys b
      = Ok (hdr4, [(s2z "m", PMap (MGen (s2z "StructProperty") (s2z "BoolProperty") 0
                     (map (fun k => (k, PBool true)) (keys n))))])).
Proof. exact crowd_loads. Qed.
Print Assumptions C67_crowd_loads.

(** The hypotheses of [C67_told_apart] are met by 24 of the 26 sample properties. *)
Example C67_applies :
  len (filter (fun e => ends_flat (snd e) && t_prop eqv (snd e) && (len (h_prop (snd e)) <? 2 ^ 64)) sample_props) = 24
  /\ ends_flat (PMap (MGen (s2z "StructProperty") (s2z "BoolProperty") 0
                       [(PSValue (SGuid a_guid), PBool true); (PSValue (SGuid zero_guid), PBool false)])) = true
  /\ h_prop (PNum I32 1) <> h_prop (PNum U32 1).
Proof. split; [vm_compute; reflexivity|]. split; [reflexivity|]. vm_compute. discriminate. Qed.
Example C67_crowd_applies : exists b, save_plain (crowd 3) = Ok b /\ len b = 915 /\ load_plain o_keys b = Ok (crowd 3)
  /\ len (keys 3) = 4.
Proof. eexists. split; [vm_compute; reflexivity|]. split; [vm_compute; reflexivity|]. split; vm_compute; reflexivity. Qed.
