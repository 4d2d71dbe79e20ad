(** Claim C55: editing sessions. *)
From Coq Require Import ZArith List Bool String Lia Relations.
From Verif Require Import Base Str Types Versions Text Props File Spec Samples Patch Device Whole WholeSave Session.
Import ListNotations.
Open Scope Z_scope.

(** * C55: what is edited in a loaded file is what is read back *)

(** A loaded file is changed by any number of steps ([session], Session.v): values
    replaced by others that fit their type, elements, entries and fields removed, fields
    added, anywhere in the tree.  Then it can be saved, and reading gives exactly the
    edited properties (if the hashing is free of collisions between keys that differ only
    in field order, or the file has none). *)
Theorem C55_session : forall o b h ps ps',
  load_plain o b = Ok (h, ps) -> session (h_versions h) ps ps' ->
  exists b', save_plain (h, ps') = Ok b'
    /\ (len b' < 4294967296 -> (forall p i, probe o p i = false) \/ file_ok o eqv (h, ps) = true ->
        load_plain o b' = Ok (h, ps')).
Proof. exact session_reload. Qed.
Print Assumptions C55_session.
(** The same for every container, onto any destination. *)
Theorem C55_container : forall z o v b w h ps ps' d, zlib_ok z -> (forall p i, probe o p i = false) ->
  load z o v b = Ok (GFile w h ps) -> session (h_versions h) ps ps' ->
  exists bytes d', save_plain (h, ps') = Ok bytes /\ save z (GFile w h ps') d = (Ok tt, d')
    /\ (len bytes < 4294967296 -> load z o v (skipn (at_ d) (content d')) = Ok (GFile w h ps')).
Proof. exact session_container. Qed.
Print Assumptions C55_container.

(** Two steps on the sample: a property is removed, another added. *)
Example C55_applies :
  exists a b c d e, sample_props = [a; b; c; d] ++ e
  /\ session (h_versions hdr4) sample_props ([b; c; d; (s2z "new", PStr (Some (s2z "added")))] ++ e)
  /\ load_plain o_sample sample_bytes = Ok (hdr4, sample_props).
Proof.
  do 5 eexists. split; [reflexivity|]. split; [|vm_compute; reflexivity].
  eapply rt_trans; [apply rt_step; apply (StepDrop _ [])|]. cbn [app]. apply rt_step.
  match goal with |- step _ (?b :: ?c :: ?d :: ?e) _ => apply (StepAdd _ [b; c; d] _ _ e) end.
  - reflexivity.
  - discriminate.
  - repeat (constructor; [vm_compute; discriminate|]). constructor.
  - now constructor.
Qed.
(** A value inside an array of structs inside a struct. *)
Example C55_deep :
  let field n := SCustom [(s2z "hp", [PNum I32 n]); (s2z "tag", [PName 0 None])] in
  let file n := [(s2z "team", PStruct zero_guid (s2z "Team") (SCustom
    [(s2z "members", [PArray (AStructs (s2z "members") (s2z "Hero") zero_guid [field 1; field n])])]))] in
  session (h_versions hdr4) (file 7) (file 99)
  /\ load_plain o_plain (bytes_of (hdr4, file 7)) = Ok (hdr4, file 7) /\ file 7 <> file 99.
Proof.
  cbv zeta. split; [|split; [vm_compute; reflexivity|discriminate]].
  apply rt_step. apply (StepIn _ []). apply RInStruct. apply (RInField _ _ [] [] [] []).
  match goal with |- revise _ (PartP true (PArray (AStructs _ _ _ [?a; _]))) _ => apply (RInStructs _ _ _ _ _ [a] []) end.
  apply (RInField _ _ [] [] []). apply RSet. now constructor.
Qed.

(** What the steps leave out does not survive in general.  Removing the entry with the
    null key from a map that is generic only because of it ... *)
Theorem C55_drop_null_key_refuted : exists o b h l1 k v l2 b',
  null_key k = true /\ load_plain o b = Ok (h, null_map (l1 ++ (k, v) :: l2))
  /\ save_plain (h, null_map (l1 ++ l2)) = Ok b'
  /\ exists ps, load_plain o b' = Ok (h, ps) /\ ps <> null_map (l1 ++ l2).
Proof. exact drop_null. Qed.
Print Assumptions C55_drop_null_key_refuted.
(** ... removing the last element of an array of named bytes ... *)
Theorem C55_drop_last_byte_refuted : exists o b h p b',
  load_plain o b = Ok (h, byte_array [p]) /\ save_plain (h, byte_array []) = Ok b'
  /\ exists ps, load_plain o b' = Ok (h, ps) /\ ps <> byte_array [].
Proof. exact drop_last_byte. Qed.
Print Assumptions C55_drop_last_byte_refuted.
(** ... and changing the length of one raw element of a set. *)
Theorem C55_raw_length_refuted : exists o b h r r' b',
  load_plain o b = Ok (h, one_raw r) /\ save_plain (h, one_raw r') = Ok b' /\ load_plain o b' <> Ok (h, one_raw r').
Proof. exact raw_length. Qed.
Print Assumptions C55_raw_length_refuted.
