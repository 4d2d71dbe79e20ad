(** Claims C42 to C46: the JSON form of files. *)
From Coq Require Import ZArith List Bool String Lia.
From Verif Require Import Base Str Types Versions Text Props File Spec Samples Guid Device
  Json JsonSpec JsonFile JsonWell JsonBack JsonPanic JsonThm JsonSamples.
Import ListNotations.
Open Scope Z_scope.

(** C42.  A file whose fields are in the range of their Rust types ([t_file]) is
    turned into JSON and read back as itself exactly when it has no infinite and
    no NaN float; otherwise reading reports an error.  [hp] is the hashing of the
    maps being built, [calm] if it does not let keys collide that are equal only
    up to field order. *)
Theorem C42_round_trip : forall hp g, calm hp -> t_file same g = true ->
  from_json hp (to_json g) = if fin_file g then JOk g else JErr.
Proof. exact file_calm. Qed.
Print Assumptions C42_round_trip.
(** Without keys that are equal up to field order, for every hash function. *)
Theorem C42_any_hashing : forall hp g, t_file eqv g = true ->
  from_json hp (to_json g) = if fin_file g then JOk g else JErr.
Proof. exact file_any. Qed.
Print Assumptions C42_any_hashing.
(** The same for single properties. *)
Theorem C42_property : forall hp p, calm hp -> t_prop same p = true ->
  d_property hp (e_prop p) = if fin_prop p then JOk p else JErr.
Proof. exact property_calm. Qed.
Print Assumptions C42_property.
Theorem C42_property_any_hashing : forall hp p, t_prop eqv p = true ->
  d_property hp (e_prop p) = if fin_prop p then JOk p else JErr.
Proof. exact property_any. Qed.
Print Assumptions C42_property_any_hashing.
Theorem C42_injective : forall g g', t_file same g = true -> t_file same g' = true ->
  fin_file g = true -> fin_file g' = true -> to_json g = to_json g' -> g = g'.
Proof. exact json_injective. Qed.
Print Assumptions C42_injective.
(** With infinities and NaNs it is not injective: both become null. *)
Theorem C42_injective_refuted : exists g g', t_file same g = true /\ t_file same g' = true
  /\ to_json g = to_json g' /\ g <> g'.
Proof. exact not_injective. Qed.
Print Assumptions C42_injective_refuted.
(** A colliding hash function can lose an entry of a map. *)
Theorem C42_colliding_refuted : exists hp g, t_file same g = true /\ fin_file g = true
  /\ from_json hp (to_json g) <> JOk g.
Proof. exact json_merging. Qed.
Print Assumptions C42_colliding_refuted.

(** The sample without its NaN. *)
Definition finite_sample : gfile :=
  GFile (DPalworld CTwice) hdr5 (filter (fun e => fin_prop (snd e)) (snd sample)).
Example C42_applies :
  t_file eqv finite_sample = true /\ fin_file finite_sample = true
  /\ from_json still (to_json finite_sample) = JOk finite_sample
  /\ List.length (g_props finite_sample) = 25%nat.
Proof. vm_compute. repeat split. Qed.
(** The repository's own templates are read, and written again as they are. *)
Example C42_templates :
  forallb (fun '(_, j) => match d_property still j with JOk p => t_prop eqv p && fin_prop p | _ => false end) templates
  = true
  /\ map (fun '(_, j) => match d_property still j with JOk p => e_prop p | _ => JNull end) templates = map snd templates
  /\ len templates = 79.
Proof. split; [|split]; vm_compute; reflexivity. Qed.

(** C43.  Every loaded file, of any kind, turns into well-formed JSON, and reads
    back from it as the identical value (so it saves to the same bytes) exactly
    when it has no infinite and no NaN float. *)
Theorem C43_loaded : forall hp z o v b g, calm hp -> load z o v b = Ok g ->
  from_json hp (to_json g) = if fin_file g then JOk g else JErr.
Proof. exact loaded_json. Qed.
Print Assumptions C43_loaded.
Theorem C43_loaded_well_formed : forall z o v b g, load z o v b = Ok g -> j_ok (to_json g) = true.
Proof. exact loaded_well. Qed.
Print Assumptions C43_loaded_well_formed.
(** There are accepted save files whose JSON cannot be read back. *)
Theorem C43_all_refuted : exists z o b g,
  load z o GDefault b = Ok g /\ from_json still (to_json g) = JErr.
Proof. exact lost. Qed.
Print Assumptions C43_all_refuted.

Example C43_applies :
  let f := (hdr5, [(s2z "s", PStruct zero_guid (s2z "Vector") (SFixed XVectorD [0; 4607182418800017408; 1]))]) in
  load (Zlib (fun x => x) (fun x => (x, ZDone))) o_plain GDefault (bytes_of f) = Ok (GFile DDefault (fst f) (snd f))
  /\ fin_file (GFile DDefault (fst f) (snd f)) = true
  /\ e_prop (PStruct zero_guid (s2z "Vector") (SFixed XVectorD [0; 4607182418800017408; 1]))
     = JObj [(s2z "type", JStr (s2z "StructProperty")); (s2z "type_name", JStr (s2z "Vector"));
             (s2z "VectorD", JObj [(s2z "x", JFloat 0); (s2z "y", JFloat 4607182418800017408); (s2z "z", JFloat 1)])].
Proof. vm_compute. repeat split. Qed.

(** C44.  Whatever is read from JSON has all fields in the range of their types,
    and survives another round through JSON unless a float overflowed. *)
Theorem C44_typed : forall hp j g, j_fit j = true -> from_json hp j = JOk g -> t_file same g = true.
Proof. exact file_good. Qed.
Print Assumptions C44_typed.
Theorem C44_again : forall hp j g, calm hp -> j_fit j = true -> from_json hp j = JOk g ->
  from_json hp (to_json g) = if fin_file g then JOk g else JErr.
Proof. exact read_again. Qed.
Print Assumptions C44_again.
(** A finite number too large for a single-precision field is accepted and becomes
    infinite, and then cannot be read again. *)
Theorem C44_all_refuted : exists j g, j_ok j = true /\ from_json still j = JOk g
  /\ from_json still (to_json g) = JErr.
Proof. exact overflow. Qed.
Print Assumptions C44_all_refuted.
(** Integers are accepted for floats, and fields that were left out. *)
Example C44_applies :
  let j := JObj [(s2z "properties", JObj [(s2z "x", JObj [(s2z "value", JInt 3); (s2z "type", JStr (s2z "FloatProperty"))])]);
                 (s2z "header", e_header hdr4)] in
  j_ok j = true /\ from_json still j = JOk (one (PNum F32 1077936128)) /\ to_json (one (PNum F32 1077936128)) <> j.
Proof. split; [vm_compute; reflexivity|]. split; [vm_compute; reflexivity|]. vm_compute. discriminate. Qed.

(** C45.  The JSON of a file is well-formed (64-bit integers, finite floats, no
    repeated key), has the header and then the properties under their names and in
    their order; each carries its type. *)
Theorem C45_well_formed : forall sep g, t_file sep g = true -> j_ok (to_json g) = true.
Proof. exact file_well. Qed.
Print Assumptions C45_well_formed.
Theorem C45_shape : forall g, exists pre h l,
  to_json g = JObj (pre ++ [(s2z "header", h); (s2z "properties", JObj l)])
  /\ (pre = [] <-> g_version g = DDefault)
  /\ Forall2 (fun e f => fst e = fst f /\ snd e = e_prop (snd f)) l (g_props g).
Proof. exact file_shape. Qed.
Print Assumptions C45_shape.
Theorem C45_type : forall p, exists l, e_prop p = JObj ((s2z "type", JStr (json_type p)) :: l).
Proof. exact prop_tag. Qed.
Print Assumptions C45_type.
Example C45_concrete :
  j_ok (to_json (GFile DDefault (fst sample) (snd sample))) = true
  /\ e_prop (PNum F32 2143289345) = JObj [(s2z "type", JStr (s2z "FloatProperty")); (s2z "value", JNull)]
  /\ e_prop (PArray (ABytes (map z2b [0; 255]))) = JObj [(s2z "type", JStr (s2z "ArrayProperty")); (s2z "bytes", JStr (s2z "00ff"))]
  /\ e_prop (PStruct a_guid (s2z "T") (SGuid zero_guid))
     = JObj [(s2z "type", JStr (s2z "StructProperty")); (s2z "guid", JStr (s2z "01020304-0506-0708-090A-0B0C0D0E0F10"));
             (s2z "type_name", JStr (s2z "T")); (s2z "Guid", JStr (s2z "0"))]
  /\ e_prop (PMap (MGen (s2z "A") (s2z "B") 7 [(PBool true, PStr None)]))
     = JObj [(s2z "type", JStr (s2z "MapProperty")); (s2z "key_type", JStr (s2z "A")); (s2z "value_type", JStr (s2z "B"));
             (s2z "allocation_flags", JInt 7);
             (s2z "value", JArr [JArr [JObj [(s2z "type", JStr (s2z "BoolProperty")); (s2z "value", JBool true)];
                                       JObj [(s2z "type", JStr (s2z "StrProperty"))]]])]
  /\ e_header hdr5
     = JObj [(s2z "type", JStr (s2z "Version3")); (s2z "package_file_version", JInt 525);
             (s2z "package_file_version_ue5", JInt 1009);
             (s2z "engine_version", JObj [(s2z "major", JInt 5); (s2z "minor", JInt 2); (s2z "patch", JInt 1);
                (s2z "change_list", JInt 26001984); (s2z "branch", JStr (s2z "++UE5+Release-5.2"))]);
             (s2z "custom_version_format", JInt 3);
             (s2z "custom_versions", JObj [(guid_display (fst (nth 0 (h_versions hdr5) ([], 0))), JInt 30);
                                           (guid_display (fst (nth 1 (h_versions hdr5) ([], 0))), JInt 40)]);
             (s2z "save_game_class_name", JStr (s2z "/Script/Game.SaveGame"))].
Proof. vm_compute. repeat split. Qed.

(** C46.  Reading JSON panics only on a string or key that panics as a guid (C31);
    it contains a character outside of ASCII. *)
Theorem C46_panic : forall hp j, from_json hp j = JPanic ->
  exists s, occurs s j /\ guid_parse s = Panicked.
Proof. exact file_safe. Qed.
Print Assumptions C46_panic.
Theorem C46_ascii : forall hp j, j_fit j = true -> from_json hp j = JPanic ->
  exists s c, occurs s j /\ guid_parse s = Panicked /\ In c s /\ 128 <= c.
Proof. exact panic_char. Qed.
Print Assumptions C46_ascii.
(** Never on the JSON of a file. *)
Theorem C46_own : forall hp g, t_file eqv g = true -> from_json hp (to_json g) <> JPanic.
Proof. exact own_no_panic. Qed.
Print Assumptions C46_own.
(** Well-formed JSON that panics. *)
Theorem C46_never_refuted : exists j, j_ok j = true /\ forall hp, from_json hp j = JPanic.
Proof. exact panics. Qed.
Print Assumptions C46_never_refuted.
