(** Claims C18, C19, C20, C21, C38: what containers keep. *)
From Coq Require Import ZArith List Bool String Lia.
From Verif Require Import Base Str Types Versions Text Props File Spec Samples ReaderFacts ReadThm EqFacts
  DecodeProp DecodeMain DecodeFile MapFacts CtorThm OrderThm NamedThm.
Import ListNotations.
Open Scope Z_scope.

(** C18.  [elems] lists the elements of an array as plain properties. *)
Theorem C18_lossless : forall ty info l a, array_new ty info l = Ok a ->
  array_type a = ty /\ elems a = l
  /\ match info with
     | Some (f, t, g) => ty = kind_name KStruct /\ exists vs, a = AStructs f t g vs
     | None => is_structs a = false
     end.
Proof. exact array_new_ok. Qed.
Print Assumptions C18_lossless.
Theorem C18_same_bytes : forall ty l a vs, array_new ty None l = Ok a ->
  w_array vs a = w_array vs (AProps ty l).
Proof. exact array_new_bytes. Qed.
Print Assumptions C18_same_bytes.
(** Arrays of structs: count, shared header with the length of the elements, elements. *)
Theorem C18_struct_bytes : forall ty f t g l a vs, array_new ty (Some (f, t, g)) l = Ok a ->
  w_array vs a = match seqs (w_prop vs false) l with
                 | Fail x => Fail x
                 | Ok (b, n) =>
                   w_u32 (len l) +> w_string f +> w_string (s2z "StructProperty") +> w_u64 (len b)
                   +> w_string t +> w_guid g +> w_u8 0 +> emit b n
                 end.
Proof. exact array_new_struct_bytes. Qed.
Print Assumptions C18_struct_bytes.
(** When the constructor refuses. *)
Theorem C18_refuses_iff : forall ty info l, (forall a, array_new ty info l <> Ok a) <->
  info <> None /\ (ty <> kind_name KStruct \/ exists p, In p l /\ forall v, p <> PSValue v).
Proof. exact array_new_fails. Qed.
Print Assumptions C18_refuses_iff.
(** Specialised, generic and mixed lists, and an array of structs. *)
Example C18_applies :
  array_new (s2z "IntProperty") None [PNum I32 7; PNum I32 (-7)] = Ok (AInts [7; -7])
  /\ array_new (s2z "IntProperty") None [PNum I32 7; PBool true]
     = Ok (AProps (s2z "IntProperty") [PNum I32 7; PBool true])
  /\ array_new (s2z "NameProperty") None [PName 0 None; PName 4 None]
     = Ok (AProps (s2z "NameProperty") [PName 0 None; PName 4 None])
  /\ array_new (s2z "StructProperty") (Some (s2z "f", s2z "Guid", zero_guid)) [PSValue (SGuid a_guid)]
     = Ok (AStructs (s2z "f") (s2z "Guid") zero_guid [SGuid a_guid])
  /\ array_new (s2z "StructProperty") (Some (s2z "f", s2z "Guid", zero_guid)) [PBool true]
     = Fail (Err (ESerialize SArrayElem)).
Proof. repeat split; vm_compute; reflexivity. Qed.

(** C19.  A Rust map never holds a key twice, hence [distinct]. *)
Theorem C19_lossless : forall kt vt flags l, distinct same l = true ->
  map_key_type (map_new kt vt flags l) = kt /\ map_value_type (map_new kt vt flags l) = vt
  /\ mflags (map_new kt vt flags l) = flags /\ mentries (map_new kt vt flags l) = l.
Proof. exact map_new_ok. Qed.
Print Assumptions C19_lossless.
Theorem C19_same_bytes : forall kt vt flags l vs, distinct same l = true ->
  w_map vs (map_new kt vt flags l) = w_map vs (MGen kt vt flags l).
Proof. exact map_new_bytes. Qed.
Print Assumptions C19_same_bytes.
Example C19_applies :
  distinct same [(PStr (Some (s2z "b")), PNum I32 1); (PStr (Some (s2z "a")), PNum I32 2)] = true
  /\ map_new (s2z "StrProperty") (s2z "IntProperty") 0
       [(PStr (Some (s2z "b")), PNum I32 1); (PStr (Some (s2z "a")), PNum I32 2)]
     = MInt KkStr [(s2z "b", 1); (s2z "a", 2)]
  /\ map_new (s2z "StrProperty") (s2z "IntProperty") 1
       [(PStr (Some (s2z "b")), PNum I32 1); (PStr (Some (s2z "a")), PNum I32 2)]
     = MGen (s2z "StrProperty") (s2z "IntProperty") 1
         [(PStr (Some (s2z "b")), PNum I32 1); (PStr (Some (s2z "a")), PNum I32 2)]
  /\ map_new (s2z "StrProperty") (s2z "IntProperty") 0 [(PStr None, PNum I32 1)]
     = MGen (s2z "StrProperty") (s2z "IntProperty") 0 [(PStr None, PNum I32 1)].
Proof. repeat split; vm_compute; reflexivity. Qed.

(** C20.  [runs] are the entries found in the input; [collapsed]: one entry per
    distinct key, at its first position, with its last value.  [tame] excludes
    only an accidental hash collision of keys equal up to field order. *)
Theorem C20_order : forall o rp kt vt c p c', r_map o rp kt vt c = Ok (p, c') ->
  exists flags count c1 c2 l m,
    r_u32 c = Ok (flags, c1) /\ r_u32 c1 = Ok (count, c2)
    /\ runs (r_entry rp kt vt) c2 l c' /\ len l = count
    /\ p = PMap m
    /\ (tame o (map fst (map fst l)) ->
        map_key_type m = kt /\ map_value_type m = vt /\ mflags m = flags
        /\ collapsed same (map fst l) (mentries m)).
Proof. exact map_read. Qed.
Print Assumptions C20_order.
(** Without repeated keys nothing is lost. *)
Theorem C20_no_repeats : forall (l m : list (property * property)),
  apart_keys same (map fst l) -> collapsed same l m -> m = l.
Proof. exact (fun l m => collapsed_distinct same l m same_rf same_sy same_tr). Qed.
Print Assumptions C20_no_repeats.
(** The collapsed list is determined, has each key once and finds the last value. *)
Theorem C20_unique : forall (l m m' : list (property * property)),
  collapsed same l m -> collapsed same l m' -> m = m'.
Proof. exact (collapsed_unique same). Qed.
Print Assumptions C20_unique.
Definition map_file (l : list (property * property)) : list byte :=
  bytes_of (hdr4, [(s2z "m", PMap (MGen (s2z "IntProperty") (s2z "StrProperty") 0 l))]).
Example C20_applies :
  load_plain o_plain (map_file [(PNum I32 5, PStr (Some (s2z "x"))); (PNum I32 3, PStr None);
                                (PNum I32 5, PStr (Some (s2z "z")))])
  = Ok (hdr4, [(s2z "m", PMap (MGen (s2z "IntProperty") (s2z "StrProperty") 0
                 [(PNum I32 5, PStr (Some (s2z "z"))); (PNum I32 3, PStr None)]))])
  /\ (forall keys, tame o_plain keys).
Proof. split; [vm_compute; reflexivity|]. intros keys. left. reflexivity. Qed.
(** [tame] cannot be dropped: with colliding hashes the second of two keys that
    differ in field order only overwrites the first. *)
Theorem C20_any_hashing_refuted : exists o l, ~ collapsed same (map fst l) (mins_all o l).
Proof.
  exists (Opts true no_hints noisy),
    [(PSValue (SCustom [(s2z "x", [PBool true]); (s2z "y", [PBool true])]), PBool false, 0);
     (PSValue (SCustom [(s2z "y", [PBool true]); (s2z "x", [PBool true])]), PBool true, 0)].
  vm_compute. discriminate.
Qed.
Print Assumptions C20_any_hashing_refuted.

(** C21.  [named]: the properties found in the input, up to the name None. *)
Theorem C21_file_iff : forall o b h ps c, parse o b = Ok ((h, ps), c) <->
  exists c1 l, r_header (start b) = Ok (h, c1)
    /\ named (r_prop (S (List.length b)) o (h_versions h)) c1 l c /\ collapsed str_eqb l ps.
Proof. exact parse_iff. Qed.
Print Assumptions C21_file_iff.
Theorem C21_unique : forall (l m m' : list (str * property)),
  collapsed str_eqb l m -> collapsed str_eqb l m' -> m = m'.
Proof. exact (collapsed_unique str_eqb). Qed.
Print Assumptions C21_unique.
Theorem C21_no_repeats : forall (l m : list (str * property)),
  apart_keys str_eqb (map fst l) -> collapsed str_eqb l m -> m = l.
Proof. exact (fun l m => collapsed_distinct str_eqb l m str_rf str_sy str_tr). Qed.
Print Assumptions C21_no_repeats.
(** Any list of representable properties, names repeated or not, is read back as
    the collapsed list. *)
Theorem C21_written : forall o h l b q t, (forall p i, probe o p i = false) ->
  header_ok h = true ->
  forallb (fun '(name, p) => str_ok name && negb (str_eqb name (s2z "None"))
                             && wf_prop o (h_versions h) same true [name] p) l = true ->
  w_file (h, l) = Ok (b, q) -> len b < 4294967296 ->
  exists ps, load_plain o (b ++ t) = Ok (h, ps) /\ collapsed str_eqb l ps.
Proof. exact written_collapsed. Qed.
Print Assumptions C21_written.
Example C21_applies :
  let l := [(s2z "a", PNum I32 1); (s2z "b", PBool true); (s2z "a", PStr None)] in
  forallb (fun '(name, p) => str_ok name && negb (str_eqb name (s2z "None"))
                             && wf_prop o_plain (h_versions hdr4) same true [name] p) l = true
  /\ load_plain o_plain (bytes_of (hdr4, l)) = Ok (hdr4, [(s2z "a", PStr None); (s2z "b", PBool true)]).
Proof. split; [vm_compute; reflexivity|vm_compute; reflexivity]. Qed.

(** C38.  [grouped]: for each distinct name in order of first occurrence, its
    values in order; [indexed]: the n-th value of a name carries index n. *)
Theorem C38_read_iff : forall n o vs c g c', len (rest c) < Z.of_nat n ->
  r_custom n o (r_prop n o vs) [] c = Ok (g, c') <->
  exists l, named (r_prop n o vs) c l c' /\ (dbg o = true -> indexed l) /\ g = grouped l.
Proof. exact fields_iff. Qed.
Print Assumptions C38_read_iff.
Theorem C38_wrong_index_panics : forall n o vs c l c',
  len (rest c) < Z.of_nat n -> named (r_prop n o vs) c l c' ->
  dbg o = true -> ~ indexed l -> r_custom n o (r_prop n o vs) [] c = Fail (Panic PStructIndex).
Proof. exact fields_panic. Qed.
Print Assumptions C38_wrong_index_panics.
(** Saving writes every name with each of its values, group after group, then None. *)
Theorem C38_written_iff : forall vs g b,
  (exists q, w_sval vs (SCustom g) = Ok (b, q)) <->
  exists bss, Forall2 (field_bytes vs) (flatten g) bss /\ b = List.concat bss ++ str_bytes s_none.
Proof. exact custom_bytes. Qed.
Print Assumptions C38_written_iff.
Definition fields_of (l : list (str * property)) : list byte :=
  match seqs (fun '(k, p) => w_string k +> w_prop [] true p) l +> w_string s_none with
  | Ok (b, _) => b | Fail _ => [] end.
(** Interleaved fields, with right and wrong indices. *)
Example C38_applies :
  let good := [(s2z "a", PName 0 None); (s2z "b", PBool true); (s2z "a", PName 1 (Some (s2z "x")))] in
  let bad := [(s2z "a", PName 0 None); (s2z "b", PBool true); (s2z "a", PName 0 (Some (s2z "x")))] in
  (exists c, r_custom 1000 o_plain (r_prop 1000 o_plain []) [] (start (fields_of good))
   = Ok ([(s2z "a", [PName 0 None; PName 1 (Some (s2z "x"))]); (s2z "b", [PBool true])], c))
  /\ r_custom 1000 o_plain (r_prop 1000 o_plain []) [] (start (fields_of bad)) = Fail (Panic PStructIndex).
Proof. split; [eexists; vm_compute; reflexivity|vm_compute; reflexivity]. Qed.
