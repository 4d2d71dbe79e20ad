(** C77: a hint is asked for exactly where a struct of unstated type stands, under the names that lead to it.
    C78: hash collisions decide which keys are kept, and nothing else. *)
From Coq Require Import ZArith List Bool String.
From Verif Require Import Base Str Types Versions Text Props File Samples Spec HashFree HashSame WholeSave LostThm StrThm Grammar OpenBox AskSpec AskBack AskBox.
Import ListNotations.
Open Scope Z_scope.

(** C77.  [file_asks] (AskSpec.v) says in terms of bytes that the file, as far as [d], is one up to a struct
    in a set or map, and [way] are the names around it. *)
Theorem C77_iff : forall o b path p,
  load_plain o b = Fail (Err (EHint path p))
  <-> exists d t way, b = d ++ t /\ p = len d /\ path = dotted way /\ hints o path = None /\ file_asks (calm o) d way.
Proof. exact ask_iff. Qed.
Print Assumptions C77_iff.
(** In a container the content asks, and the position is one in the content. *)
Theorem C77_container : forall z o b path p,
  load z o GPalworld b = Fail (Err (EHint path p))
  <-> exists c n field x d t way, b = container c n field x /\ 0 <= n < 4294967296 /\ len field = 4
    /\ holds z n x c (d ++ t) /\ p = len d /\ path = dotted way /\ hints o path = None /\ file_asks (calm o) d way.
Proof. exact ask_box. Qed.
Print Assumptions C77_container.
(** The sample asks for the elements of its set; what stands before the first one makes it do so. *)
Example C77_applies : exists p,
  load_plain o_plain sample_bytes = Fail (Err (EHint (s2z "set.SetProperty.StructProperty") p))
  /\ load toy_zlib o_plain GPalworld (container CTwice 0 (le_bytes 4 0) (payload toy_zlib CTwice sample_bytes))
     = Fail (Err (EHint (s2z "set.SetProperty.StructProperty") p)).
Proof. eexists. split; vm_compute; reflexivity. Qed.
(** A map in a struct in a set.  The elements of the set are of type T by a hint; the value of the second
    entry of the map is the struct asked for. *)
Definition nested : list byte :=
  raw_file (s2z "a") (s2z "SetProperty")
    (opened 999 (str_bytes (s2z "StructProperty")) (u4 0 ++ u4 1
      ++ str_bytes (s2z "m") ++ str_bytes (s2z "MapProperty")
      ++ opened 999 (str_bytes (s2z "IntProperty") ++ str_bytes (s2z "StructProperty")) (u4 0 ++ u4 1 ++ u4 7))).
Definition o_nested : opts := Opts true (hint_at "a.SetProperty.StructProperty" "T" no_hints) quiet.
Example C77_nested : exists p,
  load_plain o_nested nested = Fail (Err (EHint (s2z "a.SetProperty.StructProperty.m.MapProperty.Value.StructProperty") p)).
Proof. eexists. vm_compute. reflexivity. Qed.
Example C77_nested_asks : exists d t way, nested = d ++ t
  /\ dotted way = s2z "a.SetProperty.StructProperty.m.MapProperty.Value.StructProperty" /\ file_asks (calm o_nested) d way.
Proof.
  destruct C77_nested as (p & E). apply C77_iff in E as (d & t & way & A & _ & B & _ & C). exists d, t, way. auto.
Qed.

(** C78.  Two loads of the same bytes with the same hints in the same build: whatever keys are taken for
    equal in each, they fail alike ... *)
Theorem C78_failures : forall o o', dbg o' = dbg o -> (forall path, hints o' path = hints o path) ->
  forall z v b f, load z o v b = Fail f <-> load z o' v b = Fail f.
Proof. exact hash_load. Qed.
Print Assumptions C78_failures.
(** ... or read the same header and stop at the same byte. *)
Theorem C78_successes : forall o o', dbg o' = dbg o -> (forall path, hints o' path = hints o path) ->
  forall b h ps c, parse o b = Ok (h, ps, c) -> exists ps', parse o' b = Ok (h, ps', c).
Proof.
  intros o o' D H b h ps c E. pose proof (hash_parse o o' D H b) as P. rewrite E in P.
  destruct (parse o' b) as [[[h' ps'] c']|f]; [|contradiction]. destruct P as (-> & ->). now exists ps'.
Qed.
Print Assumptions C78_successes.
(** The hashing is seen in what is read: two keys that differ in the order of their fields are kept, or the
    second replaces the value of the first. *)
Example C78_applies :
  let b := bytes_of twin_keys in let o' := Opts (dbg o_sample) (hints o_sample) noisy in
  load_plain o_sample b <> load_plain o' b
  /\ match load_plain o_sample b, load_plain o' b with Ok _, Ok _ => true | _, _ => false end = true
  /\ load_plain o_sample (firstn 150 b) = Fail (Err EEof) /\ load_plain o' (firstn 150 b) = Fail (Err EEof).
Proof. cbv zeta. split; [vm_compute; discriminate|]. split; [|split]; vm_compute; reflexivity. Qed.
(** ... and it is seen only where a map has two equal keys.  [uniq] (Spec.v): no two keys of a map are equal
    with the fields of structs in any order.  If the values read where no hash collides are so, they are what
    any hash function gives, and only if they are so. *)
Theorem C78_decides : forall o, (forall p i, probe o p i = false) -> forall b h ps c, parse o b = Ok (h, ps, c) ->
  (forallb (fun e => uniq (snd e)) ps = true
   <-> forall o', dbg o' = dbg o -> (forall path, hints o' path = hints o path) -> parse o' b = Ok (h, ps, c)).
Proof. exact hash_decides. Qed.
Print Assumptions C78_decides.
Theorem C78_same_values : forall o o', dbg o' = dbg o -> (forall path, hints o' path = hints o path) ->
  (forall p i, probe o p i = false) -> forall z v b f, load z o v b = Ok f ->
  forallb (fun e => uniq (snd e)) (g_props f) = true -> load z o' v b = Ok f.
Proof. exact load_near. Qed.
Print Assumptions C78_same_values.
(** If all equal keys hit each other, no two are kept. *)
Theorem C78_all_hits : forall o b h ps c, (forall p i, probe o p i = true) -> parse o b = Ok (h, ps, c) ->
  forallb (fun e => uniq (snd e)) ps = true.
Proof. exact loud_uniq. Qed.
Print Assumptions C78_all_hits.
(** The sample has unique keys and is read alike; the file above has not. *)
Example C78_sample :
  let o' := Opts (dbg o_sample) (hints o_sample) noisy in
  (exists h ps c, parse o_sample sample_bytes = Ok (h, ps, c) /\ ps <> [] /\ forallb (fun e => uniq (snd e)) ps = true)
  /\ load_plain o' sample_bytes = load_plain o_sample sample_bytes
  /\ match load_plain o_sample (bytes_of twin_keys), load_plain o' (bytes_of twin_keys) with
     | Ok f, Ok f' => forallb (fun e => uniq (snd e)) (snd f) = false /\ forallb (fun e => uniq (snd e)) (snd f') = true
     | _, _ => False
     end.
Proof.
  cbv zeta. split; [|split; [vm_compute; reflexivity|vm_compute; split; reflexivity]].
  destruct (parse o_sample sample_bytes) as [[[h ps] c]|] eqn:E; [|vm_compute in E; discriminate].
  exists h, ps, c. split; [reflexivity|]. vm_compute in E. injection E as _ <- _. split; [discriminate|vm_compute; reflexivity].
Qed.
