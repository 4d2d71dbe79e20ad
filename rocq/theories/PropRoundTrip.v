(** Claims C01, C02, C03, C26: loading and saving. *)
From Coq Require Import ZArith List Bool String Lia.
From Verif Require Import Base Str Types Versions Text Props File Spec Samples ReadThm
  RoundTrip Device Whole WholeSave.
Import ListNotations.
Open Scope Z_scope.

(** C01.  Whatever is accepted can be saved, onto any destination in any state,
    and reading the destination back from where the save started gives exactly
    the same value.  [pr] is the (arbitrary, independent) hashing of the second
    read; it is required to be free of collisions between keys that are equal
    only up to field order, unless the file has no such keys. *)
Theorem C01_load_save_load : forall z o pr v b g d,
  zlib_ok z \/ v = GDefault -> load z o v b = Ok g ->
  exists bytes d', save_plain (file_of g) = Ok bytes /\ save z g d = (Ok tt, d')
    /\ (len bytes < 4294967296 -> (forall p i, pr p i = false) \/ file_ok o eqv (file_of g) = true ->
        load z (with_probe o pr) v (skipn (at_ d) (content d')) = Ok g).
Proof. exact reload. Qed.
Print Assumptions C01_load_save_load.

(** The sample file (every kind of property, 2230 bytes) is accepted, and its
    keys are pairwise different. *)
Example C01_applies :
  load (Zlib (fun x => x) (fun x => (x, ZDone))) o_sample GDefault sample_bytes
  = Ok (GFile DDefault (fst sample) (snd sample))
  /\ file_ok o_sample eqv sample = true /\ len sample_bytes = 2230.
Proof. split; [vm_compute; reflexivity|]. split; vm_compute; reflexivity. Qed.

(** The condition on the hashing cannot be dropped: a file whose map has two keys
    that are equal up to field order loses an entry when their hashes collide. *)
Theorem C01_any_hashing_refuted : exists o pr b f b',
  load_plain o b = Ok f /\ save_plain f = Ok b' /\ len b' < 4294967296
  /\ load_plain (with_probe o pr) b' <> Ok f.
Proof. exact merging. Qed.
Print Assumptions C01_any_hashing_refuted.

(** C02.  A saved value reads back as itself exactly when it is representable
    ([file_ok], Spec.v). *)
Theorem C02_save_load_iff : forall o f b,
  (forall p i, probe o p i = false) -> save_plain f = Ok b -> len b < 4294967296 ->
  (load_plain o b = Ok f <-> file_ok o same f = true).
Proof. exact save_load_iff. Qed.
Print Assumptions C02_save_load_iff.

(** Every representable value can be saved. *)
Theorem C02_representable_saves : forall o f,
  file_ok o same f = true -> exists b, save_plain f = Ok b.
Proof. exact saves. Qed.
Print Assumptions C02_representable_saves.

(** Whatever the hashing: a value with keys that are pairwise different (as
    property equality sees it) reads back, and what reads back is representable. *)
Theorem C02_any_hashing : forall o f b,
  save_plain f = Ok b -> len b < 4294967296 ->
  (file_ok o eqv f = true -> load_plain o b = Ok f)
  /\ (load_plain o b = Ok f -> file_ok o same f = true).
Proof. exact save_load_any. Qed.
Print Assumptions C02_any_hashing.

(** Both sides of the equivalence are inhabited: the sample is representable;
    a property called None is saved without complaint but not representable. *)
Example C02_applies :
  file_ok o_sample same sample = true
  /\ file_ok o_plain same (hdr4, [(s2z "None", PBool true)]) = false
  /\ exists b, save_plain (hdr4, [(s2z "None", PBool true)]) = Ok b
               /\ load_plain o_plain b = Ok (hdr4, []).
Proof.
  split; [vm_compute; reflexivity|]. split; [vm_compute; reflexivity|].
  eexists. split; [vm_compute; reflexivity|vm_compute; reflexivity].
Qed.

(** C03.  Saving is canonical. *)
Theorem C03_fixed_point : forall o b f b1,
  (forall p i, probe o p i = false) ->
  load_plain o b = Ok f -> save_plain f = Ok b1 -> len b1 < 4294967296 ->
  exists f2, load_plain o b1 = Ok f2 /\ save_plain f2 = Ok b1.
Proof. exact fixed_point. Qed.
Print Assumptions C03_fixed_point.

Theorem C03_injective : forall o f f' b,
  file_ok o same f = true -> file_ok o same f' = true ->
  save_plain f = Ok b -> save_plain f' = Ok b -> len b < 4294967296 -> f = f'.
Proof. exact save_injective. Qed.
Print Assumptions C03_injective.

Example C03_applies : exists f b1,
  load_plain o_sample (sample_bytes ++ [Byte.x07]) = Ok f
  /\ save_plain f = Ok b1 /\ b1 = sample_bytes /\ len b1 < 4294967296.
Proof.
  exists sample, sample_bytes. split; [vm_compute; reflexivity|].
  split; [vm_compute; reflexivity|]. split; reflexivity.
Qed.

(** Without the representability condition saving is not injective. *)
Theorem C03_unconditional_refuted : exists f f' b,
  f <> f' /\ save_plain f = Ok b /\ save_plain f' = Ok b.
Proof. exact same_bytes. Qed.
Print Assumptions C03_unconditional_refuted.

(** C26.  A representable file written in any of the container modes (or none)
    reads back with the matching game version, and the mode is preserved. *)
Theorem C26_container_round_trip : forall z o g d d' b,
  zlib_ok z -> (forall p i, probe o p i = false) -> file_ok o same (file_of g) = true ->
  save_plain (file_of g) = Ok b -> len b < 4294967296 -> save z g d = (Ok tt, d') ->
  load z o (match g_version g with DDefault => GDefault | DPalworld _ => GPalworld end)
       (skipn (at_ d) (content d')) = Ok g.
Proof. exact container_round_trip. Qed.
Print Assumptions C26_container_round_trip.

(** A zlib meeting the contract exists (a marker byte before each data byte), and
    with it the sample survives each mode. *)
Example C26_applies : zlib_ok toy_zlib
  /\ forall c, load toy_zlib o_sample GPalworld
                 (content (snd (save toy_zlib (GFile (DPalworld c) (fst sample) (snd sample)) (Dev [] 0))))
               = Ok (GFile (DPalworld c) (fst sample) (snd sample)).
Proof. split; [exact toy_ok|]. intros []; vm_compute; reflexivity. Qed.
