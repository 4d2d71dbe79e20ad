(** Claims C27, C28, C29: what reaches the destination. *)
From Coq Require Import ZArith List Bool String Lia.
From Verif Require Import Base Str Types Versions Text Props File Spec Samples Device Whole WholeSave ShortWrite ShortThm.
Import ListNotations.
Open Scope Z_scope.

(** C27.  The fields of a container, with the bytes of "PlZ" and the mode spelled out. *)
Theorem C27_fields : forall z g d d' c, save z g d = (Ok tt, d') -> g_version g = DPalworld c ->
  exists b body tail, save_plain (file_of g) = Ok b
    /\ skipn (at_ d) (content d')
       = le_bytes 4 (len b) ++ le_bytes 4 (len body + 4) ++ map z2b [80; 108; 90]
         ++ [z2b (match c with CNone => 48 | CZlib => 49 | CTwice => 50 end)] ++ body ++ tail
    /\ body = match c with CNone => b | CZlib => deflate z b | CTwice => deflate z (deflate z b) end
    /\ (at_ d' = at_ d + 12 + List.length body)%nat.
Proof. exact frame_fields. Qed.
Print Assumptions C27_fields.
(** Reading uses the first length and the mode and ignores the second length. *)
Theorem C27_read : forall z o n field c x, 0 <= n < 4294967296 -> len field = 4 ->
  load z o GPalworld (le_bytes 4 n ++ field ++ plz_magic ++ le_bytes 1 (ctype_z c) ++ x)
  = match unpack z c n x with
    | Fail f => Fail f
    | Ok d => match load_plain o d with
              | Ok (h, ps) => Ok (GFile (DPalworld c) h ps)
              | Fail f => Fail f
              end
    end.
Proof. exact palworld_load. Qed.
Print Assumptions C27_read.
Theorem C27_bad_magic : forall z o pre m t, len pre = 8 -> len m = 3 -> m <> map z2b [80; 108; 90] ->
  load z o GPalworld (pre ++ m ++ t) = Fail (Err (EMagic m)).
Proof. exact bad_magic. Qed.
Print Assumptions C27_bad_magic.
Theorem C27_bad_mode : forall z o pre v t, len pre = 8 -> -128 <= v <= 127 -> (v < 48 \/ 50 < v) ->
  load z o GPalworld (pre ++ map z2b [80; 108; 90] ++ le_bytes 1 v ++ t) = Fail (Err (EEnum ETCompression v 12)).
Proof. exact bad_mode. Qed.
Print Assumptions C27_bad_mode.
(** The uncompressed container of the sample, written at offset 1. *)
Example C27_applies :
  let d' := snd (save toy_zlib (GFile (DPalworld CNone) (fst sample) (snd sample)) (Dev [Byte.xff] 1)) in
  fst (save toy_zlib (GFile (DPalworld CNone) (fst sample) (snd sample)) (Dev [Byte.xff] 1)) = Ok tt
  /\ firstn 13 (content d') = Byte.xff :: map z2b [182; 8; 0; 0; 186; 8; 0; 0; 80; 108; 90; 48]
  /\ len sample_bytes = 8 * 256 + 182.
Proof. split; [vm_compute; reflexivity|]. split; [vm_compute; reflexivity|vm_compute; reflexivity]. Qed.

(** C28.  A failed save has not touched the destination. *)
Theorem C28_failure : forall z g d f d', save z g d = (Fail f, d') ->
  d' = d /\ save_plain (file_of g) = Fail f.
Proof. exact save_fail. Qed.
Print Assumptions C28_failure.
(** A successful one has written one region, at the old position (zeros fill a gap
    between the old end and the old position), and stands right behind it. *)
Theorem C28_success : forall z g d d', save z g d = (Ok tt, d') ->
  exists bs, at_ d' = (at_ d + List.length bs)%nat
    /\ firstn (at_ d) (content d') = firstn (at_ d) (content d) ++ repeat Byte.x00 (at_ d - List.length (content d))
    /\ skipn (at_ d') (content d') = skipn (at_ d') (content d)
    /\ firstn (List.length bs) (skipn (at_ d) (content d')) = bs
    /\ exists b, save_plain (file_of g) = Ok b /\ bs = frame z (g_version g) b.
Proof. exact save_parts. Qed.
Print Assumptions C28_success.
(** A value that cannot be serialized, and one that can, over existing content. *)
Example C28_applies :
  save toy_zlib (GFile DDefault hdr4 [(s2z "v", PSValue (SGuid zero_guid))]) (Dev [Byte.x01; Byte.x02] 1)
  = (Fail (Err (ESerialize SStructHeader)), Dev [Byte.x01; Byte.x02] 1)
  /\ (let '(r, d') := save toy_zlib (GFile DDefault hdr4 []) (Dev (repeat Byte.x07 300) 5) in
      r = Ok tt /\ List.length (content d') = 300%nat /\ firstn 9 (content d') = repeat Byte.x07 5 ++ map z2b [71; 86; 65; 83]).
Proof. split; [vm_compute; reflexivity|]. vm_compute. split; [reflexivity|]. split; reflexivity. Qed.

(** C29.  On a destination whose calls may take only part of their data, saving
    ends with the same result and the same content as on one that takes all. *)
Theorem C29_save_delivers : forall s z cut g d, positive s -> whole cut ->
  fst (ssave s z cut g d) = fst (save z g (s_dev d))
  /\ s_dev (snd (ssave s z cut g d)) = snd (save z g (s_dev d)).
Proof. exact short_save. Qed.
Print Assumptions C29_save_delivers.
(** On one that may fail, a plain save delivers everything or reports the error and
    has delivered a beginning. *)
Theorem C29_failing : forall s z cut g d, g_version g = DDefault ->
  match ssave s z cut g d with
  | (Ok _, d') => exists b, save_plain (file_of g) = Ok b /\ s_dev d' = dwrite b (s_dev d)
  | (Fail e, d') => save_plain (file_of g) = Fail e /\ d' = d
      \/ exists b, save_plain (file_of g) = Ok b /\ e = Err EIo /\ put_some b (s_dev d) (s_dev d')
  end.
Proof. exact failing_save. Qed.
Print Assumptions C29_failing.
(** Headers written directly: the calls made spell the header ... *)
Theorem C29_header_calls : forall h, exists n, w_header h = Ok (calls_bytes (header_calls h), n).
Proof. exact header_calls_bytes. Qed.
Print Assumptions C29_header_calls.
(** ... all of it arrives if no bare write is cut short ... *)
Theorem C29_calls_deliver : forall s l, positive s ->
  (forall bs i k, In (WOnce bs) l -> s i = Some k -> (List.length bs <= k)%nat) ->
  forall d, exists d', run_calls s l d = (Ok tt, d') /\ s_dev d' = put (calls_bytes l) (s_dev d).
Proof. exact run_calls_ok. Qed.
Print Assumptions C29_calls_deliver.
(** ... otherwise success is reported although the tail of an ASCII string is missing. *)
Theorem C29_string_dropped : forall s t d, positive s -> is_ascii t = true -> t <> [] ->
  exists k d', (0 < k <= List.length t)%nat
    /\ (exists i, s i = Some k \/ k = List.length t)
    /\ run_calls s (string_calls t) d = (Ok tt, d')
    /\ s_dev d' = put (le_bytes 4 (len t + 1) ++ map z2b (firstn k t) ++ [Byte.x00]) (s_dev d).
Proof. exact string_dropped. Qed.
Print Assumptions C29_string_dropped.
Theorem C29_header_refuted : exists s h d', positive s
  /\ run_calls s (header_calls h) (SDev (Dev [] 0) 0) = (Ok tt, d')
  /\ content (s_dev d') <> calls_bytes (header_calls h).
Proof.
  exists (fun _ => Some 1%nat), hdr4. eexists. split; [intros i; exists O; reflexivity|].
  split; [vm_compute; reflexivity|]. vm_compute. discriminate.
Qed.
Print Assumptions C29_header_refuted.
(** A destination taking one, two or three bytes per call. *)
Example C29_applies :
  let s := fun i => Some (S (i mod 3)) in
  positive s
  /\ content (s_dev (snd (ssave s toy_zlib (Cutter (fun x => [x]) (fun _ => []) (fun _ _ => [])) (GFile DDefault hdr4 []) (SDev (Dev [] 0) 0))))
     = bytes_of (hdr4, []).
Proof. split; [intros i; eexists; reflexivity|vm_compute; reflexivity]. Qed.
