(** Claim C60: saving to a destination that fails. *)
From Coq Require Import ZArith List Bool String Lia.
From Verif Require Import Base Str Types Versions Text Props File Spec Samples Device Whole WholeSave ShortWrite ShortThm LostThm.
Import ListNotations.
Open Scope Z_scope.

(** C60.  Any call on the destination (writes, seeks, position queries) may fail or,
    for writes, take only part.  Unless the file is compressed twice, success means
    that the destination holds what a faultless one would. *)
Theorem C60_reported : forall s z cut g d d', whole cut -> g_version g <> DPalworld CTwice ->
  ssave s z cut g d = (Ok tt, d') -> save z g (s_dev d) = (Ok tt, s_dev d').
Proof. exact reported. Qed.
Print Assumptions C60_reported.
(** After compressing twice, success means that the pieces written before the inner
    encoder was dropped are there; the rest may be missing.  The length field tells
    how much is there. *)
Theorem C60_twice : forall s z cut g d d', whole cut -> g_version g = DPalworld CTwice ->
  ssave s z cut g d = (Ok tt, d') ->
  exists b p, save_plain (file_of g) = Ok b
    /\ s_dev d' = dwrite (container CTwice (len b) (le_bytes 4 (len p + 4)) p) (s_dev d)
    /\ begins p (deflate z (deflate z b))
    /\ begins (List.concat (early cut (deflate z (deflate z b)))) p.
Proof. exact twice. Qed.
Print Assumptions C60_twice.
(** A reported failure is the serialization error, with the destination untouched,
    or an I/O error after a beginning of the file, its length field possibly
    unfinished, was written.  (A compressor may have added bytes of its own.) *)
Theorem C60_stops : forall s z cut g d e d', ssave s z cut g d = (Fail e, d') ->
  save_plain (file_of g) = Fail e /\ d' = d
  \/ exists b, save_plain (file_of g) = Ok b /\ e = Err EIo /\
      match g_version g with
      | DDefault => put_some b (s_dev d) (s_dev d')
      | DPalworld c => exists field x p, len field = 4 /\ (c = CNone -> x = b)
          /\ begins p (container c (len b) field x)
          /\ content (s_dev d') = content (put p (s_dev d))
      end.
Proof. exact save_stops. Qed.
Print Assumptions C60_stops.
(** An interrupted save to an empty destination leaves nothing that loads as
    something else: plain files ... *)
Theorem C60_crash_plain : forall s z cut g n o g0 b d' r, g_version g = DDefault ->
  save_plain (file_of g) = Ok b -> load z o GDefault b = Ok g0 ->
  ssave s z cut g (SDev (Dev [] 0) n) = (r, d') ->
  load z o GDefault (content (s_dev d')) = Ok g0
  \/ r = Fail (Err EIo) /\ load z o GDefault (content (s_dev d')) = Fail (Err EEof).
Proof. exact crash_plain. Qed.
Print Assumptions C60_crash_plain.
(** ... uncompressed containers ... *)
Theorem C60_crash_none : forall s z cut g n o g0 b d' r, zlib_more z -> g_version g = DPalworld CNone -> whole cut ->
  save_plain (file_of g) = Ok b -> load z o GPalworld (frame z (g_version g) b) = Ok g0 ->
  ssave s z cut g (SDev (Dev [] 0) n) = (r, d') ->
  forall g', load z o GPalworld (content (s_dev d')) = Ok g' -> g' = g0.
Proof. exact crash_none. Qed.
Print Assumptions C60_crash_none.
(** ... and what the unreported failure leaves. *)
Theorem C60_twice_loads : forall s z cut g n o g0 b d', zlib_more z -> g_version g = DPalworld CTwice -> whole cut ->
  save_plain (file_of g) = Ok b -> load z o GPalworld (frame z (g_version g) b) = Ok g0 ->
  ssave s z cut g (SDev (Dev [] 0) n) = (Ok tt, d') ->
  forall g', load z o GPalworld (content (s_dev d')) = Ok g' -> g' = g0.
Proof. exact twice_loads. Qed.
Print Assumptions C60_twice_loads.

(** An encoder that writes everything when it is dropped, and one that writes the
    first byte before. *)
Definition all_late := Cutter (fun _ => []) (fun x => [x]) (fun _ _ => []).
Definition one_early := Cutter (fun x => [firstn 1 x]) (fun x => [skipn 1 x]) (fun x _ => [x]).
(** Call [n] fails, the others take up to 4000 bytes. *)
Definition fails_at (n : nat) : schedule := fun i => if Nat.eqb i n then None else Some 4000%nat.
(** Success is not enough for files compressed twice: the sixth call, the only one
    for the payload, fails; the save succeeds and its result does not load. *)
Theorem C60_twice_refuted : exists s z cut g d', whole cut /\ zlib_ok z
  /\ ssave s z cut g (SDev (Dev [] 0) 0) = (Ok tt, d')
  /\ save z g (Dev [] 0) <> (Ok tt, s_dev d')
  /\ len (content (s_dev d')) = 12
  /\ (forall o, load z o GPalworld (content (s_dev d')) = Fail (Err EEof))
  /\ exists o, load z o GPalworld (content (snd (save z g (Dev [] 0)))) = Ok g.
Proof.
  exists (fails_at 5), toy_zlib, all_late, (GFile (DPalworld CTwice) hdr4 []).
  eexists. split; [intros x; cbn; apply app_nil_r|]. split; [exact toy_ok|].
  split; [vm_compute; reflexivity|]. split; [vm_compute; discriminate|]. split; [vm_compute; reflexivity|].
  split; [intros o; vm_compute; reflexivity|]. exists o_sample. vm_compute. reflexivity.
Qed.
Print Assumptions C60_twice_refuted.
(** Each claim has cases: saves that succeed although calls take 1 to 3 bytes, and
    saves that stop in the length, the position query, the payload and the seek. *)
Example C60_applies :
  whole all_late /\ whole one_early /\ zlib_more toy_zlib
  /\ (forall c, fst (ssave (fun i => Some (S (i mod 3))) toy_zlib one_early (GFile (DPalworld c) hdr4 [])
                       (SDev (Dev [Byte.xff] 1) 0)) = Ok tt)
  /\ ssave (fails_at 0) toy_zlib one_early (GFile (DPalworld CNone) hdr4 []) (SDev (Dev [Byte.xff] 1) 0)
     = (Fail (Err EIo), SDev (Dev [Byte.xff] 1) 1)
  /\ ssave (fails_at 1) toy_zlib one_early (GFile (DPalworld CNone) hdr4 []) (SDev (Dev [Byte.xff] 1) 0)
     = (Fail (Err EIo), SDev (Dev (Byte.xff :: le_bytes 4 (len (bytes_of (hdr4, [])))) 5) 2)
  /\ (let '(r, d') := ssave (fails_at 5) toy_zlib one_early (GFile (DPalworld CZlib) hdr4 []) (SDev (Dev [] 0) 0) in
      r = Fail (Err EIo) /\ len (content (s_dev d')) = 13 + 2 * len (bytes_of (hdr4, [])))
  /\ (let '(r, d') := ssave (fails_at 7) toy_zlib one_early (GFile (DPalworld CNone) hdr4 []) (SDev (Dev [] 0) 0) in
      r = Fail (Err EIo) /\ content (s_dev d') = container CNone (len (bytes_of (hdr4, []))) (le_bytes 4 0) (bytes_of (hdr4, [])))
  /\ load toy_zlib o_sample GPalworld (container CNone (len (bytes_of (hdr4, []))) (le_bytes 4 0) (bytes_of (hdr4, [])))
     = Ok (GFile (DPalworld CNone) hdr4 [])
  /\ fst (ssave (fun i => if Nat.leb i 40 then Some 1%nat else None) toy_zlib one_early (GFile DDefault hdr4 []) (SDev (Dev [] 0) 0))
     = Fail (Err EIo)
  /\ load toy_zlib o_sample GDefault (bytes_of (hdr4, [])) = Ok (GFile DDefault hdr4 []).
Proof.
  split; [intros x; cbn; apply app_nil_r|]. split; [intros x; cbn; rewrite !app_nil_r; apply (firstn_skipn 1)|].
  split; [apply toy_more|]. split; [intros []; vm_compute; reflexivity|].
  repeat split; vm_compute; reflexivity.
Qed.
