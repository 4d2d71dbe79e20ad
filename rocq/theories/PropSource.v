(** Claim C53: sources that deliver their data in pieces, or fail. *)
From Coq Require Import ZArith List Bool String Lia.
From Verif Require Import Base Str Types Versions Text Props File Spec Samples ShortWrite Source SourceThm.
Import ListNotations.
Open Scope Z_scope.

(** * C53: loading does not depend on how the source delivers the data *)

(** Any number of bytes a call ([s]), buffers of any size ([buf]), any amount of
    compressed data read ahead ([enough]). *)
Theorem C53_pieces : forall s buf z enough o v b c, always s -> (forall i, (0 < buf i)%nat) ->
  fst (load_src s buf z enough o v (Src b 0 c)) = load z o v b.
Proof. exact any_source_start. Qed.
Print Assumptions C53_pieces.
(** The same from anywhere in a stream; only the position in one error moves
    ([placed], SourceThm.v). *)
Theorem C53_anywhere : forall s buf z enough o v d, always s -> (forall i, (0 < buf i)%nat) ->
  placed (r_pos d) (load z o v (r_left d)) (fst (load_src s buf z enough o v d)).
Proof. exact any_source. Qed.
Print Assumptions C53_anywhere.
(** A failing call always makes loading fail, with an I/O error, or in one case, the
    position of an unknown compression type, by losing that position ([spoilt],
    SourceThm.v); calls that would fail but are not made do not matter. *)
Theorem C53_failure : forall s buf z enough o v d, honest s -> (forall i, (0 < buf i)%nat) ->
  let '(r, d') := load_src s buf z enough o v d in
  (failing s d d' -> spoilt (load z o v (r_left d)) r)
  /\ (~ failing s d d' -> placed (r_pos d) (load z o v (r_left d)) r).
Proof. exact failing_source. Qed.
Print Assumptions C53_failure.
(** The source is only read forwards.  A plain file takes everything up to the end of
    the source, an uncompressed container twelve bytes and its payload. *)
Theorem C53_consumed : forall s buf z enough o v d, honest s -> (forall i, (0 < buf i)%nat) ->
  let '(r, d') := load_src s buf z enough o v d in
  later d d'
  /\ forall g, r = Ok g ->
     match g_version g with
     | DDefault => r_left d' = []
     | DPalworld CNone => exists b, r_pos d' = r_pos d + 12 + len b /\ load_plain o b = Ok (g_header g, g_props g)
     | _ => True
     end.
Proof. exact consumed. Qed.
Print Assumptions C53_consumed.

(** Pieces of one, two and three bytes, a source that fails at the eighth call, and a
    container in the middle of a stream with something behind it. *)
Example C53_applies :
  let z := Zlib (fun x => x) (fun x => (x, ZDone)) in
  let s := fun i => Some (S (i mod 3)) in
  let s8 := fun i => if (i =? 7)%nat then None else Some (S (i mod 3)) in
  let s12 := fun i => if (i =? 9)%nat then None else Some (S (i mod 3)) in
  let box := le_bytes 4 (len sample_bytes) ++ le_bytes 4 0 ++ plz_magic ++ le_bytes 1 (ctype_z CNone) ++ sample_bytes in
  let bad := le_bytes 4 3 ++ le_bytes 4 0 ++ plz_magic ++ le_bytes 1 7 in
  always s /\ honest s8
  /\ fst (load_src s (fun _ => 32%nat) z (fun _ => O) o_sample GDefault (Src sample_bytes 0 0))
     = Ok (GFile DDefault (fst sample) (snd sample))
  /\ load_src s (fun _ => 32%nat) z (fun _ => O) o_sample GPalworld (Src (box ++ plz_magic) 100 0)
     = (Ok (GFile (DPalworld CNone) (fst sample) (snd sample)), Src plz_magic (112 + len sample_bytes) 1125)
  /\ load_src s8 (fun _ => 32%nat) z (fun _ => O) o_sample GPalworld (Src box 0 0)
     = (Fail (Err EIo), Src (skipn 9 box) 9 8)
  /\ fst (load_src s (fun _ => 32%nat) z (fun _ => O) o_sample GPalworld (Src bad 100 0))
     = Fail (Err (EEnum ETCompression 7 112))
  /\ load_src s12 (fun _ => 32%nat) z (fun _ => O) o_sample GPalworld (Src bad 100 0)
     = (Fail (Err (EEnum ETCompression 7 0)), Src [] 112 10).
Proof.
  cbv zeta. split; [intros i; eexists; reflexivity|].
  split; [intros i; destruct (i =? 7)%nat; discriminate|].
  vm_compute. repeat split.
Qed.
