(** Claims C04, C05, C06, C12, C22, C23, C24, C34, C35, C39: how reading behaves. *)
From Coq Require Import ZArith List Bool String Lia.
From Verif Require Import Base Str Types Versions Text Props File Spec Samples ReaderFacts Sane ReadThm
  RoundTrip Device Whole WholeSave HintRel HintThm HintPath Panics.
Import ListNotations.
Open Scope Z_scope.

(** C04.  [c] is where the parser stopped in the accepted bytes [b]. *)
Theorem C04_truncation : forall o b f c n, parse o b = Ok (f, c) ->
  load_plain o (firstn n b) = if pos c <=? Z.of_nat n then Ok f else Fail (Err EEof).
Proof. exact truncated. Qed.
Print Assumptions C04_truncation.
(** The sample is parsed up to its last 4 bytes (the padding). *)
Example C04_applies : exists c, parse o_sample sample_bytes = Ok (sample, c) /\ pos c = len sample_bytes - 4.
Proof. eexists. split; vm_compute; reflexivity. Qed.

(** C05.  Anything but running out of input is final. *)
Theorem C05_suffix_ignored : forall o b t, load_plain o b <> Fail (Err EEof) ->
  load_plain o (b ++ t) = load_plain o b.
Proof. exact load_extend. Qed.
Print Assumptions C05_suffix_ignored.
(** An accepted read depends on the bytes up to where it stops only. *)
Theorem C05_prefix_decides : forall o b f c, parse o b = Ok (f, c) ->
  exists bs, b = bs ++ rest c /\ pos c = len bs /\ stk c = []
    /\ forall t, parse o (bs ++ t) = Ok (f, Cur (len bs) t []).
Proof. exact parse_consumed. Qed.
Print Assumptions C05_prefix_decides.
(** The same for containers, for decoders that ignore what follows their stream and take a
    cut stream for an error. *)
Theorem C05_container_suffix : forall z o v b g t, zlib_more z /\ zlib_strict z \/ v = GDefault ->
  load z o v b = Ok g -> load z o v (b ++ t) = Ok g.
Proof. exact load_more_strict. Qed.
Print Assumptions C05_container_suffix.
(** If a cut stream merely ends early for the decoder, then with more bytes a container that is
    compressed twice may become an error, but never another file. *)
Theorem C05_container_lenient : forall z o v b g t, zlib_more z \/ v = GDefault -> load z o v b = Ok g ->
  load z o v (b ++ t) = Ok g
  \/ ~ zlib_strict z /\ g_version g = DPalworld CTwice /\ load z o v (b ++ t) = Fail (Err EIo).
Proof. exact load_more. Qed.
Print Assumptions C05_container_lenient.
(** It may: the end of the inner stream is missing, which goes unnoticed, and what is
    appended is noticed. *)
Theorem C05_container_lenient_refuted : exists z o b g t, zlib_ok z /\ zlib_more z
  /\ load z o GPalworld b = Ok g /\ load z o GPalworld (b ++ t) = Fail (Err EIo).
Proof.
  exists toy_zlib, o_sample, (le_bytes 4 0 ++ le_bytes 4 0 ++ plz_magic ++ le_bytes 1 (ctype_z CTwice)
    ++ removelast (pack (removelast (pack (bytes_of (hdr4, [])))))).
  exists (GFile (DPalworld CTwice) hdr4 []), [Byte.x01; Byte.xff]. split; [exact toy_ok|]. split; [exact toy_more|].
  split; vm_compute; reflexivity.
Qed.
Print Assumptions C05_container_lenient_refuted.
(** Accepted, rejected and panicking inputs all qualify; decoders meeting the
    contracts exist. *)
Example C05_applies :
  load_plain o_sample sample_bytes <> Fail (Err EEof)
  /\ load_plain o_plain sample_bytes <> Fail (Err EEof)
  /\ load_plain o_plain (panic_input PGender) <> Fail (Err EEof)
  /\ zlib_ok strict_zlib /\ zlib_more strict_zlib /\ zlib_strict strict_zlib /\ zlib_more toy_zlib /\ ~ zlib_strict toy_zlib.
Proof.
  split; [vm_compute; discriminate|]. split; [vm_compute; discriminate|]. split; [vm_compute; discriminate|].
  split; [exact strict_ok|]. split; [exact strict_more|]. split; [exact strict_strict|]. split; [exact toy_more|].
  intros S. now apply (S []).
Qed.

(** C06.  The fuel of the model never runs out: nesting and repetition are bounded
    by the input length, and any larger bound gives the same answer. *)
Theorem C06_terminates : forall z o v b, load z o v b <> Fail Oof.
Proof. exact load_ends. Qed.
Print Assumptions C06_terminates.
Theorem C06_bound : forall o b n, (List.length b < n)%nat -> r_file n o (Cur 0 b []) = parse o b.
Proof. exact fuel_enough. Qed.
Print Assumptions C06_bound.
Example C06_applies : r_file 3000 o_sample (Cur 0 sample_bytes []) = parse o_sample sample_bytes.
Proof. apply C06_bound. apply Nat.ltb_lt. vm_compute. reflexivity. Qed.

(** C12. *)
Theorem C12_header_never_panics : forall c s, r_header c <> Fail (Panic s).
Proof. exact header_no_panic. Qed.
Print Assumptions C12_header_never_panics.
Theorem C12_header_terminates : forall c, r_header c <> Fail Oof.
Proof. exact header_terminates. Qed.
Print Assumptions C12_header_terminates.

(** C22. *)
Theorem C22_more_hints : forall z o o' v b,
  dbg o' = dbg o /\ probe o' = probe o
  /\ (forall path ty, hints o path = Some ty -> hints o' path = Some ty) ->
  (forall path p, load z o v b <> Fail (Err (EHint path p))) -> load z o' v b = load z o v b.
Proof. exact load_any_hints. Qed.
Print Assumptions C22_more_hints.
Example C22_applies : forall path p,
  load toy_zlib o_sample GDefault sample_bytes <> Fail (Err (EHint path p)).
Proof. intros path p. vm_compute. discriminate. Qed.

(** C23.  The reported path has no hint, and the position lies in the input. *)
Theorem C23_missing : forall o b path p, load_plain o b = Fail (Err (EHint path p)) ->
  hints o path = None /\ 0 <= p <= len b.
Proof. exact hint_missing. Qed.
Print Assumptions C23_missing.
(** Supplying that hint gets the next read strictly past [p]; any further missing
    hint is for another path, further on. *)
Theorem C23_progress : forall o o' b path p ty,
  dbg o' = dbg o /\ probe o' = probe o
  /\ (forall q t, hints o q = Some t -> hints o' q = Some t) ->
  hints o' path = Some ty -> load_plain o b = Fail (Err (EHint path p)) ->
  match parse o' b with
  | Ok (_, c) => p < pos c
  | Fail (Err (EHint path' p')) => p < p' /\ hints o' path' = None
  | Fail _ => True
  end.
Proof. exact hint_progress. Qed.
Print Assumptions C23_progress.
(** So asking for every reported hint and retrying ends after at most [length b]
    questions, whatever is answered. *)
Theorem C23_asking_converges : forall answer o b path p,
  ask_and_retry answer (S (List.length b)) o b <> Fail (Err (EHint path p)).
Proof. exact retry_converges. Qed.
Print Assumptions C23_asking_converges.
(** Without hints the sample asks for its set elements first; with that hint, for
    the map keys. *)
Example C23_applies :
  exists p p', load_plain o_plain sample_bytes = Fail (Err (EHint (s2z "set.SetProperty.StructProperty") p))
  /\ load_plain (add_hint o_plain (s2z "set.SetProperty.StructProperty") (s2z "Vector")) sample_bytes
     = Fail (Err (EHint (s2z "map.MapProperty.Key.StructProperty") p')) /\ p < p'.
Proof. do 2 eexists. split; [vm_compute; reflexivity|]. split; [vm_compute; reflexivity|reflexivity]. Qed.

(** C24.  The location stack is the same after as before... *)
Theorem C24_property : forall n o vs ty hdr sug c p c',
  r_prop n o vs ty hdr sug c = Ok (p, c') -> stk c' = stk c.
Proof. exact prop_stack. Qed.
Print Assumptions C24_property.
Theorem C24_struct : forall m o vs n ty c v c',
  r_sval m o vs (r_prop n o vs) ty c = Ok (v, c') -> stk c' = stk c.
Proof. exact sval_stack. Qed.
Print Assumptions C24_struct.
Theorem C24_map_entry : forall o vs n kt vt c e c',
  r_entry (r_prop n o vs) kt vt c = Ok (e, c') -> stk c' = stk c.
Proof. exact entry_stack. Qed.
Print Assumptions C24_map_entry.
(** ... and a missing hint names a stack that extends the one around the property
    and ends in StructProperty. *)
Theorem C24_hint_path : forall n o vs ty hdr sug c path p,
  r_prop n o vs ty hdr sug c = Fail (Err (EHint path p)) ->
  exists s, path = dotted (s ++ stk c) /\ hd_error (s ++ stk c) = Some (s2z "StructProperty").
Proof. exact prop_hint_path. Qed.
Print Assumptions C24_hint_path.
Example C24_applies : exists p c,
  r_prop 9 o_sample [] (s2z "StructProperty") true None
    (Cur 0 (le_bytes 4 9 ++ le_bytes 4 0 ++ str_bytes (s2z "T") ++ zero_guid ++ [Byte.x00] ++ str_bytes (s2z "None"))
         [s2z "x"; s2z "y"]) = Ok (p, c) /\ stk c = [s2z "x"; s2z "y"].
Proof. do 2 eexists. split; vm_compute; reflexivity. Qed.

(** C34.  [read_panic] (Sane.v) lists the sites; three need a debug build. *)
Theorem C34_sites : forall z o v b s, load z o v b = Fail (Panic s) ->
  match s with
  | PSeparator | PIndicator | PArrayIndex | PArrayStruct | PCapacity | PHistory | PGender => True
  | PByteLength | PSetLength | PStructIndex => dbg o = true
  | PArgWidth | PBoolBody | PUtf8Slice => False
  end.
Proof. exact load_any_panic. Qed.
Print Assumptions C34_sites.
Theorem C34_reachable : forall d s,
  match s with
  | PSeparator | PIndicator | PArrayIndex | PArrayStruct | PCapacity | PHistory | PGender => True
  | PByteLength | PSetLength | PStructIndex => d = true
  | PArgWidth | PBoolBody | PUtf8Slice => False
  end -> exists b, load_plain (Opts d no_hints quiet) b = Fail (Panic s).
Proof. exact (fun d s H => ex_intro _ _ (panics_reached d s H)). Qed.
Print Assumptions C34_reachable.
(** What was saved from a loaded file, cut anywhere, reads back or is reported as
    too short: it never panics. *)
Theorem C34_saved_never_panics : forall o pr b f b' n,
  load_plain o b = Ok f -> save_plain f = Ok b' -> len b' < 4294967296 ->
  (forall p i, pr p i = false) \/ file_ok o eqv f = true ->
  load_plain (with_probe o pr) (firstn n b') = Ok f
  \/ load_plain (with_probe o pr) (firstn n b') = Fail (Err EEof).
Proof. exact reread_no_panic. Qed.
Print Assumptions C34_saved_never_panics.

(** C35.  Plain files fail with deserialization errors or a short read. *)
Theorem C35_positions : forall o b e, load_plain o b = Fail (Err e) ->
  match e with
  | EEof | EHeader _ _ => True
  | EIo | EMagic _ | ESerialize _ => False
  | EValueSize _ _ p | EString _ p | EStrTerm _ p | EBool _ p | EHint _ p
  | EProperty _ p | EEnum _ _ p | EArrayIndex _ p | ETerm _ p
  | EUtf16 p | EUtf8 p => 0 <= p <= len b
  end.
Proof. exact load_position. Qed.
Print Assumptions C35_positions.
Example C35_applies : exists p,
  load_plain o_plain sample_bytes = Fail (Err (EHint (s2z "set.SetProperty.StructProperty") p)) /\ 0 < p < 2230.
Proof. eexists. split; [vm_compute; reflexivity|lia]. Qed.

(** C39. *)
Theorem C39_release_agrees : forall z o v b,
  (forall s, load z o v b <> Fail (Panic s)) ->
  load z (Opts false (hints o) (probe o)) v b = load z o v b.
Proof. exact load_any_release. Qed.
Print Assumptions C39_release_agrees.
(** The condition is needed: the builds differ on an input that panics in debug. *)
Example C39_applies :
  (forall s, load toy_zlib o_sample GDefault sample_bytes <> Fail (Panic s))
  /\ load_plain (Opts true no_hints quiet) (panic_input PByteLength)
     <> load_plain (Opts false no_hints quiet) (panic_input PByteLength).
Proof. split; [intros s|]; vm_compute; discriminate. Qed.
