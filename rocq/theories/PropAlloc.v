(** Claim C58: memory requested while reading. *)
From Coq Require Import ZArith List Bool String Lia.
From Verif Require Import Base Str Types Versions Text Props File Spec StrFacts Samples Alloc AllocThm AllocLow AllocEx.
Import ListNotations.
Open Scope Z_scope.

(** * The log of requests is kept by the reader of File.v, nothing else is different *)
Theorem C58_same : forall z o v b, snd (a_load z o v b) = load z o v b.
Proof. exact er_load. Qed.
Print Assumptions C58_same.

(** * Accepted files ask for less than they hold *)
(** In total for fewer items (elements, entries, bytes, code units) than there are bytes read;
    and never for more than the rest of the input could fill.  Not counted are elements of a
    type the library does not know. *)
Theorem C58_accepted : forall o b f c, parse o b = Ok (f, c) ->
  asked (fst (a_parse o b)) < pos c /\ pos c <= len b /\ Forall fillable (fst (a_parse o b)).
Proof. exact parse_asks. Qed.
Print Assumptions C58_accepted.
Theorem C58_property : forall n o vs ty c p c', r_prop n o vs ty true None c = Ok (p, c') ->
  asked (fst (a_prop n o vs ty true None c)) < pos c' - pos c /\ Forall fillable (fst (a_prop n o vs ty true None c)).
Proof. exact prop_asks. Qed.
Print Assumptions C58_property.
(** And what they hold was asked for, whichever kinds of room are counted ([g]). *)
Theorem C58_held : forall g o b f c, (forall w, 0 <= g w) -> parse o b = Ok (f, c) ->
  h_file g f <= weighed g (fst (a_parse o b)).
Proof. exact parse_held. Qed.
Print Assumptions C58_held.
Theorem C58_held_property : forall g n o vs ty c p c', (forall w, 0 <= g w) -> r_prop n o vs ty true None c = Ok (p, c') ->
  h_prop g true p <= h_str g ty + weighed g (fst (a_prop n o vs ty true None c)).
Proof. exact prop_held. Qed.
Print Assumptions C58_held_property.
(** A string asks once, for exactly its bytes or code units without the terminator. *)
Theorem C58_string : forall c s c', r_fstring c = Ok (s, c') ->
  (s = None /\ pos c' = pos c + 4 /\ fst (a_fstring c) = [])
  \/ (exists t, s = Some t /\ pos c' = pos c + 5 + len (utf8_bytes t)
       /\ fst (a_fstring c) = [Req RUtf8 (len (utf8_bytes t)) (len (rest c) - 4)])
  \/ (exists t, s = Some t /\ pos c' = pos c + 6 + 2 * units t
       /\ fst (a_fstring c) = [Req RUtf16 (units t) (len (rest c) - 4)]).
Proof. exact fstring_exact. Qed.
Print Assumptions C58_string.
(** An accepted container asks for exactly the unpacked size, and for what the file in it asks. *)
Theorem C58_container : forall z o b g, load z o GPalworld b = Ok g -> exists c d k, r_palworld z (Cur 0 b []) = Ok ((c, d), k) /\
  fst (a_load z o GPalworld b) =
    match c with CTwice => [] | _ => [Req RUnpacked (len d) (len b - 12)] end ++ fst (a_parse o d).
Proof. exact box_exact. Qed.
Print Assumptions C58_container.

(** * Any input *)
(** Each request is in the range of its count field, there is at most one for each byte. *)
Theorem C58_any : forall o b, Forall in_range (fst (a_parse o b)) /\ requests (fst (a_parse o b)) <= len b
  /\ asked (fst (a_parse o b)) <= 4294967295 * len b.
Proof. exact parse_any. Qed.
Print Assumptions C58_any.
Theorem C58_range : forall z o v b, Forall in_range (fst (a_load z o v b)).
Proof. exact load_any. Qed.
Print Assumptions C58_range.

(** * Rejected files are not so modest *)
(** With 112 bytes for each, any number of requests for 2^32-1 properties, all before the file
    is rejected.  So the bound of [C58_any] is reached up to a factor of 152. *)
Theorem C58_rejected_refuted : forall o k, len (tower k) = 40 + 112 * Z.of_nat k
  /\ Z.of_nat k <= huge (fst (a_parse o (tower k)))
  /\ ((0 < k)%nat -> forall f, load_plain o (tower k) <> Ok f).
Proof. exact (fun o k => conj (tower_len k) (conj (tower_asks o k) (tower_rejected o k))). Qed.
Print Assumptions C58_rejected_refuted.
(** Twelve bytes of a container ask for 2^32-1 bytes, uncompressed or compressed. *)
Theorem C58_container_refuted : forall z o,
  len (hollow_box CNone) = 12
  /\ a_load z o GPalworld (hollow_box CNone) = ([Req RUnpacked 4294967295 0], Fail (Err EEof))
  /\ (fst (inflate z []) = [] ->
      exists e, a_load z o GPalworld (hollow_box CZlib) = ([Req RUnpacked 4294967295 0], Fail (Err e))).
Proof. exact (fun z o => conj eq_refl (conj (box_asks z o) (box_zlib z o))). Qed.
Print Assumptions C58_container_refuted.

Example C58_applies : exists c, parse o_sample sample_bytes = Ok (sample, c)
  /\ (requests (fst (a_parse o_sample sample_bytes)), asked (fst (a_parse o_sample sample_bytes)), pos c) = (135, 923, 2226).
Proof. eexists. split; vm_compute; reflexivity. Qed.
(** What each kind of room was made for, and what the sample holds of it.  The sample has
    characters outside of ASCII, which take several bytes or units. *)
Definition one_room (w v : room) : Z :=
  match w, v with
  | RUtf16, RUtf16 | RUtf8, RUtf8 | RVersions, RVersions | RElements _, RElements _ | REntries, REntries
  | RArguments, RArguments | RTags, RTags | RDelegates, RDelegates | RPath, RPath | RRaw, RRaw => 1
  | _, _ => 0
  end.
Example C58_held_applies :
  map (fun w => (h_file (one_room w) sample, weighed (one_room w) (fst (a_parse o_sample sample_bytes))))
      [RVersions; RElements []; REntries; RArguments; RTags; RDelegates; RPath; RRaw]
  = [(2, 2); (11, 11); (4, 4); (2, 2); (2, 2); (2, 2); (2, 2); (5, 5)].
Proof. vm_compute. reflexivity. Qed.
Example C58_held_strings :
  let g w := one_room RUtf8 w + one_room RUtf16 w in
  (h_file g sample, weighed g (fst (a_parse o_sample sample_bytes))) = (894, 895).
Proof. vm_compute. reflexivity. Qed.
