(** Claim C65: files read straight from JSON text. *)
From Coq Require Import ZArith List Bool String QArith.
From Verif Require Import Base Str Types Versions Text Props File Spec Samples Device Numeral Nearest MapFacts Guid
  Json JsonPanic JsonFile JsonThm JsonSyntax JsonGrammar JsonPrint JsonWhole JsonDoc JsonDocThm JsonDirect Singles SinglesThm DirectThm
  JsonFrom JsonLoose JsonFromThm JsonFromFile JsonSpec.
Import ListNotations.
Open Scope Z_scope.

(** C65.  Exactly the texts of JsonLoose.v get past the parser, with the members that they
    show; a text shows one tree only. *)
Theorem C65_text : forall s j, from_top s = POk j <-> top_document j s.
Proof. exact from_top_iff. Qed.
Print Assumptions C65_text.
Theorem C65_one_tree : forall s j j', top_document j s -> top_document j' s -> j = j'.
Proof. exact top_unique. Qed.
Print Assumptions C65_one_tree.
(** They are read as the file that the rules of JsonDoc.v (C64) say, or refused. *)
Theorem C65_read : forall hp s g, calm hp -> (forall j, top_document j s -> mild j) ->
  read_direct hp s = JOk g <-> exists j, top_document j s /\ reads g j.
Proof. exact direct_reads. Qed.
Print Assumptions C65_read.
(** A panic comes from a string that panics as a guid. *)
Theorem C65_panic : forall hp s, read_direct hp s = JPanic -> exists j x, top_document j s /\ occurs x j /\ guid_parse x = Panicked.
Proof. exact direct_panic. Qed.
Print Assumptions C65_panic.

(** By way of [serde_json::Value] the same text is read with repeated keys settled, and
    that is the only difference as long as the whole text is a text of the grammar and
    nests at most 127 brackets. *)
Theorem C65_settled : forall s d r, raw_document d r s -> forall j, document d j s <-> settled r j.
Proof. exact text_settled. Qed.
Print Assumptions C65_settled.
Theorem C65_kept : forall s d j, document d j s -> exists r, raw_document d r s.
Proof. exact text_kept. Qed.
Print Assumptions C65_kept.
Theorem C65_both_ways : forall hp s d r j, raw_document d r s -> settled r j -> (d <= 127)%nat ->
  read_direct hp s = from_json hp r /\ text_file hp s = from_json hp j.
Proof. exact text_settles. Qed.
Print Assumptions C65_both_ways.
(** So both ways agree on texts that repeat no key. *)
Theorem C65_agree : forall hp d j s, raw_document d j s -> (d <= 127)%nat -> plain j = true -> read_direct hp s = text_file hp s.
Proof. exact direct_agrees. Qed.
Print Assumptions C65_agree.

(** The texts that are written from a loaded file are read alike in both ways, so that
    C62 and C63 hold for reading them directly. *)
Theorem C65_written : forall hp float32 float z o v b g, prints_singles float32 -> prints_floats float -> load z o v b = Ok g ->
  Forall (fun s => read_direct hp s = text_file hp s)
    [file_text float g; pretty float 0 (to_json g); direct_text float32 float g; direct_pretty float32 float g].
Proof. exact loaded_agree. Qed.
Print Assumptions C65_written.
(** Written and read directly: [to_string] or [to_string_pretty], then [from_str]. *)
Theorem C65_round_trip : forall float32 float r, prints_singles float32 -> prints_floats float ->
  (forall b, u_ok 4 b = true -> finite32 b = true -> reread float32 b (r b)) ->
  forall hp z o v b g, load z o v b = Ok g ->
  read_direct hp (direct_text float32 float g) = (if fin_file g && (brackets (to_json g) <=? 127)%nat then JOk (r_file r (m_insert hp) g) else JErr)
  /\ read_direct hp (direct_pretty float32 float g) = if fin_file g && (brackets (to_json g) <=? 127)%nat then JOk (r_file r (m_insert hp) g) else JErr.
Proof. exact loaded_direct_both. Qed.
Print Assumptions C65_round_trip.
Theorem C65_unchanged : forall float32 float hp z o v b g, prints_singles float32 -> prints_floats float -> calm hp -> load z o v b = Ok g ->
  read_direct hp (direct_text float32 float g) = JOk g
  <-> fin_file g = true /\ (brackets (to_json g) <= 127)%nat /\ forall x, In x (singles g) -> reread float32 x x.
Proof. exact loaded_unchanged. Qed.
Print Assumptions C65_unchanged.
(** What is read directly has all fields in the range of their types, and survives. *)
Theorem C65_typed : forall hp s g, is_str s = true -> read_direct hp s = JOk g -> t_file same g = true.
Proof. exact direct_typed. Qed.
Print Assumptions C65_typed.
Theorem C65_again : forall hp float s g, prints_floats float -> calm hp -> is_str s = true -> read_direct hp s = JOk g ->
  read_direct hp (file_text float g) = if fin_file g && (brackets (to_json g) <=? 127)%nat then JOk g else JErr.
Proof. exact read_direct_again. Qed.
Print Assumptions C65_again.

(** In general the two ways differ.  A text that both read, as different files: *)
Definition text_of (members : str) : str :=
  s2z "{""header"":" ++ print exact_float (e_header hdr5) ++ s2z "," ++ members ++ s2z "}".
Definition byte_file (x : byte) : gfile := GFile DDefault hdr5 [(s2z "b", PByte (Some (s2z "None")) (BByte x))].
Theorem C65_same_refuted : exists s g g', g <> g' /\ forall hp, read_direct hp s = JOk g /\ text_file hp s = JOk g'.
Proof.
  exists (text_of (s2z """properties"":{""b"":{""type"":""ByteProperty"",""name"":""None"",""Byte"":1,""Byte"":2}}")), (byte_file Byte.x01), (byte_file Byte.x02).
  split; [discriminate|]. intros hp. split; vm_compute; reflexivity.
Qed.
Print Assumptions C65_same_refuted.
(** Texts that are read directly only: members that are not asked for may hold numbers
    out of range, strings with lone surrogates, and any number of brackets. *)
Theorem C65_directly_refuted : exists l g, (3 <= List.length l)%nat
  /\ forall hp s, In s l -> read_direct hp s = JOk g /\ text_file hp s = JErr.
Proof.
  exists (map (fun m => text_of (s2z """unasked"":" ++ m ++ s2z ",""properties"":{}"))
    [s2z "1e400"; s2z "["""  ++ [92] ++ s2z "uD800""]"; repeat 91 200 ++ repeat 93 200]), (GFile DDefault hdr5 []).
  split; [repeat constructor|]. intros hp s I. cbn [map In] in I. repeat (destruct I as [<-|I]; [split; vm_compute; reflexivity|]). destruct I.
Qed.
Print Assumptions C65_directly_refuted.
(** Texts that are read by way of [Value] only: a field twice, at the top or below. *)
Theorem C65_value_refuted : exists l g, (2 <= List.length l)%nat
  /\ forall hp s, In s l -> read_direct hp s = JErr /\ text_file hp s = JOk g.
Proof.
  exists (map (fun m => text_of (m ++ s2z """properties"":{}"))
    [s2z """properties"":null,"; s2z """deserialized_game_version"":{""Default"":null,""Default"":null},"]), (GFile DDefault hdr5 []).
  split; [repeat constructor|]. intros hp s I. cbn [map In] in I. repeat (destruct I as [<-|I]; [split; vm_compute; reflexivity|]). destruct I.
Qed.
Print Assumptions C65_value_refuted.

(** The file of C63, through pretty text and back. *)
Example C65_applies :
  load no_zlib o_plain GDefault (image (byte_file Byte.x07)) = Ok (byte_file Byte.x07)
  /\ read_direct still (direct_pretty exact32 exact_float (byte_file Byte.x07)) = JOk (byte_file Byte.x07)
  (* an array at the top, with all members kept below *)
  /\ from_top (s2z " [null, {""a"":1,""a"":[2]}] ") = POk (JArr [JNull; JObj [(s2z "a", JInt 1); (s2z "a", JArr [JInt 2])]])
  (* at the top, members that are not asked for lose their values *)
  /\ from_top (s2z "{""x"":[1],""header"":[1],""x"":-1.5e99999}")
     = POk (JObj [(s2z "x", JNull); (s2z "header", JArr [JInt 1]); (s2z "x", JNull)])
  (* refused *)
  /\ map (fun s => from_top (s2z s)) ["null"; "1"; "{""x"":01}"; "{""x"":[1,]}"; "{""x"":1"; "{""x"":1.}"; "{} {}"; "{""header"":1,}"; "{x:1}"]%string
     = repeat (PErr PSyntax) 9
  /\ from_top (s2z "{""header"":" ++ repeat 91 126 ++ repeat 93 126 ++ [125]) <> PErr PDepth
  /\ from_top (s2z "{""header"":" ++ repeat 91 127 ++ repeat 93 127 ++ [125]) = PErr PDepth
  /\ from_top (s2z "{""header"":1e400}") = PErr PRange.
Proof. vm_compute. repeat split. all: discriminate. Qed.
