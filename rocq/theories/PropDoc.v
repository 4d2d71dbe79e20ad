(** Claim C64: which JSON documents are read. *)
From Coq Require Import ZArith List Bool String QArith.
From Verif Require Import Base Str Types Versions Text Props File Spec Samples MapFacts Guid
  Json JsonForm JsonFormThm JsonBack JsonPanic JsonFile JsonThm JsonSyntax JsonGrammar JsonWhole JsonDoc JsonDocThm JsonSpec.
Import ListNotations.
Open Scope Z_scope.

(** C64.  Exactly the documents that the rules of JsonDoc.v allow are read, and as the
    file that they say, unless a string or key panics as a guid. *)
Theorem C64_read : forall hp j g, calm hp -> mild j -> from_json hp j = JOk g <-> reads g j.
Proof. exact reads_exact. Qed.
Print Assumptions C64_read.
(** All others are refused. *)
Theorem C64_refused : forall hp j, calm hp -> mild j -> from_json hp j = JErr <-> forall g, ~ reads g j.
Proof. exact reads_none. Qed.
Print Assumptions C64_refused.
(** The rules allow one file at most. *)
Theorem C64_one : forall g g' j, mild j -> reads g j -> reads g' j -> g = g'.
Proof. exact reads_one. Qed.
Print Assumptions C64_one.
(** The bound on nesting in the rules is immaterial. *)
Theorem C64_bound : forall n g j, mild j -> (jsize j < n)%nat -> file_doc (collapsed same) n g j <-> reads g j.
Proof. exact reads_bound. Qed.
Print Assumptions C64_bound.
(** With any hashing, when keys are put into a map in the order of their pairs. *)
Theorem C64_any_hash : forall hp n j g, mild j -> (jsize j < n)%nat ->
  from_json hp j = JOk g <-> file_doc (fun l m => m = m_insert hp l) n g j.
Proof. exact reads_any. Qed.
Print Assumptions C64_any_hash.
(** Single properties. *)
Theorem C64_property : forall hp j p, calm hp -> mild j -> d_property hp j = JOk p <-> reads_prop p j.
Proof. exact reads_prop_exact. Qed.
Print Assumptions C64_property.
(** Texts: the grammar of JSON and then these rules. *)
Theorem C64_text : forall hp s g, calm hp -> (forall d j, document d j s -> mild j) ->
  text_file hp s = JOk g <-> exists d j, document d j s /\ (d <= 127)%nat /\ reads g j.
Proof. exact reads_text. Qed.
Print Assumptions C64_text.
(** Documents of ASCII characters are in scope. *)
Theorem C64_ascii : forall j, j_fit j = true -> (forall s c, occurs s j -> In c s -> c < 128) -> mild j.
Proof. exact ascii_mild. Qed.
Print Assumptions C64_ascii.
(** The documents that are written (C54) are among those that are read. *)
Theorem C64_written : forall g j, t_file same g = true -> fin_file g = true -> mild j -> file_form g j -> reads g j.
Proof. exact form_reads. Qed.
Print Assumptions C64_written.

(** A document with structs as arrays, kinds as numbers below the top, variants as
    objects, an integer for a float, a repeated key in a map, members that are not asked
    for and members in another order. *)
Definition odd_document : json :=
  JObj ["unasked" ↦ JArr [];
        "properties" ↦ JObj
          ["x" ↦ JArr [txt "FloatProperty"; JInt 3];
           "when" ↦ JObj ["target_culture" ↦ txt "en"; "date_style" ↦ JObj ["Medium" ↦ JNull]; "history" ↦ JInt 9;
                          "date_time" ↦ JArr [JInt 5]; "type" ↦ txt "TextProperty"];
           "x" ↦ JArr [txt "SetProperty"; txt "IntProperty"; JInt 0; JArr [JArr [JInt 9; JInt (-7)]; JObj ["value" ↦ JInt 8; "type" ↦ JInt 9]]];
           "raw" ↦ JObj ["bytes" ↦ txt "zz"; "ints" ↦ JArr []; "type" ↦ txt "ArrayProperty"];
           "v" ↦ JObj ["type" ↦ txt "StructProperty"; "type_name" ↦ txt "T"; "Byte" ↦ JNull; "IntPoint" ↦ JArr [JInt 1; JInt 2]; "Guid" ↦ JNull]];
        "header" ↦ JArr [txt "Version2"; JInt 522; JArr [JInt 4; JInt 27; JInt 2; JInt 0; txt "b"]; JInt 3;
                         JObj ["0" ↦ JInt 1; "{00000000-0000-0000-0000-000000000000}" ↦ JInt 2]; txt "C"];
        "deserialized_game_version" ↦ JObj ["Palworld" ↦ JObj ["ZlibTwice" ↦ JNull]]].
Definition odd_file : gfile :=
  GFile (DPalworld CTwice) (Header 522 None (FEngine 4 27 2 0 (s2z "b")) 3 [(nil_guid, 2)] (s2z "C"))
    [(s2z "x", PSet (s2z "IntProperty") 0 [PNum I32 (-7); PNum I32 8]);
     (s2z "when", PText (FText 0 (HDate 5 2 (s2z "en"))));
     (s2z "raw", PArray (AInts []));
     (s2z "v", PStruct nil_guid (s2z "T") (SFixed XIntPoint [1; 2]))].
Example C64_applies : mild odd_document /\ reads odd_file odd_document.
Proof.
  assert (M : mild odd_document) by (apply mildb_mild; vm_compute; reflexivity). split; [exact M|].
  apply (C64_read still); [exact still_calm|exact M|]. vm_compute. reflexivity.
Qed.
(** Refused: a number for the kind at the top, an array that is too short or too long, a
    struct whose first variant does not fit, two variants or a number for an enumerator
    that is tagged from outside, a name twice. *)
Example C64_refuses :
  Forall (fun j => mild j /\ forall p, ~ reads_prop p j)
    [JObj ["type" ↦ JInt 9; "value" ↦ JInt 8];
     JArr [txt "FloatProperty"];
     JArr [txt "FloatProperty"; JInt 3; JInt 3];
     JObj ["type" ↦ txt "StructProperty"; "type_name" ↦ txt "T"; "Guid" ↦ JNull; "IntPoint" ↦ JArr [JInt 1; JInt 2]];
     JObj ["type" ↦ txt "StructPropertyValue"; "IntPoint" ↦ JArr [JInt 1; JInt 2]; "other" ↦ JNull];
     JObj ["type" ↦ txt "TextProperty"; "history" ↦ txt "AsDate"; "date_time" ↦ JArr [JInt 5]; "target_culture" ↦ txt "en"; "date_style" ↦ JInt 2];
     JObj ["type" ↦ txt "IntProperty"; "value" ↦ JInt 8; "value" ↦ JInt 8]].
Proof.
  assert (E : forall j, mildb j = true -> d_property still j = JErr -> mild j /\ forall p, ~ reads_prop p j).
  { intros j B D. assert (M : mild j) by now apply mildb_mild. split; [exact M|]. intros p H.
    apply (C64_property still) in H; [congruence|exact still_calm|exact M]. }
  repeat constructor; apply E; vm_compute; reflexivity.
Qed.
