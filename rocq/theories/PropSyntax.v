(** Claim C62: JSON texts. *)
From Coq Require Import ZArith List Bool String Lia QArith.
From Verif Require Import Base Str Types Versions Text Props File Spec Samples Device Numeral Nearest Depth
  Json JsonSpec JsonBack JsonPanic JsonThm JsonFile JsonSamples JsonSyntax JsonGrammar DecimalThm JsonComplete JsonPrint JsonDepth JsonWhole.
Import ListNotations.
Open Scope Z_scope.

(** C62.  The parser reads exactly the texts of the grammar in JsonGrammar.v that nest
    brackets at most 127 deep, and gives the value that they denote. *)
Theorem C62_reads : forall s j, from_text s = POk j <-> exists d, document d j s /\ (d <= 127)%nat.
Proof. exact from_text_iff. Qed.
Print Assumptions C62_reads.
(** A text denotes one value only. *)
Theorem C62_one_value : forall s d d' j j', document d j s -> document d' j' s -> j = j' /\ d = d'.
Proof. exact document_unique. Qed.
Print Assumptions C62_one_value.
(** Texts of the grammar that nest deeper are refused for that reason. *)
Theorem C62_too_deep : forall s d j, document d j s ->
  from_text s = if (d <=? 127)%nat then POk j else PErr PDepth.
Proof. exact (fun s d j => from_text_deep d j s). Qed.
Print Assumptions C62_too_deep.
(** The parser always comes to an end: the fuel of the model is never used up. *)
Theorem C62_ends : forall s, from_text s <> PErr PFuel.
Proof. exact from_text_fueled. Qed.
Print Assumptions C62_ends.
(** Decimal fractions become the nearest double, ties to even. *)
Theorem C62_decimals : forall n e, 0 <= n -> nearest64 (inject_Z n * (10 # 1) ^ e) (f_decimal n e).
Proof. exact decimal_nearest. Qed.
Print Assumptions C62_decimals.
(** What is read from Unicode text is a value that serde_json can hold. *)
Theorem C62_read_well_formed : forall s j, is_str s = true -> from_text s = POk j -> j_ok j = true.
Proof. exact from_text_well. Qed.
Print Assumptions C62_read_well_formed.

(** Both printers write texts of the value that they are given, however floats are
    written, as long as every finite one denotes itself. *)
Theorem C62_compact : forall float j, prints_floats float -> j_ok j = true -> document (brackets j) j (print float j).
Proof. exact (fun float j FL J => text_document _ _ _ (print_text float FL j J)). Qed.
Print Assumptions C62_compact.
Theorem C62_pretty : forall float j, prints_floats float -> j_ok j = true -> document (brackets j) j (pretty float 0 j).
Proof. exact (fun float j FL J => text_document _ _ _ (pretty_text float FL j J 0)). Qed.
Print Assumptions C62_pretty.
(** There is such a way of writing floats. *)
Theorem C62_floats : prints_floats exact_float.
Proof. exact exact_prints. Qed.
Print Assumptions C62_floats.
(** Printed values are read back, unless they nest too deep. *)
Theorem C62_back : forall float j, prints_floats float -> j_ok j = true ->
  from_text (print float j) = if (brackets j <=? 127)%nat then POk j else PErr PDepth.
Proof. exact printed_back. Qed.
Print Assumptions C62_back.
Theorem C62_pretty_back : forall float j, prints_floats float -> j_ok j = true ->
  from_text (pretty float 0 j) = if (brackets j <=? 127)%nat then POk j else PErr PDepth.
Proof. exact pretty_back. Qed.
Print Assumptions C62_pretty_back.

(** Files: one that can be loaded comes back from its text exactly if its floats are
    finite and its JSON form nests at most 127 brackets. *)
Theorem C62_file : forall hp float z o v b g, prints_floats float -> calm hp -> load z o v b = Ok g ->
  text_file hp (file_text float g) = if fin_file g && (brackets (to_json g) <=? 127)%nat then JOk g else JErr.
Proof. exact loaded_text. Qed.
Print Assumptions C62_file.
(** The same for a file that was itself read from a text. *)
Theorem C62_again : forall hp float s g, prints_floats float -> calm hp -> is_str s = true -> text_file hp s = JOk g ->
  text_file hp (file_text float g) = if fin_file g && (brackets (to_json g) <=? 127)%nat then JOk g else JErr.
Proof. exact read_text_again. Qed.
Print Assumptions C62_again.
(** In terms of the properties and texts inside one another: each takes at least one
    bracket and at most five. *)
Theorem C62_nesting : forall g, let d := file_depth (g_header g, g_props g) in
  d + 1 <= Z.of_nat (brackets (to_json g)) <= Z.max 3 (5 * d + 2).
Proof. exact file_brackets. Qed.
Print Assumptions C62_nesting.
(** So files up to depth 25 come back, and none from depth 127 on. *)
Theorem C62_shallow : forall hp float z o v b g, prints_floats float -> calm hp -> load z o v b = Ok g -> fin_file g = true ->
  file_depth (g_header g, g_props g) <= 25 -> text_file hp (file_text float g) = JOk g.
Proof. exact loaded_shallow. Qed.
Print Assumptions C62_shallow.
Theorem C62_deep : forall hp float z o v b g, prints_floats float -> calm hp -> load z o v b = Ok g ->
  127 <= file_depth (g_header g, g_props g) -> text_file hp (file_text float g) = JErr.
Proof. exact loaded_deep. Qed.
Print Assumptions C62_deep.
(** Both limits are sharp: accepted files of depth 26 that do not come back, and of
    depth 126 that do. *)
Theorem C62_all_refuted : exists z o b g, load z o GDefault b = Ok g /\ fin_file g = true
  /\ file_depth (g_header g, g_props g) = 26
  /\ forall hp float, prints_floats float -> calm hp -> text_file hp (file_text float g) = JErr.
Proof. exact sharp_shallow. Qed.
Print Assumptions C62_all_refuted.
Theorem C62_sharp : exists z o b g, load z o GDefault b = Ok g /\ file_depth (g_header g, g_props g) = 126
  /\ forall hp float, prints_floats float -> calm hp -> text_file hp (file_text float g) = JOk g.
Proof. exact sharp_deep. Qed.
Print Assumptions C62_sharp.

Example C62_applies :
  (* white space, escapes in either case, a surrogate pair, repeated keys *)
  from_text (s2z " { ""a"" : [ 1 , -2 ] ,""b\u004A\u00e9\n\uD83d\uDE00\/"":null, ""a"":true} ")
  = POk (JObj [(s2z "a", JBool true); (s2z "bJ" ++ [233; 10; 128512; 47], JNull)])
  (* numbers: integers of 64 bits, other integers, fractions, the smallest double, half of it *)
  /\ from_text (s2z "[0.1,-0,1E2,18446744073709551616,18446744073709551615,-9223372036854775808,5e-324,2.4703282292062327e-324]")
  = POk (JArr [JFloat 4591870180066957722; JFloat 9223372036854775808; JFloat 4636737291354636288; JFloat 4895412794951729152;
      JInt 18446744073709551615; JInt (-9223372036854775808); JFloat 1; JFloat 0])
  (* refused: leading zeros, trailing commas, lone surrogates, and so on *)
  /\ map (fun s => from_text (s2z s)) ["01"; "[1,]"; "{""a"":1,}"; """\uD800"""; """\uD800\u0041"""; """\uDC00"""; "1."; "nul"; "1 2"; ""; "'a'"]%string
     = repeat (PErr PSyntax) 11
  /\ from_text [34; 9; 34] = PErr PSyntax
  /\ from_text (s2z "1e400") = PErr PRange
  (* printed *)
  /\ print exact_float (JObj [(s2z "k""" ++ [7], JArr [JInt (-5); JNull; JArr []; JFloat 4845873199050653696])])
     = s2z "{""k\""\u0007"":[-5,null,[],9007199254740992.0]}".
Proof. vm_compute. repeat split. Qed.
