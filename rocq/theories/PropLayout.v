(** Claim C76: texts on several lines. *)
From Coq Require Import ZArith List Bool String Lia.
From Verif Require Import Base Str Types Versions Text Props File Spec Samples JsonWhole JsonSpec Json JsonFile JsonSyntax JsonGrammar JsonPrint JsonDirect Singles SinglesThm
  Message MessageThm Debug DebugSpec DebugThm ErrorText ErrorSpec ErrorThm LayoutSpec LayoutFiles PropMessage PropDirect PropError PropDebug.
Import ListNotations.
Open Scope Z_scope.

(** C76.  [serde_json::to_string_pretty] writes the characters of [to_string] and blanks: which, follows
    from the characters alone ([json_lines]), and without them the text on one line is left.  For values, ... *)
Theorem C76_value : forall float j, prints_floats float -> j_ok j = true ->
  pretty float 0 j = json_lines 0 Elsewhere (print float j)
  /\ tight Elsewhere (print float j) /\ unblank Elsewhere (pretty float 0 j) = print float j.
Proof. exact value_laid. Qed.
Print Assumptions C76_value.
(** ... and for files. *)
Theorem C76_file : forall float32 float z o v b g, prints_singles float32 -> prints_floats float -> load z o v b = Ok g ->
  direct_pretty float32 float g = json_lines 0 Elsewhere (direct_text float32 float g)
  /\ tight Elsewhere (direct_text float32 float g) /\ unblank Elsewhere (direct_pretty float32 float g) = direct_text float32 float g.
Proof. exact direct_laid. Qed.
Print Assumptions C76_file.
(** [{:#?}] is [{:?}] with new lines and commas in places that follow from its characters alone ([debug_lines]):
    for files and properties, ... *)
Theorem C76_debug : forall fl plain sep, float_texts fl ->
  (forall g, t_file sep g = true -> pretty_file fl plain g = debug_lines 0 DElse (debug_file fl plain g))
  /\ (forall p, t_prop sep p = true -> pretty_prop fl plain p = debug_lines 0 DElse (debug_prop fl plain p)).
Proof. intros fl plain sep FL. split; [exact (file_laid fl plain sep FL)|exact (prop_laid fl plain sep FL)]. Qed.
Print Assumptions C76_debug.
(** ... and for errors, except those that hold std's [FromUtf16Error], whose text is not modelled. *)
Theorem C76_error : forall names lone plain e raw m, good_names names -> failed e raw -> (forall p, e <> EUtf16 p) ->
  debug_error names lone plain None raw e = Some m -> debug_error names lone plain (Some 0%nat) raw e = Some (debug_lines 0 DElse m).
Proof. exact error_laid. Qed.
Print Assumptions C76_error.

Definition q39 (l : list string) : str := map (fun c => if c =? 39 then 34 else c) (nl l).
(** Brackets, commas, colons and escaped quotes inside of strings stay as they are; empty brackets stay together. *)
Example C76_applies_value :
  json_lines 0 Elsewhere (q39 ["{'a[,':[1,{},'\':{'],'b':{'c':[]}}"]%string)
  = q39 ["{"; "  'a[,': ["; "    1,"; "    {},"; "    '\':{'"; "  ],"; "  'b': {"; "    'c': []"; "  }"; "}"]%string.
Proof. vm_compute. reflexivity. Qed.
Example C76_applies_file : exists z o b, load z o GDefault b = Ok float_file /\ prints_singles exact32 /\ prints_floats exact_float.
Proof.
  exists no_zlib, o_plain, (image float_file). split; [exact (proj1 C63_applies)|]. split; [exact (proj1 C63_printer)|exact exact_prints].
Qed.
Example C76_applies_debug :
  debug_lines 0 DElse (q39 ["A(S { g: Guid(0A-1), h: Guid(Guid(0)), s: '\',(', l: [], m: {1: B { x: -1 }} })"]%string)
  = q39 ["A("; "    S {"; "        g: Guid(0A-1),"; "        h: Guid("; "            Guid(0),"; "        ),"; "        s: '\',(',"; "        l: [],";
         "        m: {"; "            1: B {"; "                x: -1,"; "            },"; "        },"; "    },"; ")"]%string
  /\ t_file same some_file = true /\ float_texts bits_text.
Proof. split; [vm_compute; reflexivity|]. split; [vm_compute; reflexivity|exact C70_floats]. Qed.
Example C76_applies_error : failed (EUtf8 150) [Byte.x61; Byte.xe2; Byte.x82; Byte.x62] /\ forall p, EUtf8 150 <> EUtf16 p.
Proof. split; [exact (proj1 C75_failed)|discriminate]. Qed.
