(** C70: what [Debug] prints.  The documentation of the crate prints files with [{:#?}]
    (lib.rs:20, 59, 366 and 401), [assert_eq!] prints both of its sides when it fails, and
    array_property.rs:240 puts a property into an error. *)
From Coq Require Import ZArith List Bool String Lia.
From Verif Require Import Base Str Types Versions Text Props File Spec Samples JsonSpec Message Debug DebugSpec DebugEq DebugThm.
Import ListNotations.
Open Scope Z_scope.

(** Two properties print alike, on one line or on many, exactly if they are the same up to
    the bits of NaNs, whatever characters std takes for printable. *)
Theorem C70_property : forall fl plain sep, float_texts fl -> forall p q, t_prop sep p = true -> t_prop sep q = true ->
  (debug_prop fl plain p = debug_prop fl plain q <-> quiet p = quiet q)
  /\ (pretty_prop fl plain p = pretty_prop fl plain q <-> quiet p = quiet q).
Proof. exact tells_prop. Qed.
Print Assumptions C70_property.
Theorem C70_file : forall fl plain sep, float_texts fl -> forall f g, t_file sep f = true -> t_file sep g = true ->
  (debug_file fl plain f = debug_file fl plain g <-> quiet_file f = quiet_file g)
  /\ (pretty_file fl plain f = pretty_file fl plain g <-> quiet_file f = quiet_file g).
Proof. exact tells_file. Qed.
Print Assumptions C70_file.
(** Without infinities and NaNs the text determines the file. *)
Theorem C70_finite : forall fl plain sep, float_texts fl -> forall f g, t_file sep f = true -> t_file sep g = true ->
  fin_file f = true -> fin_file g = true ->
  (debug_file fl plain f = debug_file fl plain g <-> f = g) /\ (pretty_file fl plain f = pretty_file fl plain g <-> f = g).
Proof. exact tells_finite. Qed.
Print Assumptions C70_finite.

(** What is unequal for [==] prints differently (so a failed [assert_eq!] always shows why),
    whether or not maps are compared in order. *)
Theorem C70_unequal : forall fl plain sep, float_texts fl -> forall s p q, t_prop sep p = true -> t_prop sep q = true ->
  prop_eqb s p q = false ->
  debug_prop fl plain p <> debug_prop fl plain q /\ pretty_prop fl plain p <> pretty_prop fl plain q.
Proof. exact unequal_differ. Qed.
Print Assumptions C70_unequal.
(** What is equal need not print alike: the two zeros. *)
Theorem C70_equal_refuted : forall fl plain (sep : property -> property -> bool), float_texts fl -> forall k z, is_float k ->
  (k = F32 -> z = 2147483648) -> (k = F64 -> z = 9223372036854775808) ->
  prop_eqb true (PNum k 0) (PNum k z) = true /\ debug_prop fl plain (PNum k 0) <> debug_prop fl plain (PNum k z).
Proof. exact zeros. Qed.
Print Assumptions C70_equal_refuted.

(** [{:?}] stays on one line, whatever the strings hold. *)
Theorem C70_one_line : forall fl plain sep, float_texts fl ->
  (forall g, t_file sep g = true -> ~ In 10 (debug_file fl plain g))
  /\ (forall p, t_prop sep p = true -> ~ In 10 (debug_prop fl plain p)).
Proof. intros fl plain sep FL. split; [exact (one_line fl plain sep FL)|exact (one_line_prop fl plain sep FL)]. Qed.
Print Assumptions C70_one_line.

(** The refusal of an array of structs shows its first element that is not the value of a struct. *)
Theorem C70_refusal : forall fl plain ty info l, array_new ty info l = Fail (Err (ESerialize SArrayElem)) ->
  exists a p b, l = a ++ p :: b /\ Forall (fun x => exists v, x = PSValue v) a /\ (forall v, p <> PSValue v)
  /\ array_refusal fl plain ty l
     = Some (s2z "Invalid value Array property_type StructProperty doesn't match property inside array: " ++ pretty_prop fl plain p).
Proof. exact refusal_text. Qed.
Print Assumptions C70_refusal.

(** There is such a way of printing floats. *)
Example C70_floats : float_texts bits_text.
Proof. exact bits_ok. Qed.
(** ASCII is printable. *)
Definition ascii (c : Z) : bool := (31 <? c) && (c <? 127).
Definition nl (l : list string) : str :=
  match map s2z l with [] => [] | a :: r => a ++ flat_map (fun x => 10 :: x) r end.
Definition some_file : gfile :=
  GFile (DPalworld CTwice) hdr4
    [(s2z "a", PStr (Some [34; 10; 233])); (s2z "b", PArray (AInts [])); (s2z "c", PNum I8 (-5));
     (s2z "d", PStruct a_guid (s2z "V") (SFixed XIntPoint [1; -2])); (s2z "e", PText (FText 3 HEmpty));
     (s2z "f", PMap (MGen (s2z "K") (s2z "V") 0 [(PBool true, PName 0 None)]))].
Example C70_typed : t_file same some_file = true /\ fin_file some_file = true. Proof. split; vm_compute; reflexivity. Qed.
Example C70_compact :
  map (debug_prop bits_text ascii) (map snd (g_props some_file))
  = map s2z ["StrProperty(StrProperty { value: Some(""\""\n\u{e9}"") })"; "ArrayProperty(Ints { ints: [] })"; "Int8Property(-5i8)";
     "StructProperty(StructProperty { guid: Guid(01020304-0506-0708-090A-0B0C0D0E0F10), type_name: ""V"", value: IntPoint(IntPoint { x: 1, y: -2 }) })";
     "TextProperty(TextProperty { value: FText { flags: 3, history: Empty } })";
     "MapProperty(Properties { key_type: ""K"", value_type: ""V"", allocation_flags: 0, value: HashableIndexMap({BoolProperty(true): NameProperty(NameProperty { array_index: 0, value: None })}) })"]%string.
Proof. vm_compute. reflexivity. Qed.
Example C70_pretty :
  pretty_prop bits_text ascii (PSet (s2z "S") 0 [PSValue (SFixed XIntPoint [1; 2]); PSValue (SCustom []); PBool false])
  = nl ["SetProperty("; "    SetProperty {"; "        property_type: ""S"","; "        allocation_flags: 0,"; "        properties: [";
        "            StructPropertyValue("; "                IntPoint("; "                    IntPoint {";
        "                        x: 1,"; "                        y: 2,"; "                    },"; "                ),"; "            ),";
        "            StructPropertyValue("; "                CustomStruct("; "                    HashableIndexMap("; "                        {},";
        "                    ),"; "                ),"; "            ),";
        "            BoolProperty("; "                false,"; "            ),"; "        ],"; "    },"; ")"]%string.
Proof. vm_compute. reflexivity. Qed.
(** Two NaNs print alike, and are equal. *)
Example C70_nans :
  debug_prop bits_text ascii (PNum F32 2143289344) = debug_prop bits_text ascii (PNum F32 4290772993)
  /\ debug_prop bits_text ascii (PNum F32 2143289344) = s2z "FloatProperty(NaNf32)".
Proof. split; vm_compute; reflexivity. Qed.
Example C70_refused :
  array_refusal bits_text ascii (s2z "StructProperty") [PSValue (SGuid a_guid); PBool true; PBool false]
  = Some (nl ["Invalid value Array property_type StructProperty doesn't match property inside array: BoolProperty("; "    true,"; ")"]%string).
Proof. vm_compute. reflexivity. Qed.
