(** JSON text written straight from a value: [serde_json::to_string(&file)] and
    [to_string_pretty] (tests/serde_tests/serde_json_round_trip.rs:10,
    serde_json_template.rs:48), without a [serde_json::Value] in between.  The [Serialize]
    instances are the same as in Json.v; the serializer differs in one point: a single
    precision number is written with the digits that [ryu] chooses for an f32
    (serde_json 1.0.145, ser.rs [serialize_f32] and [Formatter::write_f32]), not for the
    f64 of the same value.  Reading is [from_text] and [from_json], or JsonFrom.v: all single
    precision numbers are inside of [Property], whose tag "type" (mod.rs:488-493) makes
    serde read numbers as f64 first.  No proofs in this file. *)
From Coq Require Import ZArith List Bool String.
From Verif Require Import Base Str Types Versions Text Props File Guid Json JsonSyntax.
Import ListNotations.
Open Scope Z_scope.

(** ** The instances, for any serializer of floats.  With those of [to_value] this is
    [to_json] (DirectTree.v, [tree_json]). *)
Section Serialize.
Context (single double : Z -> json).
Definition s_num (k : num) (z : Z) : json :=
  match k with F32 => single z | F64 => double z | _ => JInt z end.
(** [FText], [FTextHistory], [FormatArgumentValue]: text_property.rs:63-74, 178-284, 734-751. *)
Fixpoint s_text (t : ftext) : list (str * json) :=
  match t with FText f h => e_nonzero (s2z "flags") f ++ s_hist h end
with s_hist (h : fhist) : list (str * json) :=
  match h with
  | HEmpty => [(s2z "history", JStr (s2z "Empty"))]
  | HNone s =>
    (s2z "history", JStr (s2z "None")) :: e_optstr (s2z "culture_invariant_string") s
  | HBase a b c =>
    (s2z "history", JStr (s2z "Base")) :: e_optstr (s2z "namespace") a
    ++ e_optstr (s2z "key") b ++ e_optstr (s2z "source_string") c
  | HNamed t l =>
    [(s2z "history", JStr (s2z "NamedFormat")); (s2z "source_format", JObj (s_text t));
     (s2z "arguments", JObj (map (fun '(k, v) => (k, s_arg v)) l))]
  | HOrdered t l =>
    [(s2z "history", JStr (s2z "OrderedFormat")); (s2z "source_format", JObj (s_text t));
     (s2z "arguments", JArr (map s_arg l))]
  | HArgument t l =>
    [(s2z "history", JStr (s2z "ArgumentFormat")); (s2z "source_format", JObj (s_text t));
     (s2z "arguments", JObj (map (fun '(k, v) => (k, s_arg v)) l))]
  | HNumber v o c =>
    [(s2z "history", JStr (s2z "AsNumber")); (s2z "source_value", s_arg v)]
    ++ e_opt (s2z "format_options") (option_map e_numfmt o) ++ e_optstr (s2z "target_culture") c
  | HPercent v o c =>
    [(s2z "history", JStr (s2z "AsPercent")); (s2z "source_value", s_arg v)]
    ++ e_opt (s2z "format_options") (option_map e_numfmt o) ++ e_optstr (s2z "target_culture") c
  | HCurrency d v o c =>
    (s2z "history", JStr (s2z "AsCurrency")) :: e_optstr (s2z "currency_code") d
    ++ (s2z "source_value", s_arg v) :: e_opt (s2z "format_options") (option_map e_numfmt o)
    ++ e_optstr (s2z "target_culture") c
  | HDate t s c =>
    [(s2z "history", JStr (s2z "AsDate")); (s2z "date_time", e_ticks t);
     (s2z "date_style", e_style s); (s2z "target_culture", JStr c)]
  | HTime t s z c =>
    [(s2z "history", JStr (s2z "AsTime")); (s2z "source_date_time", e_ticks t);
     (s2z "time_style", e_style s); (s2z "time_zone", JStr z); (s2z "target_culture", JStr c)]
  | HDateTime t s u z c =>
    [(s2z "history", JStr (s2z "AsDateTime")); (s2z "source_date_time", e_ticks t);
     (s2z "date_style", e_style s); (s2z "time_style", e_style u);
     (s2z "time_zone", JStr z); (s2z "target_culture", JStr c)]
  | HTransform t x =>
    [(s2z "history", JStr (s2z "Transform")); (s2z "source_text", JObj (s_text t));
     (s2z "transform", e_name transform_names x)]
  | HTable a b =>
    [(s2z "history", JStr (s2z "StringTableEntry")); (s2z "table_id", JStr a); (s2z "key", JStr b)]
  end
with s_arg (a : farg) : json :=
  match a with
  | AInt z => JObj [(s2z "Int", JInt z)]
  | AUInt z => JObj [(s2z "UInt", JInt z)]
  | AFloat z => JObj [(s2z "Float", single z)]
  | ADouble z => JObj [(s2z "Double", double z)]
  | AText t => JObj [(s2z "Text", JObj (s_text t))]
  | AInt64 z => JObj [(s2z "Int64", JInt z)]
  | AUInt64 z => JObj [(s2z "UInt64", JInt z)]
  end.

(** Fields of the fixed structs, struct_types.rs:84-173. *)
Fixpoint s_fields (names : list str) (ks : list num) (l : list Z) : list (str * json) :=
  match names, ks, l with
  | n :: names', k :: ks', z :: l' => (n, s_num k z) :: s_fields names' ks' l'
  | _, _, _ => []
  end.
(** [Property] (mod.rs:488-548) and its payloads. *)
Fixpoint s_prop (p : property) : json :=
  match p with
  | PNum k z => JObj [(s2z "type", JStr (num_name k)); (s2z "value", s_num k z)]
  | PBool b => tagged "BoolProperty" [(s2z "value", JBool b)]
  | PByte n v => tagged "ByteProperty" (e_optstr (s2z "name") n ++ [e_bytev v])
  | PEnum t v => tagged "EnumProperty" (e_optstr (s2z "enum_type") t ++ [(s2z "value", JStr v)])
  | PStr v => tagged "StrProperty" (e_optstr (s2z "value") v)
  | PText t => tagged "TextProperty" (s_text t)
  | PName i v => tagged "NameProperty" (e_nonzero (s2z "array_index") i ++ e_optstr (s2z "value") v)
  | PObject v => tagged "ObjectProperty" [(s2z "value", JStr v)]
  | PDelegate a b => tagged "DelegateProperty" [(s2z "value", e_delegate (a, b))]
  | PMulti inline l =>
    tagged (if inline then "MulticastInlineDelegateProperty" else "MulticastSparseDelegateProperty")
      [(s2z "value", JObj [(s2z "delegates", JArr (map e_delegate l))])]
  | PFieldPath l s =>
    tagged "FieldPathProperty"
      [(s2z "value", JObj [(s2z "path", JArr (map JStr l)); (s2z "resolved_owner", JStr s)])]
  | PUnknown n raw =>
    tagged "UnknownProperty"
      [(s2z "property_name", JStr n); (s2z "raw", JArr (map (fun b => JInt (b2z b)) raw))]
  | PArray a => tagged "ArrayProperty" (s_array a)
  | PSet t f l =>
    tagged "SetProperty"
      [(s2z "property_type", JStr t); (s2z "allocation_flags", JInt f);
       (s2z "properties", JArr (map s_prop l))]
  | PMap m => tagged "MapProperty" (s_map m)
  | PStruct g t v =>
    tagged "StructProperty" (e_optguid (s2z "guid") g ++ [(s2z "type_name", JStr t); s_sval v])
  | PSValue v => tagged "StructPropertyValue" [s_sval v]
  end
(** [StructPropertyValue]: external tag. struct_property.rs:54-86. *)
with s_sval (v : svalue) : str * json :=
  match v with
  | SFixed x l => (fixed_variant x, JObj (s_fields (field_names x) (layout x) l))
  | SGuid g => (s2z "Guid", e_guid g)
  | STags l => (s2z "GameplayTagContainer", JArr (map JStr l))
  | SCustom l => (s2z "CustomStruct", JObj (map (fun '(k, ps) => (k, JArr (map s_prop ps))) l))
  end
(** [ArrayProperty]: untagged, array_property.rs:28-90. *)
with s_array (a : arrayp) : list (str * json) :=
  match a with
  | ABools l => [(s2z "bools", JArr (map JBool l))]
  | ABytes l => [(s2z "bytes", JStr (e_hex l))]
  | AEnums l => [(s2z "enums", JArr (map JStr l))]
  | AFloats l => [(s2z "floats", JArr (map single l))]
  | AInts l => [(s2z "ints", JArr (map JInt l))]
  | ANames l => [(s2z "names", JArr (map e_ostr l))]
  | AStrings l => [(s2z "strings", JArr (map e_ostr l))]
  | AStructs f t g l =>
    [(s2z "field_name", JStr f); (s2z "type_name", JStr t)] ++ e_optguid (s2z "guid") g
    ++ [(s2z "structs", JArr (map (fun v => JObj [s_sval v]) l))]
  | AProps t l => [(s2z "property_type", JStr t); (s2z "properties", JArr (map s_prop l))]
  end
(** [MapProperty]: untagged, map_property.rs:24-96; [serde_seq], types.rs:341-376. *)
with s_map (m : mapp) : list (str * json) :=
  match m with
  | MBool k l => [(map_field k "_bools", JObj (map (fun '(s, b) => (s, JBool b)) l))]
  | MInt k l => [(map_field k "_ints", JObj (map (fun '(s, z) => (s, JInt z)) l))]
  | MProp k vt l =>
    [(s2z "value_type", JStr vt); (map_field k "_props", JObj (map (fun '(s, p) => (s, s_prop p)) l))]
  | MStrStr l => [(s2z "str_strs", JObj (map (fun '(s, v) => (s, e_ostr v)) l))]
  | MGen kt vt f l =>
    [(s2z "key_type", JStr kt); (s2z "value_type", JStr vt); (s2z "allocation_flags", JInt f);
     (s2z "value", JArr (map (fun '(k, v) => JArr [s_prop k; s_prop v]) l))]
  end.
(** [GvasFile], lib.rs:325-341. *)
Definition to_tree (g : gfile) : json :=
  JObj (e_dversion (g_version g)
        ++ [(s2z "header", e_header (g_header g));
            (s2z "properties", JObj (map (fun '(k, p) => (k, s_prop p)) (g_props g)))]).
End Serialize.

(** ** Text.  A number [x] written by [serialize_f32] is kept as [2^64 + x] in the tree
    that is printed. The floats of struct_types.rs:17-38 and int_property.rs:330-337. *)
Definition tag32 : Z := 18446744073709551616.
Definition w_single (b : Z) : json := if f_finite fmt32 b then JFloat (tag32 + b) else JNull.
Section Write.
(** [ryu] for f32 and f64. *)
Context (float32 float : Z -> str).
(** The text of a [GvasFile], lib.rs:331-345. *)
Definition w_float (z : Z) : str := if z <? tag32 then float z else float32 (z - tag32).
Definition direct_text (g : gfile) : str := print w_float (to_tree w_single e_f64 g).
Definition direct_pretty (g : gfile) : str := pretty w_float 0 (to_tree w_single e_f64 g).
End Write.
