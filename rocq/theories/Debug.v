(** [{:?}] and [{:#?}]: what [derive(Debug)] and std's builders print.  No proofs in this file. *)
From Coq Require Import ZArith List Bool String.
From Verif Require Import Base Str Types Versions Text Props File Guid Json Message Display.
Import ListNotations.
Open Scope string_scope.
Open Scope list_scope.
Open Scope Z_scope.

(** ** std::fmt *)

(** What is handed to the builders of std ([DebugStruct], [DebugTuple], [DebugList],
    [DebugMap]): plain words, strings, guids (types.rs:106-111, never broken into lines). *)
Inductive dtree :=
| DWord (s : str)
| DStr (s : str)
| DGuid (s : str)
| DStruct (name : str) (fields : list (str * dtree))
| DTuple (name : str) (l : list dtree)
| DList (l : list dtree)
| DMap (l : list (dtree * dtree)).

(** [Debug for str]: [char::escape_debug] with single quotes left alone.  [plain] tells
    which other characters std takes for printable and not for grapheme extensions. *)
Definition esc (plain : Z -> bool) (c : Z) : str :=
  if c =? 0 then s2z "\0" else if c =? 9 then s2z "\t" else if c =? 13 then s2z "\r" else if c =? 10 then s2z "\n"
  else if c =? 92 then s2z "\\" else if c =? 34 then [92; 34]
  else if plain c then [c] else s2z "\u{" ++ hex_digits (S (Z.to_nat (Z.log2 c))) c ++ s2z "}".
Definition quote (plain : Z -> bool) (s : str) : str := 34 :: flat_map (esc plain) s ++ [34].

(** The start of a line at depth [k] ([PadAdapter] indents by four spaces). *)
Definition line (k : nat) : str := 10 :: repeat 32 (4 * k).
(** The inside of a builder and its closing bracket: [i] is [None] for [{:?}] and the
    depth for [{:#?}]; [pad] goes inside the braces of a struct on one line. *)
Fixpoint join (l : list str) : str := match l with [] => [] | [a] => a | a :: l' => a ++ s2z ", " ++ join l' end.
Definition inside (i : option nat) (pad close : str) (l : list str) : str :=
  match l, i with
  | [], _ => close
  | _, None => pad ++ join l ++ pad ++ close
  | _, Some k => flat_map (fun a => line (S k) ++ a ++ s2z ",") l ++ line k ++ close
  end.
Definition deeper (i : option nat) : option nat := option_map S i.
Fixpoint show (plain : Z -> bool) (i : option nat) (d : dtree) : str :=
  match d with
  | DWord s => s
  | DStr s => quote plain s
  | DGuid s => s2z "Guid(" ++ s ++ s2z ")"
  | DStruct n [] => n
  | DStruct n l =>
    n ++ s2z " {" ++ inside i (s2z " ") (s2z "}") (map (fun e => fst e ++ s2z ": " ++ show plain (deeper i) (snd e)) l)
  | DTuple n l => n ++ s2z "(" ++ inside i [] (s2z ")") (map (show plain (deeper i)) l)
  | DList l => s2z "[" ++ inside i [] (s2z "]") (map (show plain (deeper i)) l)
  | DMap l =>
    s2z "{" ++ inside i [] (s2z "}")
      (map (fun e => show plain (deeper i) (fst e) ++ s2z ": " ++ show plain (deeper i) (snd e)) l)
  end.

(** ** The types of the crate *)
Section Types.
(** How std prints floats: [true] for [Display], which the numeric properties use
    (int_property.rs:63-67), [false] for [Debug]. *)
Context (fl : bool -> num -> Z -> str).

(** Numbers, options, vectors and maps of std and indexmap; [HashableIndexMap], types.rs:221-223. *)
Definition dg_int (z : Z) : dtree := DWord (signed z).
Definition dg_bool (b : bool) : dtree := DWord (debug_bool b).
Definition dg_num (k : num) (z : Z) : dtree := match k with F32 | F64 => DWord (fl false k z) | _ => dg_int z end.
Definition dg_opt {A} (f : A -> dtree) (o : option A) : dtree :=
  match o with Some a => DTuple (s2z "Some") [f a] | None => DWord (s2z "None") end.
Definition dg_hashable (l : list (dtree * dtree)) : dtree := DTuple (s2z "HashableIndexMap") [DMap l].
Definition dg_guid (g : guid) : dtree := DGuid (guid_display g).
Definition dg_unit (names : list str) (z : Z) : dtree := DWord (nth (Z.to_nat z) names []).

(** The structs made by [make_struct!], struct_types.rs:47-63. *)
Fixpoint dg_fields (names : list str) (ks : list num) (l : list Z) : list (str * dtree) :=
  match names, ks, l with
  | n :: names', k :: ks', z :: l' => (n, dg_num k z) :: dg_fields names' ks' l'
  | _, _, _ => []
  end.
Definition dg_fixed (x : fixed) (l : list Z) : dtree := DStruct (fixed_variant x) (dg_fields (field_names x) (layout x) l).
Definition dg_ticks (z : Z) : dtree := dg_fixed XDateTime [z].

(** [NumberFormattingOptions], text_property.rs:881-901. *)
Definition dg_numfmt (o : numfmt) : dtree :=
  DStruct (s2z "NumberFormattingOptions")
    [(s2z "always_include_sign", dg_bool (nf_sign o)); (s2z "use_grouping", dg_bool (nf_group o));
     (s2z "rounding_mode", dg_unit rounding_names (nf_round o));
     (s2z "minimum_integral_digits", dg_int (nf_mini o));
     (s2z "maximum_integral_digits", dg_int (nf_maxi o));
     (s2z "minimum_fractional_digits", dg_int (nf_minf o));
     (s2z "maximum_fractional_digits", dg_int (nf_maxf o))].

(** [FText], text_property.rs:65-74; [FTextHistory] 173-284 (a variant without fields is printed
    as its name, even if it has braces); [FormatArgumentValue] 733-751. *)
Fixpoint dg_text (t : ftext) : dtree :=
  match t with FText f h => DStruct (s2z "FText") [(s2z "flags", dg_int f); (s2z "history", dg_hist h)] end
with dg_hist (h : fhist) : dtree :=
  match h with
  | HEmpty => DWord (s2z "Empty")
  | HNone s => DStruct (s2z "None") [(s2z "culture_invariant_string", dg_opt DStr s)]
  | HBase a b c =>
    DStruct (s2z "Base") [(s2z "namespace", dg_opt DStr a); (s2z "key", dg_opt DStr b); (s2z "source_string", dg_opt DStr c)]
  | HNamed t l =>
    DStruct (s2z "NamedFormat")
      [(s2z "source_format", dg_text t); (s2z "arguments", dg_hashable (map (fun e => (DStr (fst e), dg_arg (snd e))) l))]
  | HOrdered t l =>
    DStruct (s2z "OrderedFormat") [(s2z "source_format", dg_text t); (s2z "arguments", DList (map dg_arg l))]
  | HArgument t l =>
    DStruct (s2z "ArgumentFormat")
      [(s2z "source_format", dg_text t); (s2z "arguments", dg_hashable (map (fun e => (DStr (fst e), dg_arg (snd e))) l))]
  | HNumber v o c =>
    DStruct (s2z "AsNumber")
      [(s2z "source_value", dg_arg v); (s2z "format_options", dg_opt dg_numfmt o); (s2z "target_culture", dg_opt DStr c)]
  | HPercent v o c =>
    DStruct (s2z "AsPercent")
      [(s2z "source_value", dg_arg v); (s2z "format_options", dg_opt dg_numfmt o); (s2z "target_culture", dg_opt DStr c)]
  | HCurrency d v o c =>
    DStruct (s2z "AsCurrency")
      [(s2z "currency_code", dg_opt DStr d); (s2z "source_value", dg_arg v); (s2z "format_options", dg_opt dg_numfmt o);
       (s2z "target_culture", dg_opt DStr c)]
  | HDate t s c =>
    DStruct (s2z "AsDate") [(s2z "date_time", dg_ticks t); (s2z "date_style", dg_unit style_names s); (s2z "target_culture", DStr c)]
  | HTime t s z c =>
    DStruct (s2z "AsTime")
      [(s2z "source_date_time", dg_ticks t); (s2z "time_style", dg_unit style_names s); (s2z "time_zone", DStr z);
       (s2z "target_culture", DStr c)]
  | HDateTime t s u z c =>
    DStruct (s2z "AsDateTime")
      [(s2z "source_date_time", dg_ticks t); (s2z "date_style", dg_unit style_names s); (s2z "time_style", dg_unit style_names u);
       (s2z "time_zone", DStr z); (s2z "target_culture", DStr c)]
  | HTransform t x =>
    DStruct (s2z "Transform") [(s2z "source_text", dg_text t); (s2z "transform_type", dg_unit transform_names x)]
  | HTable a b => DStruct (s2z "StringTableEntry") [(s2z "table_id", DStr a); (s2z "key", DStr b)]
  end
with dg_arg (a : farg) : dtree :=
  match a with
  | AInt z => DTuple (s2z "Int") [dg_int z]
  | AUInt z => DTuple (s2z "UInt") [dg_int z]
  | AFloat z => DTuple (s2z "Float") [dg_num F32 z]
  | ADouble z => DTuple (s2z "Double") [dg_num F64 z]
  | AText t => DTuple (s2z "Text") [dg_text t]
  | AInt64 z => DTuple (s2z "Int64") [dg_int z]
  | AUInt64 z => DTuple (s2z "UInt64") [dg_int z]
  end.

(** [Delegate], delegate_property.rs:13-20; [BytePropertyValue], int_property.rs:139-147. *)
Definition dg_delegate (p : str * str) : dtree :=
  DStruct (s2z "Delegate") [(s2z "object", DStr (fst p)); (s2z "function_name", DStr (snd p))].
Definition dg_bytev (v : bytev) : dtree :=
  match v with BByte b => DTuple (s2z "Byte") [dg_int (b2z b)] | BName s => DTuple (s2z "Namespaced") [DStr s] end.
(** Variants of [MapProperty] by their kind of key, map_property.rs:27-96. *)
Definition map_variant (k : keyk) (suffix : string) : str :=
  s2z (match k with KkEnum => "Enum" | KkName => "Name" | KkStr => "Str" end ++ suffix).
(** A variant of [Property] with its payload, a struct of the same name: mod.rs:494-548 with
    [enum_dispatch]. *)
Definition dg_wrap (ty : string) (fields : list (str * dtree)) : dtree := DTuple (s2z ty) [DStruct (s2z ty) fields].

(** [Property], mod.rs:494-548.  The payloads: int_property.rs:63-67, 133-137, 149-160 and 296-300,
    enum_property.rs:13-21, str_property.rs:13-19, text_property.rs:23-29,
    name_property.rs:11-20, object_property.rs:12-18, delegate_property.rs:51-57, 90-96, 129-135 and 168-174,
    field_path_property.rs:12-21 and 63-69, unknown_property.rs:10-15, set_property.rs:14-24,
    struct_property.rs:38-51. *)
Fixpoint dg_prop (p : property) : dtree :=
  match p with
  | PNum k z => DTuple (num_name k) [DWord (debug_num (fl true) k z)]
  | PBool b => DTuple (s2z "BoolProperty") [dg_bool b]
  | PByte n v => dg_wrap "ByteProperty" [(s2z "name", dg_opt DStr n); (s2z "value", dg_bytev v)]
  | PEnum t v => dg_wrap "EnumProperty" [(s2z "enum_type", dg_opt DStr t); (s2z "value", DStr v)]
  | PStr v => dg_wrap "StrProperty" [(s2z "value", dg_opt DStr v)]
  | PText t => dg_wrap "TextProperty" [(s2z "value", dg_text t)]
  | PName i v => dg_wrap "NameProperty" [(s2z "array_index", dg_int i); (s2z "value", dg_opt DStr v)]
  | PObject v => dg_wrap "ObjectProperty" [(s2z "value", DStr v)]
  | PDelegate a b => dg_wrap "DelegateProperty" [(s2z "value", dg_delegate (a, b))]
  | PMulti inline l =>
    dg_wrap (if inline then "MulticastInlineDelegateProperty" else "MulticastSparseDelegateProperty")
      [(s2z "value", DStruct (s2z "MulticastScriptDelegate") [(s2z "delegates", DList (map dg_delegate l))])]
  | PFieldPath l s =>
    dg_wrap "FieldPathProperty"
      [(s2z "value", DStruct (s2z "FieldPath") [(s2z "path", DList (map DStr l)); (s2z "resolved_owner", DStr s)])]
  | PUnknown n raw =>
    dg_wrap "UnknownProperty" [(s2z "property_name", DStr n); (s2z "raw", DList (map (fun b => dg_int (b2z b)) raw))]
  | PArray a => DTuple (s2z "ArrayProperty") [dg_array a]
  | PSet t f l =>
    dg_wrap "SetProperty" [(s2z "property_type", DStr t); (s2z "allocation_flags", dg_int f); (s2z "properties", DList (map dg_prop l))]
  | PMap m => DTuple (s2z "MapProperty") [dg_map m]
  | PStruct g t v => dg_wrap "StructProperty" [(s2z "guid", dg_guid g); (s2z "type_name", DStr t); (s2z "value", dg_sval v)]
  | PSValue v => DTuple (s2z "StructPropertyValue") [dg_sval v]
  end
(** [StructPropertyValue], struct_property.rs:53-86. *)
with dg_sval (v : svalue) : dtree :=
  match v with
  | SFixed x l => DTuple (fixed_variant x) [dg_fixed x l]
  | SGuid g => DTuple (s2z "Guid") [dg_guid g]
  | STags l => DTuple (s2z "GameplayTagContainer") [DList (map DStr l)]
  | SCustom l => DTuple (s2z "CustomStruct") [dg_hashable (map (fun e => (DStr (fst e), DList (map dg_prop (snd e)))) l)]
  end
(** [ArrayProperty], array_property.rs:28-90. *)
with dg_array (a : arrayp) : dtree :=
  match a with
  | ABools l => DStruct (s2z "Bools") [(s2z "bools", DList (map dg_bool l))]
  | ABytes l => DStruct (s2z "Bytes") [(s2z "bytes", DList (map (fun b => dg_int (b2z b)) l))]
  | AEnums l => DStruct (s2z "Enums") [(s2z "enums", DList (map DStr l))]
  | AFloats l => DStruct (s2z "Floats") [(s2z "floats", DList (map (dg_num F32) l))]
  | AInts l => DStruct (s2z "Ints") [(s2z "ints", DList (map dg_int l))]
  | ANames l => DStruct (s2z "Names") [(s2z "names", DList (map (dg_opt DStr) l))]
  | AStrings l => DStruct (s2z "Strings") [(s2z "strings", DList (map (dg_opt DStr) l))]
  | AStructs f t g l =>
    DStruct (s2z "Structs")
      [(s2z "field_name", DStr f); (s2z "type_name", DStr t); (s2z "guid", dg_guid g); (s2z "structs", DList (map dg_sval l))]
  | AProps t l => DStruct (s2z "Properties") [(s2z "property_type", DStr t); (s2z "properties", DList (map dg_prop l))]
  end
(** [MapProperty], map_property.rs:24-96. *)
with dg_map (m : mapp) : dtree :=
  match m with
  | MBool k l => DStruct (map_variant k "Bool") [(map_field k "_bools", dg_hashable (map (fun e => (DStr (fst e), dg_bool (snd e))) l))]
  | MInt k l => DStruct (map_variant k "Int") [(map_field k "_ints", dg_hashable (map (fun e => (DStr (fst e), dg_int (snd e))) l))]
  | MProp k vt l =>
    DStruct (map_variant k "Property")
      [(s2z "value_type", DStr vt); (map_field k "_props", dg_hashable (map (fun e => (DStr (fst e), dg_prop (snd e))) l))]
  | MStrStr l => DStruct (s2z "StrStr") [(s2z "str_strs", dg_hashable (map (fun e => (DStr (fst e), dg_opt DStr (snd e))) l))]
  | MGen kt vt f l =>
    DStruct (s2z "Properties")
      [(s2z "key_type", DStr kt); (s2z "value_type", DStr vt); (s2z "allocation_flags", dg_int f);
       (s2z "value", dg_hashable (map (fun e => (dg_prop (fst e), dg_prop (snd e))) l))]
  end.

(** [FEngineVersion], engine_version.rs:9-22. *)
Definition dg_engine (v : fengine) : dtree :=
  DStruct (s2z "FEngineVersion")
    [(s2z "major", dg_int (fe_major v)); (s2z "minor", dg_int (fe_minor v)); (s2z "patch", dg_int (fe_patch v));
     (s2z "change_list", dg_int (fe_change v)); (s2z "branch", DStr (fe_branch v))].
(** [GvasHeader], lib.rs:114-147. *)
Definition dg_header (h : header) : dtree :=
  DStruct (match h_ue5 h with None => s2z "Version2" | Some _ => s2z "Version3" end)
    ((s2z "package_file_version", dg_int (h_package h))
     :: match h_ue5 h with Some v => [(s2z "package_file_version_ue5", dg_int v)] | None => [] end
     ++ [(s2z "engine_version", dg_engine (h_engine h)); (s2z "custom_version_format", dg_int (h_format h));
         (s2z "custom_versions", dg_hashable (map (fun e => (dg_guid (fst e), dg_int (snd e))) (h_versions h)));
         (s2z "save_game_class_name", DStr (h_class h))]).
(** [DeserializedGameVersion] and [PalworldCompressionType], game_version.rs:20-41. *)
Definition dg_version (v : dversion) : dtree :=
  match v with DDefault => DWord (s2z "Default") | DPalworld c => DTuple (s2z "Palworld") [DWord (ctype_name c)] end.
(** [GvasFile], lib.rs:329-343. *)
Definition dg_file (g : gfile) : dtree :=
  DStruct (s2z "GvasFile")
    [(s2z "deserialized_game_version", dg_version (g_version g)); (s2z "header", dg_header (g_header g));
     (s2z "properties", dg_hashable (map (fun e => (DStr (fst e), dg_prop (snd e))) (g_props g)))].
End Types.

(** [format!("{:?}", x)] and [format!("{:#?}", x)] of a property and of a file. lib.rs:329-343. *)
Definition debug_prop fl plain (p : property) : str := show plain None (dg_prop fl p).
Definition pretty_prop fl plain (p : property) : str := show plain (Some O) (dg_prop fl p).
Definition debug_file fl plain (g : gfile) : str := show plain None (dg_file fl g).
Definition pretty_file fl plain (g : gfile) : str := show plain (Some O) (dg_file fl g).

(** What [ArrayProperty::new] says about the first element that is not the value of a struct,
    array_property.rs:226-244 with the [Display] of error.rs:88-93. *)
Definition array_refusal fl plain (ty : str) (l : list property) : option str :=
  match find (fun p => match as_sval p with Some _ => false | None => true end) l with
  | Some p =>
    Some (s2z "Invalid value Array property_type " ++ ty ++ s2z " doesn't match property inside array: " ++ pretty_prop fl plain p)
  | None => None
  end.
