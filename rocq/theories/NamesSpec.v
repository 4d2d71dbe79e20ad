(** Specification of C71: the declarations of the types, and how serde's attributes turn
    a value that [Debug] shows under its declared names into JSON. *)
From Coq Require Import ZArith List Bool String.
From Verif Require Import Base Types Message Json Debug.
Import ListNotations.
Open Scope Z_scope.

(** Structs, and variants with named fields, with their fields as declared: struct_types.rs:84-173,
    text_property.rs, int_property.rs:149-160, enum_property.rs, str_property.rs, name_property.rs,
    object_property.rs, delegate_property.rs, field_path_property.rs, unknown_property.rs,
    set_property.rs, struct_property.rs, array_property.rs:28-90, map_property.rs:24-96,
    engine_version.rs, lib.rs:114-147 and 329-343. *)
Definition declared : list (string * list string) :=
 [("Vector2F", ["x"; "y"]); ("Vector2D", ["x"; "y"]); ("VectorF", ["x"; "y"; "z"]); ("VectorD", ["x"; "y"; "z"]);
  ("RotatorF", ["pitch"; "yaw"; "roll"]); ("RotatorD", ["pitch"; "yaw"; "roll"]);
  ("QuatF", ["x"; "y"; "z"; "w"]); ("QuatD", ["x"; "y"; "z"; "w"]);
  ("DateTime", ["ticks"]); ("Timespan", ["ticks"]); ("LinearColor", ["r"; "g"; "b"; "a"]); ("IntPoint", ["x"; "y"]);
  ("FText", ["flags"; "history"]);
  ("None", ["culture_invariant_string"]);
  ("Base", ["namespace"; "key"; "source_string"]);
  ("NamedFormat", ["source_format"; "arguments"]);
  ("OrderedFormat", ["source_format"; "arguments"]);
  ("ArgumentFormat", ["source_format"; "arguments"]);
  ("AsNumber", ["source_value"; "format_options"; "target_culture"]);
  ("AsPercent", ["source_value"; "format_options"; "target_culture"]);
  ("AsCurrency", ["currency_code"; "source_value"; "format_options"; "target_culture"]);
  ("AsDate", ["date_time"; "date_style"; "target_culture"]);
  ("AsTime", ["source_date_time"; "time_style"; "time_zone"; "target_culture"]);
  ("AsDateTime", ["source_date_time"; "date_style"; "time_style"; "time_zone"; "target_culture"]);
  ("Transform", ["source_text"; "transform_type"]);
  ("StringTableEntry", ["table_id"; "key"]);
  ("NumberFormattingOptions",
   ["always_include_sign"; "use_grouping"; "rounding_mode"; "minimum_integral_digits"; "maximum_integral_digits";
    "minimum_fractional_digits"; "maximum_fractional_digits"]);
  ("ByteProperty", ["name"; "value"]);
  ("EnumProperty", ["enum_type"; "value"]);
  ("StrProperty", ["value"]);
  ("TextProperty", ["value"]);
  ("NameProperty", ["array_index"; "value"]);
  ("ObjectProperty", ["value"]);
  ("DelegateProperty", ["value"]);
  ("MulticastInlineDelegateProperty", ["value"]);
  ("MulticastSparseDelegateProperty", ["value"]);
  ("Delegate", ["object"; "function_name"]);
  ("MulticastScriptDelegate", ["delegates"]);
  ("FieldPathProperty", ["value"]);
  ("FieldPath", ["path"; "resolved_owner"]);
  ("UnknownProperty", ["property_name"; "raw"]);
  ("SetProperty", ["property_type"; "allocation_flags"; "properties"]);
  ("StructProperty", ["guid"; "type_name"; "value"]);
  ("Bools", ["bools"]); ("Bytes", ["bytes"]); ("Enums", ["enums"]); ("Floats", ["floats"]); ("Ints", ["ints"]);
  ("Names", ["names"]); ("Strings", ["strings"]);
  ("Structs", ["field_name"; "type_name"; "guid"; "structs"]);
  ("Properties", ["property_type"; "properties"]);
  ("EnumBool", ["enum_bools"]); ("EnumInt", ["enum_ints"]); ("EnumProperty", ["value_type"; "enum_props"]);
  ("NameBool", ["name_bools"]); ("NameInt", ["name_ints"]); ("NameProperty", ["value_type"; "name_props"]);
  ("StrBool", ["str_bools"]); ("StrInt", ["str_ints"]); ("StrProperty", ["value_type"; "str_props"]);
  ("StrStr", ["str_strs"]);
  ("Properties", ["key_type"; "value_type"; "allocation_flags"; "value"]);
  ("FEngineVersion", ["major"; "minor"; "patch"; "change_list"; "branch"]);
  ("Version2",
   ["package_file_version"; "engine_version"; "custom_version_format"; "custom_versions"; "save_game_class_name"]);
  ("Version3",
   ["package_file_version"; "package_file_version_ue5"; "engine_version"; "custom_version_format"; "custom_versions";
    "save_game_class_name"]);
  ("GvasFile", ["deserialized_game_version"; "header"; "properties"])]%string.
(** Variants with one unnamed field: [Property] (mod.rs:494-548; the numbers with their suffixes
    in [Debug], int_property.rs:63-67), then [StructPropertyValue] (struct_property.rs:53-86),
    [BytePropertyValue] (int_property.rs:139-147), [FormatArgumentValue] (text_property.rs:733-751)
    and [DeserializedGameVersion] (game_version.rs:34-41). *)
Definition number_variants : list (string * string) :=
  [("Int8Property", "i8"); ("Int16Property", "i16"); ("UInt16Property", "u16");
   ("IntProperty", "i32"); ("UInt32Property", "u32"); ("Int64Property", "i64"); ("UInt64Property", "u64")]%string.
Definition float_variants : list (num * string * string) :=
  [(F32, "FloatProperty", "f32"); (F64, "DoubleProperty", "f64")]%string.
Definition tagged_variants : list string :=
  ["ByteProperty"; "EnumProperty"; "StrProperty"; "TextProperty"; "NameProperty"; "ObjectProperty"; "DelegateProperty";
   "MulticastInlineDelegateProperty"; "MulticastSparseDelegateProperty"; "FieldPathProperty"; "UnknownProperty";
   "ArrayProperty"; "SetProperty"; "MapProperty"; "StructProperty"; "StructPropertyValue"]%string.
Definition plain_variants : list string :=
  ["Vector2F"; "Vector2D"; "VectorF"; "VectorD"; "RotatorF"; "RotatorD"; "QuatF"; "QuatD"; "DateTime"; "Timespan";
   "LinearColor"; "IntPoint"; "Guid"; "GameplayTagContainer"; "CustomStruct"; "Byte"; "Namespaced"; "Int"; "UInt"; "Float";
   "Double"; "Text"; "Int64"; "UInt64"; "Palworld"]%string.
(** serde's [flatten]: int_property.rs:157, struct_property.rs:48, text_property.rs:27, 72, 284 and 889. *)
Definition flattened : list string := ["value"; "history"; "transform_type"; "rounding_mode"]%string.
(** serde's [tag]: lib.rs:116, mod.rs:492, text_property.rs:177, 861 and 959. *)
Definition tags : list string := ["type"; "history"; "rounding"; "transform"]%string.
(** [untagged], array_property.rs:32 and map_property.rs:26, and structs: their names are not in JSON.
    Variants with a tag: [FTextHistory] and [GvasHeader]. *)
Definition tagged_structs : list string :=
  ["None"; "Base"; "NamedFormat"; "OrderedFormat"; "ArgumentFormat"; "AsNumber"; "AsPercent"; "AsCurrency"; "AsDate";
   "AsTime"; "AsDateTime"; "Transform"; "StringTableEntry"; "Version2"; "Version3"]%string.
(** What is left out: [skip_serializing_none] text_property.rs:176 and others, [is_zero] text_property.rs:69
    and name_property.rs:15, [Guid::is_zero] array_property.rs:77 and struct_property.rs:42,
    [is_default] lib.rs:336. *)
Definition no_value : list string :=
  ["culture_invariant_string"; "namespace"; "key"; "source_string"; "format_options"; "target_culture"; "currency_code";
   "name"; "enum_type"; "value"]%string.
Inductive left_out : string -> dtree -> Prop :=
| l_none k : In k no_value -> left_out k (DWord (s2z "None"))
| l_zero k : In k ["flags"; "array_index"]%string -> left_out k (DWord (s2z "0"))
| l_guid : left_out "guid" (DGuid (s2z "0"))
| l_default : left_out "deserialized_game_version" (DWord (s2z "Default")).

Section Names.
(** How std prints floats. *)
Context (fl : bool -> num -> Z -> str).

(** Finite floats are numbers in JSON, the others null. *)
Definition float_json (k : num) (z : Z) (j : json) : Prop :=
  match k with
  | F32 => if f_finite fmt32 z then exists b, j = JFloat b else j = JNull
  | F64 => if f_finite fmt64 z then j = JFloat z else j = JNull
  | _ => False
  end.

(** [shows j d]: [j] is the JSON form of what [Debug] shows as [d]. *)
Inductive shows : json -> dtree -> Prop :=
| s_int z : shows (JInt z) (DWord (signed z))
| s_bool b : shows (JBool b) (DWord (s2z (if b then "true" else "false")))
| s_float k z j : float_json k z j -> shows j (DWord (fl false k z))
| s_str s : shows (JStr s) (DStr s)
| s_unit s : shows (JStr s) (DWord s)
| s_guid s : shows (JStr s) (DGuid s)
| s_none : shows JNull (DWord (s2z "None"))
| s_some j d : shows j d -> shows j (DTuple (s2z "Some") [d])
| s_list l m : Forall2 shows l m -> shows (JArr l) (DList m)
(** [serde_as(as = "Hex")], array_property.rs:43. *)
| s_hex l : shows (JStr (e_hex l)) (DList (map (fun b => DWord (signed (b2z b))) l))
(** Maps: keys are texts. *)
| s_map l m : Forall2 (fun e f => (fst f = DStr (fst e) \/ fst f = DGuid (fst e)) /\ shows (snd e) (snd f)) l m ->
  shows (JObj l) (DTuple (s2z "HashableIndexMap") [DMap m])
(** [serde_seq], types.rs:341-376: keys can be anything. *)
| s_seq l m : Forall2 (fun e f => exists a b, e = JArr [a; b] /\ shows a (fst f) /\ shows b (snd f)) l m ->
  shows (JArr l) (DTuple (s2z "HashableIndexMap") [DMap m])
(** Structs and untagged variants. *)
| s_struct n l m : In (n, map fst m) declared -> ~ In n tagged_structs -> fields l m ->
  shows (JObj l) (DStruct (s2z n) (map (fun e => (s2z (fst e), snd e)) m))
(** Variants with a tag. *)
| s_tag t n l m : In t tags -> In (n, map fst m) declared -> In n tagged_structs -> fields l m ->
  shows (JObj ((s2z t, JStr (s2z n)) :: l)) (DStruct (s2z n) (map (fun e => (s2z (fst e), snd e)) m))
| s_tag_unit t s : In t tags -> shows (JObj [(s2z t, JStr s)]) (DWord s)
(** Variants of [Property]. *)
| s_bool_property b : shows (JObj [(s2z "type", JStr (s2z "BoolProperty")); (s2z "value", JBool b)])
    (DTuple (s2z "BoolProperty") [DWord (s2z (if b then "true" else "false"))])
| s_number n u z : In (n, u) number_variants ->
  shows (JObj [(s2z "type", JStr (s2z n)); (s2z "value", JInt z)]) (DTuple (s2z n) [DWord (signed z ++ s2z u)])
| s_float_property k n u z j : In (k, n, u) float_variants -> float_json k z j ->
  shows (JObj [(s2z "type", JStr (s2z n)); (s2z "value", j)]) (DTuple (s2z n) [DWord (fl true k z ++ s2z u)])
| s_payload n l d : In n tagged_variants -> shows (JObj l) d ->
  shows (JObj ((s2z "type", JStr (s2z n)) :: l)) (DTuple (s2z n) [d])
(** Other variants. *)
| s_variant n j d : In n plain_variants -> shows j d -> shows (JObj [(s2z n, j)]) (DTuple (s2z n) [d])
with fields : list (str * json) -> list (string * dtree) -> Prop :=
| f_nil : fields [] []
| f_keep k j d l m : shows j d -> fields l m -> fields ((s2z k, j) :: l) ((k, d) :: m)
| f_left k d l m : left_out k d -> fields l m -> fields l ((k, d) :: m)
| f_flat k o d l m : In k flattened -> shows (JObj o) d -> fields l m -> fields (o ++ l) ((k, d) :: m).
End Names.
