(** Specification of C74: the declarations of the hashed types with the types of their fields, and
    what [derive(Hash)] makes of a value that [Debug] shows. *)
From Coq Require Import ZArith List Bool String.
From Verif Require Import Base Types Guid Message Debug.
Import ListNotations.
Open Scope Z_scope.

(** ** Types *)
Inductive ty :=
| TInt (w : nat)               (* integers of [w] bytes *)
| TFloat (k : num)             (* [OrderedFloat] *)
| TNum (k : num) (unit : string) (* a struct of one number that prints it with its type, int_property.rs:63-67 *)
| TBool | TStr | TGuid
| TOpt (t : ty) | TVec (t : ty)
| TMap (k v : ty)              (* [HashableIndexMap] *)
| TRef (name : string)         (* a struct *)
| TEnum (name : string)        (* an enum *)
| TSmall (name : string).       (* an enum with [repr(i8)] and no fields *)
Inductive payload := Unit | One (t : ty) | Fields (l : list (string * ty)).

(** ** Declarations *)
(** text_property.rs:858-879, 940-953 and 955-966. *)
Definition smalls : list (string * list string) :=
 [("RoundingMode", ["HalfToEven"; "HalfFromZero"; "HalfToZero"; "FromZero"; "ToZero"; "ToNegativeInfinity"; "ToPositiveInfinity"]);
  ("DateTimeStyle", ["Default"; "Short"; "Medium"; "Long"; "Full"]);
  ("TransformType", ["ToLower"; "ToUpper"])]%string.
Definition rounding : ty := TSmall "RoundingMode".
Definition style : ty := TSmall "DateTimeStyle".
Definition transform : ty := TSmall "TransformType".
Definition ostr : ty := TOpt TStr.
(** struct_types.rs:75-180, text_property.rs:23-29, 65-74 and 881-901, int_property.rs:149-160, enum_property.rs:13-21,
    str_property.rs:13-19, name_property.rs:10-20, object_property.rs:13-18,
    delegate_property.rs:13-20, 52-57, 91-96, 130-135 and 169-174, field_path_property.rs:13-20 and 64-69,
    unknown_property.rs:10-15, set_property.rs:15-24, struct_property.rs:38-51. *)
Definition structs : list (string * list (string * ty)) :=
 [("Vector2F", [("x", TFloat F32); ("y", TFloat F32)]);
  ("Vector2D", [("x", TFloat F64); ("y", TFloat F64)]);
  ("VectorF", [("x", TFloat F32); ("y", TFloat F32); ("z", TFloat F32)]);
  ("VectorD", [("x", TFloat F64); ("y", TFloat F64); ("z", TFloat F64)]);
  ("RotatorF", [("pitch", TFloat F32); ("yaw", TFloat F32); ("roll", TFloat F32)]);
  ("RotatorD", [("pitch", TFloat F64); ("yaw", TFloat F64); ("roll", TFloat F64)]);
  ("QuatF", [("x", TFloat F32); ("y", TFloat F32); ("z", TFloat F32); ("w", TFloat F32)]);
  ("QuatD", [("x", TFloat F64); ("y", TFloat F64); ("z", TFloat F64); ("w", TFloat F64)]);
  ("DateTime", [("ticks", TInt 8)]);
  ("Timespan", [("ticks", TInt 8)]);
  ("LinearColor", [("r", TFloat F32); ("g", TFloat F32); ("b", TFloat F32); ("a", TFloat F32)]);
  ("IntPoint", [("x", TInt 4); ("y", TInt 4)]);
  ("FText", [("flags", TInt 4); ("history", TEnum "FTextHistory")]);
  ("NumberFormattingOptions",
   [("always_include_sign", TBool); ("use_grouping", TBool); ("rounding_mode", rounding);
    ("minimum_integral_digits", TInt 4); ("maximum_integral_digits", TInt 4);
    ("minimum_fractional_digits", TInt 4); ("maximum_fractional_digits", TInt 4)]);
  ("ByteProperty", [("name", ostr); ("value", TEnum "BytePropertyValue")]);
  ("EnumProperty", [("enum_type", ostr); ("value", TStr)]);
  ("StrProperty", [("value", ostr)]);
  ("TextProperty", [("value", TRef "FText")]);
  ("NameProperty", [("array_index", TInt 4); ("value", ostr)]);
  ("ObjectProperty", [("value", TStr)]);
  ("Delegate", [("object", TStr); ("function_name", TStr)]);
  ("DelegateProperty", [("value", TRef "Delegate")]);
  ("MulticastScriptDelegate", [("delegates", TVec (TRef "Delegate"))]);
  ("MulticastInlineDelegateProperty", [("value", TRef "MulticastScriptDelegate")]);
  ("MulticastSparseDelegateProperty", [("value", TRef "MulticastScriptDelegate")]);
  ("FieldPath", [("path", TVec TStr); ("resolved_owner", TStr)]);
  ("FieldPathProperty", [("value", TRef "FieldPath")]);
  ("UnknownProperty", [("property_name", TStr); ("raw", TVec (TInt 1))]);
  ("SetProperty", [("property_type", TStr); ("allocation_flags", TInt 4); ("properties", TVec (TEnum "Property"))]);
  ("StructProperty", [("guid", TGuid); ("type_name", TStr); ("value", TEnum "StructPropertyValue")])]%string.
(** mod.rs:494-548 (each variant holds the struct or enum of its name), struct_property.rs:53-86,
    text_property.rs:174-294 and 733-751, int_property.rs:139-147, array_property.rs:28-90,
    map_property.rs:24-96. *)
Definition enums : list (string * list (string * payload)) :=
 [("Property",
   [("ArrayProperty", One (TEnum "ArrayProperty")); ("BoolProperty", One TBool); ("ByteProperty", One (TRef "ByteProperty"));
    ("DoubleProperty", One (TNum F64 "f64")); ("EnumProperty", One (TRef "EnumProperty")); ("FloatProperty", One (TNum F32 "f32"));
    ("Int16Property", One (TNum I16 "i16")); ("Int64Property", One (TNum I64 "i64")); ("Int8Property", One (TNum I8 "i8"));
    ("IntProperty", One (TNum I32 "i32")); ("MapProperty", One (TEnum "MapProperty")); ("NameProperty", One (TRef "NameProperty"));
    ("ObjectProperty", One (TRef "ObjectProperty")); ("DelegateProperty", One (TRef "DelegateProperty"));
    ("MulticastInlineDelegateProperty", One (TRef "MulticastInlineDelegateProperty"));
    ("MulticastSparseDelegateProperty", One (TRef "MulticastSparseDelegateProperty"));
    ("FieldPathProperty", One (TRef "FieldPathProperty")); ("SetProperty", One (TRef "SetProperty"));
    ("StrProperty", One (TRef "StrProperty")); ("StructProperty", One (TRef "StructProperty"));
    ("StructPropertyValue", One (TEnum "StructPropertyValue")); ("TextProperty", One (TRef "TextProperty"));
    ("UInt16Property", One (TNum U16 "u16")); ("UInt32Property", One (TNum U32 "u32")); ("UInt64Property", One (TNum U64 "u64"));
    ("UnknownProperty", One (TRef "UnknownProperty"))]);
  ("StructPropertyValue",
   [("Vector2F", One (TRef "Vector2F")); ("Vector2D", One (TRef "Vector2D")); ("VectorF", One (TRef "VectorF"));
    ("VectorD", One (TRef "VectorD")); ("RotatorF", One (TRef "RotatorF")); ("RotatorD", One (TRef "RotatorD"));
    ("QuatF", One (TRef "QuatF")); ("QuatD", One (TRef "QuatD")); ("DateTime", One (TRef "DateTime"));
    ("Timespan", One (TRef "Timespan")); ("Guid", One TGuid); ("LinearColor", One (TRef "LinearColor"));
    ("IntPoint", One (TRef "IntPoint")); ("GameplayTagContainer", One (TVec TStr));
    ("CustomStruct", One (TMap TStr (TVec (TEnum "Property"))))]);
  ("FTextHistory",
   [("Empty", Unit);
    ("None", Fields [("culture_invariant_string", ostr)]);
    ("Base", Fields [("namespace", ostr); ("key", ostr); ("source_string", ostr)]);
    ("NamedFormat", Fields [("source_format", TRef "FText"); ("arguments", TMap TStr (TEnum "FormatArgumentValue"))]);
    ("OrderedFormat", Fields [("source_format", TRef "FText"); ("arguments", TVec (TEnum "FormatArgumentValue"))]);
    ("ArgumentFormat", Fields [("source_format", TRef "FText"); ("arguments", TMap TStr (TEnum "FormatArgumentValue"))]);
    ("AsNumber", Fields [("source_value", TEnum "FormatArgumentValue"); ("format_options", TOpt (TRef "NumberFormattingOptions"));
                         ("target_culture", ostr)]);
    ("AsPercent", Fields [("source_value", TEnum "FormatArgumentValue"); ("format_options", TOpt (TRef "NumberFormattingOptions"));
                          ("target_culture", ostr)]);
    ("AsCurrency", Fields [("currency_code", ostr); ("source_value", TEnum "FormatArgumentValue");
                           ("format_options", TOpt (TRef "NumberFormattingOptions")); ("target_culture", ostr)]);
    ("AsDate", Fields [("date_time", TRef "DateTime"); ("date_style", style); ("target_culture", TStr)]);
    ("AsTime", Fields [("source_date_time", TRef "DateTime"); ("time_style", style); ("time_zone", TStr); ("target_culture", TStr)]);
    ("AsDateTime", Fields [("source_date_time", TRef "DateTime"); ("date_style", style); ("time_style", style); ("time_zone", TStr);
                           ("target_culture", TStr)]);
    ("Transform", Fields [("source_text", TRef "FText"); ("transform_type", transform)]);
    ("StringTableEntry", Fields [("table_id", TStr); ("key", TStr)])]);
  ("FormatArgumentValue",
   [("Int", One (TInt 4)); ("UInt", One (TInt 4)); ("Float", One (TFloat F32)); ("Double", One (TFloat F64));
    ("Text", One (TRef "FText")); ("Int64", One (TInt 8)); ("UInt64", One (TInt 8))]);
  ("BytePropertyValue", [("Byte", One (TInt 1)); ("Namespaced", One TStr)]);
  ("ArrayProperty",
   [("Bools", Fields [("bools", TVec TBool)]); ("Bytes", Fields [("bytes", TVec (TInt 1))]);
    ("Enums", Fields [("enums", TVec TStr)]); ("Floats", Fields [("floats", TVec (TFloat F32))]);
    ("Ints", Fields [("ints", TVec (TInt 4))]); ("Names", Fields [("names", TVec ostr)]);
    ("Strings", Fields [("strings", TVec ostr)]);
    ("Structs", Fields [("field_name", TStr); ("type_name", TStr); ("guid", TGuid); ("structs", TVec (TEnum "StructPropertyValue"))]);
    ("Properties", Fields [("property_type", TStr); ("properties", TVec (TEnum "Property"))])]);
  ("MapProperty",
   [("EnumBool", Fields [("enum_bools", TMap TStr TBool)]); ("EnumInt", Fields [("enum_ints", TMap TStr (TInt 4))]);
    ("EnumProperty", Fields [("value_type", TStr); ("enum_props", TMap TStr (TEnum "Property"))]);
    ("NameBool", Fields [("name_bools", TMap TStr TBool)]); ("NameInt", Fields [("name_ints", TMap TStr (TInt 4))]);
    ("NameProperty", Fields [("value_type", TStr); ("name_props", TMap TStr (TEnum "Property"))]);
    ("Properties", Fields [("key_type", TStr); ("value_type", TStr); ("allocation_flags", TInt 4);
                           ("value", TMap (TEnum "Property") (TEnum "Property"))]);
    ("StrBool", Fields [("str_bools", TMap TStr TBool)]); ("StrInt", Fields [("str_ints", TMap TStr (TInt 4))]);
    ("StrProperty", Fields [("value_type", TStr); ("str_props", TMap TStr (TEnum "Property"))]);
    ("StrStr", Fields [("str_strs", TMap TStr ostr)])])]%string.

(** ** Bytes *)
Fixpoint value (b : list byte) : Z := match b with [] => 0 | x :: r => b2z x + 256 * value r end.
(** [b] is [z] in [w] bytes, least byte first. *)
Definition le (w : nat) (z : Z) (b : list byte) : Prop := List.length b = w /\ value b = z mod 256 ^ Z.of_nat w.
(** UTF-8. *)
Inductive utf8 : list Z -> list Z -> Prop :=
| u0 : utf8 [] []
| u1 a s l : 0 <= a < 128 -> utf8 s l -> utf8 (a :: s) (a :: l)
| u2 a b s l : 2 <= a < 32 -> 0 <= b < 64 -> utf8 s l -> utf8 (64 * a + b :: s) (192 + a :: 128 + b :: l)
| u3 a b c s l : 0 <= a < 16 -> 0 <= b < 64 -> 0 <= c < 64 -> 2048 <= 4096 * a + 64 * b + c -> utf8 s l ->
  utf8 (4096 * a + 64 * b + c :: s) (224 + a :: 128 + b :: 128 + c :: l)
| u4 a b c d s l : 0 <= a < 8 -> 0 <= b < 64 -> 0 <= c < 64 -> 0 <= d < 64 -> 65536 <= 262144 * a + 4096 * b + 64 * c + d -> utf8 s l ->
  utf8 (262144 * a + 4096 * b + 64 * c + d :: s) (240 + a :: 128 + b :: 128 + c :: 128 + d :: l).
(** What is hashed of the float with sign [s], exponent field [e] and [f] behind the point, in a
    format with [p] bits behind the point and [q] of the exponent: a pattern for NaN, else 52 bits of the
    significand as an integer, 11 of its scale and whether it is positive; zeros are positive. *)
Definition float_bits (p q s e f n : Z) : Prop :=
  let top := 2 ^ q - 1 in let bias := 2 ^ (q - 1) - 1 in
  (e = top /\ f <> 0 /\ n = 2047 * 2 ^ 52 + 2 ^ 51)
  \/ (~ (e = top /\ f <> 0)
      /\ n = (if e =? 0 then 2 * f else 2 ^ p + f) mod 2 ^ 52 + 2 ^ 52 * ((e - bias - p) mod 2 ^ 11)
             + if (s =? 0) || ((e =? 0) && (f =? 0)) then 2 ^ 63 else 0).
Definition float_key (k : num) (z n : Z) : Prop :=
  exists s e f, 0 <= s < 2 /\ match k with
  | F32 => 0 <= e < 2 ^ 8 /\ 0 <= f < 2 ^ 23 /\ z = 2 ^ 31 * s + 2 ^ 23 * e + f /\ float_bits 23 8 s e f n
  | F64 => 0 <= e < 2 ^ 11 /\ 0 <= f < 2 ^ 52 /\ z = 2 ^ 63 * s + 2 ^ 52 * e + f /\ float_bits 52 11 s e f n
  | _ => False
  end.
Definition width (k : num) : nat := match k with I8 => 1 | I16 | U16 => 2 | I32 | U32 => 4 | _ => 8 end.

(** ** [derive(Hash)] *)
Section Fed.
Context (fl : bool -> num -> Z -> str).

(** [fed t d b]: a value of type [t] that [Debug] shows as [d] feeds [b] to the hasher. *)
Inductive fed : ty -> dtree -> list byte -> Prop :=
| fd_int w z b : le w z b -> fed (TInt w) (DWord (signed z)) b
| fd_float k z n b : float_key k z n -> le 8 n b -> fed (TFloat k) (DWord (fl false k z)) b
| fd_num k u z b : k <> F32 -> k <> F64 -> le (width k) z b -> fed (TNum k u) (DWord (signed z ++ s2z u)) b
| fd_fnum k u z n b : float_key k z n -> le 8 n b -> fed (TNum k u) (DWord (fl true k z ++ s2z u)) b
| fd_true : fed TBool (DWord (s2z "true")) [Byte.x01]
| fd_false : fed TBool (DWord (s2z "false")) [Byte.x00]
| fd_str s b : utf8 s (map b2z b) -> fed TStr (DStr s) (b ++ [Byte.xff])
| fd_guid g b : List.length g = 16%nat -> le 8 16 b -> fed TGuid (DGuid (guid_display g)) (b ++ g)
| fd_none t b : le 8 0 b -> fed (TOpt t) (DWord (s2z "None")) b
| fd_some t d b c : le 8 1 b -> fed t d c -> fed (TOpt t) (DTuple (s2z "Some") [d]) (b ++ c)
| fd_vec t l b c : le 8 (Z.of_nat (List.length l)) b -> fed_list t l c -> fed (TVec t) (DList l) (b ++ c)
| fd_map k v l b : fed_entries k v l b -> fed (TMap k v) (DTuple (s2z "HashableIndexMap") [DMap l]) b
| fd_struct n fs l b : In (n, fs) structs -> fed_fields fs l b -> fed (TRef n) (DStruct (s2z n) l) b
| fd_unit e vs i n b : In (e, vs) enums -> nth_error vs i = Some (n, Unit) -> le 8 (Z.of_nat i) b ->
  fed (TEnum e) (DWord (s2z n)) b
| fd_one e vs i n t d b c : In (e, vs) enums -> nth_error vs i = Some (n, One t) -> le 8 (Z.of_nat i) b -> fed t d c ->
  fed (TEnum e) (DTuple (s2z n) [d]) (b ++ c)
| fd_fields e vs i n fs l b c : In (e, vs) enums -> nth_error vs i = Some (n, Fields fs) -> le 8 (Z.of_nat i) b ->
  fed_fields fs l c -> fed (TEnum e) (DStruct (s2z n) l) (b ++ c)
| fd_small e vs i n b : In (e, vs) smalls -> nth_error vs i = Some n -> le 1 (Z.of_nat i) b -> fed (TSmall e) (DWord (s2z n)) b
(** Vectors, after their length. *)
with fed_list : ty -> list dtree -> list byte -> Prop :=
| fl_nil t : fed_list t [] []
| fl_cons t d l b c : fed t d b -> fed_list t l c -> fed_list t (d :: l) (b ++ c)
(** Maps: without their length (types.rs:251-256). *)
with fed_entries : ty -> ty -> list (dtree * dtree) -> list byte -> Prop :=
| fe_nil k v : fed_entries k v [] []
| fe_cons k v d e l b c r : fed k d b -> fed v e c -> fed_entries k v l r -> fed_entries k v ((d, e) :: l) (b ++ c ++ r)
(** The fields in the order in which they are declared. *)
with fed_fields : list (string * ty) -> list (str * dtree) -> list byte -> Prop :=
| ff_nil : fed_fields [] [] []
| ff_cons n t fs d l b c : fed t d b -> fed_fields fs l c -> fed_fields ((n, t) :: fs) ((s2z n, d) :: l) (b ++ c).
End Fed.
