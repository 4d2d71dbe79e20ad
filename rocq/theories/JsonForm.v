(** The JSON form of files, written down as rules: which document stands for which
    file.  Specification only, independent of the functions in Json.v; guids are shown
    as their [Display] text (C30, C31) and floats by value (Nearest.v). *)
From Coq Require Import ZArith List Bool String QArith.
From Verif Require Import Base Types Versions File Spec Guid Json JsonSpec Nearest.
Import ListNotations.
Open Scope Z_scope.

Notation fields := (list (str * json)).
Notation "k ↦ v" := (s2z k, v) (at level 60).
Definition txt (s : string) : json := JStr (s2z s).

(** A field that is left out for [None] ... *)
Inductive maybe {A} (k : string) (R : A -> json -> Prop) : option A -> fields -> Prop :=
| MaybeNot : maybe k R None []
| MaybeSo : forall a j, R a j -> maybe k R (Some a) [k ↦ j].
(** ... or for 0, or for the zero guid. *)
Inductive unless_zero (k : string) : Z -> fields -> Prop :=
| IsZero : unless_zero k 0 []
| NotZero : forall z, z <> 0 -> unless_zero k z [k ↦ JInt z].
Definition nil_guid : guid := repeat Byte.x00 16.
Inductive unless_nil (k : string) : guid -> fields -> Prop :=
| IsNil : unless_nil k nil_guid []
| NotNil : forall g, g <> nil_guid -> unless_nil k g [k ↦ JStr (guid_display g)].
Definition is_text (s : str) (j : json) : Prop := j = JStr s.
Definition is_null_or_text (o : option str) (j : json) : Prop :=
  j = match o with Some s => JStr s | None => JNull end.
(** One of a list of names, by number. *)
Definition named (names : list (Z * string)) (z : Z) (j : json) : Prop :=
  exists s, In (z, s) names /\ j = txt s.
Definition roundings : list (Z * string) :=
  [(0, "HalfToEven"); (1, "HalfFromZero"); (2, "HalfToZero"); (3, "FromZero"); (4, "ToZero");
   (5, "ToNegativeInfinity"); (6, "ToPositiveInfinity")]%string.
Definition styles : list (Z * string) :=
  [(0, "Default"); (1, "Short"); (2, "Medium"); (3, "Long"); (4, "Full")]%string.
Definition transforms : list (Z * string) := [(0, "ToLower"); (1, "ToUpper")]%string.

(** A finite double is itself; a finite single is the double with the same sign and
    value; everything else is null. *)
Inductive double_form : Z -> json -> Prop :=
| DoubleFin : forall b, finite64 b = true -> double_form b (JFloat b)
| DoubleInf : forall b, finite64 b = false -> double_form b JNull.
Inductive single_form : Z -> json -> Prop :=
| SingleFin : forall b c, finite32 b = true -> u_ok 8 c = true ->
    c / 9223372036854775808 = b / 2147483648 ->
    (number 52 (-1074) (c mod 9223372036854775808) == number 23 (-149) (b mod 2147483648))%Q ->
    single_form b (JFloat c)
| SingleInf : forall b, finite32 b = false -> single_form b JNull.
Definition num_form (k : num) (z : Z) (j : json) : Prop :=
  match k with F32 => single_form z j | F64 => double_form z j | _ => j = JInt z end.

Inductive format_form : numfmt -> json -> Prop :=
| FormatForm : forall sign group round mini maxi minf maxf r, named roundings round r ->
    format_form (NumFmt sign group round mini maxi minf maxf)
      (JObj ["always_include_sign" ↦ JBool sign; "use_grouping" ↦ JBool group; "rounding" ↦ r;
             "minimum_integral_digits" ↦ JInt mini; "maximum_integral_digits" ↦ JInt maxi;
             "minimum_fractional_digits" ↦ JInt minf; "maximum_fractional_digits" ↦ JInt maxf]).
Definition ticks (z : Z) : json := JObj ["ticks" ↦ JInt z].

(** Texts: the fields of the text and those of its history side by side. *)
Inductive text_form : ftext -> fields -> Prop :=
| TextForm : forall f h l m, unless_zero "flags" f l -> hist_form h m -> text_form (FText f h) (l ++ m)
with hist_form : fhist -> fields -> Prop :=
| FmEmpty : hist_form HEmpty ["history" ↦ txt "Empty"]
| FmNone : forall s l, maybe "culture_invariant_string" is_text s l ->
    hist_form (HNone s) (("history" ↦ txt "None") :: l)
| FmBase : forall a b c la lb lc, maybe "namespace" is_text a la -> maybe "key" is_text b lb ->
    maybe "source_string" is_text c lc -> hist_form (HBase a b c) (("history" ↦ txt "Base") :: la ++ lb ++ lc)
| FmNamed : forall t l f a, text_form t f -> Forall2 (fun x y => fst x = fst y /\ arg_form (snd x) (snd y)) l a ->
    hist_form (HNamed t l) ["history" ↦ txt "NamedFormat"; "source_format" ↦ JObj f; "arguments" ↦ JObj a]
| FmOrdered : forall t l f a, text_form t f -> Forall2 arg_form l a ->
    hist_form (HOrdered t l) ["history" ↦ txt "OrderedFormat"; "source_format" ↦ JObj f; "arguments" ↦ JArr a]
| FmArgument : forall t l f a, text_form t f -> Forall2 (fun x y => fst x = fst y /\ arg_form (snd x) (snd y)) l a ->
    hist_form (HArgument t l) ["history" ↦ txt "ArgumentFormat"; "source_format" ↦ JObj f; "arguments" ↦ JObj a]
| FmNumber : forall v o c j lo lc, arg_form v j -> maybe "format_options" format_form o lo ->
    maybe "target_culture" is_text c lc ->
    hist_form (HNumber v o c) (("history" ↦ txt "AsNumber") :: ("source_value" ↦ j) :: lo ++ lc)
| FmPercent : forall v o c j lo lc, arg_form v j -> maybe "format_options" format_form o lo ->
    maybe "target_culture" is_text c lc ->
    hist_form (HPercent v o c) (("history" ↦ txt "AsPercent") :: ("source_value" ↦ j) :: lo ++ lc)
| FmCurrency : forall d v o c ld j lo lc, maybe "currency_code" is_text d ld -> arg_form v j ->
    maybe "format_options" format_form o lo -> maybe "target_culture" is_text c lc ->
    hist_form (HCurrency d v o c) (("history" ↦ txt "AsCurrency") :: ld ++ ("source_value" ↦ j) :: lo ++ lc)
| FmDate : forall t s c j, named styles s j ->
    hist_form (HDate t s c) ["history" ↦ txt "AsDate"; "date_time" ↦ ticks t; "date_style" ↦ j; "target_culture" ↦ JStr c]
| FmTime : forall t s z c j, named styles s j ->
    hist_form (HTime t s z c)
      ["history" ↦ txt "AsTime"; "source_date_time" ↦ ticks t; "time_style" ↦ j; "time_zone" ↦ JStr z; "target_culture" ↦ JStr c]
| FmDateTime : forall t s u z c j k, named styles s j -> named styles u k ->
    hist_form (HDateTime t s u z c)
      ["history" ↦ txt "AsDateTime"; "source_date_time" ↦ ticks t; "date_style" ↦ j; "time_style" ↦ k;
       "time_zone" ↦ JStr z; "target_culture" ↦ JStr c]
| FmTransform : forall t x f j, text_form t f -> named transforms x j ->
    hist_form (HTransform t x) ["history" ↦ txt "Transform"; "source_text" ↦ JObj f; "transform" ↦ j]
| FmTable : forall a b,
    hist_form (HTable a b) ["history" ↦ txt "StringTableEntry"; "table_id" ↦ JStr a; "key" ↦ JStr b]
with arg_form : farg -> json -> Prop :=
| FmInt : forall z, arg_form (AInt z) (JObj ["Int" ↦ JInt z])
| FmUInt : forall z, arg_form (AUInt z) (JObj ["UInt" ↦ JInt z])
| FmFloat : forall z j, single_form z j -> arg_form (AFloat z) (JObj ["Float" ↦ j])
| FmDouble : forall z j, double_form z j -> arg_form (ADouble z) (JObj ["Double" ↦ j])
| FmText : forall t f, text_form t f -> arg_form (AText t) (JObj ["Text" ↦ JObj f])
| FmInt64 : forall z, arg_form (AInt64 z) (JObj ["Int64" ↦ JInt z])
| FmUInt64 : forall z, arg_form (AUInt64 z) (JObj ["UInt64" ↦ JInt z]).

(** Struct values of fixed layout: name, and name and type of each component. *)
Definition fixed_table (x : fixed) : string * list (string * num) :=
  match x with
  | XVector2F => ("Vector2F", [("x", F32); ("y", F32)])
  | XVector2D => ("Vector2D", [("x", F64); ("y", F64)])
  | XVectorF => ("VectorF", [("x", F32); ("y", F32); ("z", F32)])
  | XVectorD => ("VectorD", [("x", F64); ("y", F64); ("z", F64)])
  | XRotatorF => ("RotatorF", [("pitch", F32); ("yaw", F32); ("roll", F32)])
  | XRotatorD => ("RotatorD", [("pitch", F64); ("yaw", F64); ("roll", F64)])
  | XQuatF => ("QuatF", [("x", F32); ("y", F32); ("z", F32); ("w", F32)])
  | XQuatD => ("QuatD", [("x", F64); ("y", F64); ("z", F64); ("w", F64)])
  | XDateTime => ("DateTime", [("ticks", U64)])
  | XTimespan => ("Timespan", [("ticks", U64)])
  | XLinearColor => ("LinearColor", [("r", F32); ("g", F32); ("b", F32); ("a", F32)])
  | XIntPoint => ("IntPoint", [("x", I32); ("y", I32)])
  end%string.
Inductive parts_form : list (string * num) -> list Z -> fields -> Prop :=
| PartsNil : parts_form [] [] []
| PartsCons : forall k n t z l j f, num_form n z j -> parts_form t l f -> parts_form ((k, n) :: t) (z :: l) ((k ↦ j) :: f).

(** Bytes as pairs of lower-case hexadecimal digits. *)
Definition digits : list Z := s2z "0123456789abcdef".
Inductive hex_form : list byte -> str -> Prop :=
| HexNil : hex_form [] []
| HexCons : forall b l s hi lo c d, b2z b = 16 * Z.of_nat hi + Z.of_nat lo ->
    nth_error digits hi = Some c -> nth_error digits lo = Some d -> hex_form l s -> hex_form (b :: l) (c :: d :: s).
Definition delegate (d : str * str) : json := JObj ["object" ↦ JStr (fst d); "function_name" ↦ JStr (snd d)].
(** Maps with simple keys are called by the types of their keys and values. *)
Definition key_word (k : keyk) : string := match k with KkEnum => "enum" | KkName => "name" | KkStr => "str" end.
Definition entry {A} (R : A -> json -> Prop) (x : str * A) (y : str * json) : Prop := fst x = fst y /\ R (snd x) (snd y).

Definition of_type (s : string) (l : fields) : json := JObj (("type" ↦ txt s) :: l).
Definition num_type (k : num) : string :=
  match k with
  | I8 => "Int8Property" | I16 => "Int16Property" | I32 => "IntProperty" | I64 => "Int64Property"
  | U16 => "UInt16Property" | U32 => "UInt32Property" | U64 => "UInt64Property"
  | F32 => "FloatProperty" | F64 => "DoubleProperty"
  end%string.
Inductive prop_form : property -> json -> Prop :=
| FmNum : forall k z j, num_form k z j -> prop_form (PNum k z) (of_type (num_type k) ["value" ↦ j])
| FmBool : forall b, prop_form (PBool b) (of_type "BoolProperty" ["value" ↦ JBool b])
| FmByte : forall n b l, maybe "name" is_text n l ->
    prop_form (PByte n (BByte b)) (of_type "ByteProperty" (l ++ ["Byte" ↦ JInt (b2z b)]))
| FmByteName : forall n s l, maybe "name" is_text n l ->
    prop_form (PByte n (BName s)) (of_type "ByteProperty" (l ++ ["Namespaced" ↦ JStr s]))
| FmEnum : forall t v l, maybe "enum_type" is_text t l ->
    prop_form (PEnum t v) (of_type "EnumProperty" (l ++ ["value" ↦ JStr v]))
| FmStr : forall v l, maybe "value" is_text v l -> prop_form (PStr v) (of_type "StrProperty" l)
| FmTextP : forall t f, text_form t f -> prop_form (PText t) (of_type "TextProperty" f)
| FmName : forall i v l m, unless_zero "array_index" i l -> maybe "value" is_text v m ->
    prop_form (PName i v) (of_type "NameProperty" (l ++ m))
| FmObject : forall v, prop_form (PObject v) (of_type "ObjectProperty" ["value" ↦ JStr v])
| FmDelegate : forall a b, prop_form (PDelegate a b) (of_type "DelegateProperty" ["value" ↦ delegate (a, b)])
| FmInline : forall l, prop_form (PMulti true l)
    (of_type "MulticastInlineDelegateProperty" ["value" ↦ JObj ["delegates" ↦ JArr (map delegate l)]])
| FmSparse : forall l, prop_form (PMulti false l)
    (of_type "MulticastSparseDelegateProperty" ["value" ↦ JObj ["delegates" ↦ JArr (map delegate l)]])
| FmPath : forall l s, prop_form (PFieldPath l s)
    (of_type "FieldPathProperty" ["value" ↦ JObj ["path" ↦ JArr (map JStr l); "resolved_owner" ↦ JStr s]])
| FmUnknown : forall n raw, prop_form (PUnknown n raw)
    (of_type "UnknownProperty" ["property_name" ↦ JStr n; "raw" ↦ JArr (map (fun b => JInt (b2z b)) raw)])
| FmArray : forall a f, array_form a f -> prop_form (PArray a) (of_type "ArrayProperty" f)
| FmSet : forall t f l a, Forall2 prop_form l a ->
    prop_form (PSet t f l)
      (of_type "SetProperty" ["property_type" ↦ JStr t; "allocation_flags" ↦ JInt f; "properties" ↦ JArr a])
| FmMap : forall m f, map_form m f -> prop_form (PMap m) (of_type "MapProperty" f)
| FmStruct : forall g t v l f, unless_nil "guid" g l -> value_form v f ->
    prop_form (PStruct g t v) (of_type "StructProperty" (l ++ [("type_name" ↦ JStr t); f]))
| FmValue : forall v f, value_form v f -> prop_form (PSValue v) (of_type "StructPropertyValue" [f])
with value_form : svalue -> str * json -> Prop :=
| FmFixed : forall x l f, parts_form (snd (fixed_table x)) l f -> value_form (SFixed x l) (fst (fixed_table x) ↦ JObj f)
| FmGuid : forall g, value_form (SGuid g) ("Guid" ↦ JStr (guid_display g))
| FmTags : forall l, value_form (STags l) ("GameplayTagContainer" ↦ JArr (map JStr l))
| FmCustom : forall l f, Forall2 (fun x y => fst x = fst y /\ exists a, snd y = JArr a /\ Forall2 prop_form (snd x) a) l f ->
    value_form (SCustom l) ("CustomStruct" ↦ JObj f)
with array_form : arrayp -> fields -> Prop :=
| FmBools : forall l, array_form (ABools l) ["bools" ↦ JArr (map JBool l)]
| FmBytes : forall l s, hex_form l s -> array_form (ABytes l) ["bytes" ↦ JStr s]
| FmEnums : forall l, array_form (AEnums l) ["enums" ↦ JArr (map JStr l)]
| FmFloats : forall l a, Forall2 single_form l a -> array_form (AFloats l) ["floats" ↦ JArr a]
| FmInts : forall l, array_form (AInts l) ["ints" ↦ JArr (map JInt l)]
| FmNames : forall l a, Forall2 is_null_or_text l a -> array_form (ANames l) ["names" ↦ JArr a]
| FmStrings : forall l a, Forall2 is_null_or_text l a -> array_form (AStrings l) ["strings" ↦ JArr a]
| FmStructs : forall f t g l m a, unless_nil "guid" g m -> Forall2 (fun v j => exists x, value_form v x /\ j = JObj [x]) l a ->
    array_form (AStructs f t g l) (("field_name" ↦ JStr f) :: ("type_name" ↦ JStr t) :: m ++ ["structs" ↦ JArr a])
| FmProps : forall t l a, Forall2 prop_form l a ->
    array_form (AProps t l) ["property_type" ↦ JStr t; "properties" ↦ JArr a]
with map_form : mapp -> fields -> Prop :=
| FmMBool : forall k l f, Forall2 (entry (fun b j => j = JBool b)) l f -> map_form (MBool k l) [(key_word k ++ "_bools") ↦ JObj f]
| FmMInt : forall k l f, Forall2 (entry (fun z j => j = JInt z)) l f -> map_form (MInt k l) [(key_word k ++ "_ints") ↦ JObj f]
| FmMProp : forall k vt l f, Forall2 (fun x y => fst x = fst y /\ prop_form (snd x) (snd y)) l f ->
    map_form (MProp k vt l) ["value_type" ↦ JStr vt; (key_word k ++ "_props") ↦ JObj f]
| FmMStr : forall l f, Forall2 (entry is_null_or_text) l f -> map_form (MStrStr l) ["str_strs" ↦ JObj f]
| FmMGen : forall kt vt f l a,
    Forall2 (fun x j => exists k v, j = JArr [k; v] /\ prop_form (fst x) k /\ prop_form (snd x) v) l a ->
    map_form (MGen kt vt f l)
      ["key_type" ↦ JStr kt; "value_type" ↦ JStr vt; "allocation_flags" ↦ JInt f; "value" ↦ JArr a].

Definition engine (e : fengine) : json :=
  JObj ["major" ↦ JInt (fe_major e); "minor" ↦ JInt (fe_minor e); "patch" ↦ JInt (fe_patch e);
        "change_list" ↦ JInt (fe_change e); "branch" ↦ JStr (fe_branch e)].
(** The header names the version of the format; the game version is left out for plain
    files. *)
Inductive header_form : header -> json -> Prop :=
| HeaderForm : forall h l m, maybe "package_file_version_ue5" (fun z j => j = JInt z) (h_ue5 h) l ->
    Forall2 (fun x y => fst y = guid_display (fst x) /\ snd y = JInt (snd x)) (h_versions h) m ->
    header_form h
      (of_type (if h_ue5 h then "Version3" else "Version2")
         (("package_file_version" ↦ JInt (h_package h)) :: l
          ++ ["engine_version" ↦ engine (h_engine h); "custom_version_format" ↦ JInt (h_format h);
              "custom_versions" ↦ JObj m; "save_game_class_name" ↦ JStr (h_class h)])).
Inductive game_form : dversion -> fields -> Prop :=
| GamePlain : game_form DDefault []
| GamePal : forall c, game_form (DPalworld c)
    ["deserialized_game_version" ↦ JObj ["Palworld" ↦
       match c with CNone => txt "None" | CZlib => txt "Zlib" | CTwice => txt "ZlibTwice" end]].
Inductive file_form : gfile -> json -> Prop :=
| FileForm : forall v h ps l j f, game_form v l -> header_form h j ->
    Forall2 (fun x y => fst x = fst y /\ prop_form (snd x) (snd y)) ps f ->
    file_form (GFile v h ps) (JObj (l ++ ["header" ↦ j; "properties" ↦ JObj f])).
