(** JSON form of values: the derived [Serialize] and [Deserialize] instances
    (feature "serde") with [serde_json::to_value] and [from_value], as used by
    tests/serde_tests.  No proofs in this file.

    Sources: the [serde] attributes in /repo/src, cited at each definition; the
    meaning of the attributes is that of serde 1.0.228, serde_with 3.15 and
    serde_json 1.0.145 (Cargo.toml:19-22 and 32).

    Reading covers all encodings that the derived instances accept, also those that
    serialization never produces: structs as arrays, variants by number where serde
    buffers the value, unit variants as objects, and objects that repeat a key (which
    a [Value] cannot hold, but a text can, see JsonSyntax.v).

    Simplification.  Of several faults in one value, the first in declaration order
    is reported.  The text syntax of JSON is in JsonSyntax.v. *)
From Coq Require Import ZArith List Bool String.
From Verif Require Import Base Str Types Versions Text Props File Guid.
Import ListNotations.
Open Scope Z_scope.

(** [serde_json::Value] with [preserve_order]; [JFloat] holds the bits of an f64.
    serde_json; the tree of a [GvasFile], lib.rs:331-345. *)
Inductive json :=
| JNull
| JBool (b : bool)
| JInt (z : Z)
| JFloat (z : Z)
| JStr (s : str)
| JArr (l : list json)
| JObj (l : list (str * json)).

(** ** Floats: IEEE 754 conversions on bit patterns *)

(** A format: precision (with the hidden bit), exponent of the last place of the
    smallest number, and the bits of infinity.
    The floats of struct_types.rs:17-38 and int_property.rs:330-337. *)
Record fmt := Fmt { f_prec : Z; f_emin : Z; f_inf : Z; f_sign : Z }.
Definition fmt32 := Fmt 24 (-149) 0x7F800000 0x80000000.
Definition fmt64 := Fmt 53 (-1074) 0x7FF0000000000000 0x8000000000000000.

(** Exponent all ones: infinite or not a number. For struct_types.rs:17-38. *)
Definition f_finite (f : fmt) (b : Z) : bool := b mod f_sign f <? f_inf f.
Definition f_neg (f : fmt) (b : Z) : bool := f_sign f <=? b.
(** [m * 2 ^ e] for the magnitude of a finite number. For struct_types.rs:17-38. *)
Definition f_split (f : fmt) (b : Z) : Z * Z :=
  let a := b mod f_sign f in
  let e := a / 2 ^ (f_prec f - 1) in
  if e =? 0 then (a, f_emin f)
  else (a mod 2 ^ (f_prec f - 1) + 2 ^ (f_prec f - 1), e - 1 + f_emin f).
(** Division by a power of two, rounded to nearest, ties to even. For struct_types.rs:17-38. *)
Definition round_shift (m s : Z) : Z :=
  if s <=? 0 then m * 2 ^ (- s)
  else let q := m / 2 ^ s in
       let r := m mod 2 ^ s in
       if (2 ^ (s - 1) <? r) || ((r =? 2 ^ (s - 1)) && Z.odd q) then q + 1 else q.
(** The nearest number of a format to [m * 2 ^ e]. For struct_types.rs:17-38. *)
Definition f_make (f : fmt) (neg : bool) (m e : Z) : Z :=
  let s := if neg then f_sign f else 0 in
  if m =? 0 then s
  else let t := Z.max (e + Z.log2 m + 1 - f_prec f) (f_emin f) in
       s + Z.min (f_inf f) ((t - f_emin f) * 2 ^ (f_prec f - 1) + round_shift m (t - e)).
(** [as f64] and [as f32] on finite numbers. For struct_types.rs:17-38. *)
Definition f_cast (f g : fmt) (b : Z) : Z :=
  let '(m, e) := f_split f b in f_make g (f_neg f b) m e.
(** [as f32] and [as f64] on integers. For struct_types.rs:17-38. *)
Definition f_int (f : fmt) (z : Z) : Z := f_make f (z <? 0) (Z.abs z) 0.

(** ** Serialization *)

(** [serialize_f32], [serialize_f64]: numbers that are not finite become null.
    [OrderedFloat] is transparent. struct_types.rs:17-38, int_property.rs:330-337. *)
Definition e_f32 (b : Z) : json := if f_finite fmt32 b then JFloat (f_cast fmt32 fmt64 b) else JNull.
Definition e_f64 (b : Z) : json := if f_finite fmt64 b then JFloat b else JNull.
Definition e_num (k : num) (z : Z) : json :=
  match k with F32 => e_f32 z | F64 => e_f64 z | _ => JInt z end.
(** [Option<String>], str_property.rs:14-18. *)
Definition e_ostr (o : option str) : json := match o with Some s => JStr s | None => JNull end.
(** [skip_serializing_none]. text_property.rs:175. *)
Definition e_opt (k : str) (o : option json) : list (str * json) :=
  match o with Some j => [(k, j)] | None => [] end.
Definition e_optstr (k : str) (o : option str) : list (str * json) := e_opt k (option_map JStr o).
(** [skip_serializing_if = "is_zero"], name_property.rs:16-26, text_property.rs:69, 76-80. *)
Definition e_nonzero (k : str) (z : Z) : list (str * json) := if z =? 0 then [] else [(k, JInt z)].
(** types.rs:189-197: [collect_str]. *)
Definition e_guid (g : guid) : json := JStr (guid_display g).
(** [skip_serializing_if = "Guid::is_zero"], array_property.rs:75, struct_property.rs:43. *)
Definition e_optguid (k : str) (g : guid) : list (str * json) :=
  if guid_is_zero g then [] else [(k, e_guid g)].
(** [serde_as(as = "Hex")], array_property.rs:43: lower case digits. *)
Definition hex_lower (d : Z) : Z := if d <? 10 then 48 + d else 87 + d.
Definition e_hex (l : list byte) : str :=
  flat_map (fun b => [hex_lower (b2z b / 16); hex_lower (b2z b mod 16)]) l.

(** Unit variants by name: [RoundingMode] text_property.rs:861-879, [DateTimeStyle]
    943-957, [TransformType] 960-969, [PalworldCompressionType] game_version.rs:19-29. *)
Definition rounding_names : list str :=
  map s2z ["HalfToEven"; "HalfFromZero"; "HalfToZero"; "FromZero"; "ToZero";
           "ToNegativeInfinity"; "ToPositiveInfinity"]%string.
Definition style_names : list str :=
  map s2z ["Default"; "Short"; "Medium"; "Long"; "Full"]%string.
Definition transform_names : list str := map s2z ["ToLower"; "ToUpper"]%string.
Definition ctype_name (c : ctype) : str :=
  match c with CNone => s2z "None" | CZlib => s2z "Zlib" | CTwice => s2z "ZlibTwice" end.
Definition e_name (names : list str) (z : Z) : json := JStr (nth (Z.to_nat z) names []).

(** [NumberFormattingOptions], text_property.rs:882-901; the rounding mode is
    flattened with tag "rounding". *)
Definition e_numfmt (o : numfmt) : json :=
  JObj [(s2z "always_include_sign", JBool (nf_sign o)); (s2z "use_grouping", JBool (nf_group o));
        (s2z "rounding", e_name rounding_names (nf_round o));
        (s2z "minimum_integral_digits", JInt (nf_mini o));
        (s2z "maximum_integral_digits", JInt (nf_maxi o));
        (s2z "minimum_fractional_digits", JInt (nf_minf o));
        (s2z "maximum_fractional_digits", JInt (nf_maxf o))].
(** [DateTime], struct_types.rs:148-152. *)
Definition e_ticks (z : Z) : json := JObj [(s2z "ticks", JInt z)].
Definition e_style (z : Z) : json := e_name style_names z.

(** [FText] (text_property.rs:63-74, history flattened), [FTextHistory] (178-284, tag
    "history", None fields left out), [FormatArgumentValue] (734-751, external tags). *)
Fixpoint e_text (t : ftext) : list (str * json) :=
  match t with FText f h => e_nonzero (s2z "flags") f ++ e_hist h end
with e_hist (h : fhist) : list (str * json) :=
  match h with
  | HEmpty => [(s2z "history", JStr (s2z "Empty"))]
  | HNone s =>
    (s2z "history", JStr (s2z "None")) :: e_optstr (s2z "culture_invariant_string") s
  | HBase a b c =>
    (s2z "history", JStr (s2z "Base")) :: e_optstr (s2z "namespace") a
    ++ e_optstr (s2z "key") b ++ e_optstr (s2z "source_string") c
  | HNamed t l =>
    [(s2z "history", JStr (s2z "NamedFormat")); (s2z "source_format", JObj (e_text t));
     (s2z "arguments", JObj (map (fun '(k, v) => (k, e_arg v)) l))]
  | HOrdered t l =>
    [(s2z "history", JStr (s2z "OrderedFormat")); (s2z "source_format", JObj (e_text t));
     (s2z "arguments", JArr (map e_arg l))]
  | HArgument t l =>
    [(s2z "history", JStr (s2z "ArgumentFormat")); (s2z "source_format", JObj (e_text t));
     (s2z "arguments", JObj (map (fun '(k, v) => (k, e_arg v)) l))]
  | HNumber v o c =>
    [(s2z "history", JStr (s2z "AsNumber")); (s2z "source_value", e_arg v)]
    ++ e_opt (s2z "format_options") (option_map e_numfmt o) ++ e_optstr (s2z "target_culture") c
  | HPercent v o c =>
    [(s2z "history", JStr (s2z "AsPercent")); (s2z "source_value", e_arg v)]
    ++ e_opt (s2z "format_options") (option_map e_numfmt o) ++ e_optstr (s2z "target_culture") c
  | HCurrency d v o c =>
    (s2z "history", JStr (s2z "AsCurrency")) :: e_optstr (s2z "currency_code") d
    ++ (s2z "source_value", e_arg v) :: e_opt (s2z "format_options") (option_map e_numfmt o)
    ++ e_optstr (s2z "target_culture") c
  | HDate t s c =>
    [(s2z "history", JStr (s2z "AsDate")); (s2z "date_time", e_ticks t);
     (s2z "date_style", e_style s); (s2z "target_culture", JStr c)]
  | HTime t s z c =>
    [(s2z "history", JStr (s2z "AsTime")); (s2z "source_date_time", e_ticks t);
     (s2z "time_style", e_style s); (s2z "time_zone", JStr z); (s2z "target_culture", JStr c)]
  | HDateTime t s u z c =>
    [(s2z "history", JStr (s2z "AsDateTime")); (s2z "source_date_time", e_ticks t);
     (s2z "date_style", e_style s); (s2z "time_style", e_style u);
     (s2z "time_zone", JStr z); (s2z "target_culture", JStr c)]
  | HTransform t x =>
    [(s2z "history", JStr (s2z "Transform")); (s2z "source_text", JObj (e_text t));
     (s2z "transform", e_name transform_names x)]
  | HTable a b =>
    [(s2z "history", JStr (s2z "StringTableEntry")); (s2z "table_id", JStr a); (s2z "key", JStr b)]
  end
with e_arg (a : farg) : json :=
  match a with
  | AInt z => JObj [(s2z "Int", JInt z)]
  | AUInt z => JObj [(s2z "UInt", JInt z)]
  | AFloat z => JObj [(s2z "Float", e_f32 z)]
  | ADouble z => JObj [(s2z "Double", e_f64 z)]
  | AText t => JObj [(s2z "Text", JObj (e_text t))]
  | AInt64 z => JObj [(s2z "Int64", JInt z)]
  | AUInt64 z => JObj [(s2z "UInt64", JInt z)]
  end.

(** Variant names of [StructPropertyValue], struct_property.rs:53-86. *)
Definition fixed_variant (x : fixed) : str :=
  match x with
  | XVector2F => s2z "Vector2F" | XVector2D => s2z "Vector2D"
  | XVectorF => s2z "VectorF" | XVectorD => s2z "VectorD"
  | XRotatorF => s2z "RotatorF" | XRotatorD => s2z "RotatorD"
  | XQuatF => s2z "QuatF" | XQuatD => s2z "QuatD"
  | XDateTime => s2z "DateTime" | XTimespan => s2z "Timespan"
  | XLinearColor => s2z "LinearColor" | XIntPoint => s2z "IntPoint"
  end.
(** Field names, struct_types.rs:84-173. *)
Definition field_names (x : fixed) : list str :=
  map s2z
    match x with
    | XVector2F | XVector2D | XIntPoint => ["x"; "y"]
    | XVectorF | XVectorD => ["x"; "y"; "z"]
    | XRotatorF | XRotatorD => ["pitch"; "yaw"; "roll"]
    | XQuatF | XQuatD => ["x"; "y"; "z"; "w"]
    | XDateTime | XTimespan => ["ticks"]
    | XLinearColor => ["r"; "g"; "b"; "a"]
    end%string.
Fixpoint e_fields (names : list str) (ks : list num) (l : list Z) : list (str * json) :=
  match names, ks, l with
  | n :: names', k :: ks', z :: l' => (n, e_num k z) :: e_fields names' ks' l'
  | _, _, _ => []
  end.

(** [Delegate], delegate_property.rs:14-19. *)
Definition e_delegate (p : str * str) : json :=
  JObj [(s2z "object", JStr (fst p)); (s2z "function_name", JStr (snd p))].
(** [BytePropertyValue], int_property.rs:140-147, flattened in [ByteProperty] 151-160. *)
Definition e_bytev (v : bytev) : str * json :=
  match v with
  | BByte b => (s2z "Byte", JInt (b2z b))
  | BName s => (s2z "Namespaced", JStr s)
  end.
(** Field names of the specialised maps, map_property.rs:28-96. *)
Definition map_prefix (k : keyk) : string :=
  match k with KkEnum => "enum" | KkName => "name" | KkStr => "str" end.
Definition map_field (k : keyk) (suffix : string) : str := s2z (map_prefix k ++ suffix).

(** [Property] (mod.rs:488-548): tag "type", then the fields of the payload. *)
Definition tagged (ty : string) (l : list (str * json)) : json :=
  JObj ((s2z "type", JStr (s2z ty)) :: l).
Fixpoint e_prop (p : property) : json :=
  match p with
  | PNum k z => JObj [(s2z "type", JStr (num_name k)); (s2z "value", e_num k z)]
  | PBool b => tagged "BoolProperty" [(s2z "value", JBool b)]
  | PByte n v => tagged "ByteProperty" (e_optstr (s2z "name") n ++ [e_bytev v])
  | PEnum t v => tagged "EnumProperty" (e_optstr (s2z "enum_type") t ++ [(s2z "value", JStr v)])
  | PStr v => tagged "StrProperty" (e_optstr (s2z "value") v)
  | PText t => tagged "TextProperty" (e_text t)
  | PName i v => tagged "NameProperty" (e_nonzero (s2z "array_index") i ++ e_optstr (s2z "value") v)
  | PObject v => tagged "ObjectProperty" [(s2z "value", JStr v)]
  | PDelegate a b => tagged "DelegateProperty" [(s2z "value", e_delegate (a, b))]
  | PMulti inline l =>
    tagged (if inline then "MulticastInlineDelegateProperty" else "MulticastSparseDelegateProperty")
      [(s2z "value", JObj [(s2z "delegates", JArr (map e_delegate l))])]
  | PFieldPath l s =>
    tagged "FieldPathProperty"
      [(s2z "value", JObj [(s2z "path", JArr (map JStr l)); (s2z "resolved_owner", JStr s)])]
  | PUnknown n raw =>
    tagged "UnknownProperty"
      [(s2z "property_name", JStr n); (s2z "raw", JArr (map (fun b => JInt (b2z b)) raw))]
  | PArray a => tagged "ArrayProperty" (e_array a)
  | PSet t f l =>
    tagged "SetProperty"
      [(s2z "property_type", JStr t); (s2z "allocation_flags", JInt f);
       (s2z "properties", JArr (map e_prop l))]
  | PMap m => tagged "MapProperty" (e_map m)
  | PStruct g t v =>
    tagged "StructProperty" (e_optguid (s2z "guid") g ++ [(s2z "type_name", JStr t); e_sval v])
  | PSValue v => tagged "StructPropertyValue" [e_sval v]
  end
(** [StructPropertyValue]: external tag. struct_property.rs:54-86. *)
with e_sval (v : svalue) : str * json :=
  match v with
  | SFixed x l => (fixed_variant x, JObj (e_fields (field_names x) (layout x) l))
  | SGuid g => (s2z "Guid", e_guid g)
  | STags l => (s2z "GameplayTagContainer", JArr (map JStr l))
  | SCustom l => (s2z "CustomStruct", JObj (map (fun '(k, ps) => (k, JArr (map e_prop ps))) l))
  end
(** [ArrayProperty]: untagged, array_property.rs:28-90. *)
with e_array (a : arrayp) : list (str * json) :=
  match a with
  | ABools l => [(s2z "bools", JArr (map JBool l))]
  | ABytes l => [(s2z "bytes", JStr (e_hex l))]
  | AEnums l => [(s2z "enums", JArr (map JStr l))]
  | AFloats l => [(s2z "floats", JArr (map e_f32 l))]
  | AInts l => [(s2z "ints", JArr (map JInt l))]
  | ANames l => [(s2z "names", JArr (map e_ostr l))]
  | AStrings l => [(s2z "strings", JArr (map e_ostr l))]
  | AStructs f t g l =>
    [(s2z "field_name", JStr f); (s2z "type_name", JStr t)] ++ e_optguid (s2z "guid") g
    ++ [(s2z "structs", JArr (map (fun v => JObj [e_sval v]) l))]
  | AProps t l => [(s2z "property_type", JStr t); (s2z "properties", JArr (map e_prop l))]
  end
(** [MapProperty]: untagged, map_property.rs:24-96; [serde_seq], types.rs:341-376. *)
with e_map (m : mapp) : list (str * json) :=
  match m with
  | MBool k l => [(map_field k "_bools", JObj (map (fun '(s, b) => (s, JBool b)) l))]
  | MInt k l => [(map_field k "_ints", JObj (map (fun '(s, z) => (s, JInt z)) l))]
  | MProp k vt l =>
    [(s2z "value_type", JStr vt); (map_field k "_props", JObj (map (fun '(s, p) => (s, e_prop p)) l))]
  | MStrStr l => [(s2z "str_strs", JObj (map (fun '(s, v) => (s, e_ostr v)) l))]
  | MGen kt vt f l =>
    [(s2z "key_type", JStr kt); (s2z "value_type", JStr vt); (s2z "allocation_flags", JInt f);
     (s2z "value", JArr (map (fun '(k, v) => JArr [e_prop k; e_prop v]) l))]
  end.

(** [FEngineVersion], engine_version.rs:10-22. *)
Definition e_engine (v : fengine) : json :=
  JObj [(s2z "major", JInt (fe_major v)); (s2z "minor", JInt (fe_minor v));
        (s2z "patch", JInt (fe_patch v)); (s2z "change_list", JInt (fe_change v));
        (s2z "branch", JStr (fe_branch v))].
(** [GvasHeader], lib.rs:113-147: tag "type". *)
Definition e_header (h : header) : json :=
  JObj ([(s2z "type", JStr (match h_ue5 h with None => s2z "Version2" | Some _ => s2z "Version3" end));
         (s2z "package_file_version", JInt (h_package h))]
        ++ e_opt (s2z "package_file_version_ue5") (option_map JInt (h_ue5 h))
        ++ [(s2z "engine_version", e_engine (h_engine h));
            (s2z "custom_version_format", JInt (h_format h));
            (s2z "custom_versions", JObj (map (fun '(g, v) => (guid_display g, JInt v)) (h_versions h)));
            (s2z "save_game_class_name", JStr (h_class h))]).
(** [DeserializedGameVersion], game_version.rs:34-41; left out when default, lib.rs:330-335. *)
Definition e_dversion (v : dversion) : list (str * json) :=
  match v with
  | DDefault => []
  | DPalworld c =>
    [(s2z "deserialized_game_version", JObj [(s2z "Palworld", JStr (ctype_name c))])]
  end.
(** [GvasFile], lib.rs:325-341. *)
Definition to_json (g : gfile) : json :=
  JObj (e_dversion (g_version g)
        ++ [(s2z "header", e_header (g_header g));
            (s2z "properties", JObj (map (fun '(k, p) => (k, e_prop p)) (g_props g)))]).

(** ** Deserialization *)
(** [Deserialize] of lib.rs:331 and its parts: a value, an error, or the panic of types.rs:183. *)
Inductive jres (A : Type) := JOk (a : A) | JErr | JPanic.
Arguments JOk {A} _.
Arguments JErr {A}.
Arguments JPanic {A}.
Definition jbind {A B} (r : jres A) (k : A -> jres B) : jres B :=
  match r with JOk a => k a | JErr => JErr | JPanic => JPanic end.
Notation "x <~ r ;; k" := (jbind r (fun x => k))
  (at level 61, r at next level, right associativity).

(** The value under a key, passed through [f].  ([f] is kept outside of the
    recursion so that decoders can call each other structurally.) *)
Section Get.
  Context {A : Type} (f : json -> A) (k : str).
  (** Fields by name, as in lib.rs:331-345. *)
  Fixpoint get (o : list (str * json)) : option A :=
    match o with
    | [] => None
    | (k', v) :: r => if str_eqb k k' then Some (f v) else get r
    end.
End Get.
Section Objects.
  Context {A : Type}.
  (** A field that must be there; one with [serde(default)]; an [Option], which may
      be missing or null. lib.rs:331-345, text_property.rs:69, name_property.rs:11-20. *)
  Definition need (f : json -> jres A) (k : str) (o : list (str * json)) : jres A :=
    match get f k o with Some r => r | None => JErr end.
  Definition dflt (f : json -> jres A) (d : A) (k : str) (o : list (str * json)) : jres A :=
    match get f k o with Some r => r | None => JOk d end.
  Definition d_option (f : json -> jres A) (j : json) : jres (option A) :=
    match j with JNull => JOk None | _ => a <~ f j ;; JOk (Some a) end.
  (** The first key that names a variant (a flattened enum). *)
  Section Variants.
  Context (f : str -> json -> option (jres A)).
  (** [serde(flatten)], text_property.rs:72, 284 and 889. *)
  Fixpoint flat (o : list (str * json)) : jres A :=
    match o with
    | [] => JErr
    | (k, v) :: r => match f k v with Some x => x | None => flat r end
    end.
  (** The only key besides [tag] (an external tag inside an internal one).
      text_property.rs:24-28, 66-74, struct_property.rs:39-50. *)
  Fixpoint besides (tag : str) (o : list (str * json)) : list (option (jres A)) :=
    match o with
    | [] => []
    | (k, v) :: r => if str_eqb k tag then besides tag r else f k v :: besides tag r
    end.
  End Variants.
  (** External tags: struct_property.rs:54-86, int_property.rs:141-159. *)
  Definition single (l : list (option (jres A))) : jres A :=
    match l with [Some r] => r | _ => JErr end.
  Section Lists.
    Context (f : json -> jres A).
    (** Sequences and maps, array_property.rs:30-90 and lib.rs:345. *)
    Fixpoint d_all (l : list json) : jres (list A) :=
      match l with
      | [] => JOk []
      | j :: r => a <~ f j ;; q <~ d_all r ;; JOk (a :: q)
      end.
    Fixpoint d_entries (o : list (str * json)) : jres (list (str * A)) :=
      match o with
      | [] => JOk []
      | (k, j) :: r => a <~ f j ;; q <~ d_entries r ;; JOk ((k, a) :: q)
      end.
  End Lists.
  (** [derive(Deserialize)] on a struct: a field that is given twice is an error ...
      lib.rs:115 and 331, struct_types.rs:55. *)
  Fixpoint times (k : str) (o : list (str * json)) : nat :=
    match o with
    | [] => O
    | (k', _) :: r => if str_eqb k k' then S (times k r) else times k r
    end.
  Definition unrepeated (names : list str) (o : list (str * json)) : bool :=
    forallb (fun k => (times k o <=? 1)%nat) names.
  Definition d_once (names : list str) (o : list (str * json)) (r : jres A) : jres A :=
    if unrepeated names o then r else JErr.
  (** ... and the fields may also be listed without their names, in order.  (The last
      field never has a default here, so all must be there.)  Structs with flattened
      fields and the alternatives of untagged enums have no such form.
      lib.rs:115 and 331, struct_types.rs:55. *)
  Definition listed (names : list str) (f : list (str * json) -> jres A) (l : list json) : jres A :=
    if (List.length l =? List.length names)%nat then f (combine names l) else JErr.
  Definition d_struct (names : list str) (f : list (str * json) -> jres A) (j : json) : jres A :=
    match j with
    | JObj o => d_once names o (f o)
    | JArr l => listed names f l
    | _ => JErr
    end.
  (** Untagged: the first alternative that does not fail.
      array_property.rs:30-31, map_property.rs:25-26. *)
  Fixpoint first_of (l : list (jres A)) : jres A :=
    match l with
    | [] => JErr
    | JErr :: r => first_of r
    | x :: _ => x
    end.
End Objects.
(** [Option] fields, text_property.rs:175-292, enum_property.rs:14-21. *)
Definition opt {A} (f : json -> jres A) (k : str) (o : list (str * json)) : jres (option A) :=
  dflt (d_option f) None k o.
(** [Vec], and [IndexMap] with string keys. array_property.rs:30-90, types.rs:222-223. *)
Definition d_list {A} (f : json -> jres A) (j : json) : jres (list A) :=
  match j with JArr l => d_all f l | _ => JErr end.
Definition d_map {A} (f : json -> jres A) (j : json) : jres (list (str * A)) :=
  match j with JObj o => l <~ d_entries f o ;; JOk (ins_all str_eqb l) | _ => JErr end.

(** Scalars, int_property.rs:35-38, 90-93 and 266-269, str_property.rs:14-18. *)
Definition d_bool (j : json) : jres bool := match j with JBool b => JOk b | _ => JErr end.
Definition d_str (j : json) : jres str := match j with JStr s => JOk s | _ => JErr end.
Definition d_ostr : json -> jres (option str) := d_option d_str.
Definition d_int (lo hi : Z) (j : json) : jres Z :=
  match j with JInt z => if inr lo hi z then JOk z else JErr | _ => JErr end.
Definition d_u8 := d_int 0 255.
Definition d_u16 := d_int 0 65535.
Definition d_u32 := d_int 0 4294967295.
Definition d_u64 := d_int 0 18446744073709551615.
Definition d_i32 := d_int (-2147483648) 2147483647.
Definition d_i64 := d_int (-9223372036854775808) 9223372036854775807.
(** Floats also accept integers. struct_types.rs:17-38, int_property.rs:330-337. *)
Definition d_f32 (j : json) : jres Z :=
  match j with
  | JFloat b => JOk (f_cast fmt64 fmt32 b)
  | JInt z => JOk (f_int fmt32 z)
  | _ => JErr
  end.
Definition d_f64 (j : json) : jres Z :=
  match j with JFloat b => JOk b | JInt z => JOk (f_int fmt64 z) | _ => JErr end.
Definition d_num (k : num) : json -> jres Z :=
  match k with
  | I8 => d_int (-128) 127 | I16 => d_int (-32768) 32767 | I32 => d_i32 | I64 => d_i64
  | U16 => d_u16 | U32 => d_u32 | U64 => d_u64 | F32 => d_f32 | F64 => d_f64
  end.
(** types.rs:199-207. *)
Definition d_guidstr (s : str) : jres guid :=
  match guid_parse s with Parsed g => JOk g | Rejected => JErr | Panicked => JPanic end.
Definition d_guid (j : json) : jres guid := match j with JStr s => d_guidstr s | _ => JErr end.
Definition no_guid : guid := repeat Byte.x00 16.
(** [hex::decode]: an even number of digits, either case.
    unknown_property.rs:11-15, array_property.rs:30-90. *)
Fixpoint hex_bytes (s : str) : jres (list byte) :=
  match s with
  | [] => JOk []
  | a :: b :: r =>
    match hex_val a, hex_val b with
    | Some x, Some y => q <~ hex_bytes r ;; JOk (z2b (16 * x + y) :: q)
    | _, _ => JErr
    end
  | _ => JErr
  end.
Definition d_hex (j : json) : jres (list byte) := match j with JStr s => hex_bytes s | _ => JErr end.
(** int_property.rs:141-147. *)
Definition d_u8byte (j : json) : jres byte := z <~ d_u8 j ;; JOk (z2b z).

(** Enum variants by name: game_version.rs:18-29, text_property.rs:860-879. *)
Fixpoint index_of (s : str) (l : list str) (i : Z) : jres Z :=
  match l with
  | [] => JErr
  | a :: r => if str_eqb s a then JOk i else index_of s r (i + 1)
  end.
Definition d_name (names : list str) (j : json) : jres Z :=
  match j with JStr s => index_of s names 0 | _ => JErr end.
(** The tag of an enum, inside of a value that serde has buffered (all that belongs to a
    [Property]): by name, or by number. mod.rs:490-493, text_property.rs:861 and 959. *)
Definition d_tag (names : list str) (j : json) : jres Z :=
  match j with
  | JInt z => if inr 0 (len names - 1) z then JOk z else JErr
  | _ => d_name names j
  end.
(** Unit variants of an enum with external tags: by name, or as an object with null
    (or with an empty object, if [buffered]). text_property.rs:941-954, game_version.rs:18-29. *)
Definition d_unit (buffered : bool) (names : list str) (j : json) : jres Z :=
  match j with
  | JObj [(k, JNull)] => index_of k names 0
  | JObj [(k, JObj [])] => if buffered then index_of k names 0 else JErr
  | _ => d_name names j
  end.
(** [DateTimeStyle], text_property.rs:941-954. *)
Definition d_style := d_unit true style_names.

(** [NumberFormattingOptions], text_property.rs:882-901. *)
Definition numfmt_fields : list str :=
  map s2z ["always_include_sign"; "use_grouping"; "minimum_integral_digits"; "maximum_integral_digits";
           "minimum_fractional_digits"; "maximum_fractional_digits"; "rounding"]%string.
Definition d_numfmt (j : json) : jres numfmt :=
  match j with
  | JObj o => d_once numfmt_fields o (
    a <~ need d_bool (s2z "always_include_sign") o ;;
    b <~ need d_bool (s2z "use_grouping") o ;;
    c <~ need d_i32 (s2z "minimum_integral_digits") o ;;
    d <~ need d_i32 (s2z "maximum_integral_digits") o ;;
    e <~ need d_i32 (s2z "minimum_fractional_digits") o ;;
    f <~ need d_i32 (s2z "maximum_fractional_digits") o ;;
    r <~ need (d_tag rounding_names) (s2z "rounding") o ;;
    JOk (NumFmt a b r c d e f))
  | _ => JErr
  end.
(** [DateTime] in a text, struct_types.rs:55-71, text_property.rs:244-279. *)
Definition d_ticks : json -> jres Z := d_struct [s2z "ticks"] (need d_u64 (s2z "ticks")).

(** The variants of [FTextHistory] by name, in order. text_property.rs:175-292. *)
Inductive hname :=
| NEmpty | NNone | NBase | NNamed | NOrdered | NArgument | NNumber | NPercent | NCurrency
| NDate | NTime | NDateTime | NTransform | NTable.
Definition hname_str (n : hname) : str :=
  s2z match n with
      | NEmpty => "Empty" | NNone => "None" | NBase => "Base" | NNamed => "NamedFormat"
      | NOrdered => "OrderedFormat" | NArgument => "ArgumentFormat" | NNumber => "AsNumber"
      | NPercent => "AsPercent" | NCurrency => "AsCurrency" | NDate => "AsDate"
      | NTime => "AsTime" | NDateTime => "AsDateTime" | NTransform => "Transform"
      | NTable => "StringTableEntry"
      end.
Definition hnames :=
  [NEmpty; NNone; NBase; NNamed; NOrdered; NArgument; NNumber; NPercent; NCurrency;
   NDate; NTime; NDateTime; NTransform; NTable].
Definition d_hname (j : json) : jres hname :=
  match j with
  | JStr s => match find (fun n => str_eqb s (hname_str n)) hnames with Some n => JOk n | None => JErr end
  | JInt z => if inr 0 13 z then JOk (nth (Z.to_nat z) hnames NEmpty) else JErr
  | _ => JErr
  end.
(** The fields of each variant. text_property.rs:178-292. *)
Definition hist_fields (n : hname) : list str :=
  map s2z
    match n with
    | NEmpty => []
    | NNone => ["culture_invariant_string"]
    | NBase => ["namespace"; "key"; "source_string"]
    | NNamed | NOrdered | NArgument => ["source_format"; "arguments"]
    | NNumber | NPercent => ["source_value"; "format_options"; "target_culture"]
    | NCurrency => ["currency_code"; "source_value"; "format_options"; "target_culture"]
    | NDate => ["date_time"; "date_style"; "target_culture"]
    | NTime => ["source_date_time"; "time_style"; "time_zone"; "target_culture"]
    | NDateTime => ["source_date_time"; "date_style"; "time_style"; "time_zone"; "target_culture"]
    | NTransform => ["source_text"; "transform"]
    | NTable => ["table_id"; "key"]
    end%string.
(** text_property.rs:175-292. *)
Definition d_hist (dt : json -> jres ftext) (da : json -> jres farg) (o : list (str * json)) : jres fhist :=
  d_once [s2z "history"] o (
  n <~ need d_hname (s2z "history") o ;;
  d_once (hist_fields n) o
  match n with
  | NEmpty => JOk HEmpty
  | NNone => s <~ opt d_str (s2z "culture_invariant_string") o ;; JOk (HNone s)
  | NBase =>
    a <~ opt d_str (s2z "namespace") o ;; b <~ opt d_str (s2z "key") o ;;
    c <~ opt d_str (s2z "source_string") o ;; JOk (HBase a b c)
  | NNamed =>
    t <~ need dt (s2z "source_format") o ;; l <~ need (d_map da) (s2z "arguments") o ;;
    JOk (HNamed t l)
  | NOrdered =>
    t <~ need dt (s2z "source_format") o ;; l <~ need (d_list da) (s2z "arguments") o ;;
    JOk (HOrdered t l)
  | NArgument =>
    t <~ need dt (s2z "source_format") o ;; l <~ need (d_map da) (s2z "arguments") o ;;
    JOk (HArgument t l)
  | NNumber =>
    v <~ need da (s2z "source_value") o ;; f <~ opt d_numfmt (s2z "format_options") o ;;
    c <~ opt d_str (s2z "target_culture") o ;; JOk (HNumber v f c)
  | NPercent =>
    v <~ need da (s2z "source_value") o ;; f <~ opt d_numfmt (s2z "format_options") o ;;
    c <~ opt d_str (s2z "target_culture") o ;; JOk (HPercent v f c)
  | NCurrency =>
    d <~ opt d_str (s2z "currency_code") o ;; v <~ need da (s2z "source_value") o ;;
    f <~ opt d_numfmt (s2z "format_options") o ;; c <~ opt d_str (s2z "target_culture") o ;;
    JOk (HCurrency d v f c)
  | NDate =>
    t <~ need d_ticks (s2z "date_time") o ;; s <~ need d_style (s2z "date_style") o ;;
    c <~ need d_str (s2z "target_culture") o ;; JOk (HDate t s c)
  | NTime =>
    t <~ need d_ticks (s2z "source_date_time") o ;; s <~ need d_style (s2z "time_style") o ;;
    z <~ need d_str (s2z "time_zone") o ;; c <~ need d_str (s2z "target_culture") o ;;
    JOk (HTime t s z c)
  | NDateTime =>
    t <~ need d_ticks (s2z "source_date_time") o ;; s <~ need d_style (s2z "date_style") o ;;
    u <~ need d_style (s2z "time_style") o ;; z <~ need d_str (s2z "time_zone") o ;;
    c <~ need d_str (s2z "target_culture") o ;; JOk (HDateTime t s u z c)
  | NTransform =>
    t <~ need dt (s2z "source_text") o ;;
    x <~ need (d_tag transform_names) (s2z "transform") o ;; JOk (HTransform t x)
  | NTable =>
    a <~ need d_str (s2z "table_id") o ;; b <~ need d_str (s2z "key") o ;; JOk (HTable a b)
  end).
(** [FormatArgumentValue]: an object with exactly one key. text_property.rs:735-751. *)
Definition d_argv (dt : json -> jres ftext) (k : str) (j : json) : option (jres farg) :=
  if str_eqb k (s2z "Int") then Some (z <~ d_i32 j ;; JOk (AInt z))
  else if str_eqb k (s2z "UInt") then Some (z <~ d_u32 j ;; JOk (AUInt z))
  else if str_eqb k (s2z "Float") then Some (z <~ d_f32 j ;; JOk (AFloat z))
  else if str_eqb k (s2z "Double") then Some (z <~ d_f64 j ;; JOk (ADouble z))
  else if str_eqb k (s2z "Text") then Some (t <~ dt j ;; JOk (AText t))
  else if str_eqb k (s2z "Int64") then Some (z <~ d_i64 j ;; JOk (AInt64 z))
  else if str_eqb k (s2z "UInt64") then Some (z <~ d_u64 j ;; JOk (AUInt64 z))
  else None.
(** [FText], text_property.rs:66-74. *)
Fixpoint d_text (j : json) : jres ftext :=
  match j with
  | JObj o =>
    d_once [s2z "flags"] o
      (f <~ dflt d_u32 0 (s2z "flags") o ;; h <~ d_hist d_text d_arg o ;; JOk (FText f h))
  | _ => JErr
  end
(** [FormatArgumentValue], text_property.rs:735-751. *)
with d_arg (j : json) : jres farg :=
  match j with
  | JObj o => single (match o with [(k, v)] => [d_argv d_text k v] | _ => [] end)
  | _ => JErr
  end.

(** Struct values. struct_types.rs:55-71. *)
Fixpoint d_fields (names : list str) (ks : list num) (o : list (str * json)) : jres (list Z) :=
  match names, ks with
  | n :: names', k :: ks' => z <~ need (d_num k) n o ;; l <~ d_fields names' ks' o ;; JOk (z :: l)
  | _, _ => JOk []
  end.
(** struct_property.rs:57-81. *)
Definition fixeds : list fixed :=
  [XVector2F; XVector2D; XVectorF; XVectorD; XRotatorF; XRotatorD; XQuatF; XQuatD;
   XDateTime; XTimespan; XLinearColor; XIntPoint].
Definition d_fixed (x : fixed) : json -> jres svalue :=
  d_struct (field_names x) (fun o => l <~ d_fields (field_names x) (layout x) o ;; JOk (SFixed x l)).
(** The content of a variant of [StructPropertyValue], by the variant's name.
    struct_property.rs:54-86. *)
Definition d_svariant (dp : json -> jres property) (k : str) (j : json) : option (jres svalue) :=
  match find (fun x => str_eqb k (fixed_variant x)) fixeds with
  | Some x => Some (d_fixed x j)
  | None =>
    if str_eqb k (s2z "Guid") then Some (g <~ d_guid j ;; JOk (SGuid g))
    else if str_eqb k (s2z "GameplayTagContainer") then Some (l <~ d_list d_str j ;; JOk (STags l))
    else if str_eqb k (s2z "CustomStruct") then Some (l <~ d_map (d_list dp) j ;; JOk (SCustom l))
    else None
  end.
Definition d_sval (dp : json -> jres property) (j : json) : jres svalue :=
  match j with
  | JObj o => single (match o with [(k, v)] => [d_svariant dp k v] | _ => [] end)
  | _ => JErr
  end.
(** [BytePropertyValue], int_property.rs:141-159. *)
Definition d_bytev (k : str) (j : json) : option (jres bytev) :=
  if str_eqb k (s2z "Byte") then Some (b <~ d_u8byte j ;; JOk (BByte b))
  else if str_eqb k (s2z "Namespaced") then Some (s <~ d_str j ;; JOk (BName s))
  else None.
(** [Delegate], delegate_property.rs:14-19. *)
Definition d_delegate : json -> jres (str * str) :=
  d_struct [s2z "object"; s2z "function_name"] (fun o =>
    a <~ need d_str (s2z "object") o ;; b <~ need d_str (s2z "function_name") o ;; JOk (a, b)).
(** [MulticastScriptDelegate], delegate_property.rs:92-96. *)
Definition d_delegates : json -> jres (list (str * str)) :=
  d_struct [s2z "delegates"] (need (d_list d_delegate) (s2z "delegates")).
(** [FieldPath], field_path_property.rs:14-20. *)
Definition d_path : json -> jres (list str * str) :=
  d_struct [s2z "path"; s2z "resolved_owner"] (fun o =>
    l <~ need (d_list d_str) (s2z "path") o ;; s <~ need d_str (s2z "resolved_owner") o ;; JOk (l, s)).

(** [ArrayProperty]: the alternatives in declaration order. array_property.rs:30-90. *)
Definition d_array (dp : json -> jres property) (o : list (str * json)) : jres arrayp :=
  first_of
    [d_once [s2z "bools"] o (l <~ need (d_list d_bool) (s2z "bools") o ;; JOk (ABools l));
     d_once [s2z "bytes"] o (l <~ need d_hex (s2z "bytes") o ;; JOk (ABytes l));
     d_once [s2z "enums"] o (l <~ need (d_list d_str) (s2z "enums") o ;; JOk (AEnums l));
     d_once [s2z "floats"] o (l <~ need (d_list d_f32) (s2z "floats") o ;; JOk (AFloats l));
     d_once [s2z "ints"] o (l <~ need (d_list d_i32) (s2z "ints") o ;; JOk (AInts l));
     d_once [s2z "names"] o (l <~ need (d_list d_ostr) (s2z "names") o ;; JOk (ANames l));
     d_once [s2z "strings"] o (l <~ need (d_list d_ostr) (s2z "strings") o ;; JOk (AStrings l));
     d_once (map s2z ["field_name"; "type_name"; "guid"; "structs"]%string) o
     (f <~ need d_str (s2z "field_name") o ;; t <~ need d_str (s2z "type_name") o ;;
      g <~ dflt d_guid no_guid (s2z "guid") o ;;
      l <~ need (d_list (d_sval dp)) (s2z "structs") o ;; JOk (AStructs f t g l));
     d_once (map s2z ["property_type"; "properties"]%string) o
     (t <~ need d_str (s2z "property_type") o ;;
      l <~ need (d_list dp) (s2z "properties") o ;; JOk (AProps t l))].

(** [IndexMap::insert] of each pair of a sequence, with arbitrary hash collisions
    (see [mins] in Props.v): [hp map key i] says whether [key] is compared to entry [i].
    types.rs:365-373. *)
Definition hashing := list (property * property) -> property -> nat -> bool.
Definition m_insert (hp : hashing) (l : list (property * property)) : list (property * property) :=
  fold_left (fun acc e => mins (hp acc (fst e)) acc (fst e) (snd e)) l [].
(** [serde_seq::deserialize], types.rs:365-373. *)
Definition d_pair {A} (dp : json -> jres A) (j : json) : jres (A * A) :=
  match j with
  | JArr l => match l with [a; b] => k <~ dp a ;; v <~ dp b ;; JOk (k, v) | _ => JErr end
  | _ => JErr
  end.

(** [MapProperty]: the alternatives in declaration order. map_property.rs:25-96. *)
Definition d_mbool (k : keyk) (o : list (str * json)) : jres mapp :=
  d_once [map_field k "_bools"] o (
  l <~ need (d_map d_bool) (map_field k "_bools") o ;; JOk (MBool k l)).
Definition d_mint (k : keyk) (o : list (str * json)) : jres mapp :=
  d_once [map_field k "_ints"] o (
  l <~ need (d_map d_i32) (map_field k "_ints") o ;; JOk (MInt k l)).
Definition d_mprop (dp : json -> jres property) (k : keyk) (o : list (str * json)) : jres mapp :=
  d_once [s2z "value_type"; map_field k "_props"] o (
  t <~ need d_str (s2z "value_type") o ;;
  l <~ need (d_map dp) (map_field k "_props") o ;; JOk (MProp k t l)).
Definition d_mapp (hp : hashing) (dp : json -> jres property) (o : list (str * json)) : jres mapp :=
  first_of
    [d_mbool KkEnum o; d_mint KkEnum o; d_mprop dp KkEnum o;
     d_mbool KkName o; d_mint KkName o; d_mprop dp KkName o;
     d_once (map s2z ["key_type"; "value_type"; "allocation_flags"; "value"]%string) o
     (kt <~ need d_str (s2z "key_type") o ;; vt <~ need d_str (s2z "value_type") o ;;
      f <~ need d_u32 (s2z "allocation_flags") o ;;
      l <~ need (d_list (d_pair dp)) (s2z "value") o ;; JOk (MGen kt vt f (m_insert hp l)));
     d_mbool KkStr o; d_mint KkStr o; d_mprop dp KkStr o;
     d_once [s2z "str_strs"] o (l <~ need (d_map d_ostr) (s2z "str_strs") o ;; JOk (MStrStr l))].

(** The variants of [Property] by name, mod.rs:495-548. *)
Inductive pname :=
| NNum (k : num) | NBool | NByte | NEnum | NStr | NText | NName | NObject | NDelegate
| NMulti (inline : bool) | NPath | NUnknown | NArray | NSet | NMap | NStruct | NSValue.
Definition pname_str (n : pname) : str :=
  match n with
  | NNum k => num_name k
  | NBool => s2z "BoolProperty" | NByte => s2z "ByteProperty" | NEnum => s2z "EnumProperty"
  | NStr => s2z "StrProperty" | NText => s2z "TextProperty" | NName => s2z "NameProperty"
  | NObject => s2z "ObjectProperty" | NDelegate => s2z "DelegateProperty"
  | NMulti true => s2z "MulticastInlineDelegateProperty"
  | NMulti false => s2z "MulticastSparseDelegateProperty"
  | NPath => s2z "FieldPathProperty" | NUnknown => s2z "UnknownProperty"
  | NArray => s2z "ArrayProperty" | NSet => s2z "SetProperty" | NMap => s2z "MapProperty"
  | NStruct => s2z "StructProperty" | NSValue => s2z "StructPropertyValue"
  end.
Definition pnames :=
  [NArray; NBool; NByte; NNum F64; NEnum; NNum F32; NNum I16; NNum I64; NNum I8; NNum I32; NMap;
   NName; NObject; NDelegate; NMulti true; NMulti false; NPath; NSet; NStr; NStruct; NSValue;
   NText; NNum U16; NNum U32; NNum U64; NUnknown].
Definition d_pname (j : json) : jres pname :=
  match j with
  | JStr s => match find (fun n => str_eqb s (pname_str n)) pnames with Some n => JOk n | None => JErr end
  | JInt z => if inr 0 25 z then JOk (nth (Z.to_nat z) pnames NUnknown) else JErr
  | _ => JErr
  end.
(** The fields of the payloads, apart from flattened ones: int_property.rs, str_property.rs:16-19,
    name_property.rs:13-20, enum_property.rs:16-21, object_property.rs, delegate_property.rs,
    field_path_property.rs:66-69, unknown_property.rs:12-15, set_property.rs:17-24,
    struct_property.rs:40-50. *)
Definition prop_fields (n : pname) : list str :=
  map s2z
    match n with
    | NNum _ | NBool | NStr | NObject | NDelegate | NMulti _ | NPath => ["value"]
    | NByte => ["name"] | NEnum => ["enum_type"; "value"] | NName => ["array_index"; "value"]
    | NUnknown => ["property_name"; "raw"]
    | NSet => ["property_type"; "allocation_flags"; "properties"]
    | NStruct => ["guid"; "type_name"]
    | NText | NArray | NMap | NSValue => []
    end%string.
(** Payloads that contain no properties and no text. mod.rs:495-548. *)
Definition d_simple (n : pname) (o : list (str * json)) : jres property :=
  match n with
  | NNum k => z <~ need (d_num k) (s2z "value") o ;; JOk (PNum k z)
  | NBool => b <~ need d_bool (s2z "value") o ;; JOk (PBool b)
  | NEnum => t <~ opt d_str (s2z "enum_type") o ;; v <~ need d_str (s2z "value") o ;; JOk (PEnum t v)
  | NStr => v <~ opt d_str (s2z "value") o ;; JOk (PStr v)
  | NName =>
    i <~ dflt d_u32 0 (s2z "array_index") o ;; v <~ opt d_str (s2z "value") o ;; JOk (PName i v)
  | NObject => v <~ need d_str (s2z "value") o ;; JOk (PObject v)
  | NDelegate => p <~ need d_delegate (s2z "value") o ;; JOk (PDelegate (fst p) (snd p))
  | NMulti inline => l <~ need d_delegates (s2z "value") o ;; JOk (PMulti inline l)
  | NPath => p <~ need d_path (s2z "value") o ;; JOk (PFieldPath (fst p) (snd p))
  | NUnknown =>
    n <~ need d_str (s2z "property_name") o ;; l <~ need (d_list d_u8byte) (s2z "raw") o ;;
    JOk (PUnknown n l)
  | _ => JErr
  end.

(** A property inside of another one, or at the top ([d_property]). mod.rs:495-548. *)
Fixpoint d_prop (hp : hashing) (j : json) : jres property :=
  match j with
  | JObj o =>
    d_once [s2z "type"] o (
    n <~ need d_pname (s2z "type") o ;;
    d_once (prop_fields n) o
    match n with
    | NByte => n <~ opt d_str (s2z "name") o ;; v <~ flat d_bytev o ;; JOk (PByte n v)
    | NText => t <~ d_text j ;; JOk (PText t)
    | NArray => a <~ d_array (d_prop hp) o ;; JOk (PArray a)
    | NSet =>
      t <~ need d_str (s2z "property_type") o ;; f <~ need d_u32 (s2z "allocation_flags") o ;;
      l <~ need (d_list (d_prop hp)) (s2z "properties") o ;; JOk (PSet t f l)
    | NMap => m <~ d_mapp hp (d_prop hp) o ;; JOk (PMap m)
    | NStruct =>
      g <~ dflt d_guid no_guid (s2z "guid") o ;; t <~ need d_str (s2z "type_name") o ;;
      v <~ flat (d_svariant (d_prop hp)) o ;; JOk (PStruct g t v)
    | NSValue => v <~ single (besides (d_svariant (d_prop hp)) (s2z "type") o) ;; JOk (PSValue v)
    | _ => d_simple n o
    end)
  | JArr (x :: l) =>
    n <~ d_pname x ;;
    match n, l with
    | NSet, [a; b; c] =>
      t <~ d_str a ;; f <~ d_u32 b ;; q <~ d_list (d_prop hp) c ;; JOk (PSet t f q)
    | _, _ => listed (prop_fields n) (d_simple n) l
    end
  | _ => JErr
  end.
(** At the top serde reads the tag before it buffers anything: there it must be a name.
    mod.rs:490-493. *)
Definition tag_number (j : json) : bool :=
  match j with
  | JObj o => match get (fun v => v) (s2z "type") o with Some (JInt _) => true | _ => false end
  | JArr (JInt _ :: _) => true
  | _ => false
  end.
Definition d_property (hp : hashing) (j : json) : jres property :=
  if tag_number j then JErr else d_prop hp j.

(** [FEngineVersion], engine_version.rs:11-22. *)
Definition d_engine : json -> jres fengine :=
  d_struct (map s2z ["major"; "minor"; "patch"; "change_list"; "branch"]%string) (fun o =>
    a <~ need d_u16 (s2z "major") o ;; b <~ need d_u16 (s2z "minor") o ;;
    c <~ need d_u16 (s2z "patch") o ;; d <~ need d_u32 (s2z "change_list") o ;;
    s <~ need d_str (s2z "branch") o ;; JOk (FEngine a b c d s)).
(** [HashableIndexMap<Guid, u32>]: keys are parsed, then inserted.
    lib.rs:115-147, types.rs:199-208. *)
Fixpoint d_guidkeys (l : list (str * Z)) : jres (list (guid * Z)) :=
  match l with
  | [] => JOk []
  | (s, v) :: r => g <~ d_guidstr s ;; q <~ d_guidkeys r ;; JOk ((g, v) :: q)
  end.
Definition d_versions (j : json) : jres (list (guid * Z)) :=
  match j with
  | JObj o => l <~ d_entries d_u32 o ;; q <~ d_guidkeys l ;; JOk (ins_all guid_eqb q)
  | _ => JErr
  end.
(** [GvasHeader], lib.rs:115-147. *)
Definition header_fields (t : Z) : list str :=
  map s2z ["package_file_version"%string] ++
  (if t =? 0 then [] else [s2z "package_file_version_ue5"]) ++
  map s2z ["engine_version"; "custom_version_format"; "custom_versions"; "save_game_class_name"]%string.
Definition d_version (t : Z) (o : list (str * json)) : jres header :=
  p <~ need d_u32 (s2z "package_file_version") o ;;
  u <~ (if t =? 0 then JOk None
        else v <~ need d_u32 (s2z "package_file_version_ue5") o ;; JOk (Some v)) ;;
  e <~ need d_engine (s2z "engine_version") o ;;
  f <~ need d_u32 (s2z "custom_version_format") o ;;
  vs <~ need d_versions (s2z "custom_versions") o ;;
  c <~ need d_str (s2z "save_game_class_name") o ;;
  JOk (Header p u e f vs c).
Definition d_header (j : json) : jres header :=
  let names := [s2z "Version2"; s2z "Version3"] in
  match j with
  | JObj o =>
    d_once [s2z "type"] o (
    t <~ need (d_name names) (s2z "type") o ;; d_once (header_fields t) o (d_version t o))
  | JArr (x :: l) => t <~ d_name names x ;; listed (header_fields t) (d_version t) l
  | _ => JErr
  end.
(** [PalworldCompressionType], game_version.rs:18-29. *)
Definition d_ctype (j : json) : jres ctype :=
  z <~ d_unit false (map ctype_name ctypes) j ;;
  JOk (if z =? 0 then CNone else if z =? 1 then CZlib else CTwice).
(** [DeserializedGameVersion], game_version.rs:33-41. *)
Definition d_dversion (j : json) : jres dversion :=
  match j with
  | JObj [(k, v)] =>
    if str_eqb k (s2z "Palworld") then c <~ d_ctype v ;; JOk (DPalworld c)
    else _z <~ d_unit false [s2z "Default"] j ;; JOk DDefault
  | _ => _z <~ d_name [s2z "Default"] j ;; JOk DDefault
  end.
(** [GvasFile], lib.rs:331-345. *)
Definition from_json (hp : hashing) : json -> jres gfile :=
  d_struct (map s2z ["deserialized_game_version"; "header"; "properties"]%string) (fun o =>
    v <~ dflt d_dversion DDefault (s2z "deserialized_game_version") o ;;
    h <~ need d_header (s2z "header") o ;;
    l <~ need (d_map (d_property hp)) (s2z "properties") o ;;
    JOk (GFile v h l)).
