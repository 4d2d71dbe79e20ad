(** Which JSON documents are read, and as which file: rules for reading, as JsonForm.v
    has rules for writing.  Specification only, independent of the functions in Json.v.
    Members come in any order, members that are not asked for are ignored, structs may be
    arrays, and tags inside of properties may be numbers. *)
From Coq Require Import ZArith List Bool String QArith.
From Verif Require Import Base Str Types Versions File Spec MapFacts Guid Json JsonSpec Nearest JsonForm.
Import ListNotations.
Open Scope Z_scope.

(** ** Members of an object *)
(** None of the names is used twice. *)
Definition once (names : list string) (o : fields) : Prop :=
  forall k a b c v w, In k names -> o <> a ++ (k ↦ v) :: b ++ (k ↦ w) :: c.
Definition missing (k : string) (o : fields) : Prop := forall j, ~ In (k ↦ j) o.
(** A member that must be there; one with a default; one that may also be null. *)
Definition has {A} (R : A -> json -> Prop) (k : string) (o : fields) (a : A) : Prop :=
  exists j, In (k ↦ j) o /\ R a j.
Definition has_or {A} (R : A -> json -> Prop) (d : A) (k : string) (o : fields) (a : A) : Prop :=
  (missing k o /\ a = d) \/ has R k o a.
Inductive nullable {A} (R : A -> json -> Prop) : option A -> json -> Prop :=
| IsNull : nullable R None JNull
| NotNull : forall a j, j <> JNull -> R a j -> nullable R (Some a) j.
Definition may {A} (R : A -> json -> Prop) : string -> fields -> option A -> Prop := has_or (nullable R) None.
(** A struct: an object, or an array with all fields in order. *)
Inductive record (names : list string) (P : fields -> Prop) : json -> Prop :=
| AsObject : forall o, once names o -> P o -> record names P (JObj o)
| AsArray : forall l, List.length l = List.length names -> P (combine (map s2z names) l) -> record names P (JArr l).
(** Lists, and maps: of repeated keys the first gives the place and the last the value. *)
Definition list_doc {A} (R : A -> json -> Prop) (l : list A) (j : json) : Prop :=
  exists a, j = JArr a /\ Forall2 R l a.
Definition map_doc {A} (R : A -> json -> Prop) (m : list (str * A)) (j : json) : Prop :=
  exists o l, j = JObj o /\ Forall2 (fun x y => fst x = fst y /\ R (snd x) (snd y)) l o /\ collapsed str_eqb l m.
(** The first member with one of the names. *)
Definition first_named (names : list string) (o : fields) (k : string) (v : json) : Prop :=
  In k names /\ exists a b, o = a ++ (k ↦ v) :: b /\ forall s w x, In s names -> In (x, w) a -> x <> s2z s.
(** The only member with another name. *)
Definition only_besides (k : string) (o : fields) (s : str) (v : json) : Prop :=
  s <> s2z k /\ exists a b, o = a ++ (s, v) :: b /\ forall x w, In (x, w) (a ++ b) -> x = s2z k.
(** The first rule that applies. *)
Definition first_rule {A} (rules : list (A -> fields -> Prop)) (a : A) (o : fields) : Prop :=
  exists before R after, rules = before ++ R :: after /\ R a o /\ forall Q b, In Q before -> ~ Q b o.

(** ** Values *)
Definition bool_doc (b : bool) (j : json) : Prop := j = JBool b.
Definition unsigned (bytes : Z) (z : Z) (j : json) : Prop := j = JInt z /\ 0 <= z < 2 ^ (8 * bytes).
Definition signed (bytes : Z) (z : Z) (j : json) : Prop := j = JInt z /\ - 2 ^ (8 * bytes - 1) <= z < 2 ^ (8 * bytes - 1).
(** Floats may be given as integers; they become the nearest float. *)
Inductive single_doc : Z -> json -> Prop :=
| SFloat : forall b r, rounded32 (9223372036854775808 <=? b) (number 52 (-1074) (b mod 9223372036854775808)) r ->
    single_doc r (JFloat b)
| SInt : forall z r, rounded32 (z <? 0) (inject_Z (Z.abs z)) r -> single_doc r (JInt z).
Inductive double_doc : Z -> json -> Prop :=
| DFloat : forall b, double_doc b (JFloat b)
| DInt : forall z r, rounded64 (z <? 0) (inject_Z (Z.abs z)) r -> double_doc r (JInt z).
Definition num_doc (k : num) : Z -> json -> Prop :=
  match k with
  | I8 => signed 1 | I16 => signed 2 | I32 => signed 4 | I64 => signed 8
  | U16 => unsigned 2 | U32 => unsigned 4 | U64 => unsigned 8
  | F32 => single_doc | F64 => double_doc
  end.
Definition guid_doc (g : guid) (j : json) : Prop := exists s, j = JStr s /\ guid_parse s = Parsed g.
Definition byte_doc (b : byte) (j : json) : Prop := j = JInt (b2z b).
(** Pairs of hexadecimal digits of either case. *)
Definition hex_digits : list (Z * Z) :=
  combine (s2z "0123456789abcdefABCDEF") [0; 1; 2; 3; 4; 5; 6; 7; 8; 9; 10; 11; 12; 13; 14; 15; 10; 11; 12; 13; 14; 15].
Inductive hex_pairs : list byte -> str -> Prop :=
| HpNil : hex_pairs [] []
| HpCons : forall b l c d x y s, In (c, x) hex_digits -> In (d, y) hex_digits -> b2z b = 16 * x + y -> hex_pairs l s ->
    hex_pairs (b :: l) (c :: d :: s).
Definition hex_doc (l : list byte) (j : json) : Prop := exists s, j = JStr s /\ hex_pairs l s.
(** Enumerators by name; also by number; or as an object with nothing in it. *)
Definition tag_doc (names : list (Z * string)) (z : Z) (j : json) : Prop :=
  exists s, In (z, s) names /\ (j = txt s \/ j = JInt z).
Definition unit_doc {A} (names : list (A * string)) (z : A) (j : json) : Prop :=
  exists s, In (z, s) names /\ (j = txt s \/ j = JObj [s ↦ JNull]).
Definition unit_doc' {A} (names : list (A * string)) (z : A) (j : json) : Prop :=
  unit_doc names z j \/ exists s, In (z, s) names /\ j = JObj [s ↦ JObj []].
(** The kind of a text or property, by name or number. *)
Definition kind (k : string) (i : Z) (s : string) (o : fields) : Prop :=
  In (k ↦ txt s) o \/ In (k ↦ JInt i) o.

(** ** Texts *)
Inductive format_doc : numfmt -> json -> Prop :=
| FormatDoc : forall o a b r c d e f,
    once ["always_include_sign"; "use_grouping"; "minimum_integral_digits"; "maximum_integral_digits";
          "minimum_fractional_digits"; "maximum_fractional_digits"; "rounding"]%string o ->
    has bool_doc "always_include_sign" o a -> has bool_doc "use_grouping" o b ->
    has (tag_doc roundings) "rounding" o r ->
    has (signed 4) "minimum_integral_digits" o c -> has (signed 4) "maximum_integral_digits" o d ->
    has (signed 4) "minimum_fractional_digits" o e -> has (signed 4) "maximum_fractional_digits" o f ->
    format_doc (NumFmt a b r c d e f) (JObj o).
Definition ticks_doc (z : Z) : json -> Prop := record ["ticks"%string] (fun o => has (unsigned 8) "ticks" o z).
Definition style_doc : Z -> json -> Prop := unit_doc' styles.
Inductive text_doc : ftext -> json -> Prop :=
| TextDoc : forall o f h, once ["flags"; "history"]%string o -> has_or (unsigned 4) 0 "flags" o f -> hist_doc h o ->
    text_doc (FText f h) (JObj o)
with hist_doc : fhist -> fields -> Prop :=
| HdEmpty : forall o, kind "history" 0 "Empty" o -> hist_doc HEmpty o
| HdNone : forall o s, kind "history" 1 "None" o -> once ["culture_invariant_string"]%string o ->
    may is_text "culture_invariant_string" o s -> hist_doc (HNone s) o
| HdBase : forall o a b c, kind "history" 2 "Base" o -> once ["namespace"; "key"; "source_string"]%string o ->
    may is_text "namespace" o a -> may is_text "key" o b -> may is_text "source_string" o c -> hist_doc (HBase a b c) o
| HdNamed : forall o t l, kind "history" 3 "NamedFormat" o -> once ["source_format"; "arguments"]%string o ->
    has text_doc "source_format" o t -> has (map_doc arg_doc) "arguments" o l -> hist_doc (HNamed t l) o
| HdOrdered : forall o t l, kind "history" 4 "OrderedFormat" o -> once ["source_format"; "arguments"]%string o ->
    has text_doc "source_format" o t -> has (list_doc arg_doc) "arguments" o l -> hist_doc (HOrdered t l) o
| HdArgument : forall o t l, kind "history" 5 "ArgumentFormat" o -> once ["source_format"; "arguments"]%string o ->
    has text_doc "source_format" o t -> has (map_doc arg_doc) "arguments" o l -> hist_doc (HArgument t l) o
| HdNumber : forall o v f c, kind "history" 6 "AsNumber" o -> once ["source_value"; "format_options"; "target_culture"]%string o ->
    has arg_doc "source_value" o v -> may format_doc "format_options" o f -> may is_text "target_culture" o c ->
    hist_doc (HNumber v f c) o
| HdPercent : forall o v f c, kind "history" 7 "AsPercent" o -> once ["source_value"; "format_options"; "target_culture"]%string o ->
    has arg_doc "source_value" o v -> may format_doc "format_options" o f -> may is_text "target_culture" o c ->
    hist_doc (HPercent v f c) o
| HdCurrency : forall o d v f c, kind "history" 8 "AsCurrency" o ->
    once ["currency_code"; "source_value"; "format_options"; "target_culture"]%string o ->
    may is_text "currency_code" o d -> has arg_doc "source_value" o v -> may format_doc "format_options" o f ->
    may is_text "target_culture" o c -> hist_doc (HCurrency d v f c) o
| HdDate : forall o t s c, kind "history" 9 "AsDate" o -> once ["date_time"; "date_style"; "target_culture"]%string o ->
    has ticks_doc "date_time" o t -> has style_doc "date_style" o s -> has is_text "target_culture" o c ->
    hist_doc (HDate t s c) o
| HdTime : forall o t s z c, kind "history" 10 "AsTime" o ->
    once ["source_date_time"; "time_style"; "time_zone"; "target_culture"]%string o ->
    has ticks_doc "source_date_time" o t -> has style_doc "time_style" o s -> has is_text "time_zone" o z ->
    has is_text "target_culture" o c -> hist_doc (HTime t s z c) o
| HdDateTime : forall o t s u z c, kind "history" 11 "AsDateTime" o ->
    once ["source_date_time"; "date_style"; "time_style"; "time_zone"; "target_culture"]%string o ->
    has ticks_doc "source_date_time" o t -> has style_doc "date_style" o s -> has style_doc "time_style" o u ->
    has is_text "time_zone" o z -> has is_text "target_culture" o c -> hist_doc (HDateTime t s u z c) o
| HdTransform : forall o t x, kind "history" 12 "Transform" o -> once ["source_text"; "transform"]%string o ->
    has text_doc "source_text" o t -> has (tag_doc transforms) "transform" o x -> hist_doc (HTransform t x) o
| HdTable : forall o a b, kind "history" 13 "StringTableEntry" o -> once ["table_id"; "key"]%string o ->
    has is_text "table_id" o a -> has is_text "key" o b -> hist_doc (HTable a b) o
with arg_doc : farg -> json -> Prop :=
| AdInt : forall z j, signed 4 z j -> arg_doc (AInt z) (JObj ["Int" ↦ j])
| AdUInt : forall z j, unsigned 4 z j -> arg_doc (AUInt z) (JObj ["UInt" ↦ j])
| AdFloat : forall z j, single_doc z j -> arg_doc (AFloat z) (JObj ["Float" ↦ j])
| AdDouble : forall z j, double_doc z j -> arg_doc (ADouble z) (JObj ["Double" ↦ j])
| AdText : forall t j, text_doc t j -> arg_doc (AText t) (JObj ["Text" ↦ j])
| AdInt64 : forall z j, signed 8 z j -> arg_doc (AInt64 z) (JObj ["Int64" ↦ j])
| AdUInt64 : forall z j, unsigned 8 z j -> arg_doc (AUInt64 z) (JObj ["UInt64" ↦ j]).

(** ** Properties.  [R] is the reading of the properties inside, [merge] what becomes of a
    list of pairs with repeated keys. *)
Section Inside.
Context (merge : list (property * property) -> list (property * property) -> Prop) (R : property -> json -> Prop).

Inductive parts_doc : list (string * num) -> list Z -> fields -> Prop :=
| PartsDone : forall o, parts_doc [] [] o
| PartsMore : forall k n t z l o, has (num_doc n) k o z -> parts_doc t l o -> parts_doc ((k, n) :: t) (z :: l) o.
Definition all_fixed : list fixed :=
  [XVector2F; XVector2D; XVectorF; XVectorD; XRotatorF; XRotatorD; XQuatF; XQuatD;
   XDateTime; XTimespan; XLinearColor; XIntPoint].
Definition value_names : list string :=
  (map (fun x => fst (fixed_table x)) all_fixed ++ ["Guid"; "GameplayTagContainer"; "CustomStruct"])%list%string.
Inductive value_doc : svalue -> string -> json -> Prop :=
| VdFixed : forall x l j, record (map fst (snd (fixed_table x))) (parts_doc (snd (fixed_table x)) l) j ->
    value_doc (SFixed x l) (fst (fixed_table x)) j
| VdGuid : forall g j, guid_doc g j -> value_doc (SGuid g) "Guid" j
| VdTags : forall l j, list_doc is_text l j -> value_doc (STags l) "GameplayTagContainer" j
| VdCustom : forall l j, map_doc (list_doc R) l j -> value_doc (SCustom l) "CustomStruct" j.
Definition element_doc (v : svalue) (j : json) : Prop := exists s x, j = JObj [s ↦ x] /\ value_doc v s x.

Definition array_rules : list (arrayp -> fields -> Prop) :=
  [(fun a o => once ["bools"%string] o /\ exists l, a = ABools l /\ has (list_doc bool_doc) "bools" o l);
   (fun a o => once ["bytes"%string] o /\ exists l, a = ABytes l /\ has hex_doc "bytes" o l);
   (fun a o => once ["enums"%string] o /\ exists l, a = AEnums l /\ has (list_doc is_text) "enums" o l);
   (fun a o => once ["floats"%string] o /\ exists l, a = AFloats l /\ has (list_doc single_doc) "floats" o l);
   (fun a o => once ["ints"%string] o /\ exists l, a = AInts l /\ has (list_doc (signed 4)) "ints" o l);
   (fun a o => once ["names"%string] o /\ exists l, a = ANames l /\ has (list_doc (nullable is_text)) "names" o l);
   (fun a o => once ["strings"%string] o /\ exists l, a = AStrings l /\ has (list_doc (nullable is_text)) "strings" o l);
   (fun a o => once ["field_name"; "type_name"; "guid"; "structs"]%string o /\ exists f t g l, a = AStructs f t g l
      /\ has is_text "field_name" o f /\ has is_text "type_name" o t /\ has_or guid_doc nil_guid "guid" o g
      /\ has (list_doc element_doc) "structs" o l);
   (fun a o => once ["property_type"; "properties"]%string o /\ exists t l, a = AProps t l
      /\ has is_text "property_type" o t /\ has (list_doc R) "properties" o l)].
Definition bools_rule (k : keyk) (m : mapp) (o : fields) : Prop :=
  let n := (key_word k ++ "_bools")%string in
  once [n] o /\ exists l, m = MBool k l /\ has (map_doc bool_doc) n o l.
Definition ints_rule (k : keyk) (m : mapp) (o : fields) : Prop :=
  let n := (key_word k ++ "_ints")%string in
  once [n] o /\ exists l, m = MInt k l /\ has (map_doc (signed 4)) n o l.
Definition props_rule (k : keyk) (m : mapp) (o : fields) : Prop :=
  let n := (key_word k ++ "_props")%string in
  once ["value_type"%string; n] o /\ exists t l, m = MProp k t l
  /\ has is_text "value_type" o t /\ has (map_doc R) n o l.
Definition pair_doc (x : property * property) (j : json) : Prop :=
  exists a b, j = JArr [a; b] /\ R (fst x) a /\ R (snd x) b.
Definition pairs_rule (m : mapp) (o : fields) : Prop :=
  once ["key_type"; "value_type"; "allocation_flags"; "value"]%string o /\ exists kt vt f l l', m = MGen kt vt f l'
  /\ has is_text "key_type" o kt /\ has is_text "value_type" o vt /\ has (unsigned 4) "allocation_flags" o f
  /\ has (list_doc pair_doc) "value" o l /\ merge l l'.
Definition strs_rule (m : mapp) (o : fields) : Prop :=
  once ["str_strs"%string] o /\ exists l, m = MStrStr l /\ has (map_doc (nullable is_text)) "str_strs" o l.
Definition map_rules : list (mapp -> fields -> Prop) :=
  [bools_rule KkEnum; ints_rule KkEnum; props_rule KkEnum; bools_rule KkName; ints_rule KkName; props_rule KkName;
   pairs_rule; bools_rule KkStr; ints_rule KkStr; props_rule KkStr; strs_rule].

(** A property of kind [s], number [i], as an object or as an array. *)
Definition open_doc (i : Z) (s : string) (names : list string) (j : json) (o : fields) : Prop :=
  j = JObj o /\ once ("type"%string :: names) o /\ kind "type" i s o.
Definition payload (i : Z) (s : string) (names : list string) (j : json) (o : fields) : Prop :=
  open_doc i s names j o
  \/ exists x l, j = JArr (x :: l) /\ (x = txt s \/ x = JInt i) /\ List.length l = List.length names
       /\ o = combine (map s2z names) l.
Definition num_index (k : num) : Z :=
  match k with F64 => 3 | F32 => 5 | I16 => 6 | I64 => 7 | I8 => 8 | I32 => 9 | U16 => 22 | U32 => 23 | U64 => 24 end.
Definition delegate_doc (d : str * str) : json -> Prop :=
  record ["object"; "function_name"]%string (fun o => has is_text "object" o (fst d) /\ has is_text "function_name" o (snd d)).
Definition delegates_doc (l : list (str * str)) : json -> Prop :=
  record ["delegates"]%string (fun o => has (list_doc delegate_doc) "delegates" o l).
Definition path_doc (l : list str) (s : str) : json -> Prop :=
  record ["path"; "resolved_owner"]%string (fun o => has (list_doc is_text) "path" o l /\ has is_text "resolved_owner" o s).
Inductive prop_rule : property -> json -> Prop :=
| PdArray : forall a j o, open_doc 0 "ArrayProperty" [] j o -> first_rule array_rules a o -> prop_rule (PArray a) j
| PdBool : forall b j o, payload 1 "BoolProperty" ["value"]%string j o -> has bool_doc "value" o b -> prop_rule (PBool b) j
| PdByte : forall n b j o x, open_doc 2 "ByteProperty" ["name"]%string j o -> may is_text "name" o n ->
    first_named ["Byte"; "Namespaced"]%string o "Byte" x -> byte_doc b x -> prop_rule (PByte n (BByte b)) j
| PdByteName : forall n s j o x, open_doc 2 "ByteProperty" ["name"]%string j o -> may is_text "name" o n ->
    first_named ["Byte"; "Namespaced"]%string o "Namespaced" x -> is_text s x -> prop_rule (PByte n (BName s)) j
| PdEnum : forall t v j o, payload 4 "EnumProperty" ["enum_type"; "value"]%string j o -> may is_text "enum_type" o t ->
    has is_text "value" o v -> prop_rule (PEnum t v) j
| PdNum : forall k z j o, payload (num_index k) (num_type k) ["value"]%string j o -> has (num_doc k) "value" o z ->
    prop_rule (PNum k z) j
| PdMap : forall m j o, open_doc 10 "MapProperty" [] j o -> first_rule map_rules m o -> prop_rule (PMap m) j
| PdName : forall i v j o, payload 11 "NameProperty" ["array_index"; "value"]%string j o ->
    has_or (unsigned 4) 0 "array_index" o i -> may is_text "value" o v -> prop_rule (PName i v) j
| PdObject : forall v j o, payload 12 "ObjectProperty" ["value"]%string j o -> has is_text "value" o v -> prop_rule (PObject v) j
| PdDelegate : forall a b j o, payload 13 "DelegateProperty" ["value"]%string j o -> has delegate_doc "value" o (a, b) ->
    prop_rule (PDelegate a b) j
| PdInline : forall l j o, payload 14 "MulticastInlineDelegateProperty" ["value"]%string j o ->
    has delegates_doc "value" o l -> prop_rule (PMulti true l) j
| PdSparse : forall l j o, payload 15 "MulticastSparseDelegateProperty" ["value"]%string j o ->
    has delegates_doc "value" o l -> prop_rule (PMulti false l) j
| PdPath : forall l s j o, payload 16 "FieldPathProperty" ["value"]%string j o -> has (path_doc l) "value" o s ->
    prop_rule (PFieldPath l s) j
| PdSet : forall t f l j o, payload 17 "SetProperty" ["property_type"; "allocation_flags"; "properties"]%string j o ->
    has is_text "property_type" o t -> has (unsigned 4) "allocation_flags" o f -> has (list_doc R) "properties" o l ->
    prop_rule (PSet t f l) j
| PdStr : forall v j o, payload 18 "StrProperty" ["value"]%string j o -> may is_text "value" o v -> prop_rule (PStr v) j
| PdStruct : forall g t v j o s x, open_doc 19 "StructProperty" ["guid"; "type_name"]%string j o ->
    has_or guid_doc nil_guid "guid" o g -> has is_text "type_name" o t -> first_named value_names o s x ->
    value_doc v s x -> prop_rule (PStruct g t v) j
| PdValue : forall v j o s x, open_doc 20 "StructPropertyValue" [] j o -> only_besides "type" o (s2z s) x ->
    value_doc v s x -> prop_rule (PSValue v) j
| PdText : forall t j o, open_doc 21 "TextProperty" [] j o -> text_doc t j -> prop_rule (PText t) j
| PdUnknown : forall n raw j o, payload 25 "UnknownProperty" ["property_name"; "raw"]%string j o ->
    has is_text "property_name" o n -> has (list_doc byte_doc) "raw" o raw -> prop_rule (PUnknown n raw) j.
End Inside.

(** At the top the kind must be a name. *)
Definition numbered (j : json) : Prop :=
  exists z, (exists o, j = JObj o /\ In ("type" ↦ JInt z) o) \/ exists l, j = JArr (JInt z :: l).
Section File.
Context (merge : list (property * property) -> list (property * property) -> Prop).
(** [n] bounds the nesting. *)
Fixpoint prop_doc (n : nat) : property -> json -> Prop :=
  match n with
  | O => fun _ _ => False
  | S n' => prop_rule merge (prop_doc n')
  end.
Definition top_doc (n : nat) (p : property) (j : json) : Prop := prop_doc n p j /\ ~ numbered j.

Definition engine_doc (e : fengine) : json -> Prop :=
  record ["major"; "minor"; "patch"; "change_list"; "branch"]%string (fun o =>
    has (unsigned 2) "major" o (fe_major e) /\ has (unsigned 2) "minor" o (fe_minor e)
    /\ has (unsigned 2) "patch" o (fe_patch e) /\ has (unsigned 4) "change_list" o (fe_change e)
    /\ has is_text "branch" o (fe_branch e)).
(** Custom versions: any spelling of the guids. *)
Definition versions_doc (vs : list (guid * Z)) (j : json) : Prop :=
  exists o l, j = JObj o /\ Forall2 (fun x y => guid_parse (fst y) = Parsed (fst x) /\ unsigned 4 (snd x) (snd y)) l o
  /\ collapsed guid_eqb l vs.
Definition header_names (ue5 : bool) : list string :=
  (["package_file_version"] ++ (if ue5 then ["package_file_version_ue5"] else [])
   ++ ["engine_version"; "custom_version_format"; "custom_versions"; "save_game_class_name"])%list%string.
Definition header_fields_doc (h : header) (o : fields) : Prop :=
  has (unsigned 4) "package_file_version" o (h_package h)
  /\ match h_ue5 h with Some v => has (unsigned 4) "package_file_version_ue5" o v | None => True end
  /\ has engine_doc "engine_version" o (h_engine h) /\ has (unsigned 4) "custom_version_format" o (h_format h)
  /\ has versions_doc "custom_versions" o (h_versions h) /\ has is_text "save_game_class_name" o (h_class h).
Inductive header_doc : header -> json -> Prop :=
| HeaderObj : forall h o (v := if h_ue5 h then true else false), once ("type"%string :: header_names v) o ->
    In ("type" ↦ txt (if v then "Version3" else "Version2")) o -> header_fields_doc h o -> header_doc h (JObj o)
| HeaderArr : forall h l (v := if h_ue5 h then true else false), List.length l = List.length (header_names v) ->
    header_fields_doc h (combine (map s2z (header_names v)) l) ->
    header_doc h (JArr (txt (if v then "Version3" else "Version2") :: l)).
Definition compressions : list (ctype * string) := [(CNone, "None"); (CZlib, "Zlib"); (CTwice, "ZlibTwice")]%string.
Inductive game_doc : dversion -> json -> Prop :=
| GamePlainDoc : forall j, unit_doc [(DDefault, "Default"%string)] DDefault j -> game_doc DDefault j
| GamePalDoc : forall c j, unit_doc compressions c j -> game_doc (DPalworld c) (JObj ["Palworld" ↦ j]).
Definition file_doc (n : nat) (g : gfile) : json -> Prop :=
  record ["deserialized_game_version"; "header"; "properties"]%string (fun o =>
    has_or game_doc DDefault "deserialized_game_version" o (g_version g)
    /\ has header_doc "header" o (g_header g) /\ has (map_doc (top_doc n)) "properties" o (g_props g)).
End File.
