(** Data types of the crate.  No proofs in this file. *)
From Coq Require Import ZArith List Bool String.
From Verif Require Import Base.
Import ListNotations.
Open Scope Z_scope.

(** The nine properties generated from one template: [impl_int_property!]
    (int_property.rs:31-86, instances 330-337) and the textually identical
    [Int8Property] (int_property.rs:89-131). *)
Inductive num := I8 | I16 | I32 | I64 | U16 | U32 | U64 | F32 | F64.

Definition num_width (k : num) : Z :=
  match k with
  | I8 => 1 | I16 | U16 => 2 | I32 | U32 | F32 => 4 | I64 | U64 | F64 => 8
  end.
Definition num_signed (k : num) : bool :=
  match k with I8 | I16 | I32 | I64 => true | _ => false end.

(** [BytePropertyValue], int_property.rs:142-147. *)
Inductive bytev := BByte (b : byte) | BName (s : str).

(** [NumberFormattingOptions], text_property.rs:883-899; the rounding mode is
    kept as its discriminant 0..6. *)
Record numfmt := NumFmt {
  nf_sign : bool; nf_group : bool; nf_round : Z;
  nf_mini : Z; nf_maxi : Z; nf_minf : Z; nf_maxf : Z }.

(** [FText], [FTextHistory], [FormatArgumentValue]:
    text_property.rs:67-74, 178-294, 736-751.  Date and time styles and
    transform types are kept as their discriminants. *)
Inductive ftext := FText (flags : Z) (h : fhist)
with fhist :=
| HEmpty
| HNone (s : option str)
| HBase (ns key src : option str)
| HNamed (src : ftext) (args : list (str * farg))
| HOrdered (src : ftext) (args : list farg)
| HArgument (src : ftext) (args : list (str * farg))
| HNumber (v : farg) (o : option numfmt) (culture : option str)
| HPercent (v : farg) (o : option numfmt) (culture : option str)
| HCurrency (code : option str) (v : farg) (o : option numfmt) (culture : option str)
| HDate (ticks : Z) (style : Z) (culture : str)
| HTime (ticks : Z) (style : Z) (zone culture : str)
| HDateTime (ticks : Z) (dstyle tstyle : Z) (zone culture : str)
| HTransform (src : ftext) (t : Z)
| HTable (table key : str)
with farg :=
| AInt (z : Z) | AUInt (z : Z) | AFloat (z : Z) | ADouble (z : Z)
| AText (t : ftext) | AInt64 (z : Z) | AUInt64 (z : Z).

(** Field types of the fixed layouts, struct_types.rs. *)
Definition layout (k : fixed) : list num :=
  match k with
  | XVector2F => [F32; F32] | XVector2D => [F64; F64]
  | XVectorF => [F32; F32; F32] | XVectorD => [F64; F64; F64]
  | XRotatorF => [F32; F32; F32] | XRotatorD => [F64; F64; F64]
  | XQuatF => [F32; F32; F32; F32] | XQuatD => [F64; F64; F64; F64]
  | XDateTime => [U64] | XTimespan => [U64]
  | XLinearColor => [F32; F32; F32; F32] | XIntPoint => [I32; I32]
  end.

(** Key kinds of the specialised maps (map_property.rs:27-96). *)
Inductive keyk := KkEnum | KkName | KkStr.

(** [Property] (mod.rs:495-548) with its payload types.  [PNum] covers the nine
    numeric properties; [PMulti] the two multicast delegates ([true]: inline);
    floats are their bit patterns. *)
Inductive property :=
| PNum (k : num) (z : Z)
| PBool (b : bool)
| PByte (name : option str) (v : bytev)
| PEnum (ty : option str) (v : str)
| PStr (v : option str)
| PText (t : ftext)
| PName (index : Z) (v : option str)
| PObject (v : str)
| PDelegate (obj fn : str)
| PMulti (inline : bool) (l : list (str * str))
| PFieldPath (path : list str) (owner : str)
| PUnknown (name : str) (raw : list byte)
| PArray (a : arrayp)
| PSet (ty : str) (flags : Z) (l : list property)
| PMap (m : mapp)
| PStruct (g : guid) (ty : str) (v : svalue)
| PSValue (v : svalue)
(** [StructPropertyValue], struct_property.rs:55-86. *)
with svalue :=
| SFixed (k : fixed) (l : list Z)
| SGuid (g : guid)
| STags (l : list str)
| SCustom (l : list (str * list property))
(** [ArrayProperty], array_property.rs:33-90. *)
with arrayp :=
| ABools (l : list bool)
| ABytes (l : list byte)
| AEnums (l : list str)
| AFloats (l : list Z)
| AInts (l : list Z)
| ANames (l : list (option str))
| AStrings (l : list (option str))
| AStructs (field ty : str) (g : guid) (l : list svalue)
| AProps (ty : str) (l : list property)
(** [MapProperty], map_property.rs:27-96: [MBool k] is EnumBool/NameBool/StrBool,
    [MInt k] EnumInt/NameInt/StrInt, [MProp k] EnumProperty/NameProperty/StrProperty. *)
with mapp :=
| MBool (k : keyk) (l : list (str * bool))
| MInt (k : keyk) (l : list (str * Z))
| MProp (k : keyk) (vt : str) (l : list (str * property))
| MStrStr (l : list (str * option str))
| MGen (kt vt : str) (flags : Z) (l : list (property * property)).

(** ** Type names *)
(** The names in mod.rs:560-622 and int_property.rs:330-337. *)
Definition num_name (k : num) : str :=
  match k with
  | I8 => s2z "Int8Property" | I16 => s2z "Int16Property"
  | I32 => s2z "IntProperty" | I64 => s2z "Int64Property"
  | U16 => s2z "UInt16Property" | U32 => s2z "UInt32Property"
  | U64 => s2z "UInt64Property" | F32 => s2z "FloatProperty"
  | F64 => s2z "DoubleProperty"
  end.

(** The type names of the arms of mod.rs:560-622. *)
Inductive kind :=
| KNum (k : num) | KByte | KBool | KEnum | KStr | KText | KName | KObject
| KDelegate | KMulti (inline : bool) | KFieldPath | KStruct | KArray | KSet
| KMap | KOther.

Definition kind_name (k : kind) : str :=
  match k with
  | KNum n => num_name n
  | KByte => s2z "ByteProperty" | KBool => s2z "BoolProperty"
  | KEnum => s2z "EnumProperty" | KStr => s2z "StrProperty"
  | KText => s2z "TextProperty" | KName => s2z "NameProperty"
  | KObject => s2z "ObjectProperty" | KDelegate => s2z "DelegateProperty"
  | KMulti true => s2z "MulticastInlineDelegateProperty"
  | KMulti false => s2z "MulticastSparseDelegateProperty"
  | KFieldPath => s2z "FieldPathProperty" | KStruct => s2z "StructProperty"
  | KArray => s2z "ArrayProperty" | KSet => s2z "SetProperty"
  | KMap => s2z "MapProperty" | KOther => []
  end.

(** The arms of [match value_type] in [Property::new], mod.rs:560-622. *)
Definition kinds : list kind :=
  [KNum I8; KByte; KNum I16; KNum U16; KNum I32; KNum U32; KNum I64; KNum U64;
   KNum F32; KNum F64; KBool; KEnum; KStr; KText; KName; KObject; KDelegate;
   KMulti true; KMulti false; KFieldPath; KStruct; KArray; KSet; KMap].

Fixpoint find_kind (l : list kind) (ty : str) : kind :=
  match l with
  | [] => KOther
  | k :: r => if str_eqb ty (kind_name k) then k else find_kind r ty
  end.
Definition kind_of (ty : str) : kind := find_kind kinds ty.

Definition keyk_name (k : keyk) : str :=
  match k with
  | KkEnum => kind_name KEnum | KkName => kind_name KName | KkStr => kind_name KStr
  end.

(** The arms of [match type_name] in [StructProperty::read_body],
    struct_property.rs:162-174. *)
Inductive skind :=
| SkVector | SkVector2D | SkRotator | SkQuat | SkDateTime | SkTimespan
| SkLinearColor | SkIntPoint | SkGuid | SkTags | SkCustom.
Definition skind_name (k : skind) : str :=
  match k with
  | SkVector => s2z "Vector" | SkVector2D => s2z "Vector2D"
  | SkRotator => s2z "Rotator" | SkQuat => s2z "Quat"
  | SkDateTime => s2z "DateTime" | SkTimespan => s2z "Timespan"
  | SkLinearColor => s2z "LinearColor" | SkIntPoint => s2z "IntPoint"
  | SkGuid => s2z "Guid" | SkTags => s2z "GameplayTagContainer"
  | SkCustom => []
  end.
Definition skinds : list skind :=
  [SkVector; SkVector2D; SkRotator; SkQuat; SkDateTime; SkTimespan;
   SkLinearColor; SkIntPoint; SkGuid; SkTags].
Fixpoint find_skind (l : list skind) (ty : str) : skind :=
  match l with
  | [] => SkCustom
  | k :: r => if str_eqb ty (skind_name k) then k else find_skind r ty
  end.
Definition skind_of (ty : str) : skind := find_skind skinds ty.

Definition s_none : str := s2z "None".
Definition s_key : str := s2z "Key".
Definition s_value : str := s2z "Value".

(** [options.properties_stack.join(".")], mod.rs:589; the model stack has the
    innermost entry first. *)
Fixpoint join_dots (l : list str) : str :=
  match l with
  | [] => []
  | [a] => a
  | a :: r => a ++ 46 :: join_dots r
  end.
Definition join_path (stack : list str) : str := join_dots (rev stack).

(** ** Options of a read *)
(** What a read depends on besides its input: [PropertyOptions], mod.rs:437-444, lib.rs:463-467. *)
Record opts := Opts {
  dbg : bool;                     (* debug_assertions and overflow checks *)
  hints : str -> option str;      (* the hints HashMap, mod.rs:437-444 *)
  probe : Z -> nat -> bool        (* hash-table probing, see [mins] in Props.v *)
}.

(** ** Equality ([derive(PartialEq)] with [OrderedFloat] and [IndexMap]) *)
Definition f32_nan (z : Z) : bool := 2139095040 <? z mod 2147483648.
Definition f64_nan (z : Z) : bool := 9218868437227405312 <? z mod 9223372036854775808.
(** [OrderedFloat] equality: NaN equals NaN, 0 equals -0.
    struct_types.rs:17-38. *)
Definition f32_eqb (a b : Z) : bool :=
  (f32_nan a && f32_nan b) || (a =? b)
  || ((a mod 2147483648 =? 0) && (b mod 2147483648 =? 0)).
Definition f64_eqb (a b : Z) : bool :=
  (f64_nan a && f64_nan b) || (a =? b)
  || ((a mod 9223372036854775808 =? 0) && (b mod 9223372036854775808 =? 0)).
(** Derived [PartialEq] of the numbers, int_property.rs:34 and 89. *)
Definition num_eqb (k : num) (a b : Z) : bool :=
  match k with F32 => f32_eqb a b | F64 => f64_eqb a b | _ => a =? b end.
Definition num_same (a b : num) : bool :=
  match a, b with
  | I8, I8 | I16, I16 | I32, I32 | I64, I64 | U16, U16 | U32, U32 | U64, U64
  | F32, F32 | F64, F64 => true
  | _, _ => false
  end.
(** The lists have the length of the layout in every real value.
    Derived [PartialEq], struct_types.rs:54. *)
Fixpoint nums_eqb (ks : list num) (l1 l2 : list Z) {struct l1} : bool :=
  match l1, l2 with
  | [], [] => true
  | a :: r, b :: q =>
    match ks with
    | k :: ks' => num_eqb k a b && nums_eqb ks' r q
    | [] => (a =? b) && nums_eqb [] r q
    end
  | _, _ => false
  end.
(** [PartialEq] of the variants, struct_property.rs:53 and map_property.rs:24. *)
Definition fixed_same (a b : fixed) : bool :=
  match a, b with
  | XVector2F, XVector2F | XVector2D, XVector2D | XVectorF, XVectorF
  | XVectorD, XVectorD | XRotatorF, XRotatorF | XRotatorD, XRotatorD
  | XQuatF, XQuatF | XQuatD, XQuatD | XDateTime, XDateTime
  | XTimespan, XTimespan | XLinearColor, XLinearColor | XIntPoint, XIntPoint => true
  | _, _ => false
  end.
Definition keyk_same (a b : keyk) : bool :=
  match a, b with
  | KkEnum, KkEnum | KkName, KkName | KkStr, KkStr => true
  | _, _ => false
  end.
(** Derived [PartialEq] of [Option], of [BytePropertyValue] (int_property.rs:150), of pairs and
    of [NumberFormattingOptions] (text_property.rs:881). *)
Definition opt_eqb {A} (f : A -> A -> bool) (a b : option A) : bool :=
  match a, b with
  | None, None => true
  | Some x, Some y => f x y
  | _, _ => false
  end.
Definition bytev_eqb (a b : bytev) : bool :=
  match a, b with
  | BByte x, BByte y => Byte.eqb x y
  | BName x, BName y => str_eqb x y
  | _, _ => false
  end.
Definition pair_eqb {A B} (f : A -> A -> bool) (g : B -> B -> bool) (a b : A * B) : bool :=
  f (fst a) (fst b) && g (snd a) (snd b).
Definition numfmt_eqb (a b : numfmt) : bool :=
  Bool.eqb (nf_sign a) (nf_sign b) && Bool.eqb (nf_group a) (nf_group b)
  && (nf_round a =? nf_round b) && (nf_mini a =? nf_mini b)
  && (nf_maxi a =? nf_maxi b) && (nf_minf a =? nf_minf b) && (nf_maxf a =? nf_maxf b).

(** Equality of [IndexMap]s: same length, and every entry of the first is found
    in the second ([strict = false]); [strict = true] also demands the same
    order, see [mins] in Props.v.  For maps keyed by properties the real lookup
    can additionally miss an equal key whose hash differs (C32); [strict = false]
    is the coarser of the possible answers. *)
Section MapEqb.
  Context {K V : Type} (keq : K -> K -> bool) (veq : V -> V -> bool).
  (** [HashableIndexMap], types.rs:221-223: derived [PartialEq] of [IndexMap]. *)
  Fixpoint entries_eqb (l1 l2 : list (K * V)) : bool :=
    match l1, l2 with
    | [], [] => true
    | (k1, v1) :: r, (k2, v2) :: q => keq k1 k2 && veq v1 v2 && entries_eqb r q
    | _, _ => false
    end.
  Fixpoint submap_eqb (l1 l2 : list (K * V)) : bool :=
    match l1 with
    | [] => true
    | (k, v) :: r =>
      existsb (fun e => keq k (fst e) && veq v (snd e)) l2 && submap_eqb r l2
    end.
  Definition map_eqb (strict : bool) (l1 l2 : list (K * V)) : bool :=
    if strict then entries_eqb l1 l2 else (len l1 =? len l2) && submap_eqb l1 l2.
End MapEqb.

(** Derived [PartialEq] of [FText], [FTextHistory] and [FormatArgumentValue],
    text_property.rs:65, 174 and 734. *)
Fixpoint text_eqb (strict : bool) (a b : ftext) {struct a} : bool :=
  match a, b with
  | FText f h, FText f' h' => (f =? f') && hist_eqb strict h h'
  end
with hist_eqb (strict : bool) (a b : fhist) {struct a} : bool :=
  match a, b with
  | HEmpty, HEmpty => true
  | HNone s, HNone s' => opt_eqb str_eqb s s'
  | HBase x y z, HBase x' y' z' =>
    opt_eqb str_eqb x x' && opt_eqb str_eqb y y' && opt_eqb str_eqb z z'
  | HNamed t l, HNamed t' l' =>
    text_eqb strict t t' && map_eqb str_eqb (arg_eqb strict) strict l l'
  | HOrdered t l, HOrdered t' l' =>
    text_eqb strict t t' && list_eqb (arg_eqb strict) l l'
  | HArgument t l, HArgument t' l' =>
    text_eqb strict t t' && map_eqb str_eqb (arg_eqb strict) strict l l'
  | HNumber v o c, HNumber v' o' c' | HPercent v o c, HPercent v' o' c' =>
    arg_eqb strict v v' && opt_eqb numfmt_eqb o o' && opt_eqb str_eqb c c'
  | HCurrency d v o c, HCurrency d' v' o' c' =>
    opt_eqb str_eqb d d' && arg_eqb strict v v' && opt_eqb numfmt_eqb o o'
    && opt_eqb str_eqb c c'
  | HDate t s c, HDate t' s' c' => (t =? t') && (s =? s') && str_eqb c c'
  | HTime t s z c, HTime t' s' z' c' =>
    (t =? t') && (s =? s') && str_eqb z z' && str_eqb c c'
  | HDateTime t s u z c, HDateTime t' s' u' z' c' =>
    (t =? t') && (s =? s') && (u =? u') && str_eqb z z' && str_eqb c c'
  | HTransform t x, HTransform t' x' => text_eqb strict t t' && (x =? x')
  | HTable x y, HTable x' y' => str_eqb x x' && str_eqb y y'
  | _, _ => false
  end
with arg_eqb (strict : bool) (a b : farg) {struct a} : bool :=
  match a, b with
  | AInt x, AInt y | AUInt x, AUInt y | AInt64 x, AInt64 y | AUInt64 x, AUInt64 y => x =? y
  | AFloat x, AFloat y => f32_eqb x y
  | ADouble x, ADouble y => f64_eqb x y
  | AText x, AText y => text_eqb strict x y
  | _, _ => false
  end.

(** Derived [PartialEq] of [Property] (mod.rs:494) and of its parts, with array_property.rs:29,
    map_property.rs:24, struct_property.rs:38 and 53. *)
Fixpoint prop_eqb (strict : bool) (a b : property) {struct a} : bool :=
  match a, b with
  | PNum k x, PNum k' y => num_same k k' && num_eqb k x y
  | PBool x, PBool y => Bool.eqb x y
  | PByte n v, PByte n' v' => opt_eqb str_eqb n n' && bytev_eqb v v'
  | PEnum n v, PEnum n' v' => opt_eqb str_eqb n n' && str_eqb v v'
  | PStr v, PStr v' => opt_eqb str_eqb v v'
  | PText t, PText t' => text_eqb strict t t'
  | PName i v, PName i' v' => (i =? i') && opt_eqb str_eqb v v'
  | PObject v, PObject v' => str_eqb v v'
  | PDelegate o f, PDelegate o' f' => str_eqb o o' && str_eqb f f'
  | PMulti i l, PMulti i' l' =>
    Bool.eqb i i' && list_eqb (pair_eqb str_eqb str_eqb) l l'
  | PFieldPath l o, PFieldPath l' o' => list_eqb str_eqb l l' && str_eqb o o'
  | PUnknown n r, PUnknown n' r' => str_eqb n n' && list_eqb Byte.eqb r r'
  | PArray x, PArray y => array_eqb strict x y
  | PSet t f l, PSet t' f' l' =>
    str_eqb t t' && (f =? f') && list_eqb (prop_eqb strict) l l'
  | PMap x, PMap y => mapp_eqb strict x y
  | PStruct g t v, PStruct g' t' v' =>
    guid_eqb g g' && str_eqb t t' && sval_eqb strict v v'
  | PSValue v, PSValue v' => sval_eqb strict v v'
  | _, _ => false
  end
with sval_eqb (strict : bool) (a b : svalue) {struct a} : bool :=
  match a, b with
  | SFixed k l, SFixed k' l' => fixed_same k k' && nums_eqb (layout k) l l'
  | SGuid g, SGuid g' => guid_eqb g g'
  | STags l, STags l' => list_eqb str_eqb l l'
  | SCustom l, SCustom l' => map_eqb str_eqb (list_eqb (prop_eqb strict)) strict l l'
  | _, _ => false
  end
with array_eqb (strict : bool) (a b : arrayp) {struct a} : bool :=
  match a, b with
  | ABools l, ABools l' => list_eqb Bool.eqb l l'
  | ABytes l, ABytes l' => list_eqb Byte.eqb l l'
  | AEnums l, AEnums l' => list_eqb str_eqb l l'
  | AFloats l, AFloats l' => list_eqb f32_eqb l l'
  | AInts l, AInts l' => list_eqb Z.eqb l l'
  | ANames l, ANames l' => list_eqb (opt_eqb str_eqb) l l'
  | AStrings l, AStrings l' => list_eqb (opt_eqb str_eqb) l l'
  | AStructs f t g l, AStructs f' t' g' l' =>
    str_eqb f f' && str_eqb t t' && guid_eqb g g' && list_eqb (sval_eqb strict) l l'
  | AProps t l, AProps t' l' => str_eqb t t' && list_eqb (prop_eqb strict) l l'
  | _, _ => false
  end
with mapp_eqb (strict : bool) (a b : mapp) {struct a} : bool :=
  match a, b with
  | MBool k l, MBool k' l' => keyk_same k k' && map_eqb str_eqb Bool.eqb strict l l'
  | MInt k l, MInt k' l' => keyk_same k k' && map_eqb str_eqb Z.eqb strict l l'
  | MProp k t l, MProp k' t' l' =>
    keyk_same k k' && str_eqb t t' && map_eqb str_eqb (prop_eqb strict) strict l l'
  | MStrStr l, MStrStr l' => map_eqb str_eqb (opt_eqb str_eqb) strict l l'
  | MGen kt vt f l, MGen kt' vt' f' l' =>
    str_eqb kt kt' && str_eqb vt vt' && (f =? f')
    && map_eqb (prop_eqb strict) (prop_eqb strict) strict l l'
  | _, _ => false
  end.

(** [same]: equal field by field and in the same order, floats compared as
    [OrderedFloat].  [eqv]: the derived [PartialEq], in which [IndexMap]s compare
    without regard to order. mod.rs:494. *)
Definition same := prop_eqb true.
Definition eqv := prop_eqb false.
