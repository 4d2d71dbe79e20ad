(** Specification for hashing: values of which the hasher sees enough to tell them apart. *)
From Coq Require Import ZArith List Bool String.
From Verif Require Import Base Types.
Import ListNotations.
Open Scope Z_scope.

(** ** Values without maps *)
Fixpoint flat_text (t : ftext) : bool :=
  match t with FText _ h => flat_hist h end
with flat_hist (h : fhist) : bool :=
  match h with
  | HNamed _ _ | HArgument _ _ => false
  | HOrdered t l => flat_text t && forallb flat_arg l
  | HNumber v _ _ | HPercent v _ _ | HCurrency _ v _ _ => flat_arg v
  | HTransform t _ => flat_text t
  | _ => true
  end
with flat_arg (a : farg) : bool :=
  match a with AText t => flat_text t | _ => true end.
Definition flat_sval (v : svalue) : bool := match v with SCustom _ => false | _ => true end.
Fixpoint flat (p : property) : bool :=
  match p with
  | PText t => flat_text t
  | PArray a => flat_array a
  | PSet _ _ l => forallb flat l
  | PMap _ => false
  | PStruct _ _ v | PSValue v => flat_sval v
  | _ => true
  end
with flat_array (a : arrayp) : bool :=
  match a with
  | AStructs _ _ _ l => forallb flat_sval l
  | AProps _ l => forallb flat l
  | _ => true
  end.
(** At most one map, and nothing after it. *)
Definition ends_flat_map (m : mapp) : bool :=
  match m with
  | MProp _ _ l => forallb (fun e => flat (snd e)) l
  | MGen _ _ _ l => forallb (fun e => flat (fst e) && flat (snd e)) l
  | _ => true
  end.
Definition ends_flat_sval (v : svalue) : bool :=
  match v with SCustom l => forallb (fun e => forallb flat (snd e)) l | _ => true end.
Definition ends_flat_text (t : ftext) : bool :=
  match t with
  | FText _ (HNamed t l) | FText _ (HArgument t l) => flat_text t && forallb (fun e => flat_arg (snd e)) l
  | _ => flat_text t
  end.
Definition ends_flat (p : property) : bool :=
  match p with
  | PText t => ends_flat_text t
  | PMap m => ends_flat_map m
  | PStruct _ _ v | PSValue v => ends_flat_sval v
  | _ => flat p
  end.


(** The declared order of the variants: of [Property], mod.rs:494-548, of [FTextHistory],
    text_property.rs:174-294, and of [StructPropertyValue], struct_property.rs:53-86. *)
Definition prop_order : list string :=
  ["ArrayProperty"; "BoolProperty"; "ByteProperty"; "DoubleProperty"; "EnumProperty"; "FloatProperty";
   "Int16Property"; "Int64Property"; "Int8Property"; "IntProperty"; "MapProperty"; "NameProperty";
   "ObjectProperty"; "DelegateProperty"; "MulticastInlineDelegateProperty"; "MulticastSparseDelegateProperty";
   "FieldPathProperty"; "SetProperty"; "StrProperty"; "StructProperty"; "StructPropertyValue"; "TextProperty";
   "UInt16Property"; "UInt32Property"; "UInt64Property"; "UnknownProperty"]%string.
Definition hist_order : list string :=
  ["Empty"; "None"; "Base"; "NamedFormat"; "OrderedFormat"; "ArgumentFormat"; "AsNumber"; "AsPercent"; "AsCurrency";
   "AsDate"; "AsTime"; "AsDateTime"; "Transform"; "StringTableEntry"]%string.
Definition sval_order : list string :=
  ["Vector2F"; "Vector2D"; "VectorF"; "VectorD"; "RotatorF"; "RotatorD"; "QuatF"; "QuatD"; "DateTime"; "Timespan";
   "Guid"; "LinearColor"; "IntPoint"; "GameplayTagContainer"; "CustomStruct"]%string.
(** Of [FormatArgumentValue], text_property.rs:734-751. *)
Definition arg_order : list string := ["Int"; "UInt"; "Float"; "Double"; "Text"; "Int64"; "UInt64"]%string.

(** ** What is lost of doubles
    ordered-float hashes 52 bits of the mantissa as [integer_decode] gives it, which has 53:
    subnormal doubles whose mantissas differ by 2^51 look alike, among them 0 and 2^-1023, and so
    do NaN and -1.5 * 2^51.  [blur64] takes one double for all that look alike. *)
Definition blur64 (z : Z) : Z :=
  if f64_nan z || (z =? 14062489836464373760) then 9221120237041090560
  else if z mod 9223372036854775808 =? 0 then 2251799813685248
  else if z / 4503599627370496 mod 2048 =? 0
  then z / 9223372036854775808 * 9223372036854775808 + 2251799813685248 + z mod 2251799813685248
  else z.
Definition blur_num (k : num) (z : Z) : Z := match k with F64 => blur64 z | _ => z end.
Fixpoint blur_nums (ks : list num) (l : list Z) : list Z :=
  match ks, l with k :: ks', z :: l' => blur_num k z :: blur_nums ks' l' | _, _ => l end.
Fixpoint blur_text (t : ftext) : ftext := match t with FText f h => FText f (blur_hist h) end
with blur_hist (h : fhist) : fhist :=
  match h with
  | HNamed t l => HNamed (blur_text t) (map (fun e => (fst e, blur_arg (snd e))) l)
  | HOrdered t l => HOrdered (blur_text t) (map blur_arg l)
  | HArgument t l => HArgument (blur_text t) (map (fun e => (fst e, blur_arg (snd e))) l)
  | HNumber v o c => HNumber (blur_arg v) o c
  | HPercent v o c => HPercent (blur_arg v) o c
  | HCurrency d v o c => HCurrency d (blur_arg v) o c
  | HTransform t x => HTransform (blur_text t) x
  | _ => h
  end
with blur_arg (a : farg) : farg :=
  match a with
  | ADouble z => ADouble (blur64 z)
  | AText t => AText (blur_text t)
  | _ => a
  end.
Fixpoint blur (p : property) : property :=
  match p with
  | PNum k z => PNum k (blur_num k z)
  | PText t => PText (blur_text t)
  | PArray a => PArray (blur_array a)
  | PSet t f l => PSet t f (map blur l)
  | PMap m => PMap (blur_map m)
  | PStruct g t v => PStruct g t (blur_sval v)
  | PSValue v => PSValue (blur_sval v)
  | _ => p
  end
with blur_sval (v : svalue) : svalue :=
  match v with
  | SFixed x l => SFixed x (blur_nums (layout x) l)
  | SCustom l => SCustom (map (fun e => (fst e, map blur (snd e))) l)
  | _ => v
  end
with blur_array (a : arrayp) : arrayp :=
  match a with
  | AStructs f t g l => AStructs f t g (map blur_sval l)
  | AProps t l => AProps t (map blur l)
  | _ => a
  end
with blur_map (m : mapp) : mapp :=
  match m with
  | MProp k vt l => MProp k vt (map (fun e => (fst e, blur (snd e))) l)
  | MGen kt vt f l => MGen kt vt f (map (fun e => (blur (fst e), blur (snd e))) l)
  | _ => m
  end.
