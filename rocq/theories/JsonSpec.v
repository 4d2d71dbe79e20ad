(** Specification for the JSON form: values of the right types, and values without
    infinities and NaNs.  Stated on values only. *)
From Coq Require Import ZArith List Bool String.
From Verif Require Import Base Types Versions File Spec Json.
Import ListNotations.
Open Scope Z_scope.

(** ** Values of the Rust types: integers in range, strings of Unicode scalar values,
    guids of 16 bytes, maps without repeated keys.  Unlike [file_ok] this asks neither
    for agreement of declared and actual types nor for limits on lengths. *)
Definition ois_str (o : option str) : bool := match o with Some s => is_str s | None => true end.

Fixpoint t_text (t : ftext) : bool :=
  match t with FText f h => u_ok 4 f && t_hist h end
with t_hist (h : fhist) : bool :=
  match h with
  | HEmpty => true
  | HNone s => ois_str s
  | HBase a b c => ois_str a && ois_str b && ois_str c
  | HNamed t l | HArgument t l =>
    t_text t && distinct str_eqb l && forallb (fun '(k, v) => is_str k && t_arg v) l
  | HOrdered t l => t_text t && forallb t_arg l
  | HNumber v o c | HPercent v o c => t_arg v && onumfmt_ok o && ois_str c
  | HCurrency d v o c => ois_str d && t_arg v && onumfmt_ok o && ois_str c
  | HDate t s c => u_ok 8 t && in_range 0 4 s && is_str c
  | HTime t s z c => u_ok 8 t && in_range 0 4 s && is_str z && is_str c
  | HDateTime t s u z c => u_ok 8 t && in_range 0 4 s && in_range 0 4 u && is_str z && is_str c
  | HTransform t x => t_text t && in_range 0 1 x
  | HTable a b => is_str a && is_str b
  end
with t_arg (a : farg) : bool :=
  match a with
  | AInt z => s_ok 4 z
  | AUInt z | AFloat z => u_ok 4 z
  | AInt64 z => s_ok 8 z
  | AUInt64 z | ADouble z => u_ok 8 z
  | AText t => t_text t
  end.

Definition t_bytev (v : bytev) : bool := match v with BByte _ => true | BName s => is_str s end.

Section Typed.
(** When two keys of a property-keyed map count as the same. *)
Context (sep : property -> property -> bool).
Fixpoint t_prop (p : property) : bool :=
  match p with
  | PNum k z => num_ok k z
  | PBool _ => true
  | PByte n v => ois_str n && t_bytev v
  | PEnum t v => ois_str t && is_str v
  | PStr v => ois_str v
  | PText t => t_text t
  | PName i v => u_ok 4 i && ois_str v
  | PObject v => is_str v
  | PDelegate a b => is_str a && is_str b
  | PMulti _ l => forallb (fun '(a, b) => is_str a && is_str b) l
  | PFieldPath l s => forallb is_str l && is_str s
  | PUnknown n _ => is_str n
  | PArray a => t_array a
  | PSet t f l => is_str t && u_ok 4 f && forallb t_prop l
  | PMap m => t_map m
  | PStruct g t v => guid_ok g && is_str t && t_sval v
  | PSValue v => t_sval v
  end
with t_sval (v : svalue) : bool :=
  match v with
  | SFixed x l => nums_ok (layout x) l
  | SGuid g => guid_ok g
  | STags l => forallb is_str l
  | SCustom l => distinct str_eqb l && forallb (fun '(k, ps) => is_str k && forallb t_prop ps) l
  end
with t_array (a : arrayp) : bool :=
  match a with
  | ABools _ | ABytes _ => true
  | AEnums l => forallb is_str l
  | AFloats l => forallb (u_ok 4) l
  | AInts l => forallb (s_ok 4) l
  | ANames l | AStrings l => forallb ois_str l
  | AStructs f t g l => is_str f && is_str t && guid_ok g && forallb t_sval l
  | AProps t l => is_str t && forallb t_prop l
  end
with t_map (m : mapp) : bool :=
  match m with
  | MBool _ l => distinct str_eqb l && forallb (fun '(k, _) => is_str k) l
  | MInt _ l => distinct str_eqb l && forallb (fun '(k, z) => is_str k && s_ok 4 z) l
  | MProp _ vt l =>
    is_str vt && distinct str_eqb l && forallb (fun '(k, p) => is_str k && t_prop p) l
  | MStrStr l => distinct str_eqb l && forallb (fun '(k, v) => is_str k && ois_str v) l
  | MGen kt vt f l =>
    is_str kt && is_str vt && u_ok 4 f && distinct sep l
    && forallb (fun '(k, v) => t_prop k && t_prop v) l
  end.
Definition t_header (h : header) : bool :=
  u_ok 4 (h_package h)
  && match h_ue5 h with Some v => u_ok 4 v | None => true end
  && u_ok 2 (fe_major (h_engine h)) && u_ok 2 (fe_minor (h_engine h))
  && u_ok 2 (fe_patch (h_engine h)) && u_ok 4 (fe_change (h_engine h))
  && is_str (fe_branch (h_engine h))
  && u_ok 4 (h_format h) && distinct guid_eqb (h_versions h)
  && forallb (fun '(g, v) => guid_ok g && u_ok 4 v) (h_versions h)
  && is_str (h_class h).
Definition t_file (g : gfile) : bool :=
  t_header (g_header g) && distinct str_eqb (g_props g)
  && forallb (fun '(k, p) => is_str k && t_prop p) (g_props g).
End Typed.

(** ** Numbers that are neither infinite nor NaN: the exponent bits are not all set. *)
Definition finite32 (b : Z) : bool := negb (b / 2 ^ 23 mod 256 =? 255).
Definition finite64 (b : Z) : bool := negb (b / 2 ^ 52 mod 2048 =? 2047).
Definition finite_num (k : num) (z : Z) : bool :=
  match k with F32 => finite32 z | F64 => finite64 z | _ => true end.
Fixpoint finite_nums (ks : list num) (l : list Z) : bool :=
  match ks, l with
  | k :: ks', z :: l' => finite_num k z && finite_nums ks' l'
  | _, _ => true
  end.
Fixpoint fin_text (t : ftext) : bool :=
  match t with FText _ h => fin_hist h end
with fin_hist (h : fhist) : bool :=
  match h with
  | HNamed t l | HArgument t l => fin_text t && forallb (fun '(_, v) => fin_arg v) l
  | HOrdered t l => fin_text t && forallb fin_arg l
  | HNumber v _ _ | HPercent v _ _ | HCurrency _ v _ _ => fin_arg v
  | HTransform t _ => fin_text t
  | _ => true
  end
with fin_arg (a : farg) : bool :=
  match a with
  | AFloat z => finite32 z
  | ADouble z => finite64 z
  | AText t => fin_text t
  | _ => true
  end.
Fixpoint fin_prop (p : property) : bool :=
  match p with
  | PNum k z => finite_num k z
  | PText t => fin_text t
  | PArray a => fin_array a
  | PSet _ _ l => forallb fin_prop l
  | PMap m => fin_map m
  | PStruct _ _ v | PSValue v => fin_sval v
  | _ => true
  end
with fin_sval (v : svalue) : bool :=
  match v with
  | SFixed x l => finite_nums (layout x) l
  | SCustom l => forallb (fun '(_, ps) => forallb fin_prop ps) l
  | _ => true
  end
with fin_array (a : arrayp) : bool :=
  match a with
  | AFloats l => forallb finite32 l
  | AStructs _ _ _ l => forallb fin_sval l
  | AProps _ l => forallb fin_prop l
  | _ => true
  end
with fin_map (m : mapp) : bool :=
  match m with
  | MProp _ _ l => forallb (fun '(_, p) => fin_prop p) l
  | MGen _ _ _ l => forallb (fun '(k, v) => fin_prop k && fin_prop v) l
  | _ => true
  end.
Definition fin_file (g : gfile) : bool := forallb (fun '(_, p) => fin_prop p) (g_props g).

(** ** JSON values that serde_json can hold: integers of 64 bits, finite floats, strings of
    Unicode scalar values, objects without repeated keys. *)
Fixpoint j_ok (j : json) : bool :=
  match j with
  | JNull | JBool _ => true
  | JInt z => in_range (-9223372036854775808) 18446744073709551615 z
  | JFloat b => u_ok 8 b && finite64 b
  | JStr s => is_str s
  | JArr l => forallb j_ok l
  | JObj l => distinct str_eqb l && forallb (fun '(k, v) => is_str k && j_ok v) l
  end.
(** The same, when keys may repeat, as in text. *)
Fixpoint j_fit (j : json) : bool :=
  match j with
  | JNull | JBool _ => true
  | JInt z => in_range (-9223372036854775808) 18446744073709551615 z
  | JFloat b => u_ok 8 b && finite64 b
  | JStr s => is_str s
  | JArr l => forallb j_fit l
  | JObj l => forallb (fun '(k, v) => is_str k && j_fit v) l
  end.

(** ** The "type" of a property in JSON: the name of its variant. *)
Definition json_type (p : property) : str :=
  s2z match p with
      | PNum I8 _ => "Int8Property" | PNum I16 _ => "Int16Property" | PNum U16 _ => "UInt16Property"
      | PNum I32 _ => "IntProperty" | PNum U32 _ => "UInt32Property" | PNum I64 _ => "Int64Property"
      | PNum U64 _ => "UInt64Property" | PNum F32 _ => "FloatProperty" | PNum F64 _ => "DoubleProperty"
      | PBool _ => "BoolProperty" | PByte _ _ => "ByteProperty" | PEnum _ _ => "EnumProperty"
      | PStr _ => "StrProperty" | PText _ => "TextProperty" | PName _ _ => "NameProperty"
      | PObject _ => "ObjectProperty" | PDelegate _ _ => "DelegateProperty"
      | PMulti true _ => "MulticastInlineDelegateProperty"
      | PMulti false _ => "MulticastSparseDelegateProperty"
      | PFieldPath _ _ => "FieldPathProperty" | PUnknown _ _ => "UnknownProperty"
      | PArray _ => "ArrayProperty" | PSet _ _ _ => "SetProperty" | PMap _ => "MapProperty"
      | PStruct _ _ _ => "StructProperty" | PSValue _ => "StructPropertyValue"
      end%string.
