(** Typed accessors, conversions and the text form of the engine version.
    No proofs in this file. *)
From Coq Require Import ZArith List Bool String.
From Verif Require Import Base Str Types Versions.
Import ListNotations.
Open Scope Z_scope.

(** The accessors of [Property], mod.rs:627-657. *)
Inductive acc :=
| GetArray | GetEnum | GetBool | GetByte | GetF64 | GetF32 | GetI16 | GetI64 | GetI8 | GetInt
| GetU16 | GetU32 | GetU64 | GetMap | GetName | GetObjectRef | GetDelegate | GetInlineDelegate
| GetSparseDelegate | GetFieldPath | GetSet | GetStr | GetStruct | GetText | GetUnknown.
(** The fields of the struct an accessor refers to. The [$type]s of mod.rs:627-657. *)
Definition payload (a : acc) : Type :=
  match a with
  | GetArray => arrayp
  | GetEnum => option str * str
  | GetBool => bool
  | GetByte => option str * bytev
  | GetF64 | GetF32 | GetI16 | GetI64 | GetI8 | GetInt | GetU16 | GetU32 | GetU64 => Z
  | GetMap => mapp
  | GetName => Z * option str
  | GetObjectRef => str
  | GetDelegate => str * str
  | GetInlineDelegate | GetSparseDelegate => list (str * str)
  | GetFieldPath => list str * str
  | GetSet => str * Z * list property
  | GetStr => option str
  | GetStruct => guid * str * svalue
  | GetText => ftext
  | GetUnknown => str * list byte
  end.
(** The numeric [make_matcher!]s, mod.rs:627-657. *)
Definition as_num (k : num) (p : property) : option Z :=
  match p with PNum k' z => if num_same k k' then Some z else None | _ => None end.
(** [make_matcher!], mod.rs:412-432; both the shared and the mutable accessor. *)
Definition get (a : acc) (p : property) : option (payload a) :=
  match a return option (payload a) with
  | GetArray => match p with PArray x => Some x | _ => None end
  | GetEnum => match p with PEnum t v => Some (t, v) | _ => None end
  | GetBool => match p with PBool b => Some b | _ => None end
  | GetByte => match p with PByte n v => Some (n, v) | _ => None end
  | GetF64 => as_num F64 p
  | GetF32 => as_num F32 p
  | GetI16 => as_num I16 p
  | GetI64 => as_num I64 p
  | GetI8 => as_num I8 p
  | GetInt => as_num I32 p
  | GetU16 => as_num U16 p
  | GetU32 => as_num U32 p
  | GetU64 => as_num U64 p
  | GetMap => match p with PMap m => Some m | _ => None end
  | GetName => match p with PName i v => Some (i, v) | _ => None end
  | GetObjectRef => match p with PObject s => Some s | _ => None end
  | GetDelegate => match p with PDelegate x y => Some (x, y) | _ => None end
  | GetInlineDelegate => match p with PMulti true l => Some l | _ => None end
  | GetSparseDelegate => match p with PMulti false l => Some l | _ => None end
  | GetFieldPath => match p with PFieldPath l s => Some (l, s) | _ => None end
  | GetSet => match p with PSet t f l => Some (t, f, l) | _ => None end
  | GetStr => match p with PStr s => Some s | _ => None end
  | GetStruct => match p with PStruct g t v => Some (g, t, v) | _ => None end
  | GetText => match p with PText t => Some t | _ => None end
  | GetUnknown => match p with PUnknown n r => Some (n, r) | _ => None end
  end.
(** [From<...Property> for Property], generated by [enum_dispatch], mod.rs:489-548. *)
Definition into (a : acc) : payload a -> property :=
  match a return payload a -> property with
  | GetArray => PArray
  | GetEnum => fun '(t, v) => PEnum t v
  | GetBool => PBool
  | GetByte => fun '(n, v) => PByte n v
  | GetF64 => PNum F64
  | GetF32 => PNum F32
  | GetI16 => PNum I16
  | GetI64 => PNum I64
  | GetI8 => PNum I8
  | GetInt => PNum I32
  | GetU16 => PNum U16
  | GetU32 => PNum U32
  | GetU64 => PNum U64
  | GetMap => PMap
  | GetName => fun '(i, v) => PName i v
  | GetObjectRef => PObject
  | GetDelegate => fun '(x, y) => PDelegate x y
  | GetInlineDelegate => PMulti true
  | GetSparseDelegate => PMulti false
  | GetFieldPath => fun '(l, s) => PFieldPath l s
  | GetSet => fun '(t, f, l) => PSet t f l
  | GetStr => PStr
  | GetStruct => fun '(g, t, v) => PStruct g t v
  | GetText => PText
  | GetUnknown => fun '(n, r) => PUnknown n r
  end.
(** Changing the value behind a mutable accessor, if there is one. mod.rs:424-430. *)
Definition modify (a : acc) (f : payload a -> payload a) (p : property) : property :=
  match get a p with Some e => into a (f e) | None => p end.

(** The accessors of [StructPropertyValue], struct_property.rs:505-535. *)
Inductive sacc :=
| SGetVectorF | SGetVectorD | SGetRotatorF | SGetRotatorD | SGetQuatF | SGetQuatD | SGetDateTime
| SGetIntPoint | SGetGuid | SGetCustom.
Definition spayload (a : sacc) : Type :=
  match a with
  | SGetGuid => guid
  | SGetCustom => list (str * list property)
  | _ => list Z
  end.
Definition as_fixed (k : fixed) (v : svalue) : option (list Z) :=
  match v with SFixed k' l => if fixed_same k k' then Some l else None | _ => None end.
Definition sget (a : sacc) (v : svalue) : option (spayload a) :=
  match a return option (spayload a) with
  | SGetVectorF => as_fixed XVectorF v
  | SGetVectorD => as_fixed XVectorD v
  | SGetRotatorF => as_fixed XRotatorF v
  | SGetRotatorD => as_fixed XRotatorD v
  | SGetQuatF => as_fixed XQuatF v
  | SGetQuatD => as_fixed XQuatD v
  | SGetDateTime => as_fixed XDateTime v
  | SGetIntPoint => as_fixed XIntPoint v
  | SGetGuid => match v with SGuid g => Some g | _ => None end
  | SGetCustom => match v with SCustom l => Some l | _ => None end
  end.
Definition sinto (a : sacc) : spayload a -> svalue :=
  match a return spayload a -> svalue with
  | SGetVectorF => SFixed XVectorF
  | SGetVectorD => SFixed XVectorD
  | SGetRotatorF => SFixed XRotatorF
  | SGetRotatorD => SFixed XRotatorD
  | SGetQuatF => SFixed XQuatF
  | SGetQuatD => SFixed XQuatD
  | SGetDateTime => SFixed XDateTime
  | SGetIntPoint => SFixed XIntPoint
  | SGetGuid => SGuid
  | SGetCustom => SCustom
  end.
Definition smodify (a : sacc) (f : spayload a -> spayload a) (v : svalue) : svalue :=
  match sget a v with Some e => sinto a (f e) | None => v end.

(** [From<Vector2F>], ... [From<IntPoint>] for [StructPropertyValue],
    struct_property.rs:537-625: one per fixed layout, and one for [Guid]. *)
Inductive builtin := FromFixed (k : fixed) (l : list Z) | FromGuid (g : guid).
Definition sval_from (x : builtin) : svalue :=
  match x with FromFixed k l => SFixed k l | FromGuid g => SGuid g end.

(** [HashableIndexMap::new], [with_capacity], [default] and [from], types.rs:225-307. *)
Definition map_empty {K V : Type} : list (K * V) := [].
Definition map_from {K V : Type} (eqb : K -> K -> bool) (l : list (K * V)) : list (K * V) := ins_all eqb l.

(** [Display for FEngineVersion], engine_version.rs:25-33. *)
Definition show_engine (v : fengine) : str :=
  decimal (fe_major v) ++ s2z "." ++ decimal (fe_minor v) ++ s2z "." ++ decimal (fe_patch v)
  ++ s2z "-" ++ decimal (fe_change v) ++ s2z "+++" ++ fe_branch v.
