(** The texts that structs of fixed layout and numeric properties print as. *)
From Coq Require Import ZArith List String.
From Verif Require Import Base Types Json Message.
Import ListNotations.
Open Scope string_scope.
Open Scope list_scope.
Open Scope Z_scope.

(** [{}] of a number; [floats] stands for std's [Display] of [f32] and [f64], to
    which [OrderedFloat] passes on (struct_types.rs:19-29). *)
Definition printed (floats : num -> Z -> str) (k : num) (z : Z) : str :=
  match k with F32 | F64 => floats k z | _ => signed z end.

(** [Display] of the types made by [make_struct!], struct_types.rs:76-85: for
    each field its name, a colon, the number and a space. *)
Fixpoint show_fields (floats : num -> Z -> str) (names : list str) (ks : list num) (l : list Z) : str :=
  match names, ks, l with
  | n :: names', k :: ks', z :: l' => n ++ s2z ": " ++ printed floats k z ++ s2z " " ++ show_fields floats names' ks' l'
  | _, _, _ => []
  end.
Definition show_fixed (floats : num -> Z -> str) (x : fixed) (l : list Z) : str :=
  show_fields floats (field_names x) (layout x) l.

(** [Debug] of the numeric properties, int_property.rs:63-67 and 133-137: the
    number and the name of its type. *)
Definition type_suffix (k : num) : str :=
  s2z match k with
  | I8 => "i8" | I16 => "i16" | I32 => "i32" | I64 => "i64"
  | U16 => "u16" | U32 => "u32" | U64 => "u64" | F32 => "f32" | F64 => "f64"
  end.
Definition debug_num (floats : num -> Z -> str) (k : num) (z : Z) : str := printed floats k z ++ type_suffix k.
(** [Debug for BoolProperty], int_property.rs:296-300. *)
Definition debug_bool (b : bool) : str := s2z (if b then "true" else "false").
