(** What [==] means, for claim C32: the values with one NaN and one zero, and values that differ in the order
    of entries only.  Nothing of the comparison functions is used. *)
From Coq Require Import ZArith List Bool String Permutation.
From Verif Require Import Base Types.
Import ListNotations.
Open Scope Z_scope.

(** Floats by their bits: all NaNs become one, both zeros become 0. *)
Definition level_float (w mantissa nan z : Z) : Z :=
  let m := z mod 2 ^ (w - 1) in
  if (2 ^ (w - 1) - 2 ^ mantissa <? m) then nan else if m =? 0 then 0 else z.
Definition level_num (k : num) (z : Z) : Z :=
  match k with F32 => level_float 32 23 2143289344 z | F64 => level_float 64 52 9221120237041090560 z | _ => z end.
(** The floats of built-in structs; DateTime, Timespan and IntPoint hold none. *)
Definition level_first (n : nat) (k : num) (l : list Z) : list Z := map (level_num k) (firstn n l) ++ skipn n l.
Definition level_fixed (x : fixed) : list Z -> list Z :=
  match x with
  | XDateTime | XTimespan | XIntPoint => fun l => l
  | XVector2F => level_first 2 F32 | XVector2D => level_first 2 F64
  | XVectorF | XRotatorF => level_first 3 F32 | XVectorD | XRotatorD => level_first 3 F64
  | XQuatF | XLinearColor => level_first 4 F32 | XQuatD => level_first 4 F64
  end.

Fixpoint level_text (t : ftext) : ftext := match t with FText f h => FText f (level_hist h) end
with level_hist (h : fhist) : fhist :=
  match h with
  | HNamed t l => HNamed (level_text t) (map (fun e => (fst e, level_arg (snd e))) l)
  | HOrdered t l => HOrdered (level_text t) (map level_arg l)
  | HArgument t l => HArgument (level_text t) (map (fun e => (fst e, level_arg (snd e))) l)
  | HNumber v o c => HNumber (level_arg v) o c
  | HPercent v o c => HPercent (level_arg v) o c
  | HCurrency d v o c => HCurrency d (level_arg v) o c
  | HTransform t x => HTransform (level_text t) x
  | _ => h
  end
with level_arg (a : farg) : farg :=
  match a with
  | AFloat z => AFloat (level_num F32 z)
  | ADouble z => ADouble (level_num F64 z)
  | AText t => AText (level_text t)
  | _ => a
  end.
Fixpoint level (p : property) : property :=
  match p with
  | PNum k z => PNum k (level_num k z)
  | PText t => PText (level_text t)
  | PArray a => PArray (level_array a)
  | PSet t f l => PSet t f (map level l)
  | PMap m => PMap (level_map m)
  | PStruct g t v => PStruct g t (level_sval v)
  | PSValue v => PSValue (level_sval v)
  | _ => p
  end
with level_sval (v : svalue) : svalue :=
  match v with
  | SFixed x l => SFixed x (level_fixed x l)
  | SCustom l => SCustom (map (fun e => (fst e, map level (snd e))) l)
  | _ => v
  end
with level_array (a : arrayp) : arrayp :=
  match a with
  | AFloats l => AFloats (map (level_num F32) l)
  | AStructs f t g l => AStructs f t g (map level_sval l)
  | AProps t l => AProps t (map level l)
  | _ => a
  end
with level_map (m : mapp) : mapp :=
  match m with
  | MProp k vt l => MProp k vt (map (fun e => (fst e, level (snd e))) l)
  | MGen kt vt f l => MGen kt vt f (map (fun e => (level (fst e), level (snd e))) l)
  | _ => m
  end.

(** ** Values that differ in the order of entries only, at any depth *)
(** [l''] is [l] with related members, in any order. *)
Inductive shuffled {A} (R : A -> A -> Prop) (l l'' : list A) : Prop :=
| Shuffled l' : Forall2 R l l' -> Permutation l' l'' -> shuffled R l l''.
Inductive moved_text : ftext -> ftext -> Prop :=
| mv_text f h h' : moved_hist h h' -> moved_text (FText f h) (FText f h')
with moved_hist : fhist -> fhist -> Prop :=
| mv_named t t' l l' : moved_text t t' ->
  shuffled (fun e e' => fst e = fst e' /\ moved_arg (snd e) (snd e')) l l' -> moved_hist (HNamed t l) (HNamed t' l')
| mv_ordered t t' l l' : moved_text t t' -> Forall2 moved_arg l l' -> moved_hist (HOrdered t l) (HOrdered t' l')
| mv_argument t t' l l' : moved_text t t' ->
  shuffled (fun e e' => fst e = fst e' /\ moved_arg (snd e) (snd e')) l l' -> moved_hist (HArgument t l) (HArgument t' l')
| mv_number v v' o c : moved_arg v v' -> moved_hist (HNumber v o c) (HNumber v' o c)
| mv_percent v v' o c : moved_arg v v' -> moved_hist (HPercent v o c) (HPercent v' o c)
| mv_currency d v v' o c : moved_arg v v' -> moved_hist (HCurrency d v o c) (HCurrency d v' o c)
| mv_transform t t' x : moved_text t t' -> moved_hist (HTransform t x) (HTransform t' x)
| mv_other_hist h : moved_hist h h
with moved_arg : farg -> farg -> Prop :=
| mv_atext t t' : moved_text t t' -> moved_arg (AText t) (AText t')
| mv_other_arg a : moved_arg a a.
Inductive moved : property -> property -> Prop :=
| mv_ptext t t' : moved_text t t' -> moved (PText t) (PText t')
| mv_array a a' : moved_array a a' -> moved (PArray a) (PArray a')
| mv_set t f l l' : Forall2 moved l l' -> moved (PSet t f l) (PSet t f l')
| mv_map m m' : moved_map m m' -> moved (PMap m) (PMap m')
| mv_struct g t v v' : moved_sval v v' -> moved (PStruct g t v) (PStruct g t v')
| mv_svalue v v' : moved_sval v v' -> moved (PSValue v) (PSValue v')
| mv_other p : moved p p
with moved_sval : svalue -> svalue -> Prop :=
| mv_custom l l' : shuffled (fun e e' => fst e = fst e' /\ Forall2 moved (snd e) (snd e')) l l' ->
  moved_sval (SCustom l) (SCustom l')
| mv_other_sval v : moved_sval v v
with moved_array : arrayp -> arrayp -> Prop :=
| mv_structs f t g l l' : Forall2 moved_sval l l' -> moved_array (AStructs f t g l) (AStructs f t g l')
| mv_props t l l' : Forall2 moved l l' -> moved_array (AProps t l) (AProps t l')
| mv_other_array a : moved_array a a
with moved_map : mapp -> mapp -> Prop :=
| mv_bools k l l' : Permutation l l' -> moved_map (MBool k l) (MBool k l')
| mv_ints k l l' : Permutation l l' -> moved_map (MInt k l) (MInt k l')
| mv_strs l l' : Permutation l l' -> moved_map (MStrStr l) (MStrStr l')
| mv_named_map k vt l l' : shuffled (fun e e' => fst e = fst e' /\ moved (snd e) (snd e')) l l' ->
  moved_map (MProp k vt l) (MProp k vt l')
| mv_general kt vt f l l' : shuffled (fun e e' => moved (fst e) (fst e') /\ moved (snd e) (snd e')) l l' ->
  moved_map (MGen kt vt f l) (MGen kt vt f l').

(** ** Keys whose entries have one order only *)
Definition stiff (p : property) : Prop := forall c, moved p c -> c = p.
Definition all_of {A} (P : A -> Prop) (l : list A) : Prop := fold_right (fun a q => P a /\ q) True l.
(** All keys of maps in a value are stiff, at any depth. *)
Fixpoint stiff_keys (p : property) : Prop :=
  match p with
  | PArray a => stiff_array a
  | PSet _ _ l => all_of stiff_keys l
  | PMap m => stiff_map m
  | PStruct _ _ v | PSValue v => stiff_sval v
  | _ => True
  end
with stiff_sval (v : svalue) : Prop :=
  match v with SCustom l => all_of (fun e => all_of stiff_keys (snd e)) l | _ => True end
with stiff_array (a : arrayp) : Prop :=
  match a with
  | AStructs _ _ _ l => all_of stiff_sval l
  | AProps _ l => all_of stiff_keys l
  | _ => True
  end
with stiff_map (m : mapp) : Prop :=
  match m with
  | MProp _ _ l => all_of (fun e => stiff_keys (snd e)) l
  | MGen _ _ _ l => all_of (fun e => stiff (fst e) /\ stiff_keys (fst e) /\ stiff_keys (snd e)) l
  | _ => True
  end.
