(** Specification of C70: which values [Debug] can tell apart. *)
From Coq Require Import ZArith List Bool String.
From Verif Require Import Base Types Versions File Spec Message.
Import ListNotations.
Open Scope Z_scope.

(** Texts without brackets, commas, colons, blanks and quotes. *)
Definition wordc (c : Z) : Prop :=
  48 <= c <= 57 \/ 65 <= c <= 90 \/ 97 <= c <= 122 \/ c = 43 \/ c = 45 \/ c = 46 \/ c = 95.
Definition word (s : str) : Prop := s <> [] /\ Forall wordc s.

(** One NaN in place of all of them: sign and payload of a NaN are not printed. *)
Definition quiet_num (k : num) (z : Z) : Z :=
  match k with
  | F32 => if f32_nan z then 2143289344 else z
  | F64 => if f64_nan z then 9221120237041090560 else z
  | _ => z
  end.
Definition is_float (k : num) : Prop := k = F32 \/ k = F64.

(** What is asked of std: a float prints as a word, and two floats print alike exactly
    if they are the same bits or both NaN. *)
Definition float_texts (fl : bool -> num -> Z -> str) : Prop :=
  forall s k a b, is_float k -> num_ok k a = true -> num_ok k b = true ->
  word (fl s k a) /\ (fl s k a = fl s k b <-> quiet_num k a = quiet_num k b).

Fixpoint quiet_nums (ks : list num) (l : list Z) : list Z :=
  match ks, l with k :: ks', z :: l' => quiet_num k z :: quiet_nums ks' l' | _, _ => l end.

Fixpoint quiet_text (t : ftext) : ftext := match t with FText f h => FText f (quiet_hist h) end
with quiet_hist (h : fhist) : fhist :=
  match h with
  | HNamed t l => HNamed (quiet_text t) (map (fun e => (fst e, quiet_arg (snd e))) l)
  | HOrdered t l => HOrdered (quiet_text t) (map quiet_arg l)
  | HArgument t l => HArgument (quiet_text t) (map (fun e => (fst e, quiet_arg (snd e))) l)
  | HNumber v o c => HNumber (quiet_arg v) o c
  | HPercent v o c => HPercent (quiet_arg v) o c
  | HCurrency d v o c => HCurrency d (quiet_arg v) o c
  | HTransform t x => HTransform (quiet_text t) x
  | _ => h
  end
with quiet_arg (a : farg) : farg :=
  match a with
  | AFloat z => AFloat (quiet_num F32 z)
  | ADouble z => ADouble (quiet_num F64 z)
  | AText t => AText (quiet_text t)
  | _ => a
  end.

Fixpoint quiet (p : property) : property :=
  match p with
  | PNum k z => PNum k (quiet_num k z)
  | PText t => PText (quiet_text t)
  | PArray a => PArray (quiet_array a)
  | PSet t f l => PSet t f (map quiet l)
  | PMap m => PMap (quiet_map m)
  | PStruct g t v => PStruct g t (quiet_sval v)
  | PSValue v => PSValue (quiet_sval v)
  | _ => p
  end
with quiet_sval (v : svalue) : svalue :=
  match v with
  | SFixed x l => SFixed x (quiet_nums (layout x) l)
  | SCustom l => SCustom (map (fun e => (fst e, map quiet (snd e))) l)
  | _ => v
  end
with quiet_array (a : arrayp) : arrayp :=
  match a with
  | AFloats l => AFloats (map (quiet_num F32) l)
  | AStructs f t g l => AStructs f t g (map quiet_sval l)
  | AProps t l => AProps t (map quiet l)
  | _ => a
  end
with quiet_map (m : mapp) : mapp :=
  match m with
  | MProp k vt l => MProp k vt (map (fun e => (fst e, quiet (snd e))) l)
  | MGen kt vt f l => MGen kt vt f (map (fun e => (quiet (fst e), quiet (snd e))) l)
  | _ => m
  end.
Definition quiet_file (g : gfile) : gfile :=
  GFile (g_version g) (g_header g) (map (fun e => (fst e, quiet (snd e))) (g_props g)).

(** A way of printing floats that meets [float_texts]: the bits in decimal. *)
Definition bits_text (s : bool) (k : num) (z : Z) : str :=
  match k with
  | F32 => if f32_nan z then s2z "NaN" else signed z
  | F64 => if f64_nan z then s2z "NaN" else signed z
  | _ => []
  end.
