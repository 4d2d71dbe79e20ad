(** Equality with the lookups of [IndexMap].  No proofs in this file.

    [eqv] of Types.v compares maps keyed by properties by searching an equal key.  [IndexMap] searches
    through hashes: [other.get(k)].  [hit m k k'] says whether the search for [k] in the map with the
    entries [m] comes across the stored key [k']; it depends on the random state of the map.  Strings are
    hashed as they are compared, their lookups cannot miss. *)
From Coq Require Import ZArith List Bool String.
From Verif Require Import Base Str Types.
Import ListNotations.
Open Scope Z_scope.

(** [PartialEq] of [IndexMap]: equal lengths, and each key of the first map is found in the second with
    an equal value; types.rs:221-223. *)
Section Look.
  Context {K V : Type} (hit : list (K * V) -> K -> K -> bool) (keq : K -> K -> bool) (veq : V -> V -> bool).
  Fixpoint look_all (l1 l2 : list (K * V)) : bool :=
    match l1 with
    | [] => true
    | (k, v) :: r =>
      match find (fun e => hit l2 k (fst e) && keq k (fst e)) l2 with Some e => veq v (snd e) | None => false end
      && look_all r l2
    end.
  Definition look_eqb (l1 l2 : list (K * V)) : bool := (len l1 =? len l2) && look_all l1 l2.
End Look.

(** Derived [PartialEq] of [Property] and its parts, mod.rs:494, array_property.rs:29, map_property.rs:24,
    struct_property.rs:38 and 53: as in Types.v, except in the last line. *)
Section Real.
Context (hit : list (property * property) -> property -> property -> bool).
Fixpoint real (a b : property) {struct a} : bool :=
  match a, b with
  | PArray x, PArray y => real_array x y
  | PSet t f l, PSet t' f' l' => str_eqb t t' && (f =? f') && list_eqb real l l'
  | PMap x, PMap y => real_map x y
  | PStruct g t v, PStruct g' t' v' => guid_eqb g g' && str_eqb t t' && real_sval v v'
  | PSValue v, PSValue v' => real_sval v v'
  | _, _ => eqv a b
  end
with real_sval (a b : svalue) {struct a} : bool :=
  match a, b with
  | SCustom l, SCustom l' => map_eqb str_eqb (list_eqb real) false l l'
  | _, _ => sval_eqb false a b
  end
with real_array (a b : arrayp) {struct a} : bool :=
  match a, b with
  | AStructs f t g l, AStructs f' t' g' l' =>
    str_eqb f f' && str_eqb t t' && guid_eqb g g' && list_eqb real_sval l l'
  | AProps t l, AProps t' l' => str_eqb t t' && list_eqb real l l'
  | _, _ => array_eqb false a b
  end
with real_map (a b : mapp) {struct a} : bool :=
  match a, b with
  | MProp k t l, MProp k' t' l' => keyk_same k k' && str_eqb t t' && map_eqb str_eqb real false l l'
  | MGen kt vt f l, MGen kt' vt' f' l' =>
    str_eqb kt kt' && str_eqb vt vt' && (f =? f') && look_eqb hit real real l l'
  | _, _ => mapp_eqb false a b
  end.
End Real.
