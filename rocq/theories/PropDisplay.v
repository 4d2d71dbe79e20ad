(** Claim C66: the texts of structs and numbers. *)
From Coq Require Import ZArith List Bool String Lia.
From Verif Require Import Base Types Spec Json Numeral Message MessageThm UniqThm Display DisplayThm.
Import ListNotations.
Open Scope Z_scope.

(** C66.  A struct prints as the names and numbers of its fields, in order. *)
Theorem C66_struct : forall floats x l s, List.length l = List.length (layout x) ->
  show_fixed floats x l = s <-> entries floats (labels x) (layout x) l s.
Proof. exact show_iff. Qed.
Print Assumptions C66_struct.
(** Structs of a kind that print the same are the same, but for the bits of floats that
    are not a number. *)
Theorem C66_struct_tells : forall floats x l l', faithful floats ->
  nums_ok (layout x) l = true -> nums_ok (layout x) l' = true ->
  show_fixed floats x l = show_fixed floats x l' -> all_alike (layout x) l l'.
Proof. exact show_tells. Qed.
Print Assumptions C66_struct_tells.
(** The text tells the names of the fields ... *)
Theorem C66_struct_kind : forall floats x y l l', faithful floats ->
  nums_ok (layout x) l = true -> nums_ok (layout y) l' = true ->
  show_fixed floats x l = show_fixed floats y l' -> labels x = labels y.
Proof. exact show_kind. Qed.
Print Assumptions C66_struct_kind.
(** ... but not the kind of struct: a date prints as a duration. *)
Theorem C66_struct_kind_refuted : exists x y l, x <> y /\ nums_ok (layout x) l = true /\ nums_ok (layout y) l = true
  /\ forall floats, show_fixed floats x l = show_fixed floats y l.
Proof. exists XDateTime, XTimespan, [7]. repeat split; discriminate. Qed.
Print Assumptions C66_struct_kind_refuted.
(** A numeric property's debug text tells its type and its value, whatever type it is
    compared with, and is not that of a boolean. *)
Theorem C66_debug_tells : forall floats k k' a b, faithful floats -> num_ok k a = true -> num_ok k' b = true ->
  debug_num floats k a = debug_num floats k' b -> k = k' /\ alike k a b.
Proof. exact debug_tells. Qed.
Print Assumptions C66_debug_tells.
Theorem C66_debug_bool : forall floats k z b, debug_num floats k z <> debug_bool b.
Proof. exact debug_bool_num. Qed.
Print Assumptions C66_debug_bool.

(** A printer that is faithful: it gives NaN for what is not a number, else the bits. *)
Definition bits_printer (k : num) (z : Z) : str :=
  if match k with
     | F32 => ((z / 2 ^ 23) mod 2 ^ 8 =? 255) && negb (z mod 2 ^ 23 =? 0)
     | F64 => ((z / 2 ^ 52) mod 2 ^ 11 =? 2047) && negb (z mod 2 ^ 52 =? 0)
     | _ => false
     end
  then s2z "NaN" else signed z.
Example C66_faithful : faithful bits_printer.
Proof.
  assert (D : forall z, Forall sdigit (signed z)) by (intros z; exact (number_digits _ _ (signed_ok z))).
  assert (V : forall z, signed z <> s2z "NaN").
  { intros z E. specialize (D z). rewrite E in D. apply Forall_inv in D. unfold sdigit, digit in D. vm_compute in D.
    destruct D as [[_ D]|D]; [now apply D|discriminate D]. }
  assert (N : forall k z, bits_printer k z = s2z "NaN" /\ is_nan k z \/ bits_printer k z = signed z).
  { intros k z. unfold bits_printer. match goal with |- context [if ?b then _ else _] => destruct b eqn:E end; [left|now right].
    split; [reflexivity|]. destruct k; try discriminate E; apply andb_true_iff in E as [E1 E2]; apply Z.eqb_eq in E1;
      apply negb_true_iff, Z.eqb_neq in E2; unfold is_nan, nan32, nan64; auto. }
  split.
  - intros k z I. destruct (N k z) as [[E _]|E]; rewrite E in I.
    + vm_compute in I. repeat (destruct I as [I|I]; [discriminate I|]). exact I.
    + specialize (D z). rewrite Forall_forall in D. specialize (D 32 I). unfold sdigit, digit in D. lia.
  - intros k a b _ _ _ E. destruct (N k a) as [[Ea Na]|Ea], (N k b) as [[Eb Nb]|Eb]; rewrite Ea, Eb in E.
    + right. auto.
    + symmetry in E. now apply V in E.
    + now apply V in E.
    + left. now apply signed_inj.
Qed.
Example C66_applies :
  show_fixed bits_printer XIntPoint [-5; 17] = s2z "x: -5 y: 17 "
  /\ show_fixed bits_printer XVector2F [2143289344; 0] = s2z "x: NaN y: 0 "
  /\ show_fixed bits_printer XVector2F [2143289345; 0] = s2z "x: NaN y: 0 "
  /\ show_fixed bits_printer XDateTime [637864237380020000] = s2z "ticks: 637864237380020000 "
  /\ nums_ok (layout XVector2F) [2143289344; 0] = true
  /\ debug_num bits_printer I8 (-5) = s2z "-5i8" /\ debug_num bits_printer U64 17 = s2z "17u64"
  /\ debug_bool true = s2z "true".
Proof. vm_compute. repeat split; reflexivity. Qed.
