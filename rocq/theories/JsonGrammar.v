(** JSON texts (RFC 8259) and the values they denote, as a relation that does not
    mention the parser or the printers. *)
From Coq Require Import ZArith List Bool String QArith.
From Verif Require Import Base Str Json JsonSpec Numeral Nearest MapFacts.
Import ListNotations.
Open Scope Z_scope.

(** Space, tab, line feed and carriage return. *)
Definition spaces (s : str) : Prop := Forall (fun c => In c [32; 9; 10; 13]) s.

(** ** Numbers *)
(** An integer part has no needless zero. *)
Definition whole (i : str) : Prop := i <> [] /\ Forall digit i /\ (hd 0 i = 48 -> i = [48]).
(** A fraction, with its digits. *)
Inductive fraction : str -> str -> Prop :=
| fr_none : fraction [] []
| fr_some f : f <> [] -> Forall digit f -> fraction f (46 :: f).
(** An exponent, with its value. *)
Inductive exponent : Z -> str -> Prop :=
| ex_none : exponent 0 []
| ex_some c sign x : In c [69; 101] -> In sign [(1, []); (1, [43]); (-1, [45])] -> x <> [] -> Forall digit x ->
    exponent (fst sign * value x) (c :: snd sign ++ x).
(** Numbers with neither are integers if 64 bits can hold them; all others are the
    nearest double, which must be finite. *)
Inductive num_text : json -> str -> Prop :=
| n_natural i : whole i -> value i < 2 ^ 64 -> num_text (JInt (value i)) i
| n_negative i : whole i -> 0 < value i <= 2 ^ 63 -> num_text (JInt (- value i)) (45 :: i)
| n_double (neg : bool) i f x e y b : whole i -> fraction f x -> exponent e y ->
    (x = [] -> y = [] -> if neg then value i = 0 \/ 2 ^ 63 < value i else 2 ^ 64 <= value i) ->
    rounded64 neg (inject_Z (value (i ++ f)) * (10 # 1) ^ (e - Z.of_nat (List.length f))) b ->
    finite64 b = true ->
    num_text (JFloat b) ((if neg then [45] else []) ++ i ++ x ++ y).

(** ** Strings *)
Definition escapes : list (Z * Z) :=
  [(34, 34); (92, 92); (47, 47); (98, 8); (102, 12); (110, 10); (114, 13); (116, 9)].
Definition hex_digits : list (Z * Z) :=
  combine (s2z "0123456789abcdefABCDEF") [0; 1; 2; 3; 4; 5; 6; 7; 8; 9; 10; 11; 12; 13; 14; 15; 10; 11; 12; 13; 14; 15].
(** Four hexadecimal digits. *)
Inductive hex_text : Z -> str -> Prop :=
| hex_four a b c d w x y z :
    In (a, w) hex_digits -> In (b, x) hex_digits -> In (c, y) hex_digits -> In (d, z) hex_digits ->
    hex_text (((w * 16 + x) * 16 + y) * 16 + z) [a; b; c; d].
(** The characters between the quotes. *)
Inductive chars : str -> str -> Prop :=
| c_nil : chars [] []
| c_plain c s t : 32 <= c -> c <> 34 -> c <> 92 -> chars s t -> chars (c :: s) (c :: t)
| c_escape e c s t : In (e, c) escapes -> chars s t -> chars (c :: s) (92 :: e :: t)
| c_unicode u x s t : hex_text u x -> ~ 0xD800 <= u < 0xE000 -> chars s t ->
    chars (u :: s) (92 :: 117 :: x ++ t)
| c_pair u v x y s t : hex_text u x -> hex_text v y -> 0xD800 <= u < 0xDC00 -> 0xDC00 <= v < 0xE000 -> chars s t ->
    chars (0x10000 + (u - 0xD800) * 0x400 + (v - 0xDC00) :: s) (92 :: 117 :: x ++ 92 :: 117 :: y ++ t).
Definition quoted_as (inside : str -> str -> Prop) (s t : str) : Prop := exists x, inside s x /\ t = 34 :: x ++ [34].

(** ** Values *)
(** [text_as d j s]: [s] denotes [j] and nests brackets [d] deep.  Numbers and strings
    are as [number] and [inside] say, and the members of an object become what [merge]
    says. *)
Section Texts.
Context (merge : list (str * json) -> list (str * json) -> Prop) (number : json -> str -> Prop) (inside : str -> str -> Prop).
Inductive text_as : nat -> json -> str -> Prop :=
| t_null : text_as 0 JNull (s2z "null")
| t_true : text_as 0 (JBool true) (s2z "true")
| t_false : text_as 0 (JBool false) (s2z "false")
| t_number j s : number j s -> text_as 0 j s
| t_string x s : quoted_as inside x s -> text_as 0 (JStr x) s
| t_empty_array s : spaces s -> text_as 1 (JArr []) (91 :: s ++ [93])
| t_array d l s : items_as d l s -> text_as (S d) (JArr l) (91 :: s ++ [93])
| t_empty_object s : spaces s -> text_as 1 (JObj []) (123 :: s ++ [125])
| t_object d l m s : members_as d l s -> merge l m -> text_as (S d) (JObj m) (123 :: s ++ [125])
with items_as : nat -> list json -> str -> Prop :=
| i_last d v a s b : spaces a -> text_as d v s -> spaces b -> items_as d [v] (a ++ s ++ b)
| i_more d e v l a s b r : spaces a -> text_as d v s -> spaces b -> items_as e l r ->
    items_as (Nat.max d e) (v :: l) (a ++ s ++ b ++ 44 :: r)
with members_as : nat -> list (str * json) -> str -> Prop :=
| m_last d k v s : member_as d k v s -> members_as d [(k, v)] s
| m_more d e k v l s r : member_as d k v s -> members_as e l r ->
    members_as (Nat.max d e) ((k, v) :: l) (s ++ 44 :: r)
with member_as : nat -> str -> json -> str -> Prop :=
| m_pair d k v q a b c s e : spaces a -> quoted_as inside k q -> spaces b -> spaces c -> text_as d v s -> spaces e ->
    member_as d k v (a ++ q ++ b ++ 58 :: c ++ s ++ e).
(** A whole text: one value, with white space around it. *)
Definition document_as (d : nat) (j : json) (s : str) : Prop :=
  exists a t b, spaces a /\ text_as d j t /\ spaces b /\ s = a ++ t ++ b.
End Texts.
Arguments t_empty_array {merge number inside}.
Arguments t_array {merge number inside}.
Arguments t_empty_object {merge number inside}.
Arguments t_object {merge number inside}.
Arguments i_last {merge number inside}.
Arguments i_more {merge number inside}.
Arguments m_last {merge number inside}.
Arguments m_more {merge number inside}.
Arguments m_pair {merge number inside}.
(** JSON values: of repeated keys the first gives the place and the last the value. *)
Notation quoted := (quoted_as chars).
Notation json_text := (text_as (collapsed str_eqb) num_text chars).
Notation items := (items_as (collapsed str_eqb) num_text chars).
Notation members := (members_as (collapsed str_eqb) num_text chars).
Notation member := (member_as (collapsed str_eqb) num_text chars).
Definition document : nat -> json -> str -> Prop := document_as (collapsed str_eqb) num_text chars.
(** The same with every member kept. *)
Notation raw_text := (text_as eq num_text chars).
Definition raw_document : nat -> json -> str -> Prop := document_as eq num_text chars.
