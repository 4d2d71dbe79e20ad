(** JSON texts as they are read straight into a file: every member is kept, and of members
    that are not asked for only the form matters.  Specification only. *)
From Coq Require Import ZArith List Bool String.
From Verif Require Import Base Str Json JsonSpec Numeral MapFacts JsonGrammar.
Import ListNotations.
Open Scope Z_scope.

(** Numbers of any size. *)
Inductive loose_number : json -> str -> Prop :=
| l_number (neg : bool) i f x e y : whole i -> fraction f x -> exponent e y ->
    loose_number JNull ((if neg then [45] else []) ++ i ++ x ++ y).
(** Strings with any escapes. *)
Inductive loose_chars : str -> str -> Prop :=
| l_nil : loose_chars [] []
| l_plain c t : 32 <= c -> c <> 34 -> c <> 92 -> loose_chars [] t -> loose_chars [] (c :: t)
| l_escape e c t : In (e, c) escapes -> loose_chars [] t -> loose_chars [] (92 :: e :: t)
| l_unicode u x t : hex_text u x -> loose_chars [] t -> loose_chars [] (92 :: 117 :: x ++ t).
(** Values of any depth. *)
Definition loose_text (s : str) : Prop := exists d j, text_as eq loose_number loose_chars d j s.

(** The members of a file, with the value of each. *)
Definition asked : list string := ["deserialized_game_version"; "header"; "properties"]%string.
Inductive field_text : str -> json -> str -> Prop :=
| f_asked d k v s : In k asked -> raw_text d v s -> (d <= 126)%nat -> field_text (s2z k) v s
| f_skipped k s : (forall x, In x asked -> k <> s2z x) -> loose_text s -> field_text k JNull s.
Inductive fields_text : list (str * json) -> str -> Prop :=
| f_last k v a q b c s e : spaces a -> quoted k q -> spaces b -> spaces c -> field_text k v s -> spaces e ->
    fields_text [(k, v)] (a ++ q ++ b ++ 58 :: c ++ s ++ e)
| f_more k v a q b c s e l r : spaces a -> quoted k q -> spaces b -> spaces c -> field_text k v s -> spaces e ->
    fields_text l r -> fields_text ((k, v) :: l) ((a ++ q ++ b ++ 58 :: c ++ s ++ e) ++ 44 :: r).
Inductive top_text : json -> str -> Prop :=
| tt_empty s : spaces s -> top_text (JObj []) (123 :: s ++ [125])
| tt_object l s : fields_text l s -> top_text (JObj l) (123 :: s ++ [125])
| tt_array d l s : raw_text d (JArr l) s -> (d <= 127)%nat -> top_text (JArr l) s.
Definition top_document (j : json) (s : str) : Prop :=
  exists a t b, spaces a /\ top_text j t /\ spaces b /\ s = a ++ t ++ b.

(** [settled r j]: [j] is [r] with repeated keys settled everywhere: the last value stays,
    in the place of the first. *)
Inductive settled : json -> json -> Prop :=
| s_scalar j : match j with JArr _ | JObj _ => False | _ => True end -> settled j j
| s_array l m : Forall2 settled l m -> settled (JArr l) (JArr m)
| s_object l m o : Forall2 (fun a b => fst a = fst b /\ settled (snd a) (snd b)) l m -> collapsed str_eqb m o -> settled (JObj l) (JObj o).
