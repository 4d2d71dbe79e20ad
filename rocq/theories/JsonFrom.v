(** JSON text read straight into a file: [serde_json::from_str::<GvasFile>]
    (tests/serde_tests/serde_json_round_trip.rs:12, serde_json_template.rs:56), without a
    [serde_json::Value] in between.  The [Deserialize] instances are those of Json.v.  The
    parser differs in three points (serde_json 1.0.145): members with the same key are all
    handed on; a member of [GvasFile] itself that is not asked for is skipped
    ([ignore_value]), and skipping checks only the form: numbers may be out of range,
    surrogates unpaired, and brackets nested to any depth.  Everything else is read
    completely, since tags, flattened fields and untagged enums make serde buffer it.
    Simplified: the text is parsed as a whole before anything is decoded, so that a text
    which both breaks the syntax and contains a string that panics as a guid is refused
    here, where serde_json may panic first; skipping keeps a stack in serde_json and is
    recursive here.  No proofs in this file. *)
From Coq Require Import ZArith List Bool String.
From Verif Require Import Base Str Types Versions Text Props File Guid Json JsonSyntax.
Import ListNotations.
Open Scope Z_scope.

(** de.rs [ignore_integer], [ignore_decimal], [ignore_exponent]. *)
Definition i_number (neg : bool) (s : str) : pres (json * str) :=
  match span s with
  | ([], _) => PErr PSyntax
  | (i, r) =>
    if (hd 0 i =? 48) && negb (len i =? 1) then PErr PSyntax
    else '(_, r1) <- p_fraction r ;;; '(_, r2) <- p_exponent r1 ;;; POk (JNull, r2)
  end.
(** read.rs [ignore_str], [ignore_escape], after the opening quote. *)
Fixpoint i_chars (s : str) : pres (str * str) :=
  match s with
  | [] => PErr PSyntax
  | c :: r =>
    if c =? 34 then POk ([], r)
    else if c =? 92 then
      match r with
      | [] => PErr PSyntax
      | e :: r1 =>
        if e =? 117 then
          match r1 with
          | a1 :: a2 :: a3 :: a4 :: r2 =>
            match hex4 a1 a2 a3 a4 with Some _ => i_chars r2 | None => PErr PSyntax end
          | _ => PErr PSyntax
          end
        else match unescape e with Some _ => i_chars r1 | None => PErr PSyntax end
      end
    else if c <? 32 then PErr PSyntax
    else i_chars r
  end.
(** de.rs [ignore_value]: a value of [length s] characters has no more brackets. *)
Definition p_ignore (s : str) : pres (json * str) :=
  '(_, r) <- p_value (fun l => l) i_number i_chars (S (2 * List.length s)) (List.length s) s ;;; POk (JNull, r).

(** The fields of [GvasFile] (lib.rs:329-342). *)
Definition file_fields : list str := map s2z ["deserialized_game_version"; "header"; "properties"]%string.
(** The value of a member: read with all members kept, or skipped. lib.rs:331-345. *)
Definition p_field (k : str) (d : nat) (s : str) : pres (json * str) :=
  if existsb (str_eqb k) file_fields then p_value (fun l => l) p_number p_chars (S (2 * List.length s)) d s
  else p_ignore s.
(** de.rs [MapAccess], as in [p_members]. *)
Fixpoint p_fields (n d : nat) (first : bool) (s : str) {struct n} : pres (list (str * json) * str) :=
  match n with
  | O => PErr PFuel
  | S n' =>
    let member c q :=
      if c =? 34 then
        '(k, q1) <- p_chars q ;;;
        match skip q1 with
        | [] => PErr PSyntax
        | x :: q2 =>
          if x =? 58 then
            '(v, q3) <- p_field k d q2 ;;;
            '(l, q4) <- p_fields n' d false q3 ;;; POk ((k, v) :: l, q4)
          else PErr PSyntax
        end
      else PErr PSyntax in
    match skip s with
    | [] => PErr PSyntax
    | c :: r =>
      if c =? 125 then POk ([], r)
      else if first then member c r
      else if c =? 44 then
        match skip r with
        | [] => PErr PSyntax
        | x :: q => member x q
        end
      else PErr PSyntax
    end
  end.
(** de.rs [deserialize_struct], [from_trait]. *)
Definition p_top (s : str) : pres (json * str) :=
  match skip s with
  | [] => PErr PSyntax
  | c :: r =>
    if c =? 123 then '(l, t) <- p_fields (S (List.length r)) (depth_limit - 1) true r ;;; POk (JObj l, t)
    else if c =? 91 then p_value (fun l => l) p_number p_chars (S (2 * List.length s)) depth_limit s
    else PErr PSyntax
  end.
Definition from_top (s : str) : pres json :=
  '(j, r) <- p_top s ;;; match skip r with [] => POk j | _ => PErr PSyntax end.
Definition read_direct (hp : hashing) (s : str) : jres gfile :=
  match from_top s with POk j => from_json hp j | PErr _ => JErr end.
