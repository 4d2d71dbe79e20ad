(** Specification of C76: how a text on one line is put on several.  Rules on texts only, character by
    character; nothing of what the text stands for is used. *)
From Coq Require Import ZArith List Bool String.
From Verif Require Import Base.
Import ListNotations.
Open Scope Z_scope.

(** A new line, for [d] open brackets and [w] spaces for each. *)
Definition new_line (w d : nat) : str := 10 :: repeat 32 (w * d).
Definition opening (c : Z) : bool := (c =? 91) || (c =? 123).
Definition closing (c : Z) : bool := (c =? 93) || (c =? 125).

(** ** JSON *)
(** Inside of a string; behind a backslash there; behind an opening bracket; elsewhere. *)
Inductive place := InString | Escaped | Opened | Elsewhere.
(** A new line behind brackets that open, behind commas, and before brackets that close; none in empty
    brackets.  A space behind colons. *)
Fixpoint json_lines (d : nat) (p : place) (s : str) : str :=
  match s with
  | [] => []
  | c :: r =>
    match p with
    | InString => c :: json_lines d (if c =? 92 then Escaped else if c =? 34 then Elsewhere else InString) r
    | Escaped => c :: json_lines d InString r
    | _ =>
      let first := match p with Opened => new_line 2 d | _ => [] end in
      if closing c then match p with Opened => [] | _ => new_line 2 (pred d) end ++ c :: json_lines (pred d) Elsewhere r
      else if opening c then first ++ c :: json_lines (S d) Opened r
      else if c =? 34 then first ++ c :: json_lines d InString r
      else if c =? 44 then first ++ c :: new_line 2 d ++ json_lines d Elsewhere r
      else if c =? 58 then first ++ c :: 32 :: json_lines d Elsewhere r
      else first ++ c :: json_lines d Elsewhere r
    end
  end.
(** No blanks outside of strings. *)
Fixpoint tight (p : place) (s : str) : Prop :=
  match s with
  | [] => True
  | c :: r =>
    match p with
    | InString => tight (if c =? 92 then Escaped else if c =? 34 then Elsewhere else InString) r
    | Escaped => tight InString r
    | _ => ~ In c [32; 9; 10; 13] /\ tight (if c =? 34 then InString else Elsewhere) r
    end
  end.
(** What is left without them. *)
Fixpoint unblank (p : place) (s : str) : str :=
  match s with
  | [] => []
  | c :: r =>
    match p with
    | InString => c :: unblank (if c =? 92 then Escaped else if c =? 34 then Elsewhere else InString) r
    | Escaped => c :: unblank InString r
    | _ => if (c =? 32) || (c =? 9) || (c =? 10) || (c =? 13) then unblank Elsewhere r else c :: unblank (if c =? 34 then InString else Elsewhere) r
    end
  end.

(** ** [Debug] *)
Definition bopening (c : Z) : bool := opening c || (c =? 40).
Definition bclosing (c : Z) : bool := closing c || (c =? 41).
Definition in_word (c : Z) : bool :=
  (48 <=? c) && (c <=? 57) || (65 <=? c) && (c <=? 90) || (97 <=? c) && (c <=? 122) || (c =? 43) || (c =? 45) || (c =? 46) || (c =? 95).
Definition in_guid (c : Z) : bool := (48 <=? c) && (c <=? 57) || (65 <=? c) && (c <=? 70) || (c =? 45).
(** The digits of a guid stay on the line. *)
Definition guid_ahead (s : str) : bool :=
  match s with
  | 71 :: 117 :: 105 :: 100 :: 40 :: c :: _ => in_guid c
  | _ => false
  end.
(** In a string; behind a backslash; behind an opening bracket or a comma; in a word; in a guid; elsewhere. *)
Inductive dplace := DString | DEscaped | DFresh | DInWord | DInGuid | DElse.
(** A comma and a new line before brackets that close, in place of a space there may be; a new line behind
    commas and behind brackets that open, in place of a space there may be; none in empty brackets. *)
Fixpoint debug_lines (d : nat) (p : dplace) (s : str) : str :=
  match s with
  | [] => []
  | c :: r =>
    match p with
    | DString => c :: debug_lines d (if c =? 92 then DEscaped else if c =? 34 then DElse else DString) r
    | DEscaped => c :: debug_lines d DString r
    | DInGuid => c :: debug_lines d (if c =? 41 then DElse else DInGuid) r
    | _ =>
      let first := match p with DFresh => new_line 4 d | _ => [] end in
      if bclosing c then match p with DFresh => [] | _ => 44 :: new_line 4 (pred d) end ++ c :: debug_lines (pred d) DElse r
      else if c =? 32 then
        match p, r with
        | DFresh, _ => debug_lines d DFresh r
        | _, 125 :: _ => debug_lines d DElse r
        | _, _ => c :: debug_lines d DElse r
        end
      else if bopening c then first ++ c :: debug_lines (S d) DFresh r
      else if c =? 44 then first ++ c :: debug_lines d DFresh r
      else if c =? 34 then first ++ c :: debug_lines d DString r
      else if in_word c then
        first ++ c :: debug_lines d (match p with DInWord => DInWord | _ => if guid_ahead s then DInGuid else DInWord end) r
      else first ++ c :: debug_lines d DElse r
    end
  end.
