(** JSON text: the printers and the parser of serde_json 1.0.145 (Cargo.toml:29,
    features [float_roundtrip] and [preserve_order]) between [serde_json::Value] and
    text, as used by tests/serde_tests and tests/serde_json_template.  A text is a
    list of Unicode scalar values.  No proofs in this file.

    Simplifications.  Texts are printed from and read into a [Value] first:
    [to_string(&to_value(file))] and [from_value(from_str(text))].  (Printed directly, single
    precision numbers get fewer digits, see JsonDirect.v; read directly, repeated fields
    are errors.)  The digits that [ryu] chooses for a float are a parameter.  Kinds of
    syntax errors are not told apart. *)
From Coq Require Import ZArith List Bool String.
From Verif Require Import Base Str Json.
Import ListNotations.
Open Scope Z_scope.

(** ** Printing *)

(** [{}] of an integer.
    serde_json; used by the printed text of every integer of lib.rs:115-147 and the properties. *)
Definition show_int (z : Z) : str := if z <? 0 then 45 :: decimal (- z) else decimal z.
(** ser.rs [format_escaped_str_contents] and [write_char_escape]: quotes, backslashes
    and control characters. *)
Definition escape (c : Z) : str :=
  if c =? 34 then [92; 34] else if c =? 92 then [92; 92]
  else if c =? 8 then s2z "\b" else if c =? 9 then s2z "\t" else if c =? 10 then s2z "\n"
  else if c =? 12 then s2z "\f" else if c =? 13 then s2z "\r"
  else if c <? 32 then s2z "\u00" ++ [hex_lower (c / 16); hex_lower (c mod 16)]
  else [c].
Definition quote (s : str) : str := 34 :: flat_map escape s ++ [34].

Section Print.
Context (float : Z -> str).
(** Scalars. serde_json, for the values of lib.rs:331-345. *)
Definition show_bool (b : bool) : str := if b then s2z "true" else s2z "false".

(** Items with commas between them. serde_json, for the values of lib.rs:331-345. *)
Fixpoint commas (l : list str) : str :=
  match l with
  | [] => []
  | [x] => x
  | x :: r => x ++ [44] ++ commas r
  end.
(** [to_string]: ser.rs [CompactFormatter]. *)
Fixpoint print (j : json) : str :=
  match j with
  | JNull => s2z "null"
  | JBool b => show_bool b
  | JInt z => show_int z
  | JFloat z => float z
  | JStr s => quote s
  | JArr l => [91] ++ commas (map print l) ++ [93]
  | JObj l => [123] ++ commas (map (fun '(k, v) => quote k ++ [58] ++ print v) l) ++ [125]
  end.

(** [to_string_pretty]: ser.rs [PrettyFormatter], two spaces for each level. *)
Definition indent (n : nat) : str := 10 :: repeat 32 (2 * n).
Definition block (n : nat) (l : list str) : str :=
  match l with
  | [] => []
  | _ => commas (map (fun x => indent (S n) ++ x) l) ++ indent n
  end.
Fixpoint pretty (n : nat) (j : json) : str :=
  match j with
  | JNull => s2z "null"
  | JBool b => show_bool b
  | JInt z => show_int z
  | JFloat z => float z
  | JStr s => quote s
  | JArr l => [91] ++ block n (map (pretty (S n)) l) ++ [93]
  | JObj l => [123] ++ block n (map (fun '(k, v) => quote k ++ s2z ": " ++ pretty (S n) v) l) ++ [125]
  end.
End Print.

(** ** Reading *)
(** serde_json: what a text of a [GvasFile] (lib.rs:331-345) can be refused for. *)
Inductive perr := PSyntax | PDepth | PRange | PFuel.
Inductive pres (A : Type) := POk (a : A) | PErr (e : perr).
Arguments POk {A} _.
Arguments PErr {A} _.
Definition pbind {A B} (r : pres A) (k : A -> pres B) : pres B :=
  match r with POk a => k a | PErr e => PErr e end.
Notation "' p <- r ;;; k" := (pbind r (fun x => let p := x in k))
  (at level 61, p pattern, r at next level, right associativity).

(** de.rs [parse_whitespace]. *)
Definition is_space (c : Z) : bool := (c =? 32) || (c =? 10) || (c =? 9) || (c =? 13).
Fixpoint skip (s : str) : str :=
  match s with
  | c :: r => if is_space c then skip r else s
  | [] => []
  end.

(** Decimal numbers.  With [float_roundtrip] the result is the nearest double, ties to
    even, which is computed exactly here: [n / d] in units of 2^-1074, divided by the
    power of two that leaves 53 bits.
    serde_json with [float_roundtrip] (Cargo.toml:32); the floats are those of struct_types.rs:17-38
    and int_property.rs:330-337. *)
Definition round_div (a b : Z) : Z :=
  let q := a / b in
  let r := a mod b in
  if (b <? 2 * r) || ((2 * r =? b) && Z.odd q) then q + 1 else q.
Definition f_ratio (n d : Z) : Z :=
  let a := n * 2 ^ 1074 in
  let t := Z.max 0 (Z.log2 (a / d) - 52) in
  Z.min (f_inf fmt64) (t * 2 ^ 52 + round_div a (d * 2 ^ t)).
Definition f_decimal (n e : Z) : Z := if 0 <=? e then f_ratio (n * 10 ^ e) 1 else f_ratio n (10 ^ (- e)).

(** serde_json, numbers of the text of lib.rs:331-345. *)
Definition is_digit (c : Z) : bool := (48 <=? c) && (c <=? 57).
Fixpoint span (s : str) : str * str :=
  match s with
  | c :: r => if is_digit c then let '(x, t) := span r in (c :: x, t) else ([], s)
  | [] => ([], [])
  end.
Definition dec_value (s : str) : Z := fold_left (fun n c => 10 * n + (c - 48)) s 0.
(** de.rs [parse_decimal]: at least one digit after the point. *)
Definition p_fraction (s : str) : pres (option str * str) :=
  match s with
  | c :: r =>
    if c =? 46 then match span r with ([], _) => PErr PSyntax | (x, t) => POk (Some x, t) end
    else POk (None, s)
  | [] => POk (None, s)
  end.
(** de.rs [parse_exponent]. *)
Definition p_exponent (s : str) : pres (option Z * str) :=
  match s with
  | c :: r =>
    if (c =? 101) || (c =? 69) then
      let '(neg, r1) := match r with
                        | x :: r1 => if x =? 43 then (false, r1) else if x =? 45 then (true, r1) else (false, r)
                        | [] => (false, r)
                        end in
      match span r1 with
      | ([], _) => PErr PSyntax
      | (x, t) => POk (Some (if neg then - dec_value x else dec_value x), t)
      end
    else POk (None, s)
  | [] => POk (None, s)
  end.
(** de.rs [parse_integer], [parse_number], [parse_long_integer]: integers that fit i64
    or u64, other numbers as doubles; a double must be finite. *)
Definition p_real (neg : bool) (n e : Z) : pres json :=
  let a := f_decimal n e in
  if a =? f_inf fmt64 then PErr PRange else POk (JFloat ((if neg then f_sign fmt64 else 0) + a)).
Definition p_number (neg : bool) (s : str) : pres (json * str) :=
  match span s with
  | ([], _) => PErr PSyntax
  | (i, r) =>
    if (hd 0 i =? 48) && negb (len i =? 1) then PErr PSyntax
    else
      '(f, r1) <- p_fraction r ;;;
      '(e, r2) <- p_exponent r1 ;;;
      let n := dec_value i in
      match f, e with
      | None, None =>
        if neg then
          if (0 <? n) && (n <=? 9223372036854775808) then POk (JInt (- n), r2)
          else pbind (p_real true n 0) (fun j => POk (j, r2))
        else
          if n <? 18446744073709551616 then POk (JInt n, r2)
          else pbind (p_real false n 0) (fun j => POk (j, r2))
      | _, _ =>
        let f' := match f with Some x => x | None => [] end in
        let e' := match e with Some x => x | None => 0 end in
        pbind (p_real neg (dec_value (i ++ f')) (e' - len f')) (fun j => POk (j, r2))
      end
  end.

(** read.rs [parse_str] and [parse_escape], after the opening quote. *)
Definition hex_value (c : Z) : option Z :=
  if is_digit c then Some (c - 48)
  else if (97 <=? c) && (c <=? 102) then Some (c - 87)
  else if (65 <=? c) && (c <=? 70) then Some (c - 55)
  else None.
Definition hex4 (a b c d : Z) : option Z :=
  match hex_value a, hex_value b, hex_value c, hex_value d with
  | Some w, Some x, Some y, Some z => Some (4096 * w + 256 * x + 16 * y + z)
  | _, _, _, _ => None
  end.
Definition unescape (c : Z) : option Z :=
  if (c =? 34) || (c =? 92) || (c =? 47) then Some c
  else if c =? 98 then Some 8 else if c =? 102 then Some 12 else if c =? 110 then Some 10
  else if c =? 114 then Some 13 else if c =? 116 then Some 9 else None.
Definition pcons (c : Z) (r : pres (str * str)) : pres (str * str) :=
  '(s, t) <- r ;;; POk (c :: s, t).
Fixpoint p_chars (s : str) : pres (str * str) :=
  match s with
  | [] => PErr PSyntax
  | c :: r =>
    if c =? 34 then POk ([], r)
    else if c =? 92 then
      match r with
      | [] => PErr PSyntax
      | e :: r1 =>
        if e =? 117 then
          match r1 with
          | a1 :: a2 :: a3 :: a4 :: r2 =>
            match hex4 a1 a2 a3 a4 with
            | None => PErr PSyntax
            | Some u =>
              if (55296 <=? u) && (u <=? 56319) then
                match r2 with
                | x :: y :: b1 :: b2 :: b3 :: b4 :: r3 =>
                  if (x =? 92) && (y =? 117) then
                    match hex4 b1 b2 b3 b4 with
                    | None => PErr PSyntax
                    | Some v =>
                      if (56320 <=? v) && (v <=? 57343)
                      then pcons (65536 + (u - 55296) * 1024 + (v - 56320)) (p_chars r3)
                      else PErr PSyntax
                    end
                  else PErr PSyntax
                | _ => PErr PSyntax
                end
              else if (56320 <=? u) && (u <=? 57343) then PErr PSyntax
              else pcons u (p_chars r2)
            end
          | _ => PErr PSyntax
          end
        else match unescape e with
             | Some x => pcons x (p_chars r1)
             | None => PErr PSyntax
             end
      end
    else if c <? 32 then PErr PSyntax
    else pcons c (p_chars r)
  end.

(** de.rs [parse_ident]. *)
Fixpoint p_word (w : str) (j : json) (s : str) : pres (json * str) :=
  match w, s with
  | [], _ => POk (j, s)
  | c :: w', x :: s' => if c =? x then p_word w' j s' else PErr PSyntax
  | _, [] => PErr PSyntax
  end.

(** de.rs [deserialize_any], [SeqAccess], [MapAccess], [end_seq], [end_map]; value/de.rs
    for the insertion of members (a repeated key keeps its place, the last value
    wins).  [d] is the number of brackets that may still be opened: [remaining_depth]
    starts at 128 and must not reach 0.  [mk] is what becomes of the members of an object,
    [num] and [chs] how numbers and strings are read. *)
Section Parser.
Context (mk : list (str * json) -> list (str * json)) (num : bool -> str -> pres (json * str)) (chs : str -> pres (str * str)).
Fixpoint p_value (n d : nat) (s : str) {struct n} : pres (json * str) :=
  match n with
  | O => PErr PFuel
  | S n' =>
    match skip s with
    | [] => PErr PSyntax
    | c :: r =>
      if c =? 110 then p_word (s2z "ull") JNull r
      else if c =? 116 then p_word (s2z "rue") (JBool true) r
      else if c =? 102 then p_word (s2z "alse") (JBool false) r
      else if c =? 45 then num true r
      else if is_digit c then num false (c :: r)
      else if c =? 34 then '(x, t) <- chs r ;;; POk (JStr x, t)
      else if c =? 91 then
        match d with
        | O => PErr PDepth
        | S d' => '(l, t) <- p_items n' d' true r ;;; POk (JArr l, t)
        end
      else if c =? 123 then
        match d with
        | O => PErr PDepth
        | S d' => '(l, t) <- p_members n' d' true r ;;; POk (JObj (mk l), t)
        end
      else PErr PSyntax
    end
  end
with p_items (n d : nat) (first : bool) (s : str) {struct n} : pres (list json * str) :=
  match n with
  | O => PErr PFuel
  | S n' =>
    let item q := '(v, q1) <- p_value n' d q ;;;
                  '(l, q2) <- p_items n' d false q1 ;;; POk (v :: l, q2) in
    match skip s with
    | [] => PErr PSyntax
    | c :: r =>
      if c =? 93 then POk ([], r)
      else if first then item (c :: r)
      else if c =? 44 then
        match skip r with
        | [] => PErr PSyntax
        | x :: q => if x =? 93 then PErr PSyntax else item (x :: q)
        end
      else PErr PSyntax
    end
  end
with p_members (n d : nat) (first : bool) (s : str) {struct n} : pres (list (str * json) * str) :=
  match n with
  | O => PErr PFuel
  | S n' =>
    let member c q :=
      if c =? 34 then
        '(k, q1) <- chs q ;;;
        match skip q1 with
        | [] => PErr PSyntax
        | x :: q2 =>
          if x =? 58 then
            '(v, q3) <- p_value n' d q2 ;;;
            '(l, q4) <- p_members n' d false q3 ;;; POk ((k, v) :: l, q4)
          else PErr PSyntax
        end
      else PErr PSyntax in
    match skip s with
    | [] => PErr PSyntax
    | c :: r =>
      if c =? 125 then POk ([], r)
      else if first then member c r
      else if c =? 44 then
        match skip r with
        | [] => PErr PSyntax
        | x :: q => member x q
        end
      else PErr PSyntax
    end
  end.
End Parser.

(** [from_str]: de.rs [from_trait], only whitespace may follow. *)
Definition depth_limit : nat := 127.
Definition from_text (s : str) : pres json :=
  match p_value (ins_all str_eqb) p_number p_chars (S (2 * List.length s)) depth_limit s with
  | POk (j, r) => match skip r with [] => POk j | _ => PErr PSyntax end
  | PErr e => PErr e
  end.
