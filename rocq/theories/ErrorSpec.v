(** Specification of C75. *)
From Coq Require Import ZArith List Bool String.
From Verif Require Import Base Str Types Spec StrThm Numeral MessageThm Debug.
Import ListNotations.
Open Scope Z_scope.

(** ** Where a text stops being UTF-8, as std documents [Utf8Error] *)
Definition utf8 (l : list byte) : Prop := exists s us, coded char8 s us /\ l = map z2b us.
(** The start of some text in UTF-8. *)
Definition start8 (l : list byte) : Prop := exists t, utf8 (l ++ t).
Definition firstz (n : Z) (l : list byte) : list byte := firstn (Z.to_nat n) l.
(** [v] bytes are valid and no more; behind them either the end was cut off, or [n] bytes are an
    unfinished character that does not go on, or one byte starts no character. *)
Definition first_bad (l : list byte) (v : Z) (e : option Z) : Prop :=
  0 <= v < len l /\ utf8 (firstz v l) /\ (forall k, v < k <= len l -> ~ utf8 (firstz k l))
  /\ match e with
     | None => start8 l
     | Some n => 1 <= n <= 3 /\ v + n <= len l
       /\ (start8 (firstz (v + n) l) /\ v + n < len l /\ ~ start8 (firstz (v + n + 1) l)
           \/ n = 1 /\ ~ start8 (firstz (v + 1) l))
     end.

(** ** error.rs:10-96, written out: the variants, and the texts that [thiserror] makes of the fields *)
Inductive field := FNum (z : Z) | FText (s : str) | FNot8 | FNot16.
(** [{k}] and [{k:#x}]. *)
Inductive piece := Lit (s : string) | Hole (k : nat) | Hex (k : nat).
Definition deserialize_errors : list (string * list piece) :=
  [("InvalidHeader", [Lit "Invalid header: "; Hole 0]);
   ("InvalidValueSize", [Lit "Invalid value size, expected "; Hole 0; Lit " got "; Hole 1; Lit " at position "; Hex 2]);
   ("InvalidString", [Lit "Invalid string size "; Hole 0; Lit " at position "; Hex 1]);
   ("InvalidStringTerminator", [Lit "Invalid string terminator "; Hole 0; Lit " at position "; Hex 1]);
   ("InvalidBoolean", [Lit "Invalid boolean value "; Hole 0; Lit " at position "; Hex 1]);
   ("MissingHint", [Lit "Missing hint for struct "; Hole 0; Lit " at path "; Hole 1; Lit " at position "; Hex 2]);
   ("MissingArgument", [Lit "Missing argument: "; Hole 0; Lit " at position "; Hex 1]);
   ("InvalidProperty", [Lit "Invalid property "; Hole 0; Lit " at position "; Hex 1]);
   ("InvalidEnumValue", [Lit "No discriminant in enum `"; Hole 0; Lit "` matches the value `"; Hole 1; Lit "` at position "; Hex 2]);
   ("InvalidArrayIndex", [Lit "Unexpected array_index value "; Hole 0; Lit " at position "; Hex 1]);
   ("InvalidTerminator", [Lit "Unexpected terminator value "; Hole 0; Lit " at position "; Hex 1]);
   ("FromUtf16Error", [Lit "Invalid UTF-16 string at position "; Hex 1]);
   ("FromUtf8Error", [Lit "Invalid UTF-8 string at position "; Hex 1])]%string.
Definition serialize_errors : list (string * list piece) :=
  [("InvalidValue", [Lit "Invalid value "; Hole 0]);
   ("StructMissingField", [Lit "Struct "; Hole 0; Lit " missing field "; Hole 1])]%string.
(** What is printed for a hole; nothing but numbers and strings is. *)
Inductive printed : field -> str -> Prop :=
| PrNum z s : number s z -> printed (FNum z) s
| PrText s : printed (FText s) s.
Inductive filled (l : list field) : list piece -> str -> Prop :=
| FillNone : filled l [] []
| FillLit s r t : filled l r t -> filled l (Lit s :: r) (s2z s ++ t)
| FillHole k f s r t : nth_error l k = Some f -> printed f s -> filled l r t -> filled l (Hole k :: r) (s ++ t)
| FillHex k z s r t : nth_error l k = Some (FNum z) -> hex_numeral s z -> filled l r t -> filled l (Hex k :: r) (s2z "0x" ++ s ++ t).
(** The [Debug] form of a field. *)
Inductive field_tree (lone : str) (raw : list byte) : field -> dtree -> Prop :=
| TNum z s : number s z -> field_tree lone raw (FNum z) (DWord s)
| TText s : field_tree lone raw (FText s) (DStr s)
| TNot16 : field_tree lone raw FNot16 (DWord lone)
| TCut v bs n : first_bad raw v None -> Forall2 (fun b t => exists s, numeral s (b2z b) /\ t = DWord s) raw bs -> number n v ->
    field_tree lone raw FNot8
      (DStruct (s2z "FromUtf8Error") [(s2z "bytes", DList bs); (s2z "error", DStruct (s2z "Utf8Error")
         [(s2z "valid_up_to", DWord n); (s2z "error_len", DWord (s2z "None"))])])
| TBad v k bs n m : first_bad raw v (Some k) -> Forall2 (fun b t => exists s, numeral s (b2z b) /\ t = DWord s) raw bs -> number n v -> number m k ->
    field_tree lone raw FNot8
      (DStruct (s2z "FromUtf8Error") [(s2z "bytes", DList bs); (s2z "error", DStruct (s2z "Utf8Error")
         [(s2z "valid_up_to", DWord n); (s2z "error_len", DTuple (s2z "Some") [DWord m])])]).

(** An error inside of its wrapper (error.rs:118-129), which [Display] does not show, and both of its texts. *)
Inductive shown (lone : str) (raw : list byte) : dtree -> str -> Prop :=
| ShDeserialize n fmt l ts m : In (n, fmt) deserialize_errors -> Forall2 (field_tree lone raw) l ts -> filled l fmt m ->
    shown lone raw (DTuple (s2z "Deserialize") [DTuple (s2z n) ts]) m
| ShSerialize n fmt l ts m : In (n, fmt) serialize_errors -> Forall2 (field_tree lone raw) l ts -> filled l fmt m ->
    shown lone raw (DTuple (s2z "Serialize") [DTuple (s2z n) ts]) m
| ShEnd : shown lone raw (DTuple (s2z "Io") [DStruct (s2z "Error")
      [(s2z "kind", DWord (s2z "UnexpectedEof")); (s2z "message", DStr (s2z "failed to fill whole buffer"))]])
    (s2z "failed to fill whole buffer").

(** The [Display] of [Utf8Error]. *)
Inductive utf8_text (raw : list byte) : str -> Prop :=
| UCut v n : first_bad raw v None -> number n v -> utf8_text raw (s2z "incomplete utf-8 byte sequence from index " ++ n)
| UBad v k n m : first_bad raw v (Some k) -> number n v -> number m k ->
    utf8_text raw (s2z "invalid utf-8 sequence of " ++ m ++ s2z " bytes from index " ++ n).

(** What [type_name] gives: texts, told apart. *)
Definition good_names (names : etype -> str) : Prop :=
  (forall t t', names t = names t' -> t = t') /\ forall t, is_str (names t) = true.
