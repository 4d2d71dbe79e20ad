(** [{:?}] and [{:#?}] of [Error], as shown by [unwrap] and [expect], and what
    [std::error::Error::source] gives for it.  error.rs:10-129.  No proofs in this file. *)
From Coq Require Import ZArith List Bool String.
From Verif Require Import Base Str Types Versions Text Props File Message Display Debug.
Import ListNotations.
Open Scope string_scope.
Open Scope list_scope.
Open Scope Z_scope.

(** ** [std::str::Utf8Error] of [String::from_utf8], cursor_ext.rs:93
    ([run_utf8_validation] of core): the number of bytes before the first bad sequence, and how many
    bytes are to be skipped there, or [None] if the text is cut inside of a character. *)
Definition later (n : Z) (x : option (Z * option Z)) : option (Z * option Z) :=
  match x with Some (v, e) => Some (n + v, e) | None => None end.
(** The second byte of a character of three and of four bytes. cursor_ext.rs:93. *)
Definition second3 (c0 c1 : Z) : bool :=
  (c0 =? 224) && inr 160 191 c1 || inr 225 236 c0 && inr 128 191 c1 || (c0 =? 237) && inr 128 159 c1 || inr 238 239 c0 && inr 128 191 c1.
Definition second4 (c0 c1 : Z) : bool :=
  (c0 =? 240) && inr 144 191 c1 || inr 241 243 c0 && inr 128 191 c1 || (c0 =? 244) && inr 128 143 c1.
Fixpoint utf8_error (l : list byte) : option (Z * option Z) :=
  match l with
  | [] => None
  | b0 :: r0 =>
    let c0 := b2z b0 in
    if inr 0 127 c0 then later 1 (utf8_error r0)
    else if inr 194 223 c0 then
      match r0 with
      | [] => Some (0, None)
      | b1 :: r1 => if inr 128 191 (b2z b1) then later 2 (utf8_error r1) else Some (0, Some 1)
      end
    else if inr 224 239 c0 then
      match r0 with
      | [] => Some (0, None)
      | b1 :: r1 =>
        if second3 c0 (b2z b1) then
          match r1 with
          | [] => Some (0, None)
          | b2 :: r2 => if inr 128 191 (b2z b2) then later 3 (utf8_error r2) else Some (0, Some 2)
          end
        else Some (0, Some 1)
      end
    else if inr 240 244 c0 then
      match r0 with
      | [] => Some (0, None)
      | b1 :: r1 =>
        if second4 c0 (b2z b1) then
          match r1 with
          | [] => Some (0, None)
          | b2 :: r2 =>
            if inr 128 191 (b2z b2) then
              match r2 with
              | [] => Some (0, None)
              | b3 :: r3 => if inr 128 191 (b2z b3) then later 4 (utf8_error r3) else Some (0, Some 3)
              end
            else Some (0, Some 2)
          end
        else Some (0, Some 1)
      end
    else Some (0, Some 1)
  end.

(** The [FromUtf8Error] of an error at [p] holds the bytes of the string that is stored there.
    cursor_ext.rs:82-93. *)
Definition string_at (d : list byte) (p : Z) : list byte :=
  let r := skipn (Z.to_nat p) d in firstn (Z.to_nat (le_val (firstn 4 r) - 1)) (skipn 4 r).
Definition raw_of (d : list byte) (e : error) : list byte :=
  match e with EUtf8 p => string_at d p | _ => [] end.

(** ** Debug *)
(** [derive(Debug)] of [FromUtf8Error] and [Utf8Error] in std. error.rs:48. *)
Definition dg_utf8 (raw : list byte) : dtree :=
  let x := match utf8_error raw with Some x => x | None => (0, None) end in
  DStruct (s2z "FromUtf8Error")
    [(s2z "bytes", DList (map (fun b => dg_int (b2z b)) raw));
     (s2z "error", DStruct (s2z "Utf8Error") [(s2z "valid_up_to", dg_int (fst x)); (s2z "error_len", dg_opt dg_int (snd x))])].
(** [DeserializeError], error.rs:10-50.  [lone] is what std prints for a [FromUtf16Error], which holds
    nothing; [names] as in [message]; [raw] are the bytes of a string that is not UTF-8. *)
Definition dg_deser (names : etype -> str) (lone : str) (raw : list byte) (e : error) : option dtree :=
  match e with
  | EHeader f v => Some (DTuple (s2z "InvalidHeader") [DStr (header_reason f v)])
  | EMagic bs => Some (DTuple (s2z "InvalidHeader") [DStr (s2z "Invalid PlZ magic " ++ listing bs)])
  | EValueSize x g p => Some (DTuple (s2z "InvalidValueSize") [dg_int x; dg_int g; dg_int p])
  | EString n p => Some (DTuple (s2z "InvalidString") [dg_int n; dg_int p])
  | EStrTerm t p => Some (DTuple (s2z "InvalidStringTerminator") [dg_int t; dg_int p])
  | EBool v p => Some (DTuple (s2z "InvalidBoolean") [dg_int v; dg_int p])
  | EHint path p => Some (DTuple (s2z "MissingHint") [DStr (s2z "StructProperty"); DStr path; dg_int p])
  | EProperty what p => Some (DTuple (s2z "InvalidProperty") [DStr what; dg_int p])
  | EEnum t v p => Some (DTuple (s2z "InvalidEnumValue") [DStr (names t); dg_int v; dg_int p])
  | EArrayIndex i p => Some (DTuple (s2z "InvalidArrayIndex") [dg_int i; dg_int p])
  | ETerm t p => Some (DTuple (s2z "InvalidTerminator") [dg_int t; dg_int p])
  | EUtf16 p => Some (DTuple (s2z "FromUtf16Error") [DWord lone; dg_int p])
  | EUtf8 p => Some (DTuple (s2z "FromUtf8Error") [dg_utf8 raw; dg_int p])
  | EEof | EIo | ESerialize _ => None
  end.
(** [Error] and [SerializeError], error.rs:87-96 and 118-129; [UnexpectedEof] is one of std's errors
    with a constant message.  Left out: the other I/O errors, and the refusal of array_property.rs:240
    (Debug.v). *)
Definition dg_error (names : etype -> str) (lone : str) (raw : list byte) (e : error) : option dtree :=
  match e with
  | EEof =>
    Some (DTuple (s2z "Io") [DStruct (s2z "Error")
      [(s2z "kind", DWord (s2z "UnexpectedEof")); (s2z "message", DStr (s2z "failed to fill whole buffer"))]])
  | EIo => None
  | ESerialize s => option_map (fun m => DTuple (s2z "Serialize") [DTuple (s2z "InvalidValue") [DStr m]]) (refusal s)
  | _ => option_map (fun d => DTuple (s2z "Deserialize") [d]) (dg_deser names lone raw e)
  end.
(** [i] is [None] for [{:?}] and [Some 0] for [{:#?}]. *)
Definition debug_error names lone plain (i : option nat) raw e : option str :=
  option_map (show plain i) (dg_error names lone raw e).

(** The data that positions count in: the file, or what a container holds. lib.rs:410-457. *)
Definition data_of (z : zlib) (v : gversion) (b : list byte) : list byte :=
  match v with
  | GDefault => b
  | GPalworld => match r_palworld z (Cur 0 b []) with Ok ((_, d), _) => d | Fail _ => b end
  end.
(** [format!("{:?}", err)] for the error of a load. lib.rs:404-491. *)
Definition load_debug names lone plain i z o v b : option str :=
  match load z o v b with
  | Fail (Err e) => debug_error names lone plain i (raw_of (data_of z v b) e) e
  | _ => None
  end.

(** ** [Error::source]: the [Display] of what [thiserror] calls the source, error.rs:43-49 and
    118-129 (transparent). *)
Definition source (raw : list byte) (e : error) : option str :=
  match e with
  | EUtf16 _ => Some (s2z "invalid utf-16: lone surrogate found")
  | EUtf8 _ =>
    match utf8_error raw with
    | Some (v, Some n) => Some (s2z "invalid utf-8 sequence of " ++ signed n ++ s2z " bytes from index " ++ signed v)
    | Some (v, None) => Some (s2z "incomplete utf-8 byte sequence from index " ++ signed v)
    | None => None
    end
  | _ => None
  end.
