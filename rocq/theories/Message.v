(** The texts of errors: the [Display] of [Error], error.rs:10-129
    ([thiserror]'s [#[error("...")]] attributes).  Left out: the texts of I/O
    errors other than a short read; that of array_property.rs:240, which
    contains the [Debug] form of a property, is in Debug.v. *)
From Coq Require Import ZArith List String.
From Verif Require Import Base.
Import ListNotations.
Open Scope string_scope.
Open Scope list_scope.
Open Scope Z_scope.

(** [{}] of a signed or unsigned integer. *)
Definition signed (z : Z) : str := if z <? 0 then s2z "-" ++ decimal (- z) else decimal z.

(** [{:#x}] of an unsigned integer: lower-case digits after [0x]. error.rs:16-48. *)
Definition hex_char (d : Z) : Z := if d <? 10 then 48 + d else 87 + d.
Fixpoint hex_digits (f : nat) (z : Z) : str :=
  match f with
  | O => []
  | S f' => if z <? 16 then [hex_char z] else hex_digits f' (z / 16) ++ [hex_char (z mod 16)]
  end.
Definition hexadecimal (z : Z) : str := s2z "0x" ++ hex_digits (S (Z.to_nat (Z.log2 z))) z.

(** [{:?}] of an array of bytes. lib.rs:422-424. *)
Fixpoint items (l : list byte) : str :=
  match l with
  | [] => []
  | [b] => decimal (b2z b)
  | b :: r => decimal (b2z b) ++ s2z ", " ++ items r
  end.
Definition listing (l : list byte) : str := s2z "[" ++ items l ++ s2z "]".

(** The reasons of [InvalidHeader]: lib.rs:174, 184, 191, 206, 218. *)
Definition header_reason (f : hfield) (v : Z) : str :=
  match f with
  | HFileType => s2z "File type " ++ signed v ++ s2z " not recognized"
  | HSaveVersion => s2z "GVAS version " ++ signed v ++ s2z " not supported"
  | HPackage => s2z "Package file version " ++ signed v ++ s2z " not supported"
  | HPackageUE5 => s2z "UE5 Package file version " ++ signed v ++ s2z " is not supported"
  | HCustomFormat => s2z "Custom version format " ++ signed v ++ s2z " not supported"
  end.

(** [at position {:#x}], the end of most texts. error.rs:16-48. *)
Definition at_position (p : Z) : str := s2z " at position " ++ hexadecimal p.

(** struct_property.rs:245, 255, 264, 275, 285, 296, 306, 317. *)
Definition lwc_reason (x : fixed) : option str :=
  match x with
  | XVector2F => Some (s2z "Vector2F not supported when LWC is enabled, use Vector2D")
  | XVector2D => Some (s2z "Vector2D not supported when LWC is disabled, use Vector2F")
  | XVectorF => Some (s2z "VectorF not supported when LWC is enabled, use VectorD")
  | XVectorD => Some (s2z "VectorD not supported when LWC is disabled, use VectorF")
  | XRotatorF => Some (s2z "RotatorF not supported when LWC is enabled, use RotatorD")
  | XRotatorD => Some (s2z "RotatorD not supported when LWC is disabled, use RotatorF")
  | XQuatF => Some (s2z "QuatF not supported when LWC is enabled, use QuatD")
  | XQuatD => Some (s2z "QuatD not supported when LWC is disabled, use QuatF")
  | XDateTime | XTimespan | XLinearColor | XIntPoint => None
  end.
(** The reasons of [SerializeError::InvalidValue]: struct_property.rs:229,
    array_property.rs:246. *)
Definition refusal (s : serr) : option str :=
  match s with
  | SStructHeader => Some (s2z "StructPropertyValue can not be serialized with a header")
  | SLwc x => lwc_reason x
  | SArrayElem => None
  | SArrayInfo => Some (s2z "struct_info is only supported for StructProperty")
  end.

(** error.rs:10-50, 88-96 and 118-129; lib.rs:425 for the container's magic; the text
    of [UnexpectedEof] is std's ([read_exact]); mod.rs:592 names every struct
    without a hint [StructProperty].  [names] stands for [std::any::type_name]
    (cursor_ext.rs:138), whose result std does not fix. *)
Definition message (names : etype -> str) (e : error) : option str :=
  match e with
  | EEof => Some (s2z "failed to fill whole buffer")
  | EHeader f v => Some (s2z "Invalid header: " ++ header_reason f v)
  | EMagic bs => Some (s2z "Invalid header: " ++ s2z "Invalid PlZ magic " ++ listing bs)
  | EValueSize expected got p =>
    Some (s2z "Invalid value size, expected " ++ signed expected ++ s2z " got " ++ signed got ++ at_position p)
  | EString n p => Some (s2z "Invalid string size " ++ signed n ++ at_position p)
  | EStrTerm t p => Some (s2z "Invalid string terminator " ++ signed t ++ at_position p)
  | EBool v p => Some (s2z "Invalid boolean value " ++ signed v ++ at_position p)
  | EHint path p =>
    Some (s2z "Missing hint for struct " ++ s2z "StructProperty" ++ s2z " at path " ++ path ++ at_position p)
  | EProperty what p => Some (s2z "Invalid property " ++ what ++ at_position p)
  | EEnum t v p =>
    Some (s2z "No discriminant in enum `" ++ names t ++ s2z "` matches the value `" ++ signed v ++ s2z "`"
          ++ at_position p)
  | EArrayIndex i p => Some (s2z "Unexpected array_index value " ++ signed i ++ at_position p)
  | ETerm t p => Some (s2z "Unexpected terminator value " ++ signed t ++ at_position p)
  | EUtf16 p => Some (s2z "Invalid UTF-16 string" ++ at_position p)
  | EUtf8 p => Some (s2z "Invalid UTF-8 string" ++ at_position p)
  | ESerialize s => option_map (fun m => s2z "Invalid value " ++ m) (refusal s)
  | EIo => None
  end.
