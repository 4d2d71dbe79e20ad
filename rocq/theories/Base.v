(** Base vocabulary of the model: bytes, little-endian numbers, outcomes,
    cursors, readers and writers.  No proofs in this file.

    Source: /repo/src (crate [gvas]); external crates are modelled from their
    documentation: [byteorder] little-endian accessors, [std::io::Cursor]. *)
From Coq Require Import ZArith List Bool String Ascii.
From Coq Require Import Strings.Byte.
Import ListNotations.
Open Scope Z_scope.

Notation byte := Coq.Init.Byte.byte.

(** Unicode strings ([String], [&str]) as lists of Unicode scalar values.
    [String]s of the values: str_property.rs:16-18, lib.rs:345, and elsewhere. *)
Definition str := list Z.
(** [Guid(pub [u8; 16])], types.rs:8-10. *)
Definition guid := list byte.

(** A byte as a number, and the low byte of a number ([as u8]): the bytes of
    cursor_ext.rs:45-202. *)
Definition b2z (b : byte) : Z := Z.of_N (Byte.to_N b).
Definition z2b (z : Z) : byte :=
  match Byte.of_N (Z.to_N (z mod 256)) with Some b => b | None => Byte.x00 end.

(** [len()] of slices, strings and vectors: cursor_ext.rs:151-160, array_property.rs:374, and elsewhere. *)
Definition len {A} (l : list A) : Z := Z.of_nat (List.length l).

(** Little-endian encoding of the [n] low bytes of [z] ([write_uNN], [write_iNN],
    and [as u32] casts of lengths), and decoding.
    byteorder, as called throughout cursor_ext.rs:48-202 and lib.rs:170-315. *)
Fixpoint le_bytes (n : nat) (z : Z) : list byte :=
  match n with
  | O => []
  | S n' => z2b z :: le_bytes n' (z / 256)
  end.

Fixpoint le_val (bs : list byte) : Z :=
  match bs with
  | [] => 0
  | b :: r => b2z b + 256 * le_val r
  end.

(** Two's complement reading of an unsigned value of [w] bytes.
    [read_i8], [read_i32], [read_i64]: cursor_ext.rs:58 and 133, int_property.rs:59. *)
Definition to_signed (w v : Z) : Z :=
  if v <? 2 ^ (8 * w - 1) then v else v - 2 ^ (8 * w).

Section ListEqb.
  Context {A : Type} (eqb : A -> A -> bool).
  (** [==] of vectors and arrays, for the derived [PartialEq] (array_property.rs:29, types.rs:9). *)
  Fixpoint list_eqb (l1 l2 : list A) : bool :=
    match l1, l2 with
    | [], [] => true
    | a :: r, b :: q => eqb a b && list_eqb r q
    | _, _ => false
    end.
End ListEqb.

(** [==] of strings ([match value_type], mod.rs:560-622) and of GUIDs (types.rs:9). *)
Definition str_eqb : str -> str -> bool := list_eqb Z.eqb.
Definition guid_eqb : guid -> guid -> bool := list_eqb Byte.eqb.

(** ASCII literal as a model string. The literals of mod.rs:560-622 and elsewhere. *)
Definition s2z (x : string) : str :=
  map (fun a => Z.of_N (N_of_ascii a)) (list_ascii_of_string x).

(** Decimal digits of a number, as [{}] prints unsigned integers.
    Used by error.rs:13-48 and engine_version.rs:25-33. *)
Fixpoint digits (f : nat) (z : Z) : str :=
  match f with
  | O => []
  | S f' => if z <? 10 then [48 + z] else digits f' (z / 10) ++ [48 + z mod 10]
  end.
Definition decimal (z : Z) : str := digits (S (Z.to_nat (Z.log2 z))) z.

(** Names of the enums read by [read_enum] (cursor_ext.rs:132-142). *)
Inductive etype := ETHistory | ETArgument | ETRounding | ETStyle | ETTransform | ETCompression.

(** Header fields that can be rejected (lib.rs:170-249). *)
Inductive hfield := HFileType | HSaveVersion | HPackage | HPackageUE5 | HCustomFormat.

(** Struct values with a fixed layout: struct_property.rs:57-81 and
    struct_types.rs (via [make_struct!]); fields in declaration order. *)
Inductive fixed :=
| XVector2F | XVector2D | XVectorF | XVectorD | XRotatorF | XRotatorD
| XQuatF | XQuatD | XDateTime | XTimespan | XLinearColor | XIntPoint.

(** Serialization failures (error.rs:88-96): all are [InvalidValue]. *)
Inductive serr :=
| SStructHeader                 (* struct_property.rs:229 *)
| SLwc (x : fixed)              (* struct_property.rs:242-318 *)
| SArrayElem                    (* array_property.rs:240 *)
| SArrayInfo.                   (* array_property.rs:246 *)

(** [Error] of error.rs:10-129.  Header messages are replaced by their
    parameters, the texts are in Message.v.  [EEof] is [io::ErrorKind::UnexpectedEof]; [EIo] is any other
    I/O error (only produced by zlib). *)
Inductive error :=
| EEof
| EIo
| EHeader (f : hfield) (v : Z)
| EMagic (bs : list byte)
| EValueSize (expected got position : Z)
| EString (length position : Z)
| EStrTerm (terminator position : Z)
| EBool (value position : Z)
| EHint (path : str) (position : Z)
| EProperty (what : str) (position : Z)
| EEnum (t : etype) (value position : Z)
| EArrayIndex (index position : Z)
| ETerm (terminator position : Z)
| EUtf16 (position : Z)
| EUtf8 (position : Z)
| ESerialize (e : serr).

(** Every place where the modelled code can panic. Each constructor cites file.rs:line. *)
Inductive psite :=
| PSeparator      (* assert_eq!(separator, 0): int_property.rs:57,111,206; unknown_property.rs:53 *)
| PIndicator      (* assert_eq!(indicator, 0): int_property.rs:290 *)
| PArrayIndex     (* assert_eq!(array_index, 0): int_property.rs:196, unknown_property.rs:46 *)
| PByteLength     (* e - 1 underflow, debug: int_property.rs:210 *)
| PSetLength      (* length - 8 underflow, debug: set_property.rs:68 *)
| PArrayStruct    (* assert_eq!(property_type, "StructProperty"): array_property.rs:314 *)
| PStructIndex    (* assert_eq!(actual_array_index, array_index), debug: struct_property.rs:196 *)
| PCapacity       (* with_capacity of a negative i32: struct_property.rs:395, text_property.rs:335,352,366 *)
| PHistory        (* unimplemented history type: text_property.rs:496 *)
| PGender         (* unimplemented format argument: text_property.rs:782 *)
| PArgWidth       (* assert!(..64bit..) when writing: text_property.rs:795-833 *)
| PBoolBody       (* BoolProperty::write_body: int_property.rs:326 *)
| PUtf8Slice.     (* str slicing off a char boundary: types.rs:183 *)

(** [Oof] is the model's own "fuel exhausted"; it is shown unreachable.
    The results [Result<_, Error>] (error.rs:118-129) and panics. *)
Inductive fault := Err (e : error) | Panic (p : psite) | Oof.

(** [Result<A, Error>] (error.rs:118-129), or a panic. *)
Inductive outcome (A : Type) := Ok (a : A) | Fail (f : fault).
Arguments Ok {A} a.
Arguments Fail {A} f.

(** A [Cursor] over the remaining input, plus the [properties_stack] of
    [PropertyOptions] (mod.rs:437-444), innermost entry first. *)
Record cur := Cur { pos : Z; rest : list byte; stk : list str }.

(** Functions [fn(&mut R) -> Result<A, Error>] of cursor_ext.rs:11-26 and the [read]s built from
    them; sequencing is [?]. *)
Definition reader (A : Type) := cur -> outcome (A * cur).

Definition ret {A} (a : A) : reader A := fun c => Ok (a, c).
Definition bind {A B} (r : reader A) (k : A -> reader B) : reader B :=
  fun c => match r c with
           | Ok (a, c') => k a c'
           | Fail f => Fail f
           end.
Definition fail {A} (f : fault) : reader A := fun _ => Fail f.

Notation "x <- r ;; k" := (bind r (fun x => k))
  (at level 61, r at next level, right associativity).
Notation "' p <- r ;; k" := (bind r (fun x => let p := x in k))
  (at level 61, p pattern, r at next level, right associativity).
Notation "r ;;; k" := (bind r (fun _ => k))
  (at level 61, right associativity).

(** [stream_position]. error.rs:55-84, mod.rs:160-180, int_property.rs:18-29. *)
Definition position : reader Z := fun c => Ok (pos c, c).
(** [read_exact] of [n] bytes; [n] is unsigned in the code.
    cursor_ext.rs:67, 83 and 103, unknown_property.rs:31. *)
Definition take (n : Z) : reader (list byte) :=
  fun c =>
    if n <=? len (rest c)
    then Ok (firstn (Z.to_nat n) (rest c),
             Cur (pos c + Z.max 0 n) (skipn (Z.to_nat n) (rest c)) (stk c))
    else Fail (Err EEof).

(** [ScopedStackEntry] (scoped_stack_entry.rs): push on entry; the entry is
    popped when the guard is dropped at the end of the scope.  On a fault the
    guard is dropped too, but the whole read is abandoned. *)
Definition push (s : str) : reader unit :=
  fun c => Ok (tt, Cur (pos c) (rest c) (s :: stk c)).
Definition pop : reader unit :=
  fun c => Ok (tt, Cur (pos c) (rest c) (tl (stk c))).
Definition get_stk : reader (list str) := fun c => Ok (stk c, c).
Definition scoped {A} (s : str) (r : reader A) : reader A :=
  push s ;;; a <- r ;; pop ;;; ret a.

(** [for _ in 0..n { v.push(r()?) }]: repetition with a binary counter, so that
    counts up to 2^32 need no unary number.
    array_property.rs:305-355, set_property.rs:65-80, map_property.rs:468-481, lib.rs:225-228. *)
Fixpoint rep_pos {A} (p : positive) (r : reader A) : reader (list A) :=
  match p with
  | xH => a <- r ;; ret [a]
  | xO q => l1 <- rep_pos q r ;; l2 <- rep_pos q r ;; ret (l1 ++ l2)
  | xI q => a <- r ;; l1 <- rep_pos q r ;; l2 <- rep_pos q r ;; ret (a :: l1 ++ l2)
  end.
Definition rep {A} (n : Z) (r : reader A) : reader (list A) :=
  match n with Zpos p => rep_pos p r | _ => ret [] end.

(** A [?] for each of a list of reads: the fields of a struct value, struct_property.rs:406-504. *)
Fixpoint mapM {A B} (f : A -> reader B) (l : list A) : reader (list B) :=
  match l with
  | [] => ret []
  | a :: r => b <- f a ;; bs <- mapM f r ;; ret (b :: bs)
  end.

(** Writers: the bytes appended and the [usize] the Rust function returns.
    [fn write(&self, &mut W) -> Result<usize, Error>], mod.rs:470-487; sequencing is [?], with the
    lengths added. *)
Definition out := outcome (list byte * Z).
Definition emit (bs : list byte) (n : Z) : out := Ok (bs, n).
Definition seq (a b : out) : out :=
  match a with
  | Fail f => Fail f
  | Ok (x, n) => match b with
                 | Fail f => Fail f
                 | Ok (y, m) => Ok (x ++ y, n + m)
                 end
  end.
Notation "a +> b" := (seq a b) (at level 60, right associativity).
Definition skip : out := emit [] 0.
Definition wpanic (p : psite) : out := Fail (Panic p).

(** Sequencing over a list of writers. *)
Section Seqs.
  Context {A : Type} (f : A -> out).
  (** [for x in &self.xs { len += x.write(..)? }]: array_property.rs:375-378,
      set_property.rs:101-103. *)
  Fixpoint seqs (l : list A) : out :=
    match l with
    | [] => skip
    | a :: r => f a +> seqs r
    end.
End Seqs.

(** [IndexMap::insert] with decidable key equality: replace the value in place,
    or append. lib.rs:227 and 481, text_property.rs:340 and 371, through types.rs:211-258. *)
Fixpoint ins {K V} (eqb : K -> K -> bool) (l : list (K * V)) (k : K) (v : V)
  : list (K * V) :=
  match l with
  | [] => [(k, v)]
  | (k', v') :: r => if eqb k k' then (k', v) :: r else (k', v') :: ins eqb r k v
  end.
Definition ins_all {K V} (eqb : K -> K -> bool) (l : list (K * V)) : list (K * V) :=
  fold_left (fun acc kv => ins eqb acc (fst kv) (snd kv)) l [].

(** [IndexMap::get], mod.rs:454. *)
Fixpoint lookup {K V} (eqb : K -> K -> bool) (k : K) (l : list (K * V)) : option V :=
  match l with
  | [] => None
  | (k', v) :: r => if eqb k k' then Some v else lookup eqb k r
  end.
