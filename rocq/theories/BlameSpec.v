(** What a failed read blames.  For every fault the offset [q] and the bytes [d] of the input it is
    about; the position and the values inside the error are those of these bytes.  Written from
    the format and the wording of error.rs:10-84 alone; nothing of the readers is used. *)
From Coq Require Import ZArith List Bool String.
From Verif Require Import Base Types StrThm.
Import ListNotations.
Open Scope Z_scope.

Definition unsigned (w : nat) (v : Z) (d : list byte) : Prop :=
  d = le_bytes w v /\ 0 <= v < 2 ^ (8 * Z.of_nat w).
Definition signed (w : nat) (v : Z) (d : list byte) : Prop :=
  d = le_bytes w v /\ - 2 ^ (8 * Z.of_nat w - 1) <= v < 2 ^ (8 * Z.of_nat w - 1).

(** The values an enumeration byte can have. *)
Definition listed (t : etype) : list Z :=
  match t with
  | ETHistory => [-1; 0; 1; 2; 3; 4; 5; 6; 7; 8; 9; 10; 11; 12; 13]
  | ETArgument => [0; 1; 2; 3; 4; 5]
  | ETRounding => [0; 1; 2; 3; 4; 5; 6]
  | ETStyle => [0; 1; 2; 3; 4]
  | ETTransform => [0; 1]
  | ETCompression => [48; 49; 50]
  end.

(** The header field, where it is and what it should be. *)
Definition field_wrong (f : hfield) (v q : Z) : Prop :=
  match f with
  | HFileType => q = 0 /\ v <> 0x53415647
  | HSaveVersion => q = 4 /\ ~ (2 <= v <= 3)
  | HPackage => q = 8 /\ ~ (0x205 <= v <= 0x20D)
  | HPackageUE5 => q = 12 /\ ~ (1000 <= v <= 1009)
  | HCustomFormat => 27 <= q /\ v <> 3
  end.

Definition nested_containers : list str :=
  map s2z ["ArrayProperty is not supported in arrays"; "SetProperty is not supported in arrays";
           "MapProperty is not supported in arrays"]%string.
Definition property_types : list str :=
  map s2z ["Int8Property"; "Int16Property"; "IntProperty"; "Int64Property"; "UInt16Property";
           "UInt32Property"; "UInt64Property"; "FloatProperty"; "DoubleProperty";
           "BoolProperty"; "ByteProperty"; "EnumProperty"; "StrProperty"; "TextProperty";
           "NameProperty"; "ObjectProperty"; "DelegateProperty";
           "MulticastInlineDelegateProperty"; "MulticastSparseDelegateProperty";
           "FieldPathProperty"; "ArrayProperty"; "SetProperty"; "MapProperty";
           "StructProperty"]%string.

(** A value of [got] bytes at [p], behind a header that declares [expected]: length, index,
    further names, terminator. *)
Definition body_size (expected got p q : Z) (d : list byte) : Prop :=
  exists index names body, unsigned 4 expected (le_bytes 4 expected)
    /\ d = le_bytes 4 expected ++ index ++ names ++ [Byte.x00] ++ body
    /\ len index = 4 /\ len body = got /\ got <> expected /\ p = q + 4 + 4 + len names + 1.
(** A number or truth value declares its size in eight bytes. *)
Definition number_size (expected got p q : Z) (d : list byte) : Prop :=
  unsigned 8 got d /\ In expected [0; 1; 2; 4; 8] /\ got <> expected /\ p = q + 8.
(** The elements of an array of structs: declared size, type name, guid, terminator, elements. *)
Definition elements_size (what : str) (p q : Z) (d : list byte) : Prop :=
  exists size tname name g body, unsigned 8 size (le_bytes 8 size)
    /\ d = le_bytes 8 size ++ name ++ g ++ [Byte.x00] ++ body
    /\ stored (Some tname) name /\ len g = 16 /\ len body <> size
    /\ what = decimal (len body) ++ s2z " != " ++ decimal size /\ p = q + len d.

Definition blamed (o : opts) (e : error) (q : Z) (d : list byte) : Prop :=
  match e with
  | EEof | EIo | EMagic _ | ESerialize _ => False
  | EHeader f v => unsigned 4 v d /\ field_wrong f v q
  | EValueSize expected got p => body_size expected got p q d \/ number_size expected got p q d
  | EString n p => signed 4 n d /\ (n = 0 \/ 131072 < Z.abs n) /\ p = q
  | EStrTerm t p => exists n body x, 1 <= Z.abs n <= 131072 /\ t <> 0 /\ p = q + len d
      /\ d = le_bytes 4 n ++ body ++ x
      /\ (0 < n /\ len body = n - 1 /\ unsigned 1 t x \/ n < 0 /\ len body = 2 * (- n - 1) /\ unsigned 2 t x)
  | EUtf8 p => exists body, len body + 1 <= 131072 /\ p = q
      /\ d = le_bytes 4 (len body + 1) ++ body ++ [Byte.x00]
      /\ ~ exists s us, coded char8 s us /\ body = map z2b us
  | EUtf16 p => exists ws, len ws + 1 <= 131072 /\ p = q /\ Forall (fun w => 0 <= w < 65536) ws
      /\ d = le_bytes 4 (- (len ws + 1)) ++ flat_map (le_bytes 2) ws ++ [Byte.x00; Byte.x00]
      /\ ~ exists s, coded char16 s ws
  | EBool v p => (unsigned 1 v d \/ unsigned 4 v d) /\ 2 <= v /\ p = q + len d
  | EEnum t v p => signed 1 v d /\ ~ In v (listed t) /\ p = q + 1
  | EArrayIndex i p => unsigned 4 i d /\ i <> 0 /\ p = q
  | ETerm t p => unsigned 1 t d /\ t <> 0 /\ p = q
  | EHint path p => d = [] /\ hints o path = None /\ p = q
  | EProperty what p =>
      d = [] /\ (In what nested_containers \/ ~ In what property_types) /\ p = q
      \/ elements_size what p q d
  end.

(** The same for panics; those of debug builds are about lengths and indices met before. *)
Definition tripped (o : opts) (s : psite) (d : list byte) : Prop :=
  match s with
  | PSeparator | PIndicator => exists v, unsigned 1 v d /\ v <> 0
  | PArrayIndex => exists v, unsigned 4 v d /\ v <> 0
  | PArrayStruct => exists t, stored (Some t) d /\ t <> s2z "StructProperty"
  | PCapacity => exists n, signed 4 n d /\ n < 0
  | PHistory => exists v, unsigned 1 v d /\ 12 <= v <= 13
  | PGender => unsigned 1 5 d
  | PByteLength | PSetLength | PStructIndex => d = [] /\ dbg o = true
  | PArgWidth | PBoolBody | PUtf8Slice => False
  end.
Definition about (o : opts) (f : fault) (q : Z) (d : list byte) : Prop :=
  match f with
  | Err e => blamed o e q d
  | Panic s => tripped o s d
  | Oof => False
  end.
