(** Hashing: the bytes a value feeds to a [Hasher].  No proofs in this file.

    [derive(Hash)] hashes the discriminant (8 bytes, or 1 byte for [repr(i8)]
    enums), then the fields in declaration order; strings end in 0xFF; vectors
    and arrays start with their length as [usize]; [bool] is one byte;
    [OrderedFloat] hashes 8 bytes made of mantissa, exponent and sign.  [SipHash], the
    hasher of [IndexMap], only sees the concatenation of these bytes. *)
From Coq Require Import ZArith List Bool String.
From Verif Require Import Base Str Types Guid.
Import ListNotations.
Open Scope Z_scope.

(** What the derived [Hash] of mod.rs:494 and its parts writes for integers, discriminants,
    booleans, strings and options. *)
Definition h_int (w : nat) (z : Z) : list byte := le_bytes w z.
Definition h_disc (z : Z) : list byte := h_int 8 z.
Definition h_bool (b : bool) : list byte := h_int 1 (if b then 1 else 0).
Definition h_str (s : str) : list byte := map z2b (utf8_enc s) ++ [Byte.xff].
Definition h_opt {A} (f : A -> list byte) (o : option A) : list byte :=
  match o with None => h_disc 0 | Some a => h_disc 1 ++ f a end.
(** [Vec<T>], slices and arrays. array_property.rs:29, types.rs:9. *)
Definition h_vec {A} (f : A -> list byte) (l : list A) : list byte :=
  h_int 8 (len l) ++ flat_map f l.
(** [HashableIndexMap], types.rs:251-256: entries in order, no length. *)
Definition h_map {K V} (f : K -> list byte) (g : V -> list byte) (l : list (K * V)) : list byte :=
  flat_map (fun e => f (fst e) ++ g (snd e)) l.
Definition h_guid (g : guid) : list byte := h_vec (fun b => [b]) g.

(** [OrderedFloat] of ordered-float 5.1 (struct_types.rs:17-38): -0 becomes 0, and what is hashed
    is a [u64], for singles as for doubles: one fixed pattern for NaNs, else 52 bits of the
    mantissa, 11 bits of the exponent and a bit that is set if the float is positive, all
    as given by [integer_decode] of num-traits: an integer mantissa with its leading bit, or
    twice the mantissa below the least normal float, and the exponent of its last bit. *)
Definition raw_bits (man exp : Z) (positive : bool) : Z :=
  man mod 4503599627370496 + 4503599627370496 * (exp mod 2048) + if positive then 9223372036854775808 else 0.
Definition decode32 (z : Z) : Z :=
  let m := z mod 8388608 in let e := z / 8388608 mod 256 in
  raw_bits (if e =? 0 then 2 * m else 8388608 + m) (e - 150) (z / 2147483648 mod 2 =? 0).
Definition decode64 (z : Z) : Z :=
  let m := z mod 4503599627370496 in let e := z / 4503599627370496 mod 2048 in
  raw_bits (if e =? 0 then 2 * m else 4503599627370496 + m) (e - 1075) (z / 9223372036854775808 mod 2 =? 0).
Definition canon32 (z : Z) : Z :=
  if f32_nan z then 9221120237041090560 else decode32 (if z mod 2147483648 =? 0 then 0 else z).
Definition canon64 (z : Z) : Z :=
  if f64_nan z then 9221120237041090560 else decode64 (if z mod 9223372036854775808 =? 0 then 0 else z).
Definition h_f32 (z : Z) := h_int 8 (canon32 z).
Definition h_f64 (z : Z) := h_int 8 (canon64 z).
(** int_property.rs:34 and 89, struct_types.rs:54. *)
Definition h_num (k : num) (z : Z) : list byte :=
  match k with F32 => h_f32 z | F64 => h_f64 z | _ => h_int (Z.to_nat (num_width k)) z end.
Fixpoint h_nums (ks : list num) (l : list Z) : list byte :=
  match ks, l with
  | k :: ks', z :: r => h_num k z ++ h_nums ks' r
  | [], z :: r => h_int 8 z ++ h_nums [] r
  | _, [] => []
  end.

(** [NumberFormattingOptions], text_property.rs:881-899. *)
Definition h_numfmt (f : numfmt) : list byte :=
  h_bool (nf_sign f) ++ h_bool (nf_group f) ++ h_int 1 (nf_round f) ++ h_int 4 (nf_mini f)
  ++ h_int 4 (nf_maxi f) ++ h_int 4 (nf_minf f) ++ h_int 4 (nf_maxf f).

(** text_property.rs:65-74, 174-294, 734-751. *)
Fixpoint h_text (t : ftext) : list byte :=
  match t with FText f h => h_int 4 f ++ h_hist h end
with h_hist (h : fhist) : list byte :=
  match h with
  | HEmpty => h_disc 0
  | HNone s => h_disc 1 ++ h_opt h_str s
  | HBase a b c => h_disc 2 ++ h_opt h_str a ++ h_opt h_str b ++ h_opt h_str c
  | HNamed t l => h_disc 3 ++ h_text t ++ h_map h_str h_arg l
  | HOrdered t l => h_disc 4 ++ h_text t ++ h_vec h_arg l
  | HArgument t l => h_disc 5 ++ h_text t ++ h_map h_str h_arg l
  | HNumber v o c => h_disc 6 ++ h_arg v ++ h_opt h_numfmt o ++ h_opt h_str c
  | HPercent v o c => h_disc 7 ++ h_arg v ++ h_opt h_numfmt o ++ h_opt h_str c
  | HCurrency d v o c => h_disc 8 ++ h_opt h_str d ++ h_arg v ++ h_opt h_numfmt o ++ h_opt h_str c
  | HDate t s c => h_disc 9 ++ h_int 8 t ++ h_int 1 s ++ h_str c
  | HTime t s z c => h_disc 10 ++ h_int 8 t ++ h_int 1 s ++ h_str z ++ h_str c
  | HDateTime t s u z c => h_disc 11 ++ h_int 8 t ++ h_int 1 s ++ h_int 1 u ++ h_str z ++ h_str c
  | HTransform t x => h_disc 12 ++ h_text t ++ h_int 1 x
  | HTable a b => h_disc 13 ++ h_str a ++ h_str b
  end
with h_arg (a : farg) : list byte :=
  match a with
  | AInt z => h_disc 0 ++ h_int 4 z
  | AUInt z => h_disc 1 ++ h_int 4 z
  | AFloat z => h_disc 2 ++ h_f32 z
  | ADouble z => h_disc 3 ++ h_f64 z
  | AText t => h_disc 4 ++ h_text t
  | AInt64 z => h_disc 5 ++ h_int 8 z
  | AUInt64 z => h_disc 6 ++ h_int 8 z
  end.

Definition h_bytev (v : bytev) : list byte :=
  match v with BByte b => h_disc 0 ++ [b] | BName s => h_disc 1 ++ h_str s end.
(** Discriminants of [Property], mod.rs:494-548, and [StructPropertyValue],
    struct_property.rs:53-86. *)
Definition num_disc (k : num) : Z :=
  match k with
  | F64 => 3 | F32 => 5 | I16 => 6 | I64 => 7 | I8 => 8 | I32 => 9
  | U16 => 22 | U32 => 23 | U64 => 24
  end.
Definition fixed_disc (x : fixed) : Z :=
  match x with
  | XVector2F => 0 | XVector2D => 1 | XVectorF => 2 | XVectorD => 3 | XRotatorF => 4
  | XRotatorD => 5 | XQuatF => 6 | XQuatD => 7 | XDateTime => 8 | XTimespan => 9
  | XLinearColor => 11 | XIntPoint => 12
  end.
(** Discriminants of [MapProperty], map_property.rs:27-96. *)
Definition keyk_disc (k : keyk) : Z := match k with KkEnum => 0 | KkName => 3 | KkStr => 7 end.

Fixpoint h_prop (p : property) : list byte :=
  match p with
  | PArray a => h_disc 0 ++ h_array a
  | PBool b => h_disc 1 ++ h_bool b
  | PByte n v => h_disc 2 ++ h_opt h_str n ++ h_bytev v
  | PNum k z => h_disc (num_disc k) ++ h_num k z
  | PEnum t v => h_disc 4 ++ h_opt h_str t ++ h_str v
  | PMap m => h_disc 10 ++ h_mapp m
  | PName i v => h_disc 11 ++ h_int 4 i ++ h_opt h_str v
  | PObject v => h_disc 12 ++ h_str v
  | PDelegate o f => h_disc 13 ++ h_str o ++ h_str f
  | PMulti inline l =>
    h_disc (if inline then 14 else 15) ++ h_vec (fun d => h_str (fst d) ++ h_str (snd d)) l
  | PFieldPath l o => h_disc 16 ++ h_vec h_str l ++ h_str o
  | PSet t f l => h_disc 17 ++ h_str t ++ h_int 4 f ++ h_vec h_prop l
  | PStr v => h_disc 18 ++ h_opt h_str v
  | PStruct g t v => h_disc 19 ++ h_guid g ++ h_str t ++ h_sval v
  | PSValue v => h_disc 20 ++ h_sval v
  | PText t => h_disc 21 ++ h_text t
  | PUnknown n r => h_disc 25 ++ h_str n ++ h_vec (fun b => [b]) r
  end
with h_sval (v : svalue) : list byte :=
  match v with
  | SFixed x l => h_disc (fixed_disc x) ++ h_nums (layout x) l
  | SGuid g => h_disc 10 ++ h_guid g
  | STags l => h_disc 13 ++ h_vec h_str l
  | SCustom l => h_disc 14 ++ h_map h_str (h_vec h_prop) l
  end
with h_array (a : arrayp) : list byte :=
  match a with
  | ABools l => h_disc 0 ++ h_vec h_bool l
  | ABytes l => h_disc 1 ++ h_vec (fun b => [b]) l
  | AEnums l => h_disc 2 ++ h_vec h_str l
  | AFloats l => h_disc 3 ++ h_vec h_f32 l
  | AInts l => h_disc 4 ++ h_vec (h_int 4) l
  | ANames l => h_disc 5 ++ h_vec (h_opt h_str) l
  | AStrings l => h_disc 6 ++ h_vec (h_opt h_str) l
  | AStructs f t g l => h_disc 7 ++ h_str f ++ h_str t ++ h_guid g ++ h_vec h_sval l
  | AProps t l => h_disc 8 ++ h_str t ++ h_vec h_prop l
  end
with h_mapp (m : mapp) : list byte :=
  match m with
  | MBool k l => h_disc (keyk_disc k) ++ h_map h_str h_bool l
  | MInt k l => h_disc (keyk_disc k + 1) ++ h_map h_str (h_int 4) l
  | MProp k t l => h_disc (keyk_disc k + 2) ++ h_str t ++ h_map h_str h_prop l
  | MGen kt vt f l => h_disc 6 ++ h_str kt ++ h_str vt ++ h_int 4 f ++ h_map h_prop h_prop l
  | MStrStr l => h_disc 10 ++ h_map h_str (h_opt h_str) l
  end.
