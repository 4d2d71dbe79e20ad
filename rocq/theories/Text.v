(** Text properties: text_property.rs.  No proofs in this file. *)
From Coq Require Import ZArith List Bool String.
From Verif Require Import Base Str Types Versions.
Import ListNotations.
Open Scope Z_scope.

(** [TryFromPrimitive] of a plain [repr(i8)] enumeration. *)
Definition enum_of {A} (f : A -> Z) (l : list A) (z : Z) : option A :=
  find (fun a => f a =? z) l.
(** The same for enumerations kept as their discriminant 0..n. text_property.rs:859-968. *)
Definition upto (n z : Z) : option Z := if inr 0 n z then Some z else None.

(** [TextHistoryType], text_property.rs:139-171. *)
Inductive htype :=
| TNone | TBase | TNamed | TOrdered | TArgument | TNumber | TPercent | TCurrency
| TDate | TTime | TDateTime | TTransform | TTable | TGenerator | TRaw.
Definition htype_z (t : htype) : Z :=
  match t with
  | TNone => -1 | TBase => 0 | TNamed => 1 | TOrdered => 2 | TArgument => 3
  | TNumber => 4 | TPercent => 5 | TCurrency => 6 | TDate => 7 | TTime => 8
  | TDateTime => 9 | TTransform => 10 | TTable => 11 | TGenerator => 12 | TRaw => 13
  end.
Definition htypes :=
  [TNone; TBase; TNamed; TOrdered; TArgument; TNumber; TPercent; TCurrency;
   TDate; TTime; TDateTime; TTransform; TTable; TGenerator; TRaw].

(** [FormatArgumentType], text_property.rs:718-731. *)
Inductive atype := TyInt | TyUInt | TyFloat | TyDouble | TyText | TyGender.
Definition atype_z (t : atype) : Z :=
  match t with
  | TyInt => 0 | TyUInt => 1 | TyFloat => 2 | TyDouble => 3 | TyText => 4 | TyGender => 5
  end.
Definition atypes := [TyInt; TyUInt; TyFloat; TyDouble; TyText; TyGender].

(** [RoundingMode] 863-878, [DateTimeStyle] 943-957, [TransformType] 961-967.
    All in text_property.rs. *)
Definition r_rounding := r_enum ETRounding (upto 6).
Definition r_style := r_enum ETStyle (upto 4).
Definition r_transform := r_enum ETTransform (upto 1).

(** [NumberFormattingOptions::read] and [write], text_property.rs:904-939. *)
Definition r_numfmt : reader numfmt :=
  a <- r_b32 ;; b <- r_b32 ;; r <- r_rounding ;;
  c <- r_i32 ;; d <- r_i32 ;; e <- r_i32 ;; f <- r_i32 ;;
  ret (NumFmt a b r c d e f).
Definition w_numfmt (o : numfmt) : out :=
  w_b32 (nf_sign o) +> w_b32 (nf_group o) +> w_enum (nf_round o)
  +> w_int 4 (nf_mini o) +> w_int 4 (nf_maxi o)
  +> w_int 4 (nf_minf o) +> w_int 4 (nf_maxf o).

(** The optional options of AsNumber, AsPercent, AsCurrency
    (text_property.rs:382-387 and 603-607). *)
Definition r_optfmt : reader (option numfmt) :=
  b <- r_b32 ;;
  if b then (o <- r_numfmt ;; ret (Some o)) else ret None.
Definition w_optfmt (o : option numfmt) : out :=
  match o with
  | Some f => w_b32 true +> w_numfmt f
  | None => w_b32 false
  end.

(** An [i32] element count used as a capacity: negative values panic.
    text_property.rs:334-335, 351-352 and 365-366. *)
Definition r_count : reader Z :=
  n <- r_i32 ;;
  if n <? 0 then fail (Panic PCapacity) else ret n.

(** [FormatArgumentValue::read], text_property.rs:756-784; [rt] is [FText::read]. *)
Definition r_farg (vs : list (guid * Z)) (rt : reader ftext) : reader farg :=
  t <- r_enum ETArgument (enum_of atype_z atypes) ;;
  match t with
  | TyInt => if has_arg64 vs then (v <- r_sint 8 ;; ret (AInt64 v))
             else (v <- r_sint 4 ;; ret (AInt v))
  | TyUInt => if has_arg64 vs then (v <- r_uint 8 ;; ret (AUInt64 v))
              else (v <- r_uint 4 ;; ret (AUInt v))
  | TyFloat => v <- r_uint 4 ;; ret (AFloat v)
  | TyDouble => v <- r_uint 8 ;; ret (ADouble v)
  | TyText => v <- rt ;; ret (AText v)
  | TyGender => fail (Panic PGender)
  end.

(** Named arguments: [arguments.insert(key, value)] in a loop,
    text_property.rs:334-341 and 365-372. *)
Definition r_named (vs : list (guid * Z)) (rt : reader ftext) : reader (list (str * farg)) :=
  n <- r_count ;;
  l <- rep n (k <- r_string ;; v <- r_farg vs rt ;; ret (k, v)) ;;
  ret (ins_all str_eqb l).

(** [FTextHistory::read], text_property.rs:299-498. *)
Definition r_hist (vs : list (guid * Z)) (rt : reader ftext) : reader fhist :=
  t <- r_enum ETHistory (enum_of htype_z htypes) ;;
  match t with
  | TNone =>
    if has_culture vs then
      b <- r_b32 ;;
      if b then (s <- r_fstring ;; ret (HNone s)) else ret HEmpty
    else ret HEmpty
  | TBase => a <- r_fstring ;; b <- r_fstring ;; c <- r_fstring ;; ret (HBase a b c)
  | TNamed => t <- rt ;; l <- r_named vs rt ;; ret (HNamed t l)
  | TOrdered =>
    t <- rt ;; n <- r_count ;; l <- rep n (r_farg vs rt) ;; ret (HOrdered t l)
  | TArgument => t <- rt ;; l <- r_named vs rt ;; ret (HArgument t l)
  | TNumber =>
    v <- r_farg vs rt ;; o <- r_optfmt ;; c <- r_fstring ;; ret (HNumber v o c)
  | TPercent =>
    v <- r_farg vs rt ;; o <- r_optfmt ;; c <- r_fstring ;; ret (HPercent v o c)
  | TCurrency =>
    d <- r_fstring ;; v <- r_farg vs rt ;; o <- r_optfmt ;; c <- r_fstring ;;
    ret (HCurrency d v o c)
  | TDate => t <- r_u64 ;; s <- r_style ;; c <- r_string ;; ret (HDate t s c)
  | TTime =>
    t <- r_u64 ;; s <- r_style ;; z <- r_string ;; c <- r_string ;; ret (HTime t s z c)
  | TDateTime =>
    t <- r_u64 ;; s <- r_style ;; u <- r_style ;; z <- r_string ;; c <- r_string ;;
    ret (HDateTime t s u z c)
  | TTransform => t <- rt ;; x <- r_transform ;; ret (HTransform t x)
  | TTable => a <- r_string ;; b <- r_string ;; ret (HTable a b)
  | TGenerator => fail (Panic PHistory)
  | TRaw => fail (Panic PHistory)
  end.

(** [FText::read], text_property.rs:115-120.  [n] bounds the nesting depth. *)
Fixpoint r_text (n : nat) (vs : list (guid * Z)) : reader ftext :=
  match n with
  | O => fail Oof
  | S n' => f <- r_u32 ;; h <- r_hist vs (r_text n' vs) ;; ret (FText f h)
  end.

(** [assert!(supports 64 bit == wide)], text_property.rs:795-833. *)
Definition w_argint (vs : list (guid * Z)) (wide : bool) (t : atype) (v : Z) : out :=
  if Bool.eqb (has_arg64 vs) wide
  then w_enum (atype_z t) +> w_int (if wide then 8 else 4) v
  else wpanic PArgWidth.

(** [FText::write] 124-133, [FTextHistory::write] 502-712,
    [FormatArgumentValue::write] 788-855. All in text_property.rs. *)
Fixpoint w_text (vs : list (guid * Z)) (t : ftext) : out :=
  match t with
  | FText f h => w_u32 f +> w_hist vs h
  end
with w_hist (vs : list (guid * Z)) (h : fhist) : out :=
  match h with
  | HEmpty =>
    w_enum (htype_z TNone) +> (if has_culture vs then w_b32 false else skip)
  | HNone s =>
    w_enum (htype_z TNone)
    +> (if has_culture vs then w_b32 true +> w_fstring s else skip)
  | HBase a b c => w_enum (htype_z TBase) +> w_fstring a +> w_fstring b +> w_fstring c
  | HNamed t l =>
    w_enum (htype_z TNamed) +> w_text vs t +> w_int 4 (len l)
    +> seqs (fun '(k, v) => w_string k +> w_farg vs v) l
  | HOrdered t l =>
    w_enum (htype_z TOrdered) +> w_text vs t +> w_int 4 (len l)
    +> seqs (w_farg vs) l
  | HArgument t l =>
    w_enum (htype_z TArgument) +> w_text vs t +> w_int 4 (len l)
    +> seqs (fun '(k, v) => w_string k +> w_farg vs v) l
  | HNumber v o c =>
    w_enum (htype_z TNumber) +> w_farg vs v +> w_optfmt o +> w_fstring c
  | HPercent v o c =>
    w_enum (htype_z TPercent) +> w_farg vs v +> w_optfmt o +> w_fstring c
  | HCurrency d v o c =>
    w_enum (htype_z TCurrency) +> w_fstring d +> w_farg vs v +> w_optfmt o +> w_fstring c
  | HDate t s c => w_enum (htype_z TDate) +> w_u64 t +> w_enum s +> w_string c
  | HTime t s z c =>
    w_enum (htype_z TTime) +> w_u64 t +> w_enum s +> w_string z +> w_string c
  | HDateTime t s u z c =>
    w_enum (htype_z TDateTime) +> w_u64 t +> w_enum s +> w_enum u +> w_string z +> w_string c
  | HTransform t x => w_enum (htype_z TTransform) +> w_text vs t +> w_enum x
  | HTable a b => w_enum (htype_z TTable) +> w_string a +> w_string b
  end
with w_farg (vs : list (guid * Z)) (a : farg) : out :=
  match a with
  | AInt v => w_argint vs false TyInt v
  | AInt64 v => w_argint vs true TyInt v
  | AUInt v => w_argint vs false TyUInt v
  | AUInt64 v => w_argint vs true TyUInt v
  | AFloat v => w_enum (atype_z TyFloat) +> w_int 4 v
  | ADouble v => w_enum (atype_z TyDouble) +> w_int 8 v
  | AText t => w_enum (atype_z TyText) +> w_text vs t
  end.
