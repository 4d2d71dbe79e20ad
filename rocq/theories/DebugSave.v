(** Saving in a debug build.  Of the arithmetic in the writers only the negation in
    [write_string] (cursor_ext.rs:160) can overflow below 2^63: it is checked in a debug
    build and wraps in a release build.  The writers of [Text.v], [Props.v], [Versions.v]
    and [File.v] again, with the writer of strings as a parameter. *)
From Coq Require Import ZArith List Bool String.
From Verif Require Import Base Str Types Versions Text Props File.
Import ListNotations.
Open Scope Z_scope.

(** [len as i32], cursor_ext.rs:152 and 160. *)
Definition as_i32 (n : Z) : Z := to_signed 4 (n mod 0x100000000).
(** [-n] of an [i32] with overflow checks: the least one has no negation.  cursor_ext.rs:160. *)
Definition neg_i32 (n : Z) : option Z := if n =? -0x80000000 then None else Some (- n).
(** [write_string] in a debug build, cursor_ext.rs:147-167.  [site] stands for the panic
    of the negation. *)
Definition debug_string (site : psite) (s : str) : out :=
  if is_ascii s then w_string s
  else match neg_i32 (as_i32 (len (utf16_enc s) + 1)) with
       | None => wpanic site
       | Some n =>
         emit (le_bytes 4 n ++ flat_map (le_bytes 2) (utf16_enc s) ++ le_bytes 2 0)
              (2 * (len (utf16_enc s) + 1) + 4)
       end.

Section Writers.
Variable ws : str -> out.

(** [write_fstring], cursor_ext.rs:169-177. *)
Definition dw_fstring (o : option str) : out :=
  match o with
  | Some s => ws s
  | None => w_int 4 0
  end.

(** [FText::write] 124-133, [FTextHistory::write] 502-712,
    [FormatArgumentValue::write] 788-855. All in text_property.rs. *)
Fixpoint dw_text (vs : list (guid * Z)) (t : ftext) : out :=
  match t with
  | FText f h => w_u32 f +> dw_hist vs h
  end
with dw_hist (vs : list (guid * Z)) (h : fhist) : out :=
  match h with
  | HEmpty =>
    w_enum (htype_z TNone) +> (if has_culture vs then w_b32 false else skip)
  | HNone s =>
    w_enum (htype_z TNone)
    +> (if has_culture vs then w_b32 true +> dw_fstring s else skip)
  | HBase a b c => w_enum (htype_z TBase) +> dw_fstring a +> dw_fstring b +> dw_fstring c
  | HNamed t l =>
    w_enum (htype_z TNamed) +> dw_text vs t +> w_int 4 (len l)
    +> seqs (fun '(k, v) => ws k +> dw_farg vs v) l
  | HOrdered t l =>
    w_enum (htype_z TOrdered) +> dw_text vs t +> w_int 4 (len l)
    +> seqs (dw_farg vs) l
  | HArgument t l =>
    w_enum (htype_z TArgument) +> dw_text vs t +> w_int 4 (len l)
    +> seqs (fun '(k, v) => ws k +> dw_farg vs v) l
  | HNumber v o c =>
    w_enum (htype_z TNumber) +> dw_farg vs v +> w_optfmt o +> dw_fstring c
  | HPercent v o c =>
    w_enum (htype_z TPercent) +> dw_farg vs v +> w_optfmt o +> dw_fstring c
  | HCurrency d v o c =>
    w_enum (htype_z TCurrency) +> dw_fstring d +> dw_farg vs v +> w_optfmt o +> dw_fstring c
  | HDate t s c => w_enum (htype_z TDate) +> w_u64 t +> w_enum s +> ws c
  | HTime t s z c =>
    w_enum (htype_z TTime) +> w_u64 t +> w_enum s +> ws z +> ws c
  | HDateTime t s u z c =>
    w_enum (htype_z TDateTime) +> w_u64 t +> w_enum s +> w_enum u +> ws z +> ws c
  | HTransform t x => w_enum (htype_z TTransform) +> dw_text vs t +> w_enum x
  | HTable a b => w_enum (htype_z TTable) +> ws a +> ws b
  end
with dw_farg (vs : list (guid * Z)) (a : farg) : out :=
  match a with
  | AInt v => w_argint vs false TyInt v
  | AInt64 v => w_argint vs true TyInt v
  | AUInt v => w_argint vs false TyUInt v
  | AUInt64 v => w_argint vs true TyUInt v
  | AFloat v => w_enum (atype_z TyFloat) +> w_int 4 v
  | ADouble v => w_enum (atype_z TyDouble) +> w_int 8 v
  | AText t => w_enum (atype_z TyText) +> dw_text vs t
  end.

(** [impl_write!], mod.rs:315-375.  The name is not counted in the
    [array_index] variant. *)
Definition dwith_header (hdr : bool) (name : str) (counted : bool) (idx : Z)
           (extra body : out) : out :=
  if hdr then
    match body with
    | Fail f => Fail f
    | Ok (b, n) =>
      (if counted then ws name
       else match ws name with Ok (x, _) => emit x 0 | Fail f => Fail f end)
      +> w_u32 (len b) +> w_u32 idx +> extra +> w_u8 0 +> emit b n
    end
  else body.

(** A map key written through EnumProperty, NameProperty or StrProperty.
    map_property.rs:500-600. *)
Definition dw_key (k : keyk) (s : str) : out :=
  match k with KkEnum => ws s | KkName | KkStr => dw_fstring (Some s) end.

(** [ByteProperty::write_body], int_property.rs:249-262. *)
Definition dw_bytev (v : bytev) : out :=
  match v with BByte b => emit [b] 1 | BName s => ws s end.
(** Header of [ByteProperty::write], int_property.rs:223-246. *)
Definition dw_pbyte (hdr : bool) (name : option str) (v : bytev) : out :=
  if hdr then
    match dw_bytev v with
    | Fail f => Fail f
    | Ok (b, n) =>
      ws (kind_name KByte) +> w_u64 (len b) +> dw_fstring name +> w_u8 0 +> emit b n
    end
  else dw_bytev v.
(** [BoolProperty::write], int_property.rs:304-323. *)
Definition dw_pbool (hdr : bool) (b : bool) : out :=
  if hdr then ws (kind_name KBool) +> w_u64 0 +> w_bool b +> w_u8 0 else w_bool b.

(** [PropertyTrait::write] of every property.  Line references as for the
    readers; [impl_write!] supplies the headers. mod.rs:315-400 and 470-487. *)
Fixpoint dw_prop (vs : list (guid * Z)) (hdr : bool) (p : property) {struct p} : out :=
  match p with
  | PNum k z => dwith_header hdr (num_name k) true 0 skip (w_int (num_width k) z)
  | PBool b => dw_pbool hdr b
  | PByte name v => dw_pbyte hdr name v
  | PEnum ty v => dwith_header hdr (kind_name KEnum) true 0 (dw_fstring ty) (ws v)
  | PStr v => dwith_header hdr (kind_name KStr) true 0 skip (dw_fstring v)
  | PText t => dwith_header hdr (kind_name KText) true 0 skip (dw_text vs t)
  | PName i v => dwith_header hdr (kind_name KName) false i skip (dw_fstring v)
  | PObject v => dwith_header hdr (kind_name KObject) true 0 skip (ws v)
  | PDelegate a b =>
    dwith_header hdr (kind_name KDelegate) true 0 skip (ws a +> ws b)
  | PMulti inline l =>
    dwith_header hdr (kind_name (KMulti inline)) true 0 skip
      (w_u32 (len l) +> seqs (fun '(a, b) => ws a +> ws b) l)
  | PFieldPath l s =>
    dwith_header hdr (kind_name KFieldPath) true 0 skip
      (w_u32 (len l) +> seqs ws l +> ws s)
  | PUnknown name raw => dwith_header hdr name true 0 skip (emit raw (len raw))
  | PArray a =>
    dwith_header hdr (kind_name KArray) true 0 (ws (array_type a)) (dw_array vs a)
  | PSet ty flags l =>
    dwith_header hdr (kind_name KSet) true 0 (ws ty)
      (w_u32 flags +> w_u32 (len l) +> seqs (dw_prop vs false) l)
  | PMap m =>
    dwith_header hdr (kind_name KMap) true 0
      (ws (map_key_type m) +> ws (map_value_type m)) (dw_map vs m)
  | PStruct g ty v =>
    dwith_header hdr (kind_name KStruct) true 0 (ws ty +> w_guid g) (dw_sval vs v)
  | PSValue v =>
    if hdr then Fail (Err (ESerialize SStructHeader)) else dw_sval vs v
  end
(** [StructPropertyValue::write_body], struct_property.rs:235-369. *)
with dw_sval (vs : list (guid * Z)) (v : svalue) {struct v} : out :=
  match v with
  | SFixed x l => w_fixed vs x l
  | SGuid g => w_guid g
  | STags l => emit (le_bytes 4 (len l)) (len l) +> seqs ws l
  | SCustom l =>
    seqs (fun '(k, ps) => seqs (fun p => ws k +> dw_prop vs true p) ps) l
    +> ws s_none
  end
(** [ArrayProperty::write_body], array_property.rs:366-479. *)
with dw_array (vs : list (guid * Z)) (a : arrayp) {struct a} : out :=
  match a with
  | ABools l => w_u32 (len l) +> seqs w_bool l
  | ABytes l => w_u32 (len l) +> seqs (fun b => emit [b] 1) l
  | AEnums l => w_u32 (len l) +> seqs ws l
  | AFloats l => w_u32 (len l) +> seqs (w_int 4) l
  | AInts l => w_u32 (len l) +> seqs (w_int 4) l
  | ANames l => w_u32 (len l) +> seqs dw_fstring l
  | AStrings l => w_u32 (len l) +> seqs dw_fstring l
  | AStructs fname tname g l =>
    match seqs (dw_sval vs) l with
    | Fail f => Fail f
    | Ok (b, n) =>
      w_u32 (len l) +> ws fname +> ws (kind_name KStruct) +> w_u64 (len b)
      +> ws tname +> w_guid g +> w_u8 0 +> emit b n
    end
  | AProps _ l => w_u32 (len l) +> seqs (dw_prop vs false) l
  end
(** [MapProperty::write_body], map_property.rs:500-672. *)
with dw_map (vs : list (guid * Z)) (m : mapp) {struct m} : out :=
  match m with
  | MBool kk l =>
    w_u32 0 +> w_u32 (len l) +> seqs (fun '(k, v) => dw_key kk k +> w_bool v) l
  | MInt kk l =>
    w_u32 0 +> w_u32 (len l) +> seqs (fun '(k, v) => dw_key kk k +> w_int 4 v) l
  | MProp kk _ l =>
    w_u32 0 +> w_u32 (len l) +> seqs (fun '(k, v) => dw_key kk k +> dw_prop vs false v) l
  | MStrStr l =>
    w_u32 0 +> w_u32 (len l) +> seqs (fun '(k, v) => dw_key KkStr k +> dw_fstring v) l
  | MGen _ _ flags l =>
    w_u32 flags +> w_u32 (len l)
    +> seqs (fun '(k, v) => dw_prop vs false k +> dw_prop vs false v) l
  end.

(** [FEngineVersion::write], engine_version.rs:67-75. *)
Definition dw_fengine (v : fengine) : out :=
  w_int 2 (fe_major v) +> w_int 2 (fe_minor v) +> w_int 2 (fe_patch v)
  +> w_int 4 (fe_change v) +> ws (fe_branch v).

(** [GvasHeader::write], lib.rs:269-314; [FCustomVersion::write],
    custom_version.rs:39-43. *)
Definition dw_header (h : header) : out :=
  w_u32 gvas_magic
  +> w_u32 (match h_ue5 h with None => 2 | Some _ => 3 end)
  +> w_u32 (h_package h)
  +> (match h_ue5 h with None => skip | Some v => w_u32 v end)
  +> dw_fengine (h_engine h)
  +> w_u32 (h_format h)
  +> w_u32 (len (h_versions h))
  +> seqs w_version (h_versions h)
  +> ws (h_class h).

(** The buffer built by [GvasFile::write], lib.rs:518-533. *)
Definition dw_file (f : header * list (str * property)) : out :=
  dw_header (fst f)
  +> seqs (fun '(name, p) => ws name +> dw_prop (h_versions (fst f)) true p) (snd f)
  +> ws s_none
  +> w_int 4 0.
Definition dsave_plain (f : header * list (str * property)) : outcome (list byte) :=
  match dw_file f with Ok (b, _) => Ok b | Fail e => Fail e end.

End Writers.

(** [GvasFile::write] in a debug build: the buffer, lib.rs:518-533. *)
Definition debug_save (site : psite) : header * list (str * property) -> outcome (list byte) :=
  dsave_plain (debug_string site).
