(** Memory requested up front: every [vec!\[0; n\]] and [with_capacity(n)] on the reading
    path.  The readers of Str.v, Text.v, Props.v and File.v are repeated here with a log of
    these requests; AllocThm.v shows that the log is all that is added.  Growth of
    collections without a declared capacity (fields of structs, the property map, the buffer
    of [read_to_end]) is driven by data already read and is not logged.  The comments
    beside [r_x] give the lines of [a_x] too, those beside [room] the lines of the requests.
    No proofs in this file. *)
From Coq Require Import ZArith List Bool String.
From Verif Require Import Base Str Types Versions Text Props File.
Import ListNotations.
Open Scope Z_scope.

(** What room is made for. Each constructor cites file.rs:line. *)
Inductive room :=
| RUtf16                    (* vec![0u16; n]: cursor_ext.rs:66 *)
| RUtf8                     (* vec![0u8; n]: cursor_ext.rs:82 *)
| RVersions                 (* HashableIndexMap::with_capacity: lib.rs:224 *)
| RUnpacked                 (* vec![0u8; n]: lib.rs:435,441 *)
| RElements (ty : str)      (* Vec::with_capacity: array_property.rs:305, set_property.rs:65 *)
| REntries                  (* HashableIndexMap::with_capacity: map_property.rs:468 *)
| RArguments                (* with_capacity: text_property.rs:335,352,366 *)
| RTags                     (* Vec::with_capacity: struct_property.rs:395 *)
| RDelegates                (* Vec::with_capacity: delegate_property.rs:108 *)
| RPath                     (* Vec::with_capacity: field_path_property.rs:35 *)
| RRaw.                     (* vec![0u8; n]: unknown_property.rs:30 *)

(** One request: for how many items, and how many bytes of input were left then. *)
Record req := Req { q_room : room; q_count : Z; q_left : Z }.

(** A reader that also logs its requests, oldest first.
    The readers of cursor_ext.rs:48-142 and those built from them. *)
Definition areader (A : Type) := cur -> list req * outcome (A * cur).
Definition lift {A} (r : reader A) : areader A := fun c => ([], r c).
Definition abind {A B} (r : areader A) (k : A -> areader B) : areader B :=
  fun c => match r c with
           | (l, Ok (a, c')) => let (l', x) := k a c' in (l ++ l', x)
           | (l, Fail f) => (l, Fail f)
           end.
Definition aret {A} (a : A) : areader A := lift (ret a).
Definition afail {A} (f : fault) : areader A := lift (fail f).
Definition request (w : room) (n : Z) : areader unit :=
  fun c => ([Req w n (len (rest c))], Ok (tt, c)).

Notation "x <+ r ;; k" := (abind r (fun x => k))
  (at level 61, r at next level, right associativity).
Notation "r ;+ k" := (abind r (fun _ => k))
  (at level 61, right associativity).

(** scoped_stack_entry.rs:1-22, and the loops of array_property.rs:305-355 and others. *)
Definition ascoped {A} (s : str) (r : areader A) : areader A :=
  lift (push s) ;+ a <+ r ;; lift pop ;+ aret a.
Fixpoint arep_pos {A} (p : positive) (r : areader A) : areader (list A) :=
  match p with
  | xH => a <+ r ;; aret [a]
  | xO q => l1 <+ arep_pos q r ;; l2 <+ arep_pos q r ;; aret (l1 ++ l2)
  | xI q => a <+ r ;; l1 <+ arep_pos q r ;; l2 <+ arep_pos q r ;; aret (a :: l1 ++ l2)
  end.
Definition arep {A} (n : Z) (r : areader A) : areader (list A) :=
  match n with Zpos p => arep_pos p r | _ => aret [] end.

(** ** Strings, cursor_ext.rs:48-98 *)
Definition a_fstring : areader (option str) :=
  start <+ lift position ;;
  n <+ lift r_i32 ;;
  if negb (inr (-131072) 131072 n) then afail (Err (EString n start))
  else if n =? 0 then aret None
  else if n <? 0 then
    request RUtf16 (- n - 1) ;+
    buf <+ lift (take (2 * (- n - 1))) ;;
    t <+ lift r_u16 ;;
    p <+ lift position ;;
    if negb (t =? 0) then afail (Err (EStrTerm t p))
    else match utf16_dec (words buf) with
         | Some s => aret (Some s)
         | None => afail (Err (EUtf16 start))
         end
  else
    request RUtf8 (n - 1) ;+
    buf <+ lift (take (n - 1)) ;;
    t <+ lift r_u8 ;;
    p <+ lift position ;;
    if negb (t =? 0) then afail (Err (EStrTerm t p))
    else match utf8_dec buf with
         | Some s => aret (Some s)
         | None => afail (Err (EUtf8 start))
         end.
Definition a_string : areader str :=
  start <+ lift position ;;
  o <+ a_fstring ;;
  match o with
  | Some s => aret s
  | None => afail (Err (EString 0 start))
  end.

(** ** Texts, text_property.rs:115-120, 299-498, 756-784 *)
Definition a_farg (vs : list (guid * Z)) (rt : areader ftext) : areader farg :=
  t <+ lift (r_enum ETArgument (enum_of atype_z atypes)) ;;
  match t with
  | TyInt => if has_arg64 vs then (v <+ lift (r_sint 8) ;; aret (AInt64 v))
             else (v <+ lift (r_sint 4) ;; aret (AInt v))
  | TyUInt => if has_arg64 vs then (v <+ lift (r_uint 8) ;; aret (AUInt64 v))
              else (v <+ lift (r_uint 4) ;; aret (AUInt v))
  | TyFloat => v <+ lift (r_uint 4) ;; aret (AFloat v)
  | TyDouble => v <+ lift (r_uint 8) ;; aret (ADouble v)
  | TyText => v <+ rt ;; aret (AText v)
  | TyGender => afail (Panic PGender)
  end.
Definition a_named (vs : list (guid * Z)) (rt : areader ftext) : areader (list (str * farg)) :=
  n <+ lift r_count ;;
  request RArguments n ;+
  l <+ arep n (k <+ a_string ;; v <+ a_farg vs rt ;; aret (k, v)) ;;
  aret (ins_all str_eqb l).
Definition a_hist (vs : list (guid * Z)) (rt : areader ftext) : areader fhist :=
  t <+ lift (r_enum ETHistory (enum_of htype_z htypes)) ;;
  match t with
  | TNone =>
    if has_culture vs then
      b <+ lift r_b32 ;;
      if b then (s <+ a_fstring ;; aret (HNone s)) else aret HEmpty
    else aret HEmpty
  | TBase => a <+ a_fstring ;; b <+ a_fstring ;; c <+ a_fstring ;; aret (HBase a b c)
  | TNamed => t <+ rt ;; l <+ a_named vs rt ;; aret (HNamed t l)
  | TOrdered =>
    t <+ rt ;; n <+ lift r_count ;; request RArguments n ;+
    l <+ arep n (a_farg vs rt) ;; aret (HOrdered t l)
  | TArgument => t <+ rt ;; l <+ a_named vs rt ;; aret (HArgument t l)
  | TNumber =>
    v <+ a_farg vs rt ;; o <+ lift r_optfmt ;; c <+ a_fstring ;; aret (HNumber v o c)
  | TPercent =>
    v <+ a_farg vs rt ;; o <+ lift r_optfmt ;; c <+ a_fstring ;; aret (HPercent v o c)
  | TCurrency =>
    d <+ a_fstring ;; v <+ a_farg vs rt ;; o <+ lift r_optfmt ;; c <+ a_fstring ;;
    aret (HCurrency d v o c)
  | TDate => t <+ lift r_u64 ;; s <+ lift r_style ;; c <+ a_string ;; aret (HDate t s c)
  | TTime =>
    t <+ lift r_u64 ;; s <+ lift r_style ;; z <+ a_string ;; c <+ a_string ;; aret (HTime t s z c)
  | TDateTime =>
    t <+ lift r_u64 ;; s <+ lift r_style ;; u <+ lift r_style ;; z <+ a_string ;; c <+ a_string ;;
    aret (HDateTime t s u z c)
  | TTransform => t <+ rt ;; x <+ lift r_transform ;; aret (HTransform t x)
  | TTable => a <+ a_string ;; b <+ a_string ;; aret (HTable a b)
  | TGenerator => afail (Panic PHistory)
  | TRaw => afail (Panic PHistory)
  end.
Fixpoint a_text (n : nat) (vs : list (guid * Z)) : areader ftext :=
  match n with
  | O => afail Oof
  | S n' => f <+ lift r_u32 ;; h <+ a_hist vs (a_text n' vs) ;; aret (FText f h)
  end.

(** ** Properties, mod.rs:73-276 and the files they name *)
Definition asized {A} (length : Z) (r : areader A) : areader A :=
  start <+ lift position ;;
  a <+ r ;;
  stop <+ lift position ;;
  if stop - start =? length then aret a
  else afail (Err (EValueSize length (stop - start) start)).
Definition aheaded {V A} (vars : areader V) (body : Z -> V -> areader A) : areader A :=
  length <+ lift r_u32 ;;
  lift r_index0 ;+
  v <+ vars ;;
  lift r_term ;+
  asized length (body length v).
Definition aheaded_index {A} (body : Z -> areader A) : areader A :=
  length <+ lift r_u32 ;;
  i <+ lift r_u32 ;;
  lift r_term ;+
  asized length (body i).
Definition aplain {A} (hdr : bool) (r : areader A) : areader A :=
  if hdr then aheaded (aret tt) (fun _ _ => r) else r.

Definition a_bytev (o : opts) (sug : option Z) : areader bytev :=
  match sug with
  | None => b <+ lift (take 1) ;; aret (BByte (hd Byte.x00 b))
  | Some e =>
    if (e =? 0) && dbg o then afail (Panic PByteLength)
    else if (e =? 1) || (e =? 2) then b <+ lift (take 1) ;; aret (BByte (hd Byte.x00 b))
    else s <+ a_string ;; aret (BName s)
  end.
Definition a_pbyte (o : opts) (hdr : bool) (sug : option Z) : areader property :=
  if hdr then
    length <+ lift r_u32 ;;
    lift (zero_or PArrayIndex r_u32) ;+
    name <+ a_string ;;
    lift (zero_or PSeparator r_u8) ;+
    v <+ a_bytev o (Some length) ;;
    aret (PByte (Some name) v)
  else v <+ a_bytev o sug ;; aret (PByte None v).
Definition a_penum (hdr : bool) : areader property :=
  if hdr then aheaded a_string (fun _ t => v <+ a_string ;; aret (PEnum (Some t) v))
  else v <+ a_string ;; aret (PEnum None v).
Definition a_pname (hdr : bool) : areader property :=
  if hdr then aheaded_index (fun i => v <+ a_fstring ;; aret (PName i v))
  else v <+ a_fstring ;; aret (PName 0 v).
Definition a_pstr (hdr : bool) : areader property :=
  aplain hdr (v <+ a_fstring ;; aret (PStr v)).
Definition a_pobject (hdr : bool) : areader property :=
  aplain hdr (v <+ a_string ;; aret (PObject v)).
Definition a_delegate : areader (str * str) :=
  a <+ a_string ;; b <+ a_string ;; aret (a, b).
Definition a_pdelegate (hdr : bool) : areader property :=
  aplain hdr (d <+ a_delegate ;; aret (PDelegate (fst d) (snd d))).
Definition a_pmulti (inline hdr : bool) : areader property :=
  aplain hdr (n <+ lift r_u32 ;; request RDelegates n ;+
              l <+ arep n a_delegate ;; aret (PMulti inline l)).
Definition a_pfieldpath (hdr : bool) : areader property :=
  aplain hdr (n <+ lift r_u32 ;; request RPath n ;+
              l <+ arep n a_string ;; s <+ a_string ;; aret (PFieldPath l s)).
Definition a_ptext (n : nat) (vs : list (guid * Z)) (hdr : bool) : areader property :=
  aplain hdr (t <+ a_text n vs ;; aret (PText t)).
Definition a_unknown (ty : str) (length : Z) : areader property :=
  request RRaw length ;+ raw <+ lift (take length) ;; aret (PUnknown ty raw).
Definition a_unknown_header (ty : str) : areader property :=
  length <+ lift r_u32 ;;
  lift (zero_or PArrayIndex r_u32) ;+
  lift (zero_or PSeparator r_u8) ;+
  a_unknown ty length.

Definition apreader := str -> bool -> option Z -> areader property.
Fixpoint a_custom (m : nat) (o : opts) (rp : apreader) (acc : list (str * list property))
  : areader (list (str * list property)) :=
  match m with
  | O => afail Oof
  | S m' =>
    name <+ a_string ;;
    if str_eqb name s_none then aret acc
    else
      ty <+ a_string ;;
      p <+ ascoped name (rp ty true None) ;;
      if dbg o && negb (index_ok acc name p) then afail (Panic PStructIndex)
      else a_custom m' o rp (group_add acc name p)
  end.
Definition a_sval (m : nat) (o : opts) (vs : list (guid * Z)) (rp : apreader) (ty : str)
  : areader svalue :=
  let k := skind_of ty in
  match fixed_of vs k with
  | Some x => l <+ lift (mapM r_num (layout x)) ;; aret (SFixed x l)
  | None =>
    match k with
    | SkGuid => g <+ lift r_guid ;; aret (SGuid g)
    | SkTags => n <+ lift r_count ;; request RTags n ;+ l <+ arep n a_string ;; aret (STags l)
    | _ => l <+ a_custom m o rp [] ;; aret (SCustom l)
    end
  end.
Definition a_pstruct (m : nat) (o : opts) (vs : list (guid * Z)) (rp : apreader) : areader property :=
  aheaded (t <+ a_string ;; g <+ lift r_guid ;; aret (t, g))
          (fun _ tg => v <+ a_sval m o vs rp (fst tg) ;; aret (PStruct (snd tg) (fst tg) v)).
Definition a_hinted (m : nat) (o : opts) (vs : list (guid * Z)) (rp : apreader) : areader property :=
  st <+ lift get_stk ;;
  p <+ lift position ;;
  match hints o (join_path st) with
  | None => afail (Err (EHint (join_path st) p))
  | Some ty => v <+ a_sval m o vs rp ty ;; aret (PSValue v)
  end.
Definition a_struct_array (m : nat) (o : opts) (vs : list (guid * Z)) (rp : apreader) (count : Z)
  : areader (str * str * guid * list property) :=
  fname <+ a_string ;;
  ty <+ a_string ;;
  if negb (str_eqb ty (kind_name KStruct)) then afail (Panic PArrayStruct)
  else
    size <+ lift r_u64 ;;
    tname <+ a_string ;;
    g <+ lift r_guid ;;
    lift r_term ;+
    start <+ lift position ;;
    l <+ arep count (v <+ a_sval m o vs rp tname ;; aret (PSValue v)) ;;
    stop <+ lift position ;;
    if stop - start =? size then aret (fname, tname, g, l)
    else afail (Err (EProperty (decimal (stop - start) ++ s2z " != " ++ decimal size) stop)).
Definition a_array (m : nat) (o : opts) (vs : list (guid * Z)) (rp : apreader) (length : Z) (ty : str)
  : areader property :=
  count <+ lift r_u32 ;;
  request (RElements ty) count ;+
  match kind_of ty with
  | KStruct =>
    x <+ a_struct_array m o vs rp count ;;
    a <+ lift (of_outcome (array_new ty (Some (fst x)) (snd x))) ;;
    aret (PArray a)
  | _ =>
    let sug := if (0 <? count) && (4 <=? length) then Some ((length - 4) / count) else None in
    l <+ arep count (rp ty false sug) ;;
    a <+ lift (of_outcome (array_new ty None l)) ;;
    aret (PArray a)
  end.
Definition a_set (o : opts) (rp : apreader) (length : Z) (ty : str) : areader property :=
  flags <+ lift r_u32 ;;
  count <+ lift r_u32 ;;
  request (RElements ty) count ;+
  if 0 <? count then
    if (length <? 8) && dbg o then afail (Panic PSetLength)
    else
      l <+ arep count (rp ty false (Some ((length - 8) mod 4294967296 / count))) ;;
      aret (PSet ty flags l)
  else aret (PSet ty flags []).
Definition a_entry (rp : apreader) (kt vt : str) : areader (property * property * Z) :=
  k <+ ascoped s_key (rp kt false None) ;;
  v <+ ascoped s_value (rp vt false None) ;;
  p <+ lift position ;;
  aret (k, v, p).
Definition a_map (o : opts) (rp : apreader) (kt vt : str) : areader property :=
  flags <+ lift r_u32 ;;
  count <+ lift r_u32 ;;
  request REntries count ;+
  l <+ arep count (a_entry rp kt vt) ;;
  aret (PMap (map_new kt vt flags (mins_all o l))).

(** [Property::new], mod.rs:552-623. *)
Definition a_body (n : nat) (o : opts) (vs : list (guid * Z)) (rp : apreader)
           (ty : str) (hdr : bool) (sug : option Z) : areader property :=
  match kind_of ty with
  | KNum k => lift (r_pnum k hdr)
  | KByte => a_pbyte o hdr sug
  | KBool => lift (r_pbool hdr)
  | KEnum => a_penum hdr
  | KStr => a_pstr hdr
  | KText => a_ptext n vs hdr
  | KName => a_pname hdr
  | KObject => a_pobject hdr
  | KDelegate => a_pdelegate hdr
  | KMulti inline => a_pmulti inline hdr
  | KFieldPath => a_pfieldpath hdr
  | KStruct => if hdr then a_pstruct n o vs rp else a_hinted n o vs rp
  | KArray =>
    if hdr then aheaded a_string (fun length t => a_array n o vs rp length t)
    else lift (in_array "ArrayProperty is not supported in arrays")
  | KSet =>
    if hdr then aheaded a_string (fun length t => a_set o rp length t)
    else lift (in_array "SetProperty is not supported in arrays")
  | KMap =>
    if hdr then aheaded (a <+ a_string ;; b <+ a_string ;; aret (a, b))
                        (fun _ kv => a_map o rp (fst kv) (snd kv))
    else lift (in_array "MapProperty is not supported in arrays")
  | KOther =>
    if hdr then a_unknown_header ty
    else match sug with
         | Some l => a_unknown ty l
         | None => p <+ lift position ;; afail (Err (EProperty ty p))
         end
  end.
Fixpoint a_prop (n : nat) (o : opts) (vs : list (guid * Z)) (ty : str) (hdr : bool)
         (sug : option Z) {struct n} : areader property :=
  match n with
  | O => afail Oof
  | S n' => ascoped ty (a_body n o vs (a_prop n' o vs) ty hdr sug)
  end.

(** ** Files, lib.rs:170-249, 404-491; engine_version.rs:52-64 *)
Definition a_fengine : areader fengine :=
  a <+ lift r_u16 ;; b <+ lift r_u16 ;; c <+ lift r_u16 ;; d <+ lift r_u32 ;; s <+ a_string ;;
  aret (FEngine a b c d s).
Definition a_header : areader header :=
  lift (r_checked HFileType (fun v => v =? gvas_magic)) ;+
  version <+ lift (r_checked HSaveVersion (inr 2 3)) ;;
  package <+ lift (r_checked HPackage (inr 0x205 0x20D)) ;;
  ue5 <+ lift (if 3 <=? version
               then v <- r_checked HPackageUE5 (inr 1000 1009) ;; ret (Some v)
               else ret None) ;;
  engine <+ a_fengine ;;
  format <+ lift (r_checked HCustomFormat (fun v => v =? 3)) ;;
  n <+ lift r_u32 ;;
  request RVersions n ;+
  l <+ arep n (lift r_version) ;;
  class <+ a_string ;;
  aret (Header package ue5 engine format (ins_all guid_eqb l) class).
Fixpoint a_entries (n m : nat) (o : opts) (vs : list (guid * Z))
  : areader (list (str * property)) :=
  match n with
  | O => afail Oof
  | S n' =>
    name <+ a_string ;;
    if str_eqb name s_none then aret []
    else
      ty <+ a_string ;;
      p <+ ascoped name (a_prop m o vs ty true None) ;;
      l <+ a_entries n' m o vs ;;
      aret ((name, p) :: l)
  end.
Definition a_file (n : nat) (o : opts) : areader (header * list (str * property)) :=
  h <+ a_header ;;
  l <+ a_entries n n o (h_versions h) ;;
  aret (h, ins_all str_eqb l).
(** What reading the bytes [b] asks for, and its result. lib.rs:404-512. *)
Definition a_parse (o : opts) (b : list byte)
  : list req * outcome (header * list (str * property) * cur) :=
  a_file (S (List.length b)) o (Cur 0 b []).

(** Unpacking, lib.rs:410-457.  The buffer for the unpacked data is made before anything is
    unpacked; [read_to_end] of the doubly compressed form grows its buffer as data arrives. *)
Definition a_palworld (z : zlib) : areader (ctype * list byte) :=
  n <+ lift r_u32 ;;
  _c <+ lift r_u32 ;;
  magic <+ lift (take 3) ;;
  if negb (list_eqb Byte.eqb magic plz_magic) then afail (Err (EMagic magic))
  else
    c <+ lift (r_enum ETCompression (enum_of ctype_z ctypes)) ;;
    match c with CTwice => aret tt | _ => request RUnpacked n end ;+
    lift (fun k =>
      match
        match c with
        | CNone => match take n k with Ok (d, _) => Ok d | Fail f => Fail f end
        | CZlib => zread_exact n (inflate z (rest k))
        | CTwice => zread_to_end (zagain z (inflate z (rest k)))
        end
      with
      | Ok d => Ok ((c, d), k)
      | Fail f => Fail f
      end).
(** [GvasFile::read_with_hints], lib.rs:404-491, with all requests it makes. *)
Definition a_load (z : zlib) (o : opts) (v : gversion) (b : list byte) : list req * outcome gfile :=
  match v with
  | GDefault =>
    match a_parse o b with
    | (l, Ok ((h, ps), _)) => (l, Ok (GFile DDefault h ps))
    | (l, Fail f) => (l, Fail f)
    end
  | GPalworld =>
    match a_palworld z (Cur 0 b []) with
    | (l, Fail f) => (l, Fail f)
    | (l, Ok ((c, d), _)) =>
      match a_parse o d with
      | (l', Ok ((h, ps), _)) => (l ++ l', Ok (GFile (DPalworld c) h ps))
      | (l', Fail f) => (l ++ l', Fail f)
      end
    end
  end.
