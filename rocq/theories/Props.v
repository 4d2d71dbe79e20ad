(** Properties: /repo/src/properties.  No proofs in this file. *)
From Coq Require Import ZArith List Bool String.
From Verif Require Import Base Str Types Versions Text.
Import ListNotations.
Open Scope Z_scope.

(** ** Common header pieces *)

(** [impl_read_header!], mod.rs:150-276. *)
Definition r_index0 : reader unit :=
  i <- r_u32 ;;
  p <- position ;;
  if i =? 0 then ret tt else fail (Err (EArrayIndex i (p - 4))).
Definition r_term : reader unit :=
  t <- r_u8 ;;
  p <- position ;;
  if t =? 0 then ret tt else fail (Err (ETerm t (p - 1))).
Definition sized {A} (length : Z) (r : reader A) : reader A :=
  start <- position ;;
  a <- r ;;
  stop <- position ;;
  if stop - start =? length then ret a
  else fail (Err (EValueSize length (stop - start) start)).
(** [vars] reads the header strings, [body] gets the length and the strings.
    [impl_read_header!], mod.rs:150-275. *)
Definition headed {V A} (vars : reader V) (body : Z -> V -> reader A) : reader A :=
  length <- r_u32 ;;
  r_index0 ;;;
  v <- vars ;;
  r_term ;;;
  sized length (body length v).
(** The [array_index] variant (NameProperty), mod.rs:217-243. *)
Definition headed_index {A} (body : Z -> reader A) : reader A :=
  length <- r_u32 ;;
  i <- r_u32 ;;
  r_term ;;;
  sized length (body i).
(** [impl_read!], mod.rs:73-117: with or without header. *)
Definition plain {A} (hdr : bool) (r : reader A) : reader A :=
  if hdr then headed (ret tt) (fun _ _ => r) else r.

(** [impl_write!], mod.rs:315-375.  The name is not counted in the
    [array_index] variant. *)
Definition with_header (hdr : bool) (name : str) (counted : bool) (idx : Z)
           (extra body : out) : out :=
  if hdr then
    match body with
    | Fail f => Fail f
    | Ok (b, n) =>
      (if counted then w_string name else emit (str_bytes name) 0)
      +> w_u32 (len b) +> w_u32 idx +> extra +> w_u8 0 +> emit b n
    end
  else body.

(** ** Leaf properties *)

(** [check_size!], int_property.rs:18-29. *)
Definition check_size (n : Z) : reader unit :=
  v <- r_u64 ;;
  p <- position ;;
  if v =? n then ret tt else fail (Err (EValueSize n v p)).
(** [assert_eq!(separator, 0)] and friends.
    int_property.rs:57, 111, 196, 206 and 290, unknown_property.rs:46 and 53. *)
Definition zero_or (s : psite) (r : reader Z) : reader unit :=
  v <- r ;; if v =? 0 then ret tt else fail (Panic s).

(** [$read_method], int_property.rs:59 and 330-337. *)
Definition r_num (k : num) : reader Z :=
  if num_signed k then r_sint (num_width k) else r_uint (num_width k).

(** int_property.rs:50-61 and 104-117. *)
Definition r_pnum (k : num) (hdr : bool) : reader property :=
  (if hdr then check_size (num_width k) ;;; zero_or PSeparator r_u8 else ret tt) ;;;
  z <- r_num k ;; ret (PNum k z).

(** [ByteProperty::read], int_property.rs:187-219. *)
Definition r_bytev (o : opts) (sug : option Z) : reader bytev :=
  match sug with
  | None => b <- take 1 ;; ret (BByte (hd Byte.x00 b))
  | Some e =>
    if (e =? 0) && dbg o then fail (Panic PByteLength)
    else if (e =? 1) || (e =? 2) then b <- take 1 ;; ret (BByte (hd Byte.x00 b))
    else s <- r_string ;; ret (BName s)
  end.
Definition r_pbyte (o : opts) (hdr : bool) (sug : option Z) : reader property :=
  if hdr then
    length <- r_u32 ;;
    zero_or PArrayIndex r_u32 ;;;
    name <- r_string ;;
    zero_or PSeparator r_u8 ;;;
    v <- r_bytev o (Some length) ;;
    ret (PByte (Some name) v)
  else v <- r_bytev o sug ;; ret (PByte None v).

(** [BoolProperty::read], int_property.rs:280-294. *)
Definition r_pbool (hdr : bool) : reader property :=
  (if hdr then check_size 0 else ret tt) ;;;
  b <- r_bool ;;
  (if hdr then zero_or PIndicator r_u8 else ret tt) ;;;
  ret (PBool b).

(** enum_property.rs:31-50. *)
Definition r_penum (hdr : bool) : reader property :=
  if hdr then headed r_string (fun _ t => v <- r_string ;; ret (PEnum (Some t) v))
  else v <- r_string ;; ret (PEnum None v).
(** name_property.rs:50-57. *)
Definition r_pname (hdr : bool) : reader property :=
  if hdr then headed_index (fun i => v <- r_fstring ;; ret (PName i v))
  else v <- r_fstring ;; ret (PName 0 v).
(** str_property.rs:42-49, object_property.rs:34-41. *)
Definition r_pstr (hdr : bool) : reader property :=
  plain hdr (v <- r_fstring ;; ret (PStr v)).
Definition r_pobject (hdr : bool) : reader property :=
  plain hdr (v <- r_string ;; ret (PObject v)).
(** delegate_property.rs:33-41, 66-73, 106-114, 144-151, 183-190. *)
Definition r_delegate : reader (str * str) :=
  a <- r_string ;; b <- r_string ;; ret (a, b).
Definition r_pdelegate (hdr : bool) : reader property :=
  plain hdr (d <- r_delegate ;; ret (PDelegate (fst d) (snd d))).
Definition r_pmulti (inline hdr : bool) : reader property :=
  plain hdr (n <- r_u32 ;; l <- rep n r_delegate ;; ret (PMulti inline l)).
(** field_path_property.rs:33-46, 78-86. *)
Definition r_pfieldpath (hdr : bool) : reader property :=
  plain hdr (n <- r_u32 ;; l <- rep n r_string ;; s <- r_string ;; ret (PFieldPath l s)).
(** text_property.rs:38-47. *)
Definition r_ptext (n : nat) (vs : list (guid * Z)) (hdr : bool) : reader property :=
  plain hdr (t <- r_text n vs ;; ret (PText t)).
(** unknown_property.rs:25-57. *)
Definition r_unknown (ty : str) (length : Z) : reader property :=
  raw <- take length ;; ret (PUnknown ty raw).
Definition r_unknown_header (ty : str) : reader property :=
  length <- r_u32 ;;
  zero_or PArrayIndex r_u32 ;;;
  zero_or PSeparator r_u8 ;;;
  r_unknown ty length.

(** ** Containers.  [rp ty hdr suggested] is [Property::new]. *)
(** mod.rs:552-623. *)
Definition preader := str -> bool -> option Z -> reader property.

(** struct_property.rs:402-504: fixed layouts, selected by the LWC version. *)
Definition fixed_of (vs : list (guid * Z)) (k : skind) : option fixed :=
  let lwc := has_lwc vs in
  match k with
  | SkVector => Some (if lwc then XVectorD else XVectorF)
  | SkVector2D => Some (if lwc then XVector2D else XVector2F)
  | SkRotator => Some (if lwc then XRotatorD else XRotatorF)
  | SkQuat => Some (if lwc then XQuatD else XQuatF)
  | SkDateTime => Some XDateTime
  | SkTimespan => Some XTimespan
  | SkLinearColor => Some XLinearColor
  | SkIntPoint => Some XIntPoint
  | SkGuid | SkTags | SkCustom => None
  end.

(** [insert_property], struct_property.rs:184-199: [entry.or_default().push]. *)
Definition prop_index (p : property) : Z :=
  match p with PName i _ => i | _ => 0 end.
Definition group (l : list (str * list property)) (k : str) : list property :=
  match lookup str_eqb k l with Some g => g | None => [] end.
Definition group_add (l : list (str * list property)) (k : str) (p : property)
  : list (str * list property) :=
  ins str_eqb l k (group l k ++ [p]).
Definition index_ok (l : list (str * list property)) (k : str) (p : property) : bool :=
  len (group l k) mod 4294967296 =? prop_index p.

(** [read_custom], struct_property.rs:373-391. *)
Fixpoint r_custom (m : nat) (o : opts) (rp : preader) (acc : list (str * list property))
  : reader (list (str * list property)) :=
  match m with
  | O => fail Oof
  | S m' =>
    name <- r_string ;;
    if str_eqb name s_none then ret acc
    else
      ty <- r_string ;;
      p <- scoped name (rp ty true None) ;;
      if dbg o && negb (index_ok acc name p) then fail (Panic PStructIndex)
      else r_custom m' o rp (group_add acc name p)
  end.

(** [StructProperty::read_body], struct_property.rs:157-176. *)
Definition r_sval (m : nat) (o : opts) (vs : list (guid * Z)) (rp : preader) (ty : str)
  : reader svalue :=
  let k := skind_of ty in
  match fixed_of vs k with
  | Some x => l <- mapM r_num (layout x) ;; ret (SFixed x l)
  | None =>
    match k with
    | SkGuid => g <- r_guid ;; ret (SGuid g)
    | SkTags => n <- r_count ;; l <- rep n r_string ;; ret (STags l)
    | _ => l <- r_custom m o rp [] ;; ret (SCustom l)
    end
  end.

(** [StructProperty::read_header], struct_property.rs:116-154. *)
Definition r_pstruct (m : nat) (o : opts) (vs : list (guid * Z)) (rp : preader) : reader property :=
  headed (t <- r_string ;; g <- r_guid ;; ret (t, g))
         (fun _ tg => v <- r_sval m o vs rp (fst tg) ;; ret (PStruct (snd tg) (fst tg) v)).

(** The headerless arm of "StructProperty", mod.rs:587-599. *)
Definition r_hinted (m : nat) (o : opts) (vs : list (guid * Z)) (rp : preader) : reader property :=
  st <- get_stk ;;
  p <- position ;;
  match hints o (join_path st) with
  | None => fail (Err (EHint (join_path st) p))
  | Some ty => v <- r_sval m o vs rp ty ;; ret (PSValue v)
  end.

Fixpoint opt_map {A B} (f : A -> option B) (l : list A) : option (list B) :=
  match l with
  | [] => Some []
  | a :: r => match f a, opt_map f r with
              | Some b, Some bs => Some (b :: bs)
              | _, _ => None
              end
  end.

Definition as_bool p := match p with PBool b => Some b | _ => None end.
Definition as_byte p := match p with PByte None (BByte b) => Some b | _ => None end.
Definition as_enum p := match p with PEnum None s => Some s | _ => None end.
Definition as_int p := match p with PNum I32 z => Some z | _ => None end.
Definition as_float p := match p with PNum F32 z => Some z | _ => None end.
Definition as_name p := match p with PName i s => if i =? 0 then Some s else None | _ => None end.
Definition as_str p := match p with PStr s => Some s | _ => None end.
Definition as_sval p := match p with PSValue v => Some v | _ => None end.

Definition or_else {A B} (o : option A) (f : A -> B) (d : B) : B :=
  match o with Some a => f a | None => d end.

(** [ArrayProperty::new], array_property.rs:106-255. *)
Definition array_new (ty : str) (info : option (str * str * guid)) (l : list property)
  : outcome arrayp :=
  let generic := AProps ty l in
  match info with
  | Some (fname, tname, g) =>
    match kind_of ty with
    | KStruct => match opt_map as_sval l with
                 | Some vs => Ok (AStructs fname tname g vs)
                 | None => Fail (Err (ESerialize SArrayElem))
                 end
    | _ => Fail (Err (ESerialize SArrayInfo))
    end
  | None =>
    Ok match kind_of ty with
       | KBool => or_else (opt_map as_bool l) ABools generic
       | KByte => or_else (opt_map as_byte l) ABytes generic
       | KEnum => or_else (opt_map as_enum l) AEnums generic
       | KNum I32 => or_else (opt_map as_int l) AInts generic
       | KNum F32 => or_else (opt_map as_float l) AFloats generic
       | KName => or_else (opt_map as_name l) ANames generic
       | KStr => or_else (opt_map as_str l) AStrings generic
       | _ => generic
       end
  end.

Definition of_outcome {A} (x : outcome A) : reader A :=
  match x with Ok a => ret a | Fail f => fail f end.

(** Inner header and elements of an array of structs, array_property.rs:310-339. *)
Definition r_struct_array (m : nat) (o : opts) (vs : list (guid * Z)) (rp : preader) (count : Z)
  : reader (str * str * guid * list property) :=
  fname <- r_string ;;
  ty <- r_string ;;
  if negb (str_eqb ty (kind_name KStruct)) then fail (Panic PArrayStruct)
  else
    size <- r_u64 ;;
    tname <- r_string ;;
    g <- r_guid ;;
    r_term ;;;
    start <- position ;;
    l <- rep count (v <- r_sval m o vs rp tname ;; ret (PSValue v)) ;;
    stop <- position ;;
    if stop - start =? size then ret (fname, tname, g, l)
    else fail (Err (EProperty (decimal (stop - start) ++ s2z " != " ++ decimal size) stop)).

(** [ArrayProperty::read_body], array_property.rs:298-359. *)
Definition r_array (m : nat) (o : opts) (vs : list (guid * Z)) (rp : preader) (length : Z) (ty : str)
  : reader property :=
  count <- r_u32 ;;
  match kind_of ty with
  | KStruct =>
    x <- r_struct_array m o vs rp count ;;
    a <- of_outcome (array_new ty (Some (fst x)) (snd x)) ;;
    ret (PArray a)
  | _ =>
    let sug := if (0 <? count) && (4 <=? length) then Some ((length - 4) / count) else None in
    l <- rep count (rp ty false sug) ;;
    a <- of_outcome (array_new ty None l) ;;
    ret (PArray a)
  end.

(** [SetProperty::read_body], set_property.rs:56-86; [length - 8] wraps in
    release builds. *)
Definition r_set (o : opts) (rp : preader) (length : Z) (ty : str) : reader property :=
  flags <- r_u32 ;;
  count <- r_u32 ;;
  if 0 <? count then
    if (length <? 8) && dbg o then fail (Panic PSetLength)
    else
      l <- rep count (rp ty false (Some ((length - 8) mod 4294967296 / count))) ;;
      ret (PSet ty flags l)
  else ret (PSet ty flags []).

(** [IndexMap<Property, Property>::insert].  Keys that are [same] always hash
    alike and are found.  Keys that are only [eqv] (equal up to the order of
    fields in a struct) hash differently, but a randomised hasher may still map
    them to the same value: [pr i] says whether entry [i] collides with the key
    inserted here.  If such a key is hit its value is replaced. *)
Section MapInsert.
  Variable pr : nat -> bool.
  (** map_property.rs:480. *)
  Fixpoint hit (k : property) (l : list (property * property)) (i : nat) : option nat :=
    match l with
    | [] => None
    | (k', _) :: r => if eqv k k' && pr i then Some i else hit k r (S i)
    end.
  Fixpoint set_at (l : list (property * property)) (i : nat) (v : property)
    : list (property * property) :=
    match l, i with
    | [], _ => []
    | (k', _) :: r, O => (k', v) :: r
    | e :: r, S i' => e :: set_at r i' v
    end.
  Definition mins (l : list (property * property)) (k v : property)
    : list (property * property) :=
    match hit k l 0 with
    | Some i => set_at l i v
    | None => ins same l k v
    end.
End MapInsert.
(** The loop of map_property.rs:469-481. *)
Definition mins_all (o : opts) (l : list (property * property * Z)) : list (property * property) :=
  fold_left (fun acc e => mins (probe o (snd e)) acc (fst (fst e)) (snd (fst e))) l [].

(** [MapProperty::new], map_property.rs:101-366. *)
Definition as_key (k : keyk) (p : property) : option str :=
  match k, p with
  | KkEnum, PEnum None s => Some s
  | KkName, PName i (Some s) => if i =? 0 then Some s else None
  | KkStr, PStr (Some s) => Some s
  | _, _ => None
  end.
Definition keyk_of (ty : str) : option keyk :=
  match kind_of ty with
  | KEnum => Some KkEnum
  | KName => Some KkName
  | KStr => Some KkStr
  | _ => None
  end.
Definition entries {V} (k : keyk) (f : property -> option V) (l : list (property * property))
  : option (list (str * V)) :=
  match opt_map (fun e => match as_key k (fst e), f (snd e) with
                          | Some a, Some b => Some (a, b)
                          | _, _ => None
                          end) l with
  | Some r => Some (ins_all str_eqb r)
  | None => None
  end.
Definition map_new (kt vt : str) (flags : Z) (l : list (property * property)) : mapp :=
  let generic := MGen kt vt flags l in
  match keyk_of kt with
  | Some k =>
    if flags =? 0 then
      match kind_of vt, k with
      | KBool, _ => or_else (entries k as_bool l) (MBool k) generic
      | KNum I32, _ => or_else (entries k as_int l) (MInt k) generic
      | KStr, KkStr => or_else (entries k as_str l) MStrStr generic
      | _, _ => or_else (entries k Some l) (MProp k vt) generic
      end
    else generic
  | None => generic
  end.

(** [MapProperty::read_body], map_property.rs:459-489. *)
Definition r_entry (rp : preader) (kt vt : str) : reader (property * property * Z) :=
  k <- scoped s_key (rp kt false None) ;;
  v <- scoped s_value (rp vt false None) ;;
  p <- position ;;
  ret (k, v, p).
Definition r_map (o : opts) (rp : preader) (kt vt : str) : reader property :=
  flags <- r_u32 ;;
  count <- r_u32 ;;
  l <- rep count (r_entry rp kt vt) ;;
  ret (PMap (map_new kt vt flags (mins_all o l))).

(** [Property::new], mod.rs:552-623. *)
Definition in_array (what : string) : reader property :=
  p <- position ;; fail (Err (EProperty (s2z what) p)).
Definition r_body (n : nat) (o : opts) (vs : list (guid * Z)) (rp : preader)
           (ty : str) (hdr : bool) (sug : option Z) : reader property :=
  match kind_of ty with
  | KNum k => r_pnum k hdr
  | KByte => r_pbyte o hdr sug
  | KBool => r_pbool hdr
  | KEnum => r_penum hdr
  | KStr => r_pstr hdr
  | KText => r_ptext n vs hdr
  | KName => r_pname hdr
  | KObject => r_pobject hdr
  | KDelegate => r_pdelegate hdr
  | KMulti inline => r_pmulti inline hdr
  | KFieldPath => r_pfieldpath hdr
  | KStruct => if hdr then r_pstruct n o vs rp else r_hinted n o vs rp
  | KArray =>
    if hdr then headed r_string (fun length t => r_array n o vs rp length t)
    else in_array "ArrayProperty is not supported in arrays"
  | KSet =>
    if hdr then headed r_string (fun length t => r_set o rp length t)
    else in_array "SetProperty is not supported in arrays"
  | KMap =>
    if hdr then headed (a <- r_string ;; b <- r_string ;; ret (a, b))
                       (fun _ kv => r_map o rp (fst kv) (snd kv))
    else in_array "MapProperty is not supported in arrays"
  | KOther =>
    if hdr then r_unknown_header ty
    else match sug with
         | Some l => r_unknown ty l
         | None => p <- position ;; fail (Err (EProperty ty p))
         end
  end.

(** [n] bounds the nesting depth and the number of iterations of the field loops.
    [Property::new], mod.rs:552-623. *)
Fixpoint r_prop (n : nat) (o : opts) (vs : list (guid * Z)) (ty : str) (hdr : bool)
         (sug : option Z) {struct n} : reader property :=
  match n with
  | O => fail Oof
  | S n' => scoped ty (r_body n o vs (r_prop n' o vs) ty hdr sug)
  end.

(** ** Writing *)

(** The version checks of [StructPropertyValue::write_body],
    struct_property.rs:241-344: which precision a layout belongs to. *)
Definition fixed_lwc (x : fixed) : option bool :=
  match x with
  | XVector2F | XVectorF | XRotatorF | XQuatF => Some false
  | XVector2D | XVectorD | XRotatorD | XQuatD => Some true
  | _ => None
  end.
Fixpoint w_nums (ks : list num) (l : list Z) : out :=
  match ks, l with
  | k :: ks', z :: l' => w_int (num_width k) z +> w_nums ks' l'
  | _, _ => skip
  end.
Definition w_fixed (vs : list (guid * Z)) (x : fixed) (l : list Z) : out :=
  match fixed_lwc x with
  | Some b => if Bool.eqb (has_lwc vs) b then w_nums (layout x) l
              else Fail (Err (ESerialize (SLwc x)))
  | None => w_nums (layout x) l
  end.

(** [get_property_type] of arrays, array_property.rs:257-277. *)
Definition array_type (a : arrayp) : str :=
  match a with
  | ABools _ => kind_name KBool | ABytes _ => kind_name KByte
  | AEnums _ => kind_name KEnum | AFloats _ => kind_name (KNum F32)
  | AInts _ => kind_name (KNum I32) | ANames _ => kind_name KName
  | AStrings _ => kind_name KStr | AStructs _ _ _ _ => kind_name KStruct
  | AProps ty _ => ty
  end.
(** [key_type], [value_type], map_property.rs:379-438. *)
Definition map_key_type (m : mapp) : str :=
  match m with
  | MBool k _ | MInt k _ | MProp k _ _ => keyk_name k
  | MStrStr _ => kind_name KStr
  | MGen kt _ _ _ => kt
  end.
Definition map_value_type (m : mapp) : str :=
  match m with
  | MBool _ _ => kind_name KBool | MInt _ _ => kind_name (KNum I32)
  | MProp _ vt _ => vt | MStrStr _ => kind_name KStr | MGen _ vt _ _ => vt
  end.
(** A map key written through EnumProperty, NameProperty or StrProperty.
    map_property.rs:500-600. *)
Definition w_key (k : keyk) (s : str) : out :=
  match k with KkEnum => w_string s | KkName | KkStr => w_fstring (Some s) end.

(** [ByteProperty::write_body], int_property.rs:249-262. *)
Definition w_bytev (v : bytev) : out :=
  match v with BByte b => emit [b] 1 | BName s => w_string s end.
(** Header of [ByteProperty::write], int_property.rs:223-246. *)
Definition w_pbyte (hdr : bool) (name : option str) (v : bytev) : out :=
  if hdr then
    match w_bytev v with
    | Fail f => Fail f
    | Ok (b, n) =>
      w_string (kind_name KByte) +> w_u64 (len b) +> w_fstring name +> w_u8 0 +> emit b n
    end
  else w_bytev v.
(** [BoolProperty::write], int_property.rs:304-323. *)
Definition w_pbool (hdr : bool) (b : bool) : out :=
  if hdr then w_string (kind_name KBool) +> w_u64 0 +> w_bool b +> w_u8 0 else w_bool b.

(** [PropertyTrait::write] of every property.  Line references as for the
    readers; [impl_write!] supplies the headers. mod.rs:315-400 and 470-487. *)
Fixpoint w_prop (vs : list (guid * Z)) (hdr : bool) (p : property) {struct p} : out :=
  match p with
  | PNum k z => with_header hdr (num_name k) true 0 skip (w_int (num_width k) z)
  | PBool b => w_pbool hdr b
  | PByte name v => w_pbyte hdr name v
  | PEnum ty v => with_header hdr (kind_name KEnum) true 0 (w_fstring ty) (w_string v)
  | PStr v => with_header hdr (kind_name KStr) true 0 skip (w_fstring v)
  | PText t => with_header hdr (kind_name KText) true 0 skip (w_text vs t)
  | PName i v => with_header hdr (kind_name KName) false i skip (w_fstring v)
  | PObject v => with_header hdr (kind_name KObject) true 0 skip (w_string v)
  | PDelegate a b =>
    with_header hdr (kind_name KDelegate) true 0 skip (w_string a +> w_string b)
  | PMulti inline l =>
    with_header hdr (kind_name (KMulti inline)) true 0 skip
      (w_u32 (len l) +> seqs (fun '(a, b) => w_string a +> w_string b) l)
  | PFieldPath l s =>
    with_header hdr (kind_name KFieldPath) true 0 skip
      (w_u32 (len l) +> seqs w_string l +> w_string s)
  | PUnknown name raw => with_header hdr name true 0 skip (emit raw (len raw))
  | PArray a =>
    with_header hdr (kind_name KArray) true 0 (w_string (array_type a)) (w_array vs a)
  | PSet ty flags l =>
    with_header hdr (kind_name KSet) true 0 (w_string ty)
      (w_u32 flags +> w_u32 (len l) +> seqs (w_prop vs false) l)
  | PMap m =>
    with_header hdr (kind_name KMap) true 0
      (w_string (map_key_type m) +> w_string (map_value_type m)) (w_map vs m)
  | PStruct g ty v =>
    with_header hdr (kind_name KStruct) true 0 (w_string ty +> w_guid g) (w_sval vs v)
  | PSValue v =>
    if hdr then Fail (Err (ESerialize SStructHeader)) else w_sval vs v
  end
(** [StructPropertyValue::write_body], struct_property.rs:235-369. *)
with w_sval (vs : list (guid * Z)) (v : svalue) {struct v} : out :=
  match v with
  | SFixed x l => w_fixed vs x l
  | SGuid g => w_guid g
  | STags l => emit (le_bytes 4 (len l)) (len l) +> seqs w_string l
  | SCustom l =>
    seqs (fun '(k, ps) => seqs (fun p => w_string k +> w_prop vs true p) ps) l
    +> w_string s_none
  end
(** [ArrayProperty::write_body], array_property.rs:366-479. *)
with w_array (vs : list (guid * Z)) (a : arrayp) {struct a} : out :=
  match a with
  | ABools l => w_u32 (len l) +> seqs w_bool l
  | ABytes l => w_u32 (len l) +> seqs (fun b => emit [b] 1) l
  | AEnums l => w_u32 (len l) +> seqs w_string l
  | AFloats l => w_u32 (len l) +> seqs (w_int 4) l
  | AInts l => w_u32 (len l) +> seqs (w_int 4) l
  | ANames l => w_u32 (len l) +> seqs w_fstring l
  | AStrings l => w_u32 (len l) +> seqs w_fstring l
  | AStructs fname tname g l =>
    match seqs (w_sval vs) l with
    | Fail f => Fail f
    | Ok (b, n) =>
      w_u32 (len l) +> w_string fname +> w_string (kind_name KStruct) +> w_u64 (len b)
      +> w_string tname +> w_guid g +> w_u8 0 +> emit b n
    end
  | AProps _ l => w_u32 (len l) +> seqs (w_prop vs false) l
  end
(** [MapProperty::write_body], map_property.rs:500-672. *)
with w_map (vs : list (guid * Z)) (m : mapp) {struct m} : out :=
  match m with
  | MBool kk l =>
    w_u32 0 +> w_u32 (len l) +> seqs (fun '(k, v) => w_key kk k +> w_bool v) l
  | MInt kk l =>
    w_u32 0 +> w_u32 (len l) +> seqs (fun '(k, v) => w_key kk k +> w_int 4 v) l
  | MProp kk _ l =>
    w_u32 0 +> w_u32 (len l) +> seqs (fun '(k, v) => w_key kk k +> w_prop vs false v) l
  | MStrStr l =>
    w_u32 0 +> w_u32 (len l) +> seqs (fun '(k, v) => w_key KkStr k +> w_fstring v) l
  | MGen _ _ flags l =>
    w_u32 flags +> w_u32 (len l)
    +> seqs (fun '(k, v) => w_prop vs false k +> w_prop vs false v) l
  end.

(** [PropertyTrait::write_body]; unimplemented for booleans, int_property.rs:325-327. *)
Definition w_body (vs : list (guid * Z)) (p : property) : out :=
  match p with
  | PBool _ => wpanic PBoolBody
  | _ => w_prop vs false p
  end.
