(** Specification: which values a file can represent.

    Everything here is stated on values only; nothing refers to the readers or
    writers of the model. *)
From Coq Require Import ZArith List Bool String.
From Verif Require Import Base Types Versions File.
Import ListNotations.
Open Scope Z_scope.

Definition in_range (a b x : Z) : bool := (a <=? x) && (x <=? b).

(** Unsigned and signed integers of [w] bytes. *)
Definition u_ok (w z : Z) : bool := in_range 0 (2 ^ (8 * w) - 1) z.
Definition s_ok (w z : Z) : bool := in_range (- 2 ^ (8 * w - 1)) (2 ^ (8 * w - 1) - 1) z.
Definition num_ok (k : num) (z : Z) : bool :=
  if num_signed k then s_ok (num_width k) z else u_ok (num_width k) z.

(** Strings: Unicode scalar values, at most 131071 UTF-16 units. *)
Definition scalar (c : Z) : bool := in_range 0 55295 c || in_range 57344 1114111 c.
Fixpoint units (s : str) : Z :=
  match s with
  | [] => 0
  | c :: r => (if c <? 65536 then 1 else 2) + units r
  end.
Definition is_str (s : str) : bool := forallb scalar s.
Definition str_ok (s : str) : bool := is_str s && (units s <=? 131071).
Definition ostr_ok (o : option str) : bool :=
  match o with Some s => str_ok s | None => true end.
Definition guid_ok (g : guid) : bool := len g =? 16.
(** The name of a hint: the names from the file down to the struct with dots between them;
    [way] has the innermost first. *)
Fixpoint dotted (way : list str) : str :=
  match way with
  | [] => []
  | [top] => top
  | inner :: outer => dotted outer ++ s2z "." ++ inner
  end.

(** Keys of a map: no key equals an earlier one. *)
Fixpoint distinct {K V} (eqb : K -> K -> bool) (l : list (K * V)) : bool :=
  match l with
  | [] => true
  | (k, _) :: r => forallb (fun e => negb (eqb (fst e) k)) r && distinct eqb r
  end.

(** ** Texts *)
Definition numfmt_ok (f : numfmt) : bool :=
  in_range 0 6 (nf_round f) && s_ok 4 (nf_mini f) && s_ok 4 (nf_maxi f)
  && s_ok 4 (nf_minf f) && s_ok 4 (nf_maxf f).
Definition onumfmt_ok (o : option numfmt) : bool :=
  match o with Some f => numfmt_ok f | None => true end.
(** Counts stored as non-negative [i32]. *)
Definition count31 {A} (l : list A) : bool := len l <? 2147483648.
Definition count32 {A} (l : list A) : bool := len l <? 4294967296.

Fixpoint text_ok (vs : list (guid * Z)) (t : ftext) : bool :=
  match t with FText f h => u_ok 4 f && hist_ok vs h end
with hist_ok (vs : list (guid * Z)) (h : fhist) : bool :=
  match h with
  | HEmpty => true
  | HNone s => has_culture vs && ostr_ok s
  | HBase a b c => ostr_ok a && ostr_ok b && ostr_ok c
  | HNamed t l | HArgument t l =>
    text_ok vs t && count31 l && distinct str_eqb l
    && forallb (fun '(k, v) => str_ok k && arg_ok vs v) l
  | HOrdered t l => text_ok vs t && count31 l && forallb (arg_ok vs) l
  | HNumber v o c | HPercent v o c => arg_ok vs v && onumfmt_ok o && ostr_ok c
  | HCurrency d v o c => ostr_ok d && arg_ok vs v && onumfmt_ok o && ostr_ok c
  | HDate t s c => u_ok 8 t && in_range 0 4 s && str_ok c
  | HTime t s z c => u_ok 8 t && in_range 0 4 s && str_ok z && str_ok c
  | HDateTime t s u z c =>
    u_ok 8 t && in_range 0 4 s && in_range 0 4 u && str_ok z && str_ok c
  | HTransform t x => text_ok vs t && in_range 0 1 x
  | HTable a b => str_ok a && str_ok b
  end
with arg_ok (vs : list (guid * Z)) (a : farg) : bool :=
  match a with
  | AInt z => negb (has_arg64 vs) && s_ok 4 z
  | AUInt z => negb (has_arg64 vs) && u_ok 4 z
  | AInt64 z => has_arg64 vs && s_ok 8 z
  | AUInt64 z => has_arg64 vs && u_ok 8 z
  | AFloat z => u_ok 4 z
  | ADouble z => u_ok 8 z
  | AText t => text_ok vs t
  end.

(** ** Properties *)

(** The type name under which a property is stored. *)
Definition type_of (p : property) : str :=
  match p with
  | PNum k _ => num_name k
  | PBool _ => s2z "BoolProperty"
  | PByte _ _ => s2z "ByteProperty"
  | PEnum _ _ => s2z "EnumProperty"
  | PStr _ => s2z "StrProperty"
  | PText _ => s2z "TextProperty"
  | PName _ _ => s2z "NameProperty"
  | PObject _ => s2z "ObjectProperty"
  | PDelegate _ _ => s2z "DelegateProperty"
  | PMulti true _ => s2z "MulticastInlineDelegateProperty"
  | PMulti false _ => s2z "MulticastSparseDelegateProperty"
  | PFieldPath _ _ => s2z "FieldPathProperty"
  | PUnknown name _ => name
  | PArray _ => s2z "ArrayProperty"
  | PSet _ _ _ => s2z "SetProperty"
  | PMap _ => s2z "MapProperty"
  | PStruct _ _ _ | PSValue _ => s2z "StructProperty"
  end.

(** Type names the library knows; all others are kept as raw bytes. *)
Definition known_types : list str :=
  map num_name [I8; I16; I32; I64; U16; U32; U64; F32; F64]
  ++ map s2z ["BoolProperty"; "ByteProperty"; "EnumProperty"; "StrProperty"; "TextProperty";
              "NameProperty"; "ObjectProperty"; "DelegateProperty";
              "MulticastInlineDelegateProperty"; "MulticastSparseDelegateProperty";
              "FieldPathProperty"; "ArrayProperty"; "SetProperty"; "MapProperty";
              "StructProperty"]%string.
Definition mem (s : str) (l : list str) : bool := existsb (str_eqb s) l.

(** Struct type names with a built-in layout, and the precision they need. *)
Definition fixed_name (x : fixed) : str :=
  match x with
  | XVector2F | XVector2D => s2z "Vector2D"
  | XVectorF | XVectorD => s2z "Vector"
  | XRotatorF | XRotatorD => s2z "Rotator"
  | XQuatF | XQuatD => s2z "Quat"
  | XDateTime => s2z "DateTime" | XTimespan => s2z "Timespan"
  | XLinearColor => s2z "LinearColor" | XIntPoint => s2z "IntPoint"
  end.
Definition known_structs : list str :=
  map s2z ["Vector2D"; "Vector"; "Rotator"; "Quat"; "DateTime"; "Timespan"; "LinearColor";
           "IntPoint"; "Guid"; "GameplayTagContainer"]%string.
(** Single-precision layouts need a file without large world coordinates,
    double-precision ones a file with them; the rest do not care. *)
Definition precision_ok (lwc : bool) (x : fixed) : bool :=
  match x with
  | XVector2F | XVectorF | XRotatorF | XQuatF => negb lwc
  | XVector2D | XVectorD | XRotatorD | XQuatD => lwc
  | XDateTime | XTimespan | XLinearColor | XIntPoint => true
  end.
Fixpoint nums_ok (ks : list num) (l : list Z) : bool :=
  match ks, l with
  | [], [] => true
  | k :: ks', z :: l' => num_ok k z && nums_ok ks' l'
  | _, _ => false
  end.

Definition bytev_ok (v : bytev) : bool :=
  match v with BByte _ => true | BName s => str_ok s end.
(** An optional type name: present with a header, absent without. *)
Definition name_ok (hdr : bool) (n : option str) : bool :=
  match n with Some s => hdr && str_ok s | None => negb hdr end.

(** Elements of one array or set share a shape where the element size is only
    known as an average. *)
Definition is_byte (p : property) : bool := match p with PByte _ (BByte _) => true | _ => false end.
Definition is_named (p : property) : bool := match p with PByte _ (BName _) => true | _ => false end.
Definition is_raw (n : Z) (p : property) : bool :=
  match p with PUnknown _ raw => len raw =? n | _ => false end.
Definition uniform (l : list property) : bool :=
  match l with
  | PUnknown _ raw :: _ => forallb (is_raw (len raw)) l
  | PByte _ (BByte _) :: _ => forallb is_byte l
  | PByte _ (BName _) :: _ => forallb is_named l
  | _ => true
  end.
(** Map entries have no size information at all. *)
Definition self_sized (p : property) : bool :=
  match p with PUnknown _ _ => false | PByte _ (BName _) => false | _ => true end.

(** Element types that always get their own array representation. *)
Definition array_special (ty : str) : bool :=
  mem ty (map s2z ["BoolProperty"; "EnumProperty"; "IntProperty"; "FloatProperty";
                   "NameProperty"; "StrProperty"; "StructProperty"]%string).
(** Maps that do not get a specialised representation. *)
Definition null_key (p : property) : bool :=
  match p with PName _ None => true | PStr None => true | _ => false end.
Definition map_generic (kt : str) (flags : Z) (l : list (property * property)) : bool :=
  negb (flags =? 0)
  || negb (mem kt (map s2z ["EnumProperty"; "NameProperty"; "StrProperty"]%string))
  || existsb (fun e => null_key (fst e)) l.
(** Value types whose maps have a more special representation than [MProp]. *)
Definition map_special (k : keyk) (vt : str) : bool :=
  mem vt (map s2z ["BoolProperty"; "IntProperty"]%string)
  || match k with KkStr => str_eqb vt (s2z "StrProperty") | _ => false end.

(** Repeated fields carry consecutive indices (checked in debug builds). *)
Definition field_index (p : property) : Z := match p with PName i _ => i | _ => 0 end.
Fixpoint indices_ok (i : Z) (l : list property) : bool :=
  match l with
  | [] => true
  | p :: r => (field_index p =? i mod 4294967296) && indices_ok (i + 1) r
  end.

Section Wf.
Context (o : opts) (vs : list (guid * Z)).
(** When two keys of a property-keyed map count as the same. *)
Context (sep : property -> property -> bool).

(** [path] is the location stack around the property, innermost first. *)
Fixpoint wf_prop (hdr : bool) (path : list str) (p : property) {struct p} : bool :=
  match p with
  | PNum k z => num_ok k z
  | PBool _ => true
  | PByte name v => name_ok hdr name && bytev_ok v
  | PEnum ty v => name_ok hdr ty && str_ok v
  | PStr v => ostr_ok v
  | PText t => text_ok vs t
  | PName i v => (if hdr then u_ok 4 i else i =? 0) && ostr_ok v
  | PObject v => str_ok v
  | PDelegate a b => str_ok a && str_ok b
  | PMulti _ l => count32 l && forallb (fun '(a, b) => str_ok a && str_ok b) l
  | PFieldPath l s => count32 l && forallb str_ok l && str_ok s
  | PUnknown name raw => negb (mem name known_types) && str_ok name
  | PArray a => hdr && wf_array (s2z "ArrayProperty" :: path) a
  | PSet ty flags l =>
    hdr && str_ok ty && u_ok 4 flags && count32 l && uniform l
    && forallb (fun p => str_eqb ty (type_of p)
                         && wf_prop false (s2z "SetProperty" :: path) p) l
  | PMap m => hdr && wf_map (s2z "MapProperty" :: path) m
  | PStruct g ty v =>
    hdr && guid_ok g && str_ok ty && wf_sval (s2z "StructProperty" :: path) ty v
  | PSValue v =>
    negb hdr && match hints o (dotted (s2z "StructProperty" :: path)) with
                | Some ty => wf_sval (s2z "StructProperty" :: path) ty v
                | None => false
                end
  end
with wf_sval (path : list str) (ty : str) (v : svalue) {struct v} : bool :=
  match v with
  | SFixed x l =>
    str_eqb ty (fixed_name x) && precision_ok (has_lwc vs) x && nums_ok (layout x) l
  | SGuid g => str_eqb ty (s2z "Guid") && guid_ok g
  | STags l => str_eqb ty (s2z "GameplayTagContainer") && count31 l && forallb str_ok l
  | SCustom l =>
    negb (mem ty known_structs) && distinct str_eqb l
    && forallb (fun '(k, ps) =>
         str_ok k && negb (str_eqb k (s2z "None")) && negb (len ps =? 0)
         && (negb (dbg o) || indices_ok 0 ps)
         && forallb (wf_prop true (k :: path)) ps) l
  end
with wf_array (path : list str) (a : arrayp) {struct a} : bool :=
  match a with
  | ABools l => count32 l
  | ABytes l => count32 l
  | AEnums l => count32 l && forallb str_ok l
  | AFloats l => count32 l && forallb (u_ok 4) l
  | AInts l => count32 l && forallb (s_ok 4) l
  | ANames l => count32 l && forallb ostr_ok l
  | AStrings l => count32 l && forallb ostr_ok l
  | AStructs field ty g l =>
    count32 l && str_ok field && str_ok ty && guid_ok g && forallb (wf_sval path ty) l
  | AProps ty l =>
    str_ok ty && count32 l && uniform l && negb (array_special ty)
    && (negb (str_eqb ty (s2z "ByteProperty")) || existsb is_named l)
    && forallb (fun p => str_eqb ty (type_of p) && wf_prop false path p) l
  end
with wf_map (path : list str) (m : mapp) {struct m} : bool :=
  match m with
  | MBool _ l => count32 l && distinct str_eqb l && forallb (fun '(k, _) => str_ok k) l
  | MInt _ l =>
    count32 l && distinct str_eqb l && forallb (fun '(k, v) => str_ok k && s_ok 4 v) l
  | MStrStr l =>
    count32 l && distinct str_eqb l && forallb (fun '(k, v) => str_ok k && ostr_ok v) l
  | MProp kk vt l =>
    str_ok vt && negb (map_special kk vt) && count32 l && distinct str_eqb l
    && forallb (fun '(k, v) => str_ok k && str_eqb vt (type_of v) && self_sized v
                               && wf_prop false (s2z "Value" :: path) v) l
  | MGen kt vt flags l =>
    str_ok kt && str_ok vt && u_ok 4 flags && count32 l && distinct sep l
    && map_generic kt flags l
    && forallb (fun '(k, v) =>
         str_eqb kt (type_of k) && self_sized k && wf_prop false (s2z "Key" :: path) k
         && str_eqb vt (type_of v) && self_sized v && wf_prop false (s2z "Value" :: path) v) l
  end.
End Wf.

(** ** Headers and files *)
Definition header_ok (h : header) : bool :=
  in_range 0x205 0x20D (h_package h)
  && match h_ue5 h with Some v => in_range 1000 1009 v | None => true end
  && (u_ok 2 (fe_major (h_engine h)) && u_ok 2 (fe_minor (h_engine h))
      && u_ok 2 (fe_patch (h_engine h)) && u_ok 4 (fe_change (h_engine h))
      && str_ok (fe_branch (h_engine h)))
  && (h_format h =? 3)
  && count32 (h_versions h) && distinct guid_eqb (h_versions h)
  && forallb (fun '(g, v) => guid_ok g && u_ok 4 v) (h_versions h)
  && str_ok (h_class h).

Definition props_ok (o : opts) (sep : property -> property -> bool) (vs : list (guid * Z))
           (l : list (str * property)) : bool :=
  distinct str_eqb l
  && forallb (fun '(name, p) => str_ok name && negb (str_eqb name (s2z "None"))
                                && wf_prop o vs sep true [name] p) l.

Definition file_ok (o : opts) (sep : property -> property -> bool)
           (f : header * list (str * property)) : bool :=
  header_ok (fst f) && props_ok o sep (h_versions (fst f)) (snd f).

(** ** Unique keys *)

(** Every map inside a value has pairwise different keys, as [IndexMap] ensures
    when hashing is consistent with equality. *)
Fixpoint uniq_text (t : ftext) : bool := match t with FText _ h => uniq_hist h end
with uniq_hist (h : fhist) : bool :=
  match h with
  | HNamed t l | HArgument t l =>
    uniq_text t && distinct str_eqb l && forallb (fun e => uniq_arg (snd e)) l
  | HOrdered t l => uniq_text t && forallb uniq_arg l
  | HNumber v _ _ | HPercent v _ _ | HCurrency _ v _ _ => uniq_arg v
  | HTransform t _ => uniq_text t
  | _ => true
  end
with uniq_arg (a : farg) : bool := match a with AText t => uniq_text t | _ => true end.

Fixpoint uniq (p : property) : bool :=
  match p with
  | PText t => uniq_text t
  | PArray a => uniq_array a
  | PSet _ _ l => forallb uniq l
  | PMap m => uniq_map m
  | PStruct _ _ v | PSValue v => uniq_sval v
  | _ => true
  end
with uniq_sval (v : svalue) : bool :=
  match v with
  | SCustom l => distinct str_eqb l && forallb (fun e => forallb uniq (snd e)) l
  | _ => true
  end
with uniq_array (a : arrayp) : bool :=
  match a with
  | AStructs _ _ _ l => forallb uniq_sval l
  | AProps _ l => forallb uniq l
  | _ => true
  end
with uniq_map (m : mapp) : bool :=
  match m with
  | MBool _ l => distinct str_eqb l
  | MInt _ l => distinct str_eqb l
  | MStrStr l => distinct str_eqb l
  | MProp _ _ l => distinct str_eqb l && forallb (fun e => uniq (snd e)) l
  | MGen _ _ _ l => distinct eqv l && forallb (fun e => uniq (fst e) && uniq (snd e)) l
  end.
