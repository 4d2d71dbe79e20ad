(** The save format as a grammar, for claim C41.

    Rules relate a value to the bytes that hold it.  They are written from the
    format, as tables and layouts, and use neither the readers nor the writers of
    the model.  Strings use [stored] (StrThm.v), headers [header_coded]
    (HeaderThm.v), repeated keys [collapsed] and [grouped] (MapFacts.v). *)
From Coq Require Import ZArith List Bool String.
From Verif Require Import Base Types Versions File Spec StrThm MapFacts HeaderThm.
Import ListNotations.
Open Scope Z_scope.

(** ** Tables *)

(** Name, width in bytes and signedness of the numeric types. *)
Definition num_spec (k : num) : string * nat * bool :=
  match k with
  | I8 => ("Int8Property", 1%nat, true) | I16 => ("Int16Property", 2%nat, true)
  | I32 => ("IntProperty", 4%nat, true) | I64 => ("Int64Property", 8%nat, true)
  | U16 => ("UInt16Property", 2%nat, false) | U32 => ("UInt32Property", 4%nat, false)
  | U64 => ("UInt64Property", 8%nat, false) | F32 => ("FloatProperty", 4%nat, false)
  | F64 => ("DoubleProperty", 8%nat, false)
  end%string.
Definition num_bytes (k : num) (z : Z) (b : list byte) : Prop :=
  let '(_, w, signed) := num_spec k in
  b = le_bytes w z
  /\ (if signed then - 2 ^ (8 * Z.of_nat w - 1) <= z < 2 ^ (8 * Z.of_nat w - 1)
      else 0 <= z < 2 ^ (8 * Z.of_nat w)).
(** Name and fields of the structs with a fixed layout; [None]: not depending on
    large world coordinates. *)
Definition fixed_spec (x : fixed) : string * option bool * list num :=
  match x with
  | XVector2F => ("Vector2D", Some false, [F32; F32])
  | XVector2D => ("Vector2D", Some true, [F64; F64])
  | XVectorF => ("Vector", Some false, [F32; F32; F32])
  | XVectorD => ("Vector", Some true, [F64; F64; F64])
  | XRotatorF => ("Rotator", Some false, [F32; F32; F32])
  | XRotatorD => ("Rotator", Some true, [F64; F64; F64])
  | XQuatF => ("Quat", Some false, [F32; F32; F32; F32])
  | XQuatD => ("Quat", Some true, [F64; F64; F64; F64])
  | XDateTime => ("DateTime", None, [U64])
  | XTimespan => ("Timespan", None, [U64])
  | XLinearColor => ("LinearColor", None, [F32; F32; F32; F32])
  | XIntPoint => ("IntPoint", None, [I32; I32])
  end%string.
Definition struct_names : list str :=
  map s2z ["Vector2D"; "Vector"; "Rotator"; "Quat"; "DateTime"; "Timespan"; "LinearColor";
           "IntPoint"; "Guid"; "GameplayTagContainer"]%string.
Definition type_names : list str :=
  map s2z ["Int8Property"; "Int16Property"; "IntProperty"; "Int64Property"; "UInt16Property";
           "UInt32Property"; "UInt64Property"; "FloatProperty"; "DoubleProperty";
           "BoolProperty"; "ByteProperty"; "EnumProperty"; "StrProperty"; "TextProperty";
           "NameProperty"; "ObjectProperty"; "DelegateProperty";
           "MulticastInlineDelegateProperty"; "MulticastSparseDelegateProperty";
           "FieldPathProperty"; "ArrayProperty"; "SetProperty"; "MapProperty";
           "StructProperty"]%string.

(** ** Small pieces *)
Definition u4 (z : Z) : list byte := le_bytes 4 z.
Definition word (z : Z) : Prop := 0 <= z < 4294967296.
Definition text_of (s : str) (b : list byte) : Prop := stored (Some s) b.
(** The items of a list one after the other. *)
Inductive many {A} (R : A -> list byte -> Prop) : list A -> list byte -> Prop :=
| many_nil : many R [] []
| many_cons a l x y : R a x -> many R l y -> many R (a :: l) (x ++ y).
Inductive many2 {A B} (R : A -> B -> list byte -> Prop) : list A -> list B -> list byte -> Prop :=
| many2_nil : many2 R [] [] []
| many2_cons a l b m x y : R a b x -> many2 R l m y -> many2 R (a :: l) (b :: m) (x ++ y).
Definition flag (b : bool) : Z := if b then 1 else 0.

(** ** Texts *)
Definition is_numfmt (f : numfmt) (b : list byte) : Prop :=
  b = u4 (flag (nf_sign f)) ++ u4 (flag (nf_group f)) ++ le_bytes 1 (nf_round f)
      ++ u4 (nf_mini f) ++ u4 (nf_maxi f) ++ u4 (nf_minf f) ++ u4 (nf_maxf f)
  /\ 0 <= nf_round f <= 6
  /\ Forall (fun z => -2147483648 <= z < 2147483648)
       [nf_mini f; nf_maxi f; nf_minf f; nf_maxf f].
Inductive is_optfmt : option numfmt -> list byte -> Prop :=
| of_none : is_optfmt None (u4 0)
| of_some f b : is_numfmt f b -> is_optfmt (Some f) (u4 1 ++ b).

Section Text.
Context (vs : list (guid * Z)).

Inductive is_text : ftext -> list byte -> Prop :=
| t_text f h b : word f -> is_hist h b -> is_text (FText f h) (u4 f ++ b)
(** The first byte is the kind of history; -1 is no history. *)
with is_hist : fhist -> list byte -> Prop :=
| h_old : has_culture vs = false -> is_hist HEmpty [Byte.xff]
| h_empty : has_culture vs = true -> is_hist HEmpty (Byte.xff :: u4 0)
| h_none s b : has_culture vs = true -> stored s b -> is_hist (HNone s) (Byte.xff :: u4 1 ++ b)
| h_base a b c x y z : stored a x -> stored b y -> stored c z ->
    is_hist (HBase a b c) (Byte.x00 :: x ++ y ++ z)
| h_named t l m x y : is_text t x -> is_named l y -> len l < 2147483648 -> collapsed str_eqb l m ->
    is_hist (HNamed t m) (Byte.x01 :: x ++ u4 (len l) ++ y)
| h_ordered t l x y : is_text t x -> is_args l y -> len l < 2147483648 ->
    is_hist (HOrdered t l) (Byte.x02 :: x ++ u4 (len l) ++ y)
| h_argument t l m x y : is_text t x -> is_named l y -> len l < 2147483648 -> collapsed str_eqb l m ->
    is_hist (HArgument t m) (Byte.x03 :: x ++ u4 (len l) ++ y)
| h_number v o c x y z : is_arg v x -> is_optfmt o y -> stored c z ->
    is_hist (HNumber v o c) (Byte.x04 :: x ++ y ++ z)
| h_percent v o c x y z : is_arg v x -> is_optfmt o y -> stored c z ->
    is_hist (HPercent v o c) (Byte.x05 :: x ++ y ++ z)
| h_currency d v o c w x y z : stored d w -> is_arg v x -> is_optfmt o y -> stored c z ->
    is_hist (HCurrency d v o c) (Byte.x06 :: w ++ x ++ y ++ z)
| h_date t s c x : 0 <= t < 2 ^ 64 -> 0 <= s <= 4 -> text_of c x ->
    is_hist (HDate t s c) (Byte.x07 :: le_bytes 8 t ++ le_bytes 1 s ++ x)
| h_time t s z c x y : 0 <= t < 2 ^ 64 -> 0 <= s <= 4 -> text_of z x -> text_of c y ->
    is_hist (HTime t s z c) (Byte.x08 :: le_bytes 8 t ++ le_bytes 1 s ++ x ++ y)
| h_datetime t s u z c x y : 0 <= t < 2 ^ 64 -> 0 <= s <= 4 -> 0 <= u <= 4 ->
    text_of z x -> text_of c y ->
    is_hist (HDateTime t s u z c)
      (Byte.x09 :: le_bytes 8 t ++ le_bytes 1 s ++ le_bytes 1 u ++ x ++ y)
| h_transform t k x : is_text t x -> 0 <= k <= 1 ->
    is_hist (HTransform t k) (Byte.x0a :: x ++ le_bytes 1 k)
| h_table a b x y : text_of a x -> text_of b y -> is_hist (HTable a b) (Byte.x0b :: x ++ y)
(** Integer arguments have 8 bytes or 4, depending on the version of the file. *)
with is_arg : farg -> list byte -> Prop :=
| a_int z : has_arg64 vs = false -> -2147483648 <= z < 2147483648 ->
    is_arg (AInt z) (Byte.x00 :: le_bytes 4 z)
| a_int64 z : has_arg64 vs = true -> - 2 ^ 63 <= z < 2 ^ 63 ->
    is_arg (AInt64 z) (Byte.x00 :: le_bytes 8 z)
| a_uint z : has_arg64 vs = false -> word z -> is_arg (AUInt z) (Byte.x01 :: le_bytes 4 z)
| a_uint64 z : has_arg64 vs = true -> 0 <= z < 2 ^ 64 ->
    is_arg (AUInt64 z) (Byte.x01 :: le_bytes 8 z)
| a_float z : word z -> is_arg (AFloat z) (Byte.x02 :: le_bytes 4 z)
| a_double z : 0 <= z < 2 ^ 64 -> is_arg (ADouble z) (Byte.x03 :: le_bytes 8 z)
| a_text t x : is_text t x -> is_arg (AText t) (Byte.x04 :: x)
with is_args : list farg -> list byte -> Prop :=
| args_nil : is_args [] []
| args_cons a l x y : is_arg a x -> is_args l y -> is_args (a :: l) (x ++ y)
with is_named : list (str * farg) -> list byte -> Prop :=
| named_nil : is_named [] []
| named_cons k a l x y z : text_of k x -> is_arg a y -> is_named l z ->
    is_named ((k, a) :: l) (x ++ y ++ z).
End Text.

(** ** Arrays and maps by their contents *)

(** Type name and elements of an array (not of structs). *)
Definition array_view (a : arrayp) : option (str * list property) :=
  match a with
  | ABools l => Some (s2z "BoolProperty", map PBool l)
  | ABytes l => Some (s2z "ByteProperty", map (fun b => PByte None (BByte b)) l)
  | AEnums l => Some (s2z "EnumProperty", map (PEnum None) l)
  | AFloats l => Some (s2z "FloatProperty", map (PNum F32) l)
  | AInts l => Some (s2z "IntProperty", map (PNum I32) l)
  | ANames l => Some (s2z "NameProperty", map (PName 0) l)
  | AStrings l => Some (s2z "StrProperty", map PStr l)
  | AStructs _ _ _ _ => None
  | AProps ty l => Some (ty, l)
  end.
Definition array_rank (a : arrayp) : Z := match a with AProps _ _ => 0 | _ => 1 end.
(** The array of these elements, in the most special form there is. *)
Definition is_array (ty : str) (l : list property) (a : arrayp) : Prop :=
  array_view a = Some (ty, l)
  /\ forall a', array_view a' = Some (ty, l) -> array_rank a' <= array_rank a.

Definition key_name (k : keyk) : str :=
  match k with
  | KkEnum => s2z "EnumProperty" | KkName => s2z "NameProperty" | KkStr => s2z "StrProperty"
  end.
Definition key_of (k : keyk) (s : str) : property :=
  match k with KkEnum => PEnum None s | KkName => PName 0 (Some s) | KkStr => PStr (Some s) end.
Definition map_view (m : mapp) : str * str * Z * list (property * property) :=
  match m with
  | MBool k l => (key_name k, s2z "BoolProperty", 0, map (fun '(s, v) => (key_of k s, PBool v)) l)
  | MInt k l => (key_name k, s2z "IntProperty", 0, map (fun '(s, v) => (key_of k s, PNum I32 v)) l)
  | MStrStr l =>
    (s2z "StrProperty", s2z "StrProperty", 0, map (fun '(s, v) => (PStr (Some s), PStr v)) l)
  | MProp k vt l => (key_name k, vt, 0, map (fun '(s, v) => (key_of k s, v)) l)
  | MGen kt vt flags l => (kt, vt, flags, l)
  end.
Definition map_rank (m : mapp) : Z := match m with MGen _ _ _ _ => 0 | MProp _ _ _ => 1 | _ => 2 end.
Definition is_map (kt vt : str) (flags : Z) (l : list (property * property)) (m : mapp) : Prop :=
  map_view m = (kt, vt, flags, l)
  /\ forall m', map_view m' = (kt, vt, flags, l) -> map_rank m' <= map_rank m.

(** ** Properties *)

(** The value of a byte property is one byte if its size is 1 or 2 or unknown, else
    a name.  A debug build refuses size 0. *)
Inductive is_bytev (o : opts) : option Z -> bytev -> list byte -> Prop :=
| bv_unsized c : is_bytev o None (BByte c) [c]
| bv_byte e c : e = 1 \/ e = 2 -> is_bytev o (Some e) (BByte c) [c]
| bv_name e s x : e <> 1 -> e <> 2 -> (dbg o = true -> e <> 0) -> text_of s x ->
    is_bytev o (Some e) (BName s) x.
Definition is_pair (p : str * str) (b : list byte) : Prop :=
  exists x y, text_of (fst p) x /\ text_of (snd p) y /\ b = x ++ y.

(** Values that have the same form with and without a header. *)
Inductive is_plain (vs : list (guid * Z)) : str -> property -> list byte -> Prop :=
| pl_num k z b : num_bytes k z b -> is_plain vs (s2z (fst (fst (num_spec k)))) (PNum k z) b
| pl_str s b : stored s b -> is_plain vs (s2z "StrProperty") (PStr s) b
| pl_object s b : text_of s b -> is_plain vs (s2z "ObjectProperty") (PObject s) b
| pl_delegate p b : is_pair p b -> is_plain vs (s2z "DelegateProperty") (PDelegate (fst p) (snd p)) b
| pl_inline l b : word (len l) -> many is_pair l b ->
    is_plain vs (s2z "MulticastInlineDelegateProperty") (PMulti true l) (u4 (len l) ++ b)
| pl_sparse l b : word (len l) -> many is_pair l b ->
    is_plain vs (s2z "MulticastSparseDelegateProperty") (PMulti false l) (u4 (len l) ++ b)
| pl_path l s x y : word (len l) -> many text_of l x -> text_of s y ->
    is_plain vs (s2z "FieldPathProperty") (PFieldPath l s) (u4 (len l) ++ x ++ y)
| pl_text t b : is_text vs t b -> is_plain vs (s2z "TextProperty") (PText t) b.

(** A header: length of the body, index, what the type adds, a zero. *)
Definition framed (i : Z) (mid body : list byte) : list byte :=
  u4 (len body) ++ u4 i ++ mid ++ Byte.x00 :: body.

Section Props.
Context (o : opts) (vs : list (guid * Z)).

(** Keys on which the hash function has no influence: either it never makes keys
    collide, or no two keys are equal up to the order of fields only. *)
Definition settled (keys : list property) : Prop :=
  (forall p i, probe o p i = false)
  \/ (forall k k', In k keys -> In k' keys -> eqv k k' = true -> same k k' = true).

(** [is_prop path ty hdr size p b]: the bytes [b] hold [p], a property of type [ty]
    found at [path] (innermost first), with a header or not; [size] is the size
    known from the container. *)
Inductive is_prop : list str -> str -> bool -> option Z -> property -> list byte -> Prop :=
| p_plain path ty size p b : is_plain vs ty p b -> is_prop path ty false size p b
| p_plain_h path ty size p b : is_plain vs ty p b -> word (len b) ->
    is_prop path ty true size p (framed 0 [] b)
| p_bool path size v : is_prop path (s2z "BoolProperty") false size (PBool v) (le_bytes 1 (flag v))
| p_bool_h path size v :
    is_prop path (s2z "BoolProperty") true size (PBool v) (u4 0 ++ u4 0 ++ le_bytes 1 (flag v) ++ [Byte.x00])
| p_byte path size v b : is_bytev o size v b ->
    is_prop path (s2z "ByteProperty") false size (PByte None v) b
(** The length in the header decides between byte and name, but is not checked. *)
| p_byte_h path size n e x v b : word e -> text_of n x -> is_bytev o (Some e) v b ->
    is_prop path (s2z "ByteProperty") true size (PByte (Some n) v) (u4 e ++ u4 0 ++ x ++ Byte.x00 :: b)
| p_enum path size s b : text_of s b -> is_prop path (s2z "EnumProperty") false size (PEnum None s) b
| p_enum_h path size t s x b : text_of t x -> text_of s b -> word (len b) ->
    is_prop path (s2z "EnumProperty") true size (PEnum (Some t) s) (framed 0 x b)
| p_name path size s b : stored s b -> is_prop path (s2z "NameProperty") false size (PName 0 s) b
| p_name_h path size i s b : word i -> stored s b -> word (len b) ->
    is_prop path (s2z "NameProperty") true size (PName i s) (framed i [] b)
| p_unknown path ty raw : ~ In ty type_names ->
    is_prop path ty false (Some (len raw)) (PUnknown ty raw) raw
| p_unknown_h path ty size raw : ~ In ty type_names -> word (len raw) ->
    is_prop path ty true size (PUnknown ty raw) (framed 0 [] raw)
(** The type of a struct without header comes from the hints. *)
| p_struct path size ty v b : hints o (dotted (s2z "StructProperty" :: path)) = Some ty ->
    is_struct (s2z "StructProperty" :: path) ty v b ->
    is_prop path (s2z "StructProperty") false size (PSValue v) b
| p_struct_h path size ty g v x b : text_of ty x -> len g = 16 ->
    is_struct (s2z "StructProperty" :: path) ty v b -> word (len b) ->
    is_prop path (s2z "StructProperty") true size (PStruct g ty v) (framed 0 (x ++ g) b)
(** Elements share the bytes after the count evenly, as far as sizes matter. *)
| p_array path size ty l a x y b :
    text_of ty x -> ty <> s2z "StructProperty" -> word (len l) -> b = u4 (len l) ++ y ->
    is_elems (s2z "ArrayProperty" :: path) ty (Some (len y / len l)) l y ->
    is_array ty l a -> word (len b) ->
    is_prop path (s2z "ArrayProperty") true size (PArray a) (framed 0 x b)
| p_structs path size f ty g l x xf xs xt y b :
    text_of (s2z "StructProperty") x -> word (len l) ->
    text_of f xf -> text_of (s2z "StructProperty") xs -> text_of ty xt -> len g = 16 ->
    b = u4 (len l) ++ xf ++ xs ++ le_bytes 8 (len y) ++ xt ++ g ++ Byte.x00 :: y ->
    is_structs (s2z "ArrayProperty" :: path) ty l y -> word (len b) ->
    is_prop path (s2z "ArrayProperty") true size (PArray (AStructs f ty g l)) (framed 0 x b)
| p_set path size ty flags l x y b :
    text_of ty x -> word flags -> word (len l) -> b = u4 flags ++ u4 (len l) ++ y ->
    is_elems (s2z "SetProperty" :: path) ty (Some (len y / len l)) l y -> word (len b) ->
    is_prop path (s2z "SetProperty") true size (PSet ty flags l) (framed 0 x b)
| p_map path size kt vt flags l l' m xk xv y b :
    text_of kt xk -> text_of vt xv -> word flags -> word (len l) ->
    b = u4 flags ++ u4 (len l) ++ y ->
    is_entries (s2z "MapProperty" :: path) kt vt l y ->
    settled (map fst l) -> collapsed same l l' ->
    is_map kt vt flags l' m -> word (len b) ->
    is_prop path (s2z "MapProperty") true size (PMap m) (framed 0 (xk ++ xv) b)
with is_elems : list str -> str -> option Z -> list property -> list byte -> Prop :=
| e_nil path ty size : is_elems path ty size [] []
| e_cons path ty size p l x y : is_prop path ty false size p x -> is_elems path ty size l y ->
    is_elems path ty size (p :: l) (x ++ y)
with is_entries : list str -> str -> str -> list (property * property) -> list byte -> Prop :=
| m_nil path kt vt : is_entries path kt vt [] []
| m_cons path kt vt k v l x y z :
    is_prop (s2z "Key" :: path) kt false None k x ->
    is_prop (s2z "Value" :: path) vt false None v y ->
    is_entries path kt vt l z -> is_entries path kt vt ((k, v) :: l) (x ++ y ++ z)
with is_structs : list str -> str -> list svalue -> list byte -> Prop :=
| s_nil path ty : is_structs path ty [] []
| s_cons path ty v l x y : is_struct path ty v x -> is_structs path ty l y ->
    is_structs path ty (v :: l) (x ++ y)
with is_struct : list str -> str -> svalue -> list byte -> Prop :=
| st_fixed path x name lwc ks l b : fixed_spec x = (name, lwc, ks) ->
    (forall d, lwc = Some d -> has_lwc vs = d) -> many2 num_bytes ks l b ->
    is_struct path (s2z name) (SFixed x l) b
| st_guid path g : len g = 16 -> is_struct path (s2z "Guid") (SGuid g) g
| st_tags path l x : len l < 2147483648 -> many text_of l x ->
    is_struct path (s2z "GameplayTagContainer") (STags l) (u4 (len l) ++ x)
| st_custom path ty l x y : ~ In ty struct_names -> is_fields path l x ->
    text_of (s2z "None") y -> (dbg o = true -> indexed l) ->
    is_struct path ty (SCustom (grouped l)) (x ++ y)
(** Named properties: name, type, property. *)
with is_fields : list str -> list (str * property) -> list byte -> Prop :=
| f_nil path : is_fields path [] []
| f_cons path k ty p l x y z w : text_of k x -> k <> s2z "None" -> text_of ty y ->
    is_prop (k :: path) ty true None p z -> is_fields path l w ->
    is_fields path ((k, p) :: l) (x ++ y ++ z ++ w).
End Props.

(** ** Files *)
Definition is_file (o : opts) (h : header) (ps : list (str * property)) (b : list byte) : Prop :=
  exists vl l x y z,
    b = x ++ y ++ z /\ header_coded h vl x /\ collapsed guid_eqb vl (h_versions h)
    /\ is_fields o (h_versions h) [] l y /\ text_of (s2z "None") z
    /\ collapsed str_eqb l ps.
