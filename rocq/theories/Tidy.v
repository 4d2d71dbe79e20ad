(** Files in canonical form, for claim C59.

    The rules of Grammar.v leave some choices to whoever writes a file: strings may
    be stored in either encoding, keys of maps and names of properties may be
    repeated, the fields of a struct that share a name may be apart from each other,
    and the length in front of a byte property is not checked.  The rules here are
    the same with every choice made. *)
From Coq Require Import ZArith List Bool String.
From Verif Require Import Base Types Versions File Spec StrThm MapFacts HeaderThm Grammar.
Import ListNotations.
Open Scope Z_scope.

(** ASCII strings have one byte per character, all others are in UTF-16. *)
Inductive tidy_str : option str -> list byte -> Prop :=
| ts_null : tidy_str None (u4 0)
| ts_ascii s : ascii s -> len s + 1 <= 131072 ->
    tidy_str (Some s) (u4 (len s + 1) ++ map z2b s ++ [Byte.x00])
| ts_wide s us : ~ ascii s -> coded char16 s us -> len us + 1 <= 131072 ->
    tidy_str (Some s) (u4 (- (len us + 1)) ++ flat_map (le_bytes 2) us ++ [Byte.x00; Byte.x00]).
Definition line (s : str) (b : list byte) : Prop := tidy_str (Some s) b.

(** ** Texts: no argument name twice *)
Section Text.
Context (vs : list (guid * Z)).

Inductive tidy_text : ftext -> list byte -> Prop :=
| tt_text f h b : word f -> tidy_hist h b -> tidy_text (FText f h) (u4 f ++ b)
with tidy_hist : fhist -> list byte -> Prop :=
| th_old : has_culture vs = false -> tidy_hist HEmpty [Byte.xff]
| th_empty : has_culture vs = true -> tidy_hist HEmpty (Byte.xff :: u4 0)
| th_none s b : has_culture vs = true -> tidy_str s b -> tidy_hist (HNone s) (Byte.xff :: u4 1 ++ b)
| th_base a b c x y z : tidy_str a x -> tidy_str b y -> tidy_str c z ->
    tidy_hist (HBase a b c) (Byte.x00 :: x ++ y ++ z)
| th_named t l x y : tidy_text t x -> tidy_named l y -> len l < 2147483648 -> distinct str_eqb l = true ->
    tidy_hist (HNamed t l) (Byte.x01 :: x ++ u4 (len l) ++ y)
| th_ordered t l x y : tidy_text t x -> tidy_args l y -> len l < 2147483648 ->
    tidy_hist (HOrdered t l) (Byte.x02 :: x ++ u4 (len l) ++ y)
| th_argument t l x y : tidy_text t x -> tidy_named l y -> len l < 2147483648 -> distinct str_eqb l = true ->
    tidy_hist (HArgument t l) (Byte.x03 :: x ++ u4 (len l) ++ y)
| th_number v o c x y z : tidy_arg v x -> is_optfmt o y -> tidy_str c z ->
    tidy_hist (HNumber v o c) (Byte.x04 :: x ++ y ++ z)
| th_percent v o c x y z : tidy_arg v x -> is_optfmt o y -> tidy_str c z ->
    tidy_hist (HPercent v o c) (Byte.x05 :: x ++ y ++ z)
| th_currency d v o c w x y z : tidy_str d w -> tidy_arg v x -> is_optfmt o y -> tidy_str c z ->
    tidy_hist (HCurrency d v o c) (Byte.x06 :: w ++ x ++ y ++ z)
| th_date t s c x : 0 <= t < 2 ^ 64 -> 0 <= s <= 4 -> line c x ->
    tidy_hist (HDate t s c) (Byte.x07 :: le_bytes 8 t ++ le_bytes 1 s ++ x)
| th_time t s z c x y : 0 <= t < 2 ^ 64 -> 0 <= s <= 4 -> line z x -> line c y ->
    tidy_hist (HTime t s z c) (Byte.x08 :: le_bytes 8 t ++ le_bytes 1 s ++ x ++ y)
| th_datetime t s u z c x y : 0 <= t < 2 ^ 64 -> 0 <= s <= 4 -> 0 <= u <= 4 -> line z x -> line c y ->
    tidy_hist (HDateTime t s u z c)
      (Byte.x09 :: le_bytes 8 t ++ le_bytes 1 s ++ le_bytes 1 u ++ x ++ y)
| th_transform t k x : tidy_text t x -> 0 <= k <= 1 ->
    tidy_hist (HTransform t k) (Byte.x0a :: x ++ le_bytes 1 k)
| th_table a b x y : line a x -> line b y -> tidy_hist (HTable a b) (Byte.x0b :: x ++ y)
with tidy_arg : farg -> list byte -> Prop :=
| ta_int z : has_arg64 vs = false -> -2147483648 <= z < 2147483648 ->
    tidy_arg (AInt z) (Byte.x00 :: le_bytes 4 z)
| ta_int64 z : has_arg64 vs = true -> - 2 ^ 63 <= z < 2 ^ 63 ->
    tidy_arg (AInt64 z) (Byte.x00 :: le_bytes 8 z)
| ta_uint z : has_arg64 vs = false -> word z -> tidy_arg (AUInt z) (Byte.x01 :: le_bytes 4 z)
| ta_uint64 z : has_arg64 vs = true -> 0 <= z < 2 ^ 64 ->
    tidy_arg (AUInt64 z) (Byte.x01 :: le_bytes 8 z)
| ta_float z : word z -> tidy_arg (AFloat z) (Byte.x02 :: le_bytes 4 z)
| ta_double z : 0 <= z < 2 ^ 64 -> tidy_arg (ADouble z) (Byte.x03 :: le_bytes 8 z)
| ta_text t x : tidy_text t x -> tidy_arg (AText t) (Byte.x04 :: x)
with tidy_args : list farg -> list byte -> Prop :=
| tl_nil : tidy_args [] []
| tl_cons a l x y : tidy_arg a x -> tidy_args l y -> tidy_args (a :: l) (x ++ y)
with tidy_named : list (str * farg) -> list byte -> Prop :=
| tn_nil : tidy_named [] []
| tn_cons k a l x y z : line k x -> tidy_arg a y -> tidy_named l z ->
    tidy_named ((k, a) :: l) (x ++ y ++ z).
End Text.

(** ** Properties *)
Inductive tidy_bytev : option Z -> bytev -> list byte -> Prop :=
| tb_unsized c : tidy_bytev None (BByte c) [c]
| tb_byte c : tidy_bytev (Some 1) (BByte c) [c]
| tb_name e s x : 3 <= e -> line s x -> tidy_bytev (Some e) (BName s) x.
Definition tidy_pair (p : str * str) (b : list byte) : Prop :=
  exists x y, line (fst p) x /\ line (snd p) y /\ b = x ++ y.

Inductive tidy_plain (vs : list (guid * Z)) : str -> property -> list byte -> Prop :=
| tp_num k z b : num_bytes k z b -> tidy_plain vs (s2z (fst (fst (num_spec k)))) (PNum k z) b
| tp_str s b : tidy_str s b -> tidy_plain vs (s2z "StrProperty") (PStr s) b
| tp_object s b : line s b -> tidy_plain vs (s2z "ObjectProperty") (PObject s) b
| tp_delegate p b : tidy_pair p b ->
    tidy_plain vs (s2z "DelegateProperty") (PDelegate (fst p) (snd p)) b
| tp_inline l b : word (len l) -> many tidy_pair l b ->
    tidy_plain vs (s2z "MulticastInlineDelegateProperty") (PMulti true l) (u4 (len l) ++ b)
| tp_sparse l b : word (len l) -> many tidy_pair l b ->
    tidy_plain vs (s2z "MulticastSparseDelegateProperty") (PMulti false l) (u4 (len l) ++ b)
| tp_path l s x y : word (len l) -> many line l x -> line s y ->
    tidy_plain vs (s2z "FieldPathProperty") (PFieldPath l s) (u4 (len l) ++ x ++ y)
| tp_text t b : tidy_text vs t b -> tidy_plain vs (s2z "TextProperty") (PText t) b.

(** Fields one by one, those of one name together. *)
Definition spread (l : list (str * list property)) : list (str * property) :=
  flat_map (fun e => map (fun p => (fst e, p)) (snd e)) l.

Section Props.
Context (o : opts) (vs : list (guid * Z)).

Inductive tidy_prop : list str -> str -> bool -> option Z -> property -> list byte -> Prop :=
| t_plain path ty size p b : tidy_plain vs ty p b -> tidy_prop path ty false size p b
| t_plain_h path ty size p b : tidy_plain vs ty p b -> word (len b) ->
    tidy_prop path ty true size p (framed 0 [] b)
| t_bool path size v : tidy_prop path (s2z "BoolProperty") false size (PBool v) (le_bytes 1 (flag v))
| t_bool_h path size v :
    tidy_prop path (s2z "BoolProperty") true size (PBool v) (u4 0 ++ u4 0 ++ le_bytes 1 (flag v) ++ [Byte.x00])
| t_byte path size v b : tidy_bytev size v b ->
    tidy_prop path (s2z "ByteProperty") false size (PByte None v) b
(** The length is that of the value. *)
| t_byte_h path size n x v b : line n x -> tidy_bytev (Some (len b)) v b -> word (len b) ->
    tidy_prop path (s2z "ByteProperty") true size (PByte (Some n) v) (framed 0 x b)
| t_enum path size s b : line s b -> tidy_prop path (s2z "EnumProperty") false size (PEnum None s) b
| t_enum_h path size t s x b : line t x -> line s b -> word (len b) ->
    tidy_prop path (s2z "EnumProperty") true size (PEnum (Some t) s) (framed 0 x b)
| t_name path size s b : tidy_str s b -> tidy_prop path (s2z "NameProperty") false size (PName 0 s) b
| t_name_h path size i s b : word i -> tidy_str s b -> word (len b) ->
    tidy_prop path (s2z "NameProperty") true size (PName i s) (framed i [] b)
| t_unknown path ty raw : ~ In ty type_names ->
    tidy_prop path ty false (Some (len raw)) (PUnknown ty raw) raw
| t_unknown_h path ty size raw : ~ In ty type_names -> word (len raw) ->
    tidy_prop path ty true size (PUnknown ty raw) (framed 0 [] raw)
| t_struct path size ty v b : hints o (dotted (s2z "StructProperty" :: path)) = Some ty ->
    tidy_struct (s2z "StructProperty" :: path) ty v b ->
    tidy_prop path (s2z "StructProperty") false size (PSValue v) b
| t_struct_h path size ty g v x b : line ty x -> len g = 16 ->
    tidy_struct (s2z "StructProperty" :: path) ty v b -> word (len b) ->
    tidy_prop path (s2z "StructProperty") true size (PStruct g ty v) (framed 0 (x ++ g) b)
| t_array path size ty l a x y b :
    line ty x -> ty <> s2z "StructProperty" -> word (len l) -> b = u4 (len l) ++ y ->
    tidy_elems (s2z "ArrayProperty" :: path) ty (Some (len y / len l)) l y ->
    is_array ty l a -> word (len b) ->
    tidy_prop path (s2z "ArrayProperty") true size (PArray a) (framed 0 x b)
| t_structs path size f ty g l x xf xs xt y b :
    line (s2z "StructProperty") x -> word (len l) ->
    line f xf -> line (s2z "StructProperty") xs -> line ty xt -> len g = 16 ->
    b = u4 (len l) ++ xf ++ xs ++ le_bytes 8 (len y) ++ xt ++ g ++ Byte.x00 :: y ->
    tidy_structs (s2z "ArrayProperty" :: path) ty l y -> word (len b) ->
    tidy_prop path (s2z "ArrayProperty") true size (PArray (AStructs f ty g l)) (framed 0 x b)
| t_set path size ty flags l x y b :
    line ty x -> word flags -> word (len l) -> b = u4 flags ++ u4 (len l) ++ y ->
    tidy_elems (s2z "SetProperty" :: path) ty (Some (len y / len l)) l y -> word (len b) ->
    tidy_prop path (s2z "SetProperty") true size (PSet ty flags l) (framed 0 x b)
(** No key twice. *)
| t_map path size kt vt flags l m xk xv y b :
    line kt xk -> line vt xv -> word flags -> word (len l) ->
    b = u4 flags ++ u4 (len l) ++ y ->
    tidy_entries (s2z "MapProperty" :: path) kt vt l y ->
    settled o (map fst l) -> distinct same l = true ->
    is_map kt vt flags l m -> word (len b) ->
    tidy_prop path (s2z "MapProperty") true size (PMap m) (framed 0 (xk ++ xv) b)
with tidy_elems : list str -> str -> option Z -> list property -> list byte -> Prop :=
| te_nil path ty size : tidy_elems path ty size [] []
| te_cons path ty size p l x y : tidy_prop path ty false size p x -> tidy_elems path ty size l y ->
    tidy_elems path ty size (p :: l) (x ++ y)
with tidy_entries : list str -> str -> str -> list (property * property) -> list byte -> Prop :=
| tm_nil path kt vt : tidy_entries path kt vt [] []
| tm_cons path kt vt k v l x y z :
    tidy_prop (s2z "Key" :: path) kt false None k x ->
    tidy_prop (s2z "Value" :: path) vt false None v y ->
    tidy_entries path kt vt l z -> tidy_entries path kt vt ((k, v) :: l) (x ++ y ++ z)
with tidy_structs : list str -> str -> list svalue -> list byte -> Prop :=
| tv_nil path ty : tidy_structs path ty [] []
| tv_cons path ty v l x y : tidy_struct path ty v x -> tidy_structs path ty l y ->
    tidy_structs path ty (v :: l) (x ++ y)
with tidy_struct : list str -> str -> svalue -> list byte -> Prop :=
| tx_fixed path x name lwc ks l b : fixed_spec x = (name, lwc, ks) ->
    (forall d, lwc = Some d -> has_lwc vs = d) -> many2 num_bytes ks l b ->
    tidy_struct path (s2z name) (SFixed x l) b
| tx_guid path g : len g = 16 -> tidy_struct path (s2z "Guid") (SGuid g) g
| tx_tags path l x : len l < 2147483648 -> many line l x ->
    tidy_struct path (s2z "GameplayTagContainer") (STags l) (u4 (len l) ++ x)
(** Fields of one name stand together. *)
| tx_custom path ty l x y : ~ In ty struct_names -> tidy_fields path (spread l) x ->
    line (s2z "None") y -> distinct str_eqb l = true -> Forall (fun e => snd e <> []) l ->
    (dbg o = true -> indexed (spread l)) ->
    tidy_struct path ty (SCustom l) (x ++ y)
with tidy_fields : list str -> list (str * property) -> list byte -> Prop :=
| tf_nil path : tidy_fields path [] []
| tf_cons path k ty p l x y z w : line k x -> k <> s2z "None" -> line ty y ->
    tidy_prop (k :: path) ty true None p z -> tidy_fields path l w ->
    tidy_fields path ((k, p) :: l) (x ++ y ++ z ++ w).
End Props.

(** ** Files *)
Definition tidy_engine (v : fengine) (e : list byte) : Prop :=
  exists s, line (fe_branch v) s
    /\ e = le_bytes 2 (fe_major v) ++ le_bytes 2 (fe_minor v) ++ le_bytes 2 (fe_patch v)
           ++ le_bytes 4 (fe_change v) ++ s
    /\ 0 <= fe_major v < 65536 /\ 0 <= fe_minor v < 65536 /\ 0 <= fe_patch v < 65536
    /\ 0 <= fe_change v < 4294967296.
(** Magic number, then the versions: 2 and the package version, or 3 and both. *)
Definition opening (h : header) : list byte :=
  u4 0x53415647
  ++ match h_ue5 h with
     | None => u4 2 ++ u4 (h_package h)
     | Some v => u4 3 ++ u4 (h_package h) ++ u4 v
     end.
Definition tidy_header (h : header) (b : list byte) : Prop :=
  exists e c,
    b = opening h ++ e ++ u4 3 ++ u4 (len (h_versions h)) ++ entries_bytes (h_versions h) ++ c
    /\ 0x205 <= h_package h <= 0x20D
    /\ (forall v, h_ue5 h = Some v -> 1000 <= v <= 1009)
    /\ tidy_engine (h_engine h) e /\ line (h_class h) c /\ h_format h = 3
    /\ len (h_versions h) < 4294967296 /\ Forall entry_fits (h_versions h)
    /\ distinct guid_eqb (h_versions h) = true.
(** No name twice. *)
Definition tidy_file (o : opts) (h : header) (ps : list (str * property)) (b : list byte) : Prop :=
  exists x y z,
    b = x ++ y ++ z /\ tidy_header h x /\ tidy_fields o (h_versions h) [] ps y
    /\ line (s2z "None") z /\ distinct str_eqb ps = true.
