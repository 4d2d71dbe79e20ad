(** Where a file asks for a hint, for claim C77.

    Values inside sets and maps have no header, so the type of a struct there is not in
    the file.  The rules say which bytes stand before such a struct and which names lead to
    it.  What comes before it must be there in full ([is_prop] and the like, Grammar.v);
    what encloses it need only have begun.  Nothing of the readers is used. *)
From Coq Require Import ZArith List Bool String.
From Verif Require Import Base Types Versions File Spec StrThm MapFacts HeaderThm Grammar.
Import ListNotations.
Open Scope Z_scope.

(** The start of a property with a header: declared length, index, what the type adds. *)
Definition opened (e : Z) (mid rest : list byte) : list byte := u4 e ++ u4 0 ++ mid ++ Byte.x00 :: rest.

Section Asks.
Context (o : opts) (vs : list (guid * Z)).

(** [asks path ty hdr d way]: if a property of type [ty] at [path] starts with [d], then a struct of
    unknown type comes next, and [way] are the names that lead to it, innermost first. *)
Inductive asks : list str -> str -> bool -> list byte -> list str -> Prop :=
| as_here path : asks path (s2z "StructProperty") false [] (s2z "StructProperty" :: path)
(** Its type is known; there may be another one inside. *)
| as_hinted path ty d way : hints o (dotted (s2z "StructProperty" :: path)) = Some ty ->
    asks_inside (s2z "StructProperty" :: path) ty d way -> asks path (s2z "StructProperty") false d way
| as_struct path e ty x g d way : word e -> text_of ty x -> len g = 16 ->
    asks_inside (s2z "StructProperty" :: path) ty d way ->
    asks path (s2z "StructProperty") true (opened e (x ++ g) d) way
| as_structs path e n f ty g l size x xf xs xt y d way : word e -> word n ->
    text_of (s2z "StructProperty") x -> text_of f xf -> text_of (s2z "StructProperty") xs ->
    0 <= size < 2 ^ 64 -> text_of ty xt -> len g = 16 ->
    is_structs o vs (s2z "ArrayProperty" :: path) ty l y -> len l < n ->
    asks_inside (s2z "ArrayProperty" :: path) ty d way ->
    asks path (s2z "ArrayProperty") true
      (opened e x (u4 n ++ xf ++ xs ++ le_bytes 8 size ++ xt ++ g ++ Byte.x00 :: y ++ d)) way
| as_set path e flags n ty l x y d way : word e -> (dbg o = true -> 8 <= e) -> word flags -> word n ->
    text_of ty x -> is_elems o vs (s2z "SetProperty" :: path) ty None l y -> len l < n ->
    asks (s2z "SetProperty" :: path) ty false d way ->
    asks path (s2z "SetProperty") true (opened e x (u4 flags ++ u4 n ++ y ++ d)) way
| as_key path e flags n kt vt l xk xv y d way : word e -> word flags -> word n ->
    text_of kt xk -> text_of vt xv -> is_entries o vs (s2z "MapProperty" :: path) kt vt l y -> len l < n ->
    asks (s2z "Key" :: s2z "MapProperty" :: path) kt false d way ->
    asks path (s2z "MapProperty") true (opened e (xk ++ xv) (u4 flags ++ u4 n ++ y ++ d)) way
| as_value path e flags n kt vt l k xk xv y z d way : word e -> word flags -> word n ->
    text_of kt xk -> text_of vt xv -> is_entries o vs (s2z "MapProperty" :: path) kt vt l y -> len l < n ->
    is_prop o vs (s2z "Key" :: s2z "MapProperty" :: path) kt false None k z ->
    asks (s2z "Value" :: s2z "MapProperty" :: path) vt false d way ->
    asks path (s2z "MapProperty") true (opened e (xk ++ xv) (u4 flags ++ u4 n ++ y ++ z ++ d)) way
(** The fields of a struct that is no built-in one. *)
with asks_inside : list str -> str -> list byte -> list str -> Prop :=
| as_field path ty l y k x kty z d way : ~ In ty struct_names ->
    is_fields o vs path l y -> (dbg o = true -> indexed l) ->
    text_of k x -> k <> s2z "None" -> text_of kty z -> asks (k :: path) kty true d way ->
    asks_inside path ty (y ++ x ++ z ++ d) way.
End Asks.

(** Hash collisions decide which keys a map keeps, but not where a hint is asked for. *)
Definition calm (o : opts) : opts := Opts (dbg o) (hints o) (fun _ _ => false).
(** The same for a whole file. *)
Definition file_asks (o : opts) (b : list byte) (way : list str) : Prop :=
  exists h vl l k ty x y xk xt d,
    b = x ++ y ++ xk ++ xt ++ d /\ header_coded h vl x /\ collapsed guid_eqb vl (h_versions h)
    /\ is_fields o (h_versions h) [] l y /\ text_of k xk /\ k <> s2z "None" /\ text_of ty xt
    /\ asks o (h_versions h) [k] ty true d way.
