(** Claims C13 and C14: declared and written sizes. *)
From Coq Require Import ZArith List Bool String Lia.
From Verif Require Import Base Str Types Versions Text Props File Spec Samples StrThm FrameThm.
Import ListNotations.
Open Scope Z_scope.

(** * C13: declared sizes are enforced *)

(** An accepted property with a header is [framed]: size, index, header strings,
    other header bytes, a zero byte, the value.  The value has the declared size
    for every type but ByteProperty; the index is zero for every type but
    NameProperty; header strings are not null.  [eats c f c']: [f] is consumed. *)
Theorem C13_declared_size : forall n o vs ty sug c x c',
  r_prop n o vs ty true sug c = Ok (x, c') ->
  exists size idx names raw body f,
    framed ty size idx names raw body f /\ eats c f c' /\ good names
    /\ 0 <= size < 4294967296 /\ 0 <= idx < 4294967296
    /\ (ty <> s2z "ByteProperty" -> size = len body)
    /\ (ty <> s2z "NameProperty" -> idx = 0).
Proof. exact frame_prop. Qed.
Print Assumptions C13_declared_size.
(** Only the declared size changed: not both are accepted, for every type that does
    not use the size ([size_unused]: known, not ByteProperty, and not an array or
    set of such elements). *)
Theorem C13_size_unique : forall n o vs ty sug p t st L L' x c x' c',
  0 <= L < 4294967296 -> 0 <= L' < 4294967296 -> size_unused ty t ->
  r_prop n o vs ty true sug (Cur p (le_bytes 4 L ++ t) st) = Ok (x, c) ->
  r_prop n o vs ty true sug (Cur p (le_bytes 4 L' ++ t) st) = Ok (x', c') -> L = L'.
Proof. exact resize. Qed.
Print Assumptions C13_size_unique.
(** The inner size of an array of structs. *)
Theorem C13_inner_size : forall n o vs sug c x c',
  r_prop n o vs (s2z "ArrayProperty") true sug c = Ok (x, c') ->
  element_type (skipn 4 (rest c)) (s2z "StructProperty") ->
  exists size count e e1 e2 e3 g body fname tname,
    stored (Some (s2z "StructProperty")) e /\ stored (Some fname) e1 /\ stored (Some (s2z "StructProperty")) e2
    /\ stored (Some tname) e3 /\ len g = 16
    /\ eats c (le_bytes 4 size ++ le_bytes 4 0 ++ e ++ [Byte.x00] ++ le_bytes 4 count
               ++ e1 ++ e2 ++ le_bytes 8 (len body) ++ e3 ++ g ++ [Byte.x00] ++ body) c'.
Proof. exact struct_array_frame. Qed.
Print Assumptions C13_inner_size.
Theorem C13_inner_unique : forall n o vs rp count p e1 e2 fname L L' t st x c x' c',
  stored (Some fname) e1 -> stored (Some (s2z "StructProperty")) e2 ->
  0 <= L < 2 ^ 64 -> 0 <= L' < 2 ^ 64 ->
  r_struct_array n o vs rp count (Cur p (e1 ++ e2 ++ le_bytes 8 L ++ t) st) = Ok (x, c) ->
  r_struct_array n o vs rp count (Cur p (e1 ++ e2 ++ le_bytes 8 L' ++ t) st) = Ok (x', c') -> L = L'.
Proof. exact inner_resize. Qed.
Print Assumptions C13_inner_unique.

Definition opts0 : opts := Opts true (fun _ => None) (fun _ _ => false).
(** ByteProperty: any size above 2 is accepted for a named value. *)
Theorem C13_byte_size_refuted : exists t x c c',
  r_prop 5 opts0 [] (s2z "ByteProperty") true None (Cur 0 (le_bytes 4 6 ++ t) []) = Ok (x, c)
  /\ r_prop 5 opts0 [] (s2z "ByteProperty") true None (Cur 0 (le_bytes 4 4000000000 ++ t) []) = Ok (x, c')
  /\ rest c = [] /\ rest c' = [].
Proof.
  exists (le_bytes 4 0 ++ str_bytes (s2z "E") ++ [Byte.x00] ++ str_bytes (s2z "A")).
  eexists _, _, _. split; [vm_compute; reflexivity|]. split; [vm_compute; reflexivity|]. split; reflexivity.
Qed.
Print Assumptions C13_byte_size_refuted.

(** Accepted with the right size, rejected with another one. *)
Definition set_tail : list byte :=
  le_bytes 4 0 ++ str_bytes (s2z "IntProperty") ++ [Byte.x00] ++ le_bytes 4 0 ++ le_bytes 4 2 ++ le_bytes 4 7 ++ le_bytes 4 8.
Example C13_applies :
  size_unused (s2z "SetProperty") set_tail
  /\ (exists c, r_prop 5 opts0 [] (s2z "SetProperty") true None (Cur 0 (le_bytes 4 16 ++ set_tail) [])
                = Ok (PSet (s2z "IntProperty") 0 [PNum I32 7; PNum I32 8], c))
  /\ r_prop 5 opts0 [] (s2z "SetProperty") true None (Cur 0 (le_bytes 4 20 ++ set_tail) []) = Fail (Err (EValueSize 20 16 25))
  (* arrays of unknown elements do use the size *)
  /\ (exists x y c c',
       r_prop 5 opts0 [] (s2z "ArrayProperty") true None
         (Cur 0 (le_bytes 4 8 ++ le_bytes 4 0 ++ str_bytes (s2z "Mine") ++ [Byte.x00] ++ le_bytes 4 2 ++ repeat Byte.xff 9) []) = Ok (x, c)
       /\ rest c = repeat Byte.xff 5
       /\ r_prop 5 opts0 [] (s2z "ArrayProperty") true None
         (Cur 0 (le_bytes 4 10 ++ le_bytes 4 0 ++ str_bytes (s2z "Mine") ++ [Byte.x00] ++ le_bytes 4 2 ++ repeat Byte.xff 9) []) = Ok (y, c')
       /\ rest c' = repeat Byte.xff 3).
Proof.
  split; [|split; [|split]].
  - split; [discriminate|]. split; [reflexivity|]. intros _. exists (s2z "IntProperty").
    split; [|split; [discriminate|reflexivity]].
    eexists (str_bytes (s2z "IntProperty")), _. split; [apply str_stored; reflexivity|]. unfold set_tail. reflexivity.
  - eexists. vm_compute. reflexivity.
  - vm_compute. reflexivity.
  - eexists _, _, _, _. split; [vm_compute; reflexivity|]. split; [reflexivity|]. split; [vm_compute; reflexivity|reflexivity].
Qed.

(** * C14: written sizes are exact *)

(** The written form of a property: its type name, then [framed] with the size of the
    value part.  [head_ok]: the header strings fit and an unknown type has not the
    name of a known one. *)
Theorem C14_written_size : forall vs p bs n, w_prop vs true p = Ok (bs, n) -> head_ok p = true ->
  exists t body f, bs = t ++ f /\ stored (Some (type_of p)) t /\ value_part vs p body
    /\ (len body < 4294967296 -> framed (type_of p) (len body) (index_of p) (names_of p) (raw_of p) body f).
Proof. exact frame_written. Qed.
Print Assumptions C14_written_size.
Theorem C14_representable : forall o vs sep path p, wf_prop o vs sep true path p = true -> head_ok p = true.
Proof. exact wf_head. Qed.
Print Assumptions C14_representable.
(** So the end can be found from the size field alone: a framed prefix is unique. *)
Theorem C14_skippable : forall ty size idx names raw body f size' idx' names' raw' body' f' t t',
  framed ty size idx names raw body f -> framed ty size' idx' names' raw' body' f' ->
  0 <= size < 4294967296 -> 0 <= size' < 4294967296 -> 0 <= idx < 4294967296 -> 0 <= idx' < 4294967296 ->
  size = len body -> size' = len body' -> f ++ t = f' ++ t' ->
  f = f' /\ t = t' /\ size = size' /\ idx = idx' /\ names = names' /\ raw = raw' /\ body = body'.
Proof. exact framed_front. Qed.
Print Assumptions C14_skippable.
Theorem C14_inner_size : forall vs fname tname g l bs n,
  w_array vs (AStructs fname tname g l) = Ok (bs, n) -> str_ok fname = true -> str_ok tname = true ->
  exists e1 e2 e3 body q, stored (Some fname) e1 /\ stored (Some (s2z "StructProperty")) e2 /\ stored (Some tname) e3
    /\ seqs (w_sval vs) l = Ok (body, q)
    /\ bs = le_bytes 4 (len l) ++ e1 ++ e2 ++ le_bytes 8 (len body) ++ e3 ++ g ++ [Byte.x00] ++ body.
Proof. exact struct_array_written. Qed.
Print Assumptions C14_inner_size.

Example C14_applies :
  let p := PStruct (repeat Byte.x00 16) (s2z "Mine")
             (SCustom [(s2z "a", [PNum I32 7]); (s2z "b", [PArray (AStructs (s2z "b") (s2z "Guid") (repeat Byte.x00 16) [SGuid (repeat Byte.x01 16)])])]) in
  head_ok p = true
  /\ exists bs n, w_prop [] true p = Ok (bs, n) /\ len bs = 228
     /\ firstn 8 (skipn 19 bs) = le_bytes 4 175 ++ le_bytes 4 0.
Proof. split; [reflexivity|]. eexists _, _. split; [vm_compute; reflexivity|]. split; vm_compute; reflexivity. Qed.
