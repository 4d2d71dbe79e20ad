(** Strings and primitive accessors: cursor_ext.rs.  No proofs in this file. *)
From Coq Require Import ZArith List Bool String.
From Verif Require Import Base.
Import ListNotations.
Open Scope Z_scope.

(** byteorder: [read_u8] ... [read_i64]. *)
Definition r_uint (w : Z) : reader Z := bs <- take w ;; ret (le_val bs).
Definition r_sint (w : Z) : reader Z := v <- r_uint w ;; ret (to_signed w v).
Definition r_u8 := r_uint 1.
Definition r_u16 := r_uint 2.
Definition r_u32 := r_uint 4.
Definition r_u64 := r_uint 8.
Definition r_i8 := r_sint 1.
Definition r_i32 := r_sint 4.

(** byteorder: [write_u8] ... [write_u64]; signed and unsigned coincide.
    Called in cursor_ext.rs:147-202 and by every [write_body]. *)
Definition w_int (w : Z) (v : Z) : out := emit (le_bytes (Z.to_nat w) v) w.
Definition w_u8 := w_int 1.
Definition w_u32 := w_int 4.
Definition w_u64 := w_int 8.

(** ** UTF-8, strict ([String::from_utf8], cursor_ext.rs:93; the accepted byte
    ranges are those of [core::str::validations]). *)
Definition inr (a b x : Z) : bool := (a <=? x) && (x <=? b).

Definition ocons (c : Z) (o : option str) : option str :=
  match o with Some l => Some (c :: l) | None => None end.

Fixpoint utf8_dec (l : list byte) : option str :=
  match l with
  | [] => Some []
  | b0 :: r0 =>
    let c0 := b2z b0 in
    if inr 0 127 c0 then ocons c0 (utf8_dec r0)
    else if inr 194 223 c0 then
      match r0 with
      | b1 :: r1 =>
        let c1 := b2z b1 in
        if inr 128 191 c1
        then ocons ((c0 - 192) * 64 + (c1 - 128)) (utf8_dec r1)
        else None
      | _ => None
      end
    else if inr 224 239 c0 then
      match r0 with
      | b1 :: b2 :: r2 =>
        let c1 := b2z b1 in
        let c2 := b2z b2 in
        if (if c0 =? 224 then inr 160 191 c1
            else if c0 =? 237 then inr 128 159 c1
            else inr 128 191 c1) && inr 128 191 c2
        then ocons ((c0 - 224) * 4096 + (c1 - 128) * 64 + (c2 - 128)) (utf8_dec r2)
        else None
      | _ => None
      end
    else if inr 240 244 c0 then
      match r0 with
      | b1 :: b2 :: b3 :: r3 =>
        let c1 := b2z b1 in
        let c2 := b2z b2 in
        let c3 := b2z b3 in
        if (if c0 =? 240 then inr 144 191 c1
            else if c0 =? 244 then inr 128 143 c1
            else inr 128 191 c1) && inr 128 191 c2 && inr 128 191 c3
        then ocons ((c0 - 240) * 262144 + (c1 - 128) * 4096 + (c2 - 128) * 64 + (c3 - 128))
                   (utf8_dec r3)
        else None
      | _ => None
      end
    else None
  end.

(** ** UTF-16, strict ([String::from_utf16], cursor_ext.rs:77). *)
Fixpoint utf16_dec (l : list Z) : option str :=
  match l with
  | [] => Some []
  | u :: r =>
    if inr 55296 56319 u then
      match r with
      | v :: q => if inr 56320 57343 v
                  then ocons (65536 + (u - 55296) * 1024 + (v - 56320)) (utf16_dec q)
                  else None
      | [] => None
      end
    else if inr 56320 57343 u then None
    else ocons u (utf16_dec r)
  end.

(** [str::encode_utf16], cursor_ext.rs:158. *)
Definition utf16_char (c : Z) : list Z :=
  if c <? 65536 then [c]
  else [55296 + (c - 65536) / 1024; 56320 + (c - 65536) mod 1024].
Fixpoint utf16_enc (s : str) : list Z :=
  match s with
  | [] => []
  | c :: r => utf16_char c ++ utf16_enc r
  end.

(** [str::is_ascii]. cursor_ext.rs:149. *)
Definition is_ascii (s : str) : bool := forallb (fun c => inr 0 127 c) s.

(** [read_u16_into]: split a byte buffer into little-endian words. cursor_ext.rs:66-67. *)
Fixpoint words (l : list byte) : list Z :=
  match l with
  | a :: b :: r => (b2z a + 256 * b2z b) :: words r
  | _ => []
  end.

(** [read_fstring], cursor_ext.rs:57-98. *)
Definition r_fstring : reader (option str) :=
  start <- position ;;
  n <- r_i32 ;;
  if negb (inr (-131072) 131072 n) then fail (Err (EString n start))
  else if n =? 0 then ret None
  else if n <? 0 then
    buf <- take (2 * (- n - 1)) ;;
    t <- r_u16 ;;
    p <- position ;;
    if negb (t =? 0) then fail (Err (EStrTerm t p))
    else match utf16_dec (words buf) with
         | Some s => ret (Some s)
         | None => fail (Err (EUtf16 start))
         end
  else
    buf <- take (n - 1) ;;
    t <- r_u8 ;;
    p <- position ;;
    if negb (t =? 0) then fail (Err (EStrTerm t p))
    else match utf8_dec buf with
         | Some s => ret (Some s)
         | None => fail (Err (EUtf8 start))
         end.

(** [read_string], cursor_ext.rs:48-54. *)
Definition r_string : reader str :=
  start <- position ;;
  o <- r_fstring ;;
  match o with
  | Some s => ret s
  | None => fail (Err (EString 0 start))
  end.

(** [read_guid], cursor_ext.rs:101-105. *)
Definition r_guid : reader guid := take 16.

(** [read_bool] and [read_b32], cursor_ext.rs:108-129. *)
Definition r_boolw (w : Z) : reader bool :=
  v <- r_uint w ;;
  if v =? 0 then ret false
  else if v =? 1 then ret true
  else p <- position ;; fail (Err (EBool v p)).
Definition r_bool := r_boolw 1.
Definition r_b32 := r_boolw 4.

(** [read_enum], cursor_ext.rs:132-142; [of_z] is [TryFrom<i8>]. *)
Definition r_enum {A} (t : etype) (of_z : Z -> option A) : reader A :=
  v <- r_i8 ;;
  match of_z v with
  | Some a => ret a
  | None => p <- position ;; fail (Err (EEnum t v p))
  end.

(** [write_string], cursor_ext.rs:147-167.  The returned count is
    [len * 2 + 4] in both branches.  Simplification: [-(len as i32)] wraps; in a debug
    build it panics for exactly 2^31 (mod 2^32) words with the terminator. *)
Definition str_bytes (s : str) : list byte :=
  if is_ascii s
  then le_bytes 4 (len s + 1) ++ map z2b s ++ [Byte.x00]
  else le_bytes 4 (- (len (utf16_enc s) + 1))
       ++ flat_map (le_bytes 2) (utf16_enc s) ++ le_bytes 2 0.
Definition w_string (s : str) : out :=
  emit (str_bytes s)
       (2 * ((if is_ascii s then len s else len (utf16_enc s)) + 1) + 4).

(** [write_fstring], cursor_ext.rs:169-177. *)
Definition w_fstring (o : option str) : out :=
  match o with
  | Some s => w_string s
  | None => w_int 4 0
  end.

(** [write_guid], [write_bool], [write_b32], [write_enum], cursor_ext.rs:180-200. *)
Definition w_guid (g : guid) : out := emit g 16.
Definition w_bool (b : bool) : out := w_int 1 (if b then 1 else 0).
Definition w_b32 (b : bool) : out := w_int 4 (if b then 1 else 0).
Definition w_enum (v : Z) : out := w_int 1 v.
