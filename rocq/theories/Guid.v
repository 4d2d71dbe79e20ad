(** Guid conversions and text form: types.rs:8-187.  No proofs in this file. *)
From Coq Require Import ZArith List Bool String.
From Verif Require Import Base Str Versions.
Import ListNotations.
Open Scope Z_scope.

(** [from_u128], [to_u128], types.rs:26-28 and 49-52. *)
Definition guid_of_u128 (v : Z) : guid := le_bytes 16 v.
Definition guid_to_u128 (g : guid) : Z := le_val g.
(** [to_u32], types.rs:43-46 and 67-75: four native words, each [from_le]. *)
Definition guid_to_u32 (g : guid) : list Z :=
  [le_val (firstn 4 g); le_val (firstn 4 (skipn 4 g));
   le_val (firstn 4 (skipn 8 g)); le_val (firstn 4 (skipn 12 g))].
(** [from_u32], types.rs:20-22 and 55-63. *)
Definition guid_of_u32 (l : list Z) : guid := flat_map (le_bytes 4) l.
(** [is_zero], types.rs:32-34. *)
Definition guid_is_zero (g : guid) : bool := guid_to_u128 g =? 0.

(** [{:02X}]. types.rs:118-150. *)
Definition hex_digit (d : Z) : Z := if d <? 10 then 48 + d else 55 + d.
Definition hex2 (b : byte) : str := [hex_digit (b2z b / 16); hex_digit (b2z b mod 16)].

(** [Display for Guid], types.rs:113-150. *)
Definition guid_display (g : guid) : str :=
  if guid_is_zero g then [48]
  else flat_map hex2 (firstn 4 g) ++ [45]
       ++ flat_map hex2 (firstn 2 (skipn 4 g)) ++ [45]
       ++ flat_map hex2 (firstn 2 (skipn 6 g)) ++ [45]
       ++ flat_map hex2 (firstn 2 (skipn 8 g)) ++ [45]
       ++ flat_map hex2 (skipn 10 g).

(** UTF-8 encoding of a string: what [str::len] and slicing see. types.rs:172-183. *)
Definition utf8_char (c : Z) : list Z :=
  if c <? 128 then [c]
  else if c <? 2048 then [192 + c / 64; 128 + c mod 64]
  else if c <? 65536 then [224 + c / 4096; 128 + c / 64 mod 64; 128 + c mod 64]
  else [240 + c / 262144; 128 + c / 4096 mod 64; 128 + c / 64 mod 64; 128 + c mod 64].
Definition utf8_enc (s : str) : list Z := flat_map utf8_char s.

(** [char::is_whitespace] (Unicode White_Space). types.rs:169. *)
Definition is_space (c : Z) : bool :=
  inr 9 13 c || (c =? 32) || (c =? 133) || (c =? 160) || (c =? 5760) || inr 8192 8202 c
  || (c =? 8232) || (c =? 8233) || (c =? 8239) || (c =? 8287) || (c =? 12288).
(** [str::trim]. types.rs:169. *)
Fixpoint drop_space (s : str) : str :=
  match s with
  | c :: r => if is_space c then drop_space r else s
  | [] => []
  end.
Definition trim (s : str) : str := rev (drop_space (rev (drop_space s))).
(** [strip_prefix], [strip_suffix] with a character. types.rs:170-171. *)
Definition strip_prefix (c : Z) (s : str) : str :=
  match s with a :: r => if a =? c then r else s | [] => s end.
Definition strip_suffix (c : Z) (s : str) : str := rev (strip_prefix c (rev s)).

(** [u8::from_str_radix(_, 16)] on two bytes: an optional plus sign is allowed. types.rs:183. *)
Definition hex_val (c : Z) : option Z :=
  if inr 48 57 c then Some (c - 48)
  else if inr 65 70 c then Some (c - 55)
  else if inr 97 102 c then Some (c - 87)
  else None.
Definition parse_hex2 (a b : Z) : option byte :=
  match hex_val b with
  | None => None
  | Some y =>
    if a =? 43 then Some (z2b y)
    else match hex_val a with
         | Some x => Some (z2b (16 * x + y))
         | None => None
         end
  end.

(** Off a character boundary: the byte there is a continuation byte. types.rs:183. *)
Definition is_cont (c : Z) : bool := inr 128 191 c.
Definition starts_cont (l : list Z) : bool :=
  match l with c :: _ => is_cont c | [] => false end.

(** The loop of types.rs:181-185: slice, then parse, group by group. *)
Inductive parsed := Parsed (g : guid) | Rejected | Panicked.
Fixpoint parse_groups (n : nat) (l : list Z) : parsed :=
  match n with
  | O => Parsed []
  | S n' =>
    match l with
    | a :: b :: r =>
      if is_cont a || starts_cont r then Panicked
      else match parse_hex2 a b with
           | None => Rejected
           | Some x => match parse_groups n' r with
                       | Parsed g => Parsed (x :: g)
                       | q => q
                       end
           end
    | _ => Panicked
    end
  end.

(** [FromStr for Guid], types.rs:164-187. *)
Definition guid_clean (s : str) : str :=
  strip_suffix 125 (strip_prefix 123 (trim (filter (fun c => negb (c =? 45)) s))).
Definition guid_parse (s : str) : parsed :=
  let bs := utf8_enc (guid_clean s) in
  if str_eqb (guid_clean s) [48] then Parsed (repeat Byte.x00 16)
  else if negb (len bs =? 32) then Rejected
  else parse_groups 16 bs.
