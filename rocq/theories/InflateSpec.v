(** The zlib format as rules (RFC 1950, RFC 1951): which bytes stand for which data.  Nothing
    here refers to the decoder; the tables of lengths and distances are stated again, as
    intervals. *)
From Coq Require Import ZArith List Bool.
From Verif Require Import Base.
Import ListNotations.
Open Scope Z_scope.

(** ** Bits *)

(** [n] bits of [v], least significant first, and most significant first. *)
Fixpoint low_first (n : nat) (v : Z) : list bool :=
  match n with O => [] | S n' => Z.odd v :: low_first n' (v / 2) end.
Definition high_first (n : nat) (v : Z) : list bool := rev (low_first n v).
Definition stream_bits (l : list byte) : list bool := flat_map (fun b => low_first 8 (b2z b)) l.
(** Bits that fill up a byte, when [p] bits came before. *)
Definition padding (p : Z) (pad : list bool) : Prop := len pad < 8 /\ (p + len pad) mod 8 = 0.

(** ** The words of a code, RFC 1951, 3.2.2 *)
Definition count (lens : list Z) (l : Z) : Z := len (filter (Z.eqb l) lens).
(** The first word of length [l]. *)
Fixpoint first_word (lens : list Z) (l : nat) : Z :=
  match l with
  | O => 0
  | S l' => 2 * (first_word lens l' + match l' with O => 0 | _ => count lens (Z.of_nat l') end)
  end.
(** [spells lens bits s]: the word of symbol [s] is [bits]. *)
Definition spells (lens : list Z) (bits : list bool) (s : Z) : Prop :=
  exists before l after, lens = before ++ l :: after /\ s = len before /\ 1 <= l <= 15
  /\ bits = high_first (Z.to_nat l) (first_word lens (Z.to_nat l) + count before l).
(** How many of the 2^15 words of 15 bits are taken. *)
Fixpoint taken (lens : list Z) : Z :=
  match lens with [] => 0 | l :: r => (if 0 <? l then 2 ^ (15 - l) else 0) + taken r end.
Definition complete (lens : list Z) : Prop := taken lens = 2 ^ 15.
(** Complete, or empty, or one word of one bit. *)
Definition full (lens : list Z) : Prop := complete lens \/ Forall (fun l => l = 0) lens.
Definition usable (lens : list Z) : Prop :=
  full lens \/ exists a b, lens = a ++ 1 :: b /\ Forall (fun l => l = 0) (a ++ b).

(** ** Lengths and distances, 3.2.5 *)

(** The first number that symbol [s] stands for, and how many bits follow to add to it. *)
Definition length_extra (s : Z) : Z := if (s <? 265) || (s =? 285) then 0 else (s - 261) / 4.
Definition length_base (s : Z) : Z :=
  if s <? 265 then s - 254 else if s =? 285 then 258 else 3 + (4 + (s - 261) mod 4) * 2 ^ ((s - 261) / 4).
Definition dist_extra (s : Z) : Z := if s <? 4 then 0 else s / 2 - 1.
Definition dist_base (s : Z) : Z := if s <? 4 then s + 1 else 1 + (2 + s mod 2) * 2 ^ (s / 2 - 1).

(** ** What a block says: bytes, and repetitions of [n] bytes from [k] back *)
Inductive item := Lit (b : byte) | Copy (n k : Z).
Inductive items (ll dl : list Z) : list bool -> list item -> Prop :=
| items_end w : spells ll w 256 -> items ll dl w []
| items_lit w b r l : spells ll w (b2z b) -> items ll dl r l -> items ll dl (w ++ r) (Lit b :: l)
| items_copy w s x w' t y r l :
    spells ll w s -> 257 <= s <= 285 -> 0 <= x < 2 ^ length_extra s ->
    spells dl w' t -> 0 <= t <= 29 -> 0 <= y < 2 ^ dist_extra t -> items ll dl r l ->
    items ll dl (w ++ low_first (Z.to_nat (length_extra s)) x ++ w' ++ low_first (Z.to_nat (dist_extra t)) y ++ r)
          (Copy (length_base s + x) (dist_base t + y) :: l).
(** [copied k d n e]: [n] times, the byte [k] before the end is added to the end. *)
Inductive copied (k : Z) : list byte -> nat -> list byte -> Prop :=
| copied_none d : copied k d 0 d
| copied_one a b c n e : 1 + len c = k -> copied k ((a ++ b :: c) ++ [b]) n e -> copied k (a ++ b :: c) (S n) e.
(** [does d l e]: after [d] has been delivered, [l] makes it [e]. *)
Inductive does : list byte -> list item -> list byte -> Prop :=
| does_nothing d : does d [] d
| does_lit d b l e : does (d ++ [b]) l e -> does d (Lit b :: l) e
| does_copy d n k l d' e : copied k d (Z.to_nat n) d' -> does d' l e -> does d (Copy n k :: l) e.

(** ** Blocks, 3.2.3 to 3.2.7 *)
Definition fixed_code : list Z := repeat 8 144 ++ repeat 9 112 ++ repeat 7 24 ++ repeat 8 8.
Definition fixed_distances : list Z := repeat 5 32.
(** The code of the code lengths: its lengths come in this order, the rest are zero. *)
Definition places : list nat := [16; 17; 18; 0; 8; 7; 9; 6; 10; 5; 11; 4; 12; 3; 13; 2; 14; 1; 15]%nat.
Definition length_code (given cl : list Z) : Prop :=
  List.length cl = 19%nat /\ forall i, (i < 19)%nat -> nth (nth i places 0%nat) cl 0 = nth i given 0.
(** Code lengths in runs; [a] is what came before. *)
Inductive runs (cl : list Z) : list Z -> list bool -> list Z -> Prop :=
| runs_end a : runs cl a [] a
| runs_one a w s r e : spells cl w s -> s <= 15 -> runs cl (a ++ [s]) r e -> runs cl a (w ++ r) e
| runs_same a p w x r e : spells cl w 16 -> 0 <= x < 4 ->
    runs cl (a ++ [p] ++ repeat p (Z.to_nat (3 + x))) r e -> runs cl (a ++ [p]) (w ++ low_first 2 x ++ r) e
| runs_few a w x r e : spells cl w 17 -> 0 <= x < 8 ->
    runs cl (a ++ repeat 0 (Z.to_nat (3 + x))) r e -> runs cl a (w ++ low_first 3 x ++ r) e
| runs_many a w x r e : spells cl w 18 -> 0 <= x < 128 ->
    runs cl (a ++ repeat 0 (Z.to_nat (11 + x))) r e -> runs cl a (w ++ low_first 7 x ++ r) e.
(** [block p final d bits e]: at bit [p] of the stream, with [d] delivered. *)
Inductive block (p : Z) (final : bool) (d : list byte) : list bool -> list byte -> Prop :=
| block_stored pad x : padding (p + 3) pad -> len x <= 65535 ->
    block p final d ([final; false; false] ++ pad ++ low_first 16 (len x) ++ low_first 16 (65535 - len x)
                     ++ stream_bits x) (d ++ x)
| block_fixed bits l e : items fixed_code fixed_distances bits l -> does d l e ->
    block p final d ([final; true; false] ++ bits) e
| block_own hc given cl w ll dl bits l e :
    0 <= hc < 16 -> len given = hc + 4 -> Forall (fun x => 0 <= x < 8) given -> length_code given cl -> full cl ->
    runs cl [] w (ll ++ dl) -> 257 <= len ll <= 286 -> 1 <= len dl <= 30 ->
    nth 256 ll 0 <> 0 -> usable ll -> usable dl -> items ll dl bits l -> does d l e ->
    block p final d ([final; false; true] ++ low_first 5 (len ll - 257) ++ low_first 5 (len dl - 1) ++ low_first 4 hc
                     ++ flat_map (low_first 3) given ++ w ++ bits) e.
Inductive blocks (p : Z) (d : list byte) : list bool -> list byte -> Prop :=
| blocks_last bits e : block p true d bits e -> blocks p d bits e
| blocks_more bits e r f : block p false d bits e -> blocks (p + len bits) e r f -> blocks p d (bits ++ r) f.

(** ** The stream, RFC 1950 *)
Fixpoint sum (l : list Z) : Z := match l with [] => 0 | x :: r => x + sum r end.
(** One plus the sum of the bytes, and the sum of these for all beginnings but the empty one. *)
Fixpoint sums (before : Z) (l : list Z) : Z :=
  match l with [] => 0 | x :: r => (before + x) + sums (before + x) r end.
Definition checksum (d : list byte) : list byte :=
  let a := (1 + sum (map b2z d)) mod 65521 in
  let b := sums 1 (map b2z d) mod 65521 in
  map z2b [b / 256; b mod 256; a / 256; a mod 256].
(** [stream x d]: the bytes [x] stand for the data [d]. *)
Definition stream (x d : list byte) : Prop :=
  exists cmf flg mid body pad window,
    x = cmf :: flg :: mid ++ checksum d
    /\ b2z cmf = 8 + 16 * window /\ 0 <= window <= 7
    /\ (256 * b2z cmf + b2z flg) mod 31 = 0 /\ Z.testbit (b2z flg) 5 = false
    /\ stream_bits mid = body ++ pad /\ len pad < 8
    /\ blocks 16 [] body d.
