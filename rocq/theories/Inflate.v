(** A decoder of zlib streams (RFC 1950, RFC 1951).  No proofs in this file.

    The code leaves compression to [flate2] (lib.rs:440-455, 546-559), which is not in the
    repository; the model has it as a parameter ([zlib], File.v).  This file gives that
    parameter a value: a decoder written from the two documents, and a compressor that only
    uses stored blocks.  Where the documents leave open what is an error, the choice is
    zlib's own: code lengths must form a complete code, or a single word of one bit.
    The window size in the header is not enforced. *)
From Coq Require Import ZArith List Bool.
From Verif Require Import Base File.
Import ListNotations.
Open Scope Z_scope.

(** The bits of a byte, least significant first (RFC 1951, 3.1.1). *)
Definition byte_bits (b : byte) : list bool := map (Z.testbit (b2z b)) [0; 1; 2; 3; 4; 5; 6; 7].
Definition bits_of (l : list byte) : list bool := flat_map byte_bits l.

(** What is still to be read, and what has been delivered, newest byte first. *)
Record zst := Zst { zin : list bool; zout : list byte }.
(** A decoder that stops tells how, and what it has delivered. *)
Inductive zres (A : Type) := ZVal (a : A) (s : zst) | ZStop (e : zend) (d : list byte).
Arguments ZVal {A}.
Arguments ZStop {A}.
Definition zm (A : Type) := zst -> zres A.
Definition zret {A} (a : A) : zm A := fun s => ZVal a s.
Definition zbind {A B} (m : zm A) (k : A -> zm B) : zm B :=
  fun s => match m s with ZVal a s' => k a s' | ZStop e d => ZStop e d end.
Notation "x <& m ;; k" := (zbind m (fun x => k)) (at level 61, m at next level, right associativity).
Definition zstop {A} (e : zend) : zm A := fun s => ZStop e (zout s).
Definition zput (b : byte) : zm unit := fun s => ZVal tt (Zst (zin s) (b :: zout s)).

(** One bit; an integer of [n] bits, least significant first. *)
Definition zbit : zm bool :=
  fun s => match zin s with b :: r => ZVal b (Zst r (zout s)) | [] => ZStop ZShort (zout s) end.
Fixpoint zbits (n : nat) : zm Z :=
  match n with
  | O => zret 0
  | S n' => b <& zbit ;; v <& zbits n' ;; zret (Z.b2z b + 2 * v)
  end.
(** To the next byte boundary. *)
Definition zalign : zm unit :=
  fun s => ZVal tt (Zst (skipn (Z.to_nat (len (zin s) mod 8)) (zin s)) (zout s)).

(** ** Prefix codes, RFC 1951, 3.2.2

    A code is given by the lengths of its words; words of one length are consecutive, in
    the order of their symbols, and longer words follow the shorter ones.  [words] lists
    the symbols by length. *)
Fixpoint having (l : Z) (sym : Z) (lens : list Z) : list Z :=
  match lens with
  | [] => []
  | x :: r => if x =? l then sym :: having l (sym + 1) r else having l (sym + 1) r
  end.
Definition lengths : list Z := [1; 2; 3; 4; 5; 6; 7; 8; 9; 10; 11; 12; 13; 14; 15].
Definition words (lens : list Z) : list (list Z) := map (fun l => having l 0 lens) lengths.
(** How many words of the last length are still free; negative if there are too many. *)
Fixpoint free (gs : list (list Z)) (left : Z) : Z :=
  match gs with
  | [] => left
  | g :: r => let n := 2 * left - len g in if n <? 0 then n else free r n
  end.
(** Complete, or without words. *)
Definition code_full (lens : list Z) : bool := (free (words lens) 1 =? 0) || (len (concat (words lens)) =? 0).
(** ... or with a single word, of one bit. *)
Definition code_ok (lens : list Z) : bool :=
  code_full lens || (0 <? free (words lens) 1) && (len (having 1 0 lens) =? len (concat (words lens))).
(** The next symbol: bits are added until the number they form is a word.  [first] is the
    first word of the length reached. *)
Fixpoint zsym (gs : list (list Z)) (code first : Z) : zm Z :=
  match gs with
  | [] => zstop ZBad
  | g :: r =>
    b <& zbit ;;
    let c := 2 * code + Z.b2z b in
    if c - first <? len g then zret (nth (Z.to_nat (c - first)) g 0)
    else zsym r c (2 * (first + len g))
  end.
Definition zsymbol (gs : list (list Z)) : zm Z := zsym gs 0 0.

(** ** Lengths and distances, RFC 1951, 3.2.5: base and number of extra bits *)
Definition len_table : list (Z * Z) :=
  [(3, 0); (4, 0); (5, 0); (6, 0); (7, 0); (8, 0); (9, 0); (10, 0); (11, 1); (13, 1); (15, 1);
   (17, 1); (19, 2); (23, 2); (27, 2); (31, 2); (35, 3); (43, 3); (51, 3); (59, 3); (67, 4);
   (83, 4); (99, 4); (115, 4); (131, 5); (163, 5); (195, 5); (227, 5); (258, 0)].
Definition dist_table : list (Z * Z) :=
  [(1, 0); (2, 0); (3, 0); (4, 0); (5, 1); (7, 1); (9, 2); (13, 2); (17, 3); (25, 3); (33, 4);
   (49, 4); (65, 5); (97, 5); (129, 6); (193, 6); (257, 7); (385, 7); (513, 8); (769, 8);
   (1025, 9); (1537, 9); (2049, 10); (3073, 10); (4097, 11); (6145, 11); (8193, 12);
   (12289, 12); (16385, 13); (24577, 13)].
Definition zextra (t : list (Z * Z)) (i : Z) : zm Z :=
  match nth_error t (Z.to_nat i) with
  | Some (base, n) => v <& zbits (Z.to_nat n) ;; zret (base + v)
  | None => zstop ZBad
  end.
(** Repeat [n] bytes from [d] back; they may overlap what is being written. *)
Fixpoint zcopy (n : nat) (d : Z) : zm unit :=
  match n with
  | O => zret tt
  | S n' => fun s =>
    match nth_error (zout s) (Z.to_nat (d - 1)) with
    | Some b => (_u <& zput b ;; zcopy n' d) s
    | None => ZStop ZBad (zout s)
    end
  end.

(** ** Blocks, RFC 1951, 3.2.3

    Loops carry fuel; running out of it counts as running out of input.  Every round takes
    a bit, and the fuel is larger than the number of bits (InflateThm.v). *)
Fixpoint zcodes (n : nat) (ll dl : list (list Z)) : zm unit :=
  match n with
  | O => zstop ZShort
  | S n' =>
    s <& zsymbol ll ;;
    if s <? 256 then _u <& zput (z2b s) ;; zcodes n' ll dl
    else if s =? 256 then zret tt
    else
      l <& zextra len_table (s - 257) ;;
      x <& zsymbol dl ;;
      d <& zextra dist_table x ;;
      _u <& zcopy (Z.to_nat l) d ;; zcodes n' ll dl
  end.
Fixpoint zstored (n : nat) : zm unit :=
  match n with
  | O => zret tt
  | S n' => v <& zbits 8 ;; _u <& zput (z2b v) ;; zstored n'
  end.
(** The fixed codes, 3.2.6. *)
Definition fixed_lens : list Z := repeat 8 144 ++ repeat 9 112 ++ repeat 7 24 ++ repeat 8 8.
Definition fixed_dists : list Z := repeat 5 32.
(** Code lengths of a block with its own codes, 3.2.7. *)
Definition order : list Z := [16; 17; 18; 0; 8; 7; 9; 6; 10; 5; 11; 4; 12; 3; 13; 2; 14; 1; 15].
Fixpoint zrep {A} (n : nat) (m : zm A) : zm (list A) :=
  match n with
  | O => zret []
  | S n' => a <& m ;; l <& zrep n' m ;; zret (a :: l)
  end.
(** The length for each of the symbols 0..18, given in the order above. *)
Definition placed (given : list Z) : list Z :=
  map (fun i => match find (fun e => fst e =? i) (combine order given) with Some e => snd e | None => 0 end)
      [0; 1; 2; 3; 4; 5; 6; 7; 8; 9; 10; 11; 12; 13; 14; 15; 16; 17; 18].
(** [acc] are the lengths so far, newest first; [want] is how many there must be. *)
Fixpoint zlens (n : nat) (cl : list (list Z)) (want : Z) (acc : list Z) : zm (list Z) :=
  match n with
  | O => if len acc =? want then zret (rev acc) else zstop ZBad
  | S n' =>
    if want <=? len acc then (if len acc =? want then zret (rev acc) else zstop ZBad)
    else
      s <& zsymbol cl ;;
      if s <? 16 then zlens n' cl want (s :: acc)
      else if s =? 16 then
        match acc with
        | [] => zstop ZBad
        | p :: _ => v <& zbits 2 ;; zlens n' cl want (repeat p (Z.to_nat (3 + v)) ++ acc)
        end
      else if s =? 17 then v <& zbits 3 ;; zlens n' cl want (repeat 0 (Z.to_nat (3 + v)) ++ acc)
      else v <& zbits 7 ;; zlens n' cl want (repeat 0 (Z.to_nat (11 + v)) ++ acc)
  end.
(** Codes of the code lengths must be complete, or have no word at all. *)
Definition zdynamic (n : nat) : zm unit :=
  hl <& zbits 5 ;;
  hd <& zbits 5 ;;
  hc <& zbits 4 ;;
  if (286 <? hl + 257) || (30 <? hd + 1) then zstop ZBad
  else
    given <& zrep (Z.to_nat (hc + 4)) (zbits 3) ;;
    if negb (code_full (placed given)) then zstop ZBad
    else
      all <& zlens (Z.to_nat (hl + 257 + (hd + 1))) (words (placed given)) (hl + 257 + (hd + 1)) [] ;;
      let ll := firstn (Z.to_nat (hl + 257)) all in
      let dl := skipn (Z.to_nat (hl + 257)) all in
      if (nth 256 ll 0 =? 0) || negb (code_ok ll) || negb (code_ok dl) then zstop ZBad
      else zcodes n (words ll) (words dl).
Definition zplain : zm unit :=
  _u <& zalign ;;
  l <& zbits 16 ;;
  c <& zbits 16 ;;
  if l + c =? 65535 then zstored (Z.to_nat l) else zstop ZBad.
(** One block; whether it is the last. *)
Definition zblock (n : nat) : zm bool :=
  final <& zbit ;;
  kind <& zbits 2 ;;
  _u <& (if kind =? 0 then zplain
         else if kind =? 1 then zcodes n (words fixed_lens) (words fixed_dists)
         else if kind =? 2 then zdynamic n
         else zstop ZBad) ;;
  zret final.
Fixpoint zblocks (k n : nat) : zm unit :=
  match k with
  | O => zstop ZShort
  | S k' => final <& zblock n ;; if final then zret tt else zblocks k' n
  end.

(** ** The stream, RFC 1950 *)

(** Adler-32, 8.2. *)
Definition adler (l : list byte) : Z :=
  let '(a, b) := fold_left (fun '(a, b) x => let a' := (a + b2z x) mod 65521 in (a', (b + a') mod 65521)) l (1, 0) in
  65536 * b + a.
(** Most significant byte first. *)
Definition big (w : nat) (v : Z) : list byte := rev (le_bytes w v).
(** The two header bytes, 2.2: deflate, a window of at most 32K, no dictionary, check bits. *)
Definition header_ok (cmf flg : Z) : bool :=
  (cmf mod 16 =? 8) && (cmf / 16 <=? 7) && ((256 * cmf + flg) mod 31 =? 0) && (flg / 32 mod 2 =? 0).
Definition zstream (n : nat) : zm unit :=
  cmf <& zbits 8 ;;
  flg <& zbits 8 ;;
  if negb (header_ok cmf flg) then zstop ZBad
  else
    _b <& zblocks n n ;;
    _u <& zalign ;;
    a <& zbits 8 ;; b <& zbits 8 ;; c <& zbits 8 ;; d <& zbits 8 ;;
    fun s => if ((a * 256 + b) * 256 + c) * 256 + d =? adler (rev (zout s)) then ZVal tt s else ZStop ZBad (zout s).
Definition fuel_for (l : list byte) : nat := S (List.length (bits_of l)).
Definition rfc_inflate (l : list byte) : list byte * zend :=
  match zstream (fuel_for l) (Zst (bits_of l) []) with
  | ZVal _ s => (rev (zout s), ZDone)
  | ZStop e d => (rev d, e)
  end.

(** ** A compressor that does not compress: stored blocks of up to 65535 bytes *)
Definition stored_block (final : bool) (l : list byte) : list byte :=
  z2b (Z.b2z final) :: le_bytes 2 (len l) ++ le_bytes 2 (65535 - len l) ++ l.
Fixpoint stored_blocks (n : nat) (l : list byte) : list byte :=
  match n with
  | O => stored_block true []
  | S n' =>
    if len l <=? 65535 then stored_block true l
    else stored_block false (firstn (Z.to_nat 65535) l) ++ stored_blocks n' (skipn (Z.to_nat 65535) l)
  end.
Definition rfc_store (l : list byte) : list byte :=
  [z2b 0x78; z2b 0x01] ++ stored_blocks (List.length l) l ++ big 4 (adler l).
Definition rfc_zlib : zlib := Zlib rfc_store rfc_inflate.
