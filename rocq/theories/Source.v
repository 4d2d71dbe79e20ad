(** Sources that hand out their data in pieces, or fail ([std::io::Read] in general).
    lib.rs:404-457.  No proofs in this file. *)
From Coq Require Import ZArith List Bool String.
From Verif Require Import Base Str Types Versions Text Props File ShortWrite.
Import ListNotations.
Open Scope Z_scope.

(** What is left, the stream position and the number of calls made ([read] and
    [stream_position]).  Calls that end with [ErrorKind::Interrupted] are repeated by
    [read_exact] and [read_to_end], through the decoders too, and are not counted.
    (Not modelled: a source interrupted forever.) *)
Record src := Src { r_left : list byte; r_pos : Z; r_calls : nat }.

Section Sched.
(** What the i-th call does: fail, or deliver at most the given number of bytes. *)
Context (s : schedule).

(** One [read] call with a buffer of [n] bytes. [R: Read] of lib.rs:404. *)
Definition read1 (n : nat) (d : src) : outcome (list byte) * src :=
  match s (r_calls d) with
  | None => (Fail (Err EIo), Src (r_left d) (r_pos d) (S (r_calls d)))
  | Some k =>
    let bs := firstn (Nat.min n k) (r_left d) in
    (Ok bs, Src (skipn (Nat.min n k) (r_left d)) (r_pos d + len bs) (S (r_calls d)))
  end.
(** [Read::read_exact]: repeat until [n] bytes are there; no byte means end of file.
    lib.rs:418-446, cursor_ext.rs:48-142. *)
Fixpoint exactly (f n : nat) (d : src) : outcome (list byte) * src :=
  match n with
  | O => (Ok [], d)
  | _ =>
    match f with
    | O => (Fail Oof, d)
    | S f' =>
      match read1 n d with
      | (Fail e, d') => (Fail e, d')
      | (Ok [], d') => (Fail (Err EEof), d')
      | (Ok bs, d') =>
        match exactly f' (n - List.length bs) d' with
        | (Ok r, d'') => (Ok (bs ++ r), d'')
        | (Fail e, d'') => (Fail e, d'')
        end
      end
    end
  end.
Definition read_exact (n : Z) (d : src) : outcome (list byte) * src :=
  exactly (Z.to_nat n) (Z.to_nat n) d.
(** [Read::read_to_end]: repeat until no byte comes; [buf] is the size of the buffer
    offered to the i-th call. *)
Context (buf : nat -> nat).
(** [Read::read_to_end], lib.rs:414 and 453. *)
Fixpoint to_end (f : nat) (d : src) : outcome (list byte) * src :=
  match f with
  | O => (Fail Oof, d)
  | S f' =>
    match read1 (buf (r_calls d)) d with
    | (Fail e, d') => (Fail e, d')
    | (Ok [], d') => (Ok [], d')
    | (Ok bs, d') =>
      match to_end f' d' with
      | (Ok r, d'') => (Ok (bs ++ r), d'')
      | (Fail e, d'') => (Fail e, d'')
      end
    end
  end.
Definition read_to_end (d : src) : outcome (list byte) * src := to_end (S (List.length (r_left d))) d.
(** A decompressor fills its input buffer until it has seen enough; [enough] says how
    much of the compressed data that is.  A failing call ends the decompression. lib.rs:443-453. *)
Fixpoint fill (f want : nat) (d : src) : outcome unit * src :=
  match want with
  | O => (Ok tt, d)
  | _ =>
    match f with
    | O => (Fail Oof, d)
    | S f' =>
      match read1 (buf (r_calls d)) d with
      | (Fail e, d') => (Fail e, d')
      | (Ok [], d') => (Ok tt, d')
      | (Ok bs, d') => fill f' (want - List.length bs) d'
      end
    end
  end.

(** [stream_position().unwrap_or_default()], error.rs:82. *)
Definition position_or_default (d : src) : Z :=
  match s (r_calls d) with None => 0 | Some _ => r_pos d end.
Definition asked_position (d : src) : src := Src (r_left d) (r_pos d) (S (r_calls d)).

Definition thenr {A B} (r : outcome A * src) (k : A -> src -> outcome B * src) : outcome B * src :=
  match r with
  | (Ok a, d) => k a d
  | (Fail e, d) => (Fail e, d)
  end.
Context (z : zlib) (enough : list byte -> nat).
(** Both kinds of compressed payload, lib.rs:440-455. *)
Definition inflated (k : list byte * zend -> outcome (list byte)) (d : src) : outcome (list byte) * src :=
  thenr (fill (S (List.length (r_left d))) (enough (r_left d)) d) (fun _ d' => (k (inflate z (r_left d)), d')).
(** [GvasFile::read_with_hints], lib.rs:404-491: the part that touches the source. *)
Definition unpack_src (v : gversion) (d : src) : outcome (dversion * list byte) * src :=
  match v with
  | GDefault => thenr (read_to_end d) (fun b d => (Ok (DDefault, b), d))
  | GPalworld =>
    thenr (read_exact 4 d) (fun bn d =>
    thenr (read_exact 4 d) (fun _ d =>
    thenr (read_exact 3 d) (fun magic d =>
    if negb (list_eqb Byte.eqb magic plz_magic) then (Fail (Err (EMagic magic)), d)
    else
      thenr (read_exact 1 d) (fun m d =>
      let v := to_signed 1 (le_val m) in
      match enum_of ctype_z ctypes v with
      | None => (Fail (Err (EEnum ETCompression v (position_or_default d))), asked_position d)
      | Some c =>
        let n := le_val bn in
        thenr match c with
              | CNone => read_exact n d
              | CZlib => inflated (zread_exact n) d
              | CTwice => inflated (fun p => zread_to_end (zagain z p)) d
              end (fun b d => (Ok (DPalworld c, b), d))
      end))))
  end.
Definition load_src (o : opts) (v : gversion) (d : src) : outcome gfile * src :=
  thenr (unpack_src v d) (fun '(g, b) d =>
    (match load_plain o b with
     | Ok (h, ps) => Ok (GFile g h ps)
     | Fail f => Fail f
     end, d)).
End Sched.
