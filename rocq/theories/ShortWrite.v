(** Destinations that take only part of what they are given, or fail
    ([std::io::Write] in general).  lib.rs:517-570, cursor_ext.rs:146-202.
    No proofs in this file. *)
From Coq Require Import ZArith List Bool String.
From Verif Require Import Base Str Types Versions Text Props File.
Import ListNotations.
Open Scope Z_scope.

(** A device and the number of [write] calls it has seen. *)
Record sdev := SDev { s_dev : dev; s_calls : nat }.
(** What the i-th call does: fail, or take at most the given number of bytes.
    [W: Write] of lib.rs:517. *)
Definition schedule := nat -> option nat.

Section Sched.
Context (s : schedule).

(** One [write] call: the number of bytes taken.
    The writers of cursor_ext.rs:147-202 and lib.rs:536-560 are built from these. *)
Definition once (bs : list byte) (d : sdev) : outcome nat * sdev :=
  match s (s_calls d) with
  | None => (Fail (Err EIo), SDev (s_dev d) (S (s_calls d)))
  | Some k =>
    match Nat.min k (List.length bs) with
    | O => (Ok O, SDev (s_dev d) (S (s_calls d)))
    | n => (Ok n, SDev (dwrite (firstn n bs) (s_dev d)) (S (s_calls d)))
    end
  end.
(** [write_all]; taking nothing is the error [WriteZero].  [f] is fuel.
    lib.rs:536 and 543-560, cursor_ext.rs:147-202. *)
Fixpoint all_of_it (f : nat) (bs : list byte) (d : sdev) : outcome unit * sdev :=
  match bs with
  | [] => (Ok tt, d)
  | _ =>
    match f with
    | O => (Fail Oof, d)
    | S f' =>
      match once bs d with
      | (Fail e, d') => (Fail e, d')
      | (Ok O, d') => (Fail (Err EIo), d')
      | (Ok n, d') => all_of_it f' (skipn n bs) d'
      end
    end
  end.
Definition wall (bs : list byte) (d : sdev) : outcome unit * sdev := all_of_it (List.length bs) bs d.

(** Sequencing with [?]. lib.rs:536-567. *)
Definition thenw {A} (r : outcome unit * sdev) (k : sdev -> outcome A * sdev) : outcome A * sdev :=
  match r with
  | (Ok _, d) => k d
  | (Fail e, d) => (Fail e, d)
  end.
Fixpoint walls (l : list (list byte)) (d : sdev) : outcome unit * sdev :=
  match l with
  | [] => (Ok tt, d)
  | bs :: r => thenw (wall bs d) (walls r)
  end.
(** [stream_position] and [seek] are calls too, and may fail. lib.rs:541 and 563-566. *)
Definition sseek (p : nat) (d : sdev) : outcome unit * sdev :=
  match s (s_calls d) with
  | None => (Fail (Err EIo), SDev (s_dev d) (S (s_calls d)))
  | Some _ => (Ok tt, SDev (dseek p (s_dev d)) (S (s_calls d)))
  end.
(** [stream_position] is [seek(SeekFrom::Current(0))]. lib.rs:541 and 563. *)
Definition sposition (d : sdev) : outcome unit * sdev := sseek (at_ (s_dev d)) d.

(** How a compressor hands over its output: the pieces it writes while it is fed and
    finished, those it writes when it is dropped unfinished, and those it writes when
    it is dropped after call [i] has failed.  [Drop for flate2::zio::Writer] discards
    the result of [finish]; errors before that are reported.  Each piece is written
    like [write_all] does ([zio::Writer::dump]). lib.rs:550-559. *)
Record cutter := Cutter {
  early : list byte -> list (list byte);
  late : list byte -> list (list byte);
  after : list byte -> nat -> list (list byte) }.
(** The payload, lib.rs:546-559.  [encoder.finish()] finishes the outer encoder of
    [ZlibTwice] and returns the inner one, which is finished by being dropped. *)
Definition spayload (z : zlib) (cut : cutter) (c : ctype) (b : list byte) (d : sdev) : outcome unit * sdev :=
  let x := payload z c b in
  let fed := match c with CNone => [x] | CZlib => early cut x ++ late cut x | CTwice => early cut x end in
  let dropped := match c with CTwice => late cut x | _ => [] end in
  match walls fed d with
  | (Ok _, d') => (Ok tt, snd (walls dropped d'))
  | (Fail e, d') => (Fail e, match c with CNone => d' | _ => snd (walls (after cut x (s_calls d')) d') end)
  end.
(** [GvasFile::write], lib.rs:517-570. *)
Definition ssave (z : zlib) (cut : cutter) (g : gfile) (d : sdev) : outcome unit * sdev :=
  match save_plain (g_header g, g_props g) with
  | Fail f => (Fail f, d)
  | Ok b =>
    match g_version g with
    | DDefault => wall b d
    | DPalworld c =>
      thenw (wall (le_bytes 4 (len b)) d) (fun d1 =>
      thenw (sposition d1) (fun d1 =>
      let cpos := at_ (s_dev d1) in
      thenw (wall (le_bytes 4 0) d1) (fun d2 =>
      thenw (wall plz_magic d2) (fun d3 =>
      thenw (wall (le_bytes 1 (ctype_z c)) d3) (fun d4 =>
      thenw (spayload z cut c b d4) (fun d5 =>
      thenw (sposition d5) (fun d5 =>
      let epos := at_ (s_dev d5) in
      thenw (sseek cpos d5) (fun d6 =>
      thenw (wall (le_bytes 4 (Z.of_nat epos - (Z.of_nat cpos + 4))) d6) (fun d7 =>
      sseek epos d7)))))))))
    end
  end.

(** Calls made on a destination: [write_all] or a bare [write].
    lib.rs:269-315, cursor_ext.rs:147-202. *)
Inductive wcall := WAll (bs : list byte) | WOnce (bs : list byte).
Definition call_bytes (c : wcall) : list byte := match c with WAll bs | WOnce bs => bs end.
Definition run_call (c : wcall) (d : sdev) : outcome unit * sdev :=
  match c with
  | WAll bs => wall bs d
  | WOnce bs => match once bs d with (Ok _, d') => (Ok tt, d') | (Fail e, d') => (Fail e, d') end
  end.
Fixpoint run_calls (l : list wcall) (d : sdev) : outcome unit * sdev :=
  match l with
  | [] => (Ok tt, d)
  | c :: r => thenw (run_call c d) (run_calls r)
  end.
End Sched.

(** [write_string], cursor_ext.rs:147-167. *)
Definition string_calls (t : str) : list wcall :=
  if is_ascii t
  then [WAll (le_bytes 4 (len t + 1)); WOnce (map z2b t); WOnce [Byte.x00]]
  else WAll (le_bytes 4 (- (len (utf16_enc t) + 1)))
       :: map (fun w => WAll (le_bytes 2 w)) (utf16_enc t) ++ [WAll (le_bytes 2 0)].
(** [FEngineVersion::write], engine_version.rs:67-75. *)
Definition engine_calls (e : fengine) : list wcall :=
  [WAll (le_bytes 2 (fe_major e)); WAll (le_bytes 2 (fe_minor e)); WAll (le_bytes 2 (fe_patch e));
   WAll (le_bytes 4 (fe_change e))] ++ string_calls (fe_branch e).
(** [GvasHeader::write], lib.rs:269-314. *)
Definition header_calls (h : header) : list wcall :=
  [WAll (le_bytes 4 gvas_magic);
   WAll (le_bytes 4 (match h_ue5 h with None => 2 | Some _ => 3 end)); WAll (le_bytes 4 (h_package h))]
  ++ (match h_ue5 h with None => [] | Some v => [WAll (le_bytes 4 v)] end)
  ++ engine_calls (h_engine h)
  ++ [WAll (le_bytes 4 (h_format h)); WAll (le_bytes 4 (len (h_versions h)))]
  ++ flat_map (fun e => [WAll (fst e); WAll (le_bytes 4 (snd e))]) (h_versions h)
  ++ string_calls (h_class h).
