(** Files: header, property list, Palworld container.  lib.rs, game_version.rs.
    No proofs in this file. *)
From Coq Require Import ZArith List Bool String.
From Verif Require Import Base Str Types Versions Text Props.
Import ListNotations.
Open Scope Z_scope.

(** [GvasHeader], lib.rs:117-147; [h_ue5 = None] is [Version2]. *)
Record header := Header {
  h_package : Z;
  h_ue5 : option Z;
  h_engine : fengine;
  h_format : Z;
  h_versions : list (guid * Z);
  h_class : str }.

(** [FILE_TYPE_GVAS], lib.rs:111. *)
Definition gvas_magic := 0x53415647.

(** A [u32] that must satisfy a test, lib.rs:171-217. *)
Definition r_checked (f : hfield) (ok : Z -> bool) : reader Z :=
  v <- r_u32 ;;
  if ok v then ret v else fail (Err (EHeader f v)).

(** [FCustomVersion::read], custom_version.rs:30-35. *)
Definition r_version : reader (guid * Z) :=
  g <- r_guid ;; v <- r_u32 ;; ret (g, v).

(** [GvasHeader::read], lib.rs:170-249. *)
Definition r_header : reader header :=
  r_checked HFileType (fun v => v =? gvas_magic) ;;;
  version <- r_checked HSaveVersion (inr 2 3) ;;
  package <- r_checked HPackage (inr 0x205 0x20D) ;;
  ue5 <- (if 3 <=? version
          then v <- r_checked HPackageUE5 (inr 1000 1009) ;; ret (Some v)
          else ret None) ;;
  engine <- r_fengine ;;
  format <- r_checked HCustomFormat (fun v => v =? 3) ;;
  n <- r_u32 ;;
  l <- rep n r_version ;;
  class <- r_string ;;
  ret (Header package ue5 engine format (ins_all guid_eqb l) class).

(** [GvasHeader::write], lib.rs:269-314; [FCustomVersion::write],
    custom_version.rs:39-43. *)
Definition w_version (e : guid * Z) : out := w_guid (fst e) +> w_u32 (snd e).
Definition w_header (h : header) : out :=
  w_u32 gvas_magic
  +> w_u32 (match h_ue5 h with None => 2 | Some _ => 3 end)
  +> w_u32 (h_package h)
  +> (match h_ue5 h with None => skip | Some v => w_u32 v end)
  +> w_fengine (h_engine h)
  +> w_u32 (h_format h)
  +> w_u32 (len (h_versions h))
  +> seqs w_version (h_versions h)
  +> w_string (h_class h).

(** The property loop, lib.rs:469-484; [m] is the fuel handed to [Property::new]. *)
Fixpoint r_entries (n m : nat) (o : opts) (vs : list (guid * Z))
  : reader (list (str * property)) :=
  match n with
  | O => fail Oof
  | S n' =>
    name <- r_string ;;
    if str_eqb name s_none then ret []
    else
      ty <- r_string ;;
      p <- scoped name (r_prop m o vs ty true None) ;;
      l <- r_entries n' m o vs ;;
      ret ((name, p) :: l)
  end.

(** Header and property map: the part of [read_with_hints] after unpacking,
    lib.rs:459-491. *)
Definition r_file (n : nat) (o : opts) : reader (header * list (str * property)) :=
  h <- r_header ;;
  l <- r_entries n n o (h_versions h) ;;
  ret (h, ins_all str_eqb l).

(** Reading an in-memory buffer; the fuel always suffices (C06). lib.rs:404-512. *)
Definition parse (o : opts) (b : list byte)
  : outcome (header * list (str * property) * cur) :=
  r_file (S (List.length b)) o (Cur 0 b []).
Definition load_plain (o : opts) (b : list byte) : outcome (header * list (str * property)) :=
  match parse o b with Ok (f, _) => Ok f | Fail e => Fail e end.

(** The buffer built by [GvasFile::write], lib.rs:518-533. *)
Definition w_file (f : header * list (str * property)) : out :=
  w_header (fst f)
  +> seqs (fun '(name, p) => w_string name +> w_prop (h_versions (fst f)) true p) (snd f)
  +> w_string s_none
  +> w_int 4 0.
Definition save_plain (f : header * list (str * property)) : outcome (list byte) :=
  match w_file f with Ok (b, _) => Ok b | Fail e => Fail e end.

(** ** Palworld container *)

(** [PalworldCompressionType], game_version.rs:20-30. *)
Inductive ctype := CNone | CZlib | CTwice.
Definition ctype_z (c : ctype) : Z := match c with CNone => 0x30 | CZlib => 0x31 | CTwice => 0x32 end.
Definition ctypes := [CNone; CZlib; CTwice].

(** [GameVersion] (what the caller asks for) and [DeserializedGameVersion].
    game_version.rs:9-14 and 32-41. *)
Inductive gversion := GDefault | GPalworld.
Inductive dversion := DDefault | DPalworld (c : ctype).

(** [flate2]: [deflate] is what an encoder emits for its whole input,
    [inflate] the bytes a decoder delivers and how it ends: at the end of the
    compressed stream, out of input before that, or with an error.  Whether a
    cut stream counts as out of input (then [read] returns no bytes) or as an
    error is left to the decoder.  Simplification: what is delivered does not
    depend on how much is asked for at a time. flate2, as used by lib.rs:443-453 and 550-559. *)
Inductive zend := ZDone | ZShort | ZBad.
Record zlib := Zlib {
  deflate : list byte -> list byte;
  inflate : list byte -> list byte * zend }.
(** What is assumed of zlib where it matters: decompression inverts compression
    and stops at the end of the compressed stream.  For lib.rs:440-457 and 546-560. *)
Definition zlib_ok (z : zlib) : Prop :=
  forall x t, inflate z (deflate z x ++ t) = (x, ZDone).

(** [read_exact] and [read_to_end] on a decoder. lib.rs:444 and 453. *)
Definition zread_exact (n : Z) (d : list byte * zend) : outcome (list byte) :=
  if n <=? len (fst d) then Ok (firstn (Z.to_nat n) (fst d))
  else Fail (Err match snd d with ZBad => EIo | _ => EEof end).
Definition zread_to_end (d : list byte * zend) : outcome (list byte) :=
  match snd d with ZBad => Fail (Err EIo) | _ => Ok (fst d) end.
(** A decoder on what another one delivers, lib.rs:448-449: it meets the other's
    error if it runs out of input. *)
Definition zover (d1 d2 : list byte * zend) : list byte * zend :=
  (fst d2, match snd d2, snd d1 with ZShort, ZBad => ZBad | e, _ => e end).
Definition zagain (z : zlib) (d : list byte * zend) : list byte * zend := zover d (inflate z (fst d)).

(** Unpacking, lib.rs:410-457. *)
Definition plz_magic : list byte := map z2b (s2z "PlZ").
Definition r_palworld (z : zlib) : reader (ctype * list byte) :=
  n <- r_u32 ;;
  _c <- r_u32 ;;
  magic <- take 3 ;;
  if negb (list_eqb Byte.eqb magic plz_magic) then fail (Err (EMagic magic))
  else
    c <- r_enum ETCompression (enum_of ctype_z ctypes) ;;
    fun k =>
      match
        match c with
        | CNone => match take n k with Ok (d, _) => Ok d | Fail f => Fail f end
        | CZlib => zread_exact n (inflate z (rest k))
        | CTwice => zread_to_end (zagain z (inflate z (rest k)))
        end
      with
      | Ok d => Ok ((c, d), k)
      | Fail f => Fail f
      end.

Record gfile := GFile {
  g_version : dversion;
  g_header : header;
  g_props : list (str * property) }.

(** [GvasFile::read_with_hints], lib.rs:404-491. *)
Definition load (z : zlib) (o : opts) (v : gversion) (b : list byte) : outcome gfile :=
  match v with
  | GDefault =>
    match load_plain o b with
    | Ok (h, ps) => Ok (GFile DDefault h ps)
    | Fail f => Fail f
    end
  | GPalworld =>
    match r_palworld z (Cur 0 b []) with
    | Fail f => Fail f
    | Ok ((c, d), _) =>
      match load_plain o d with
      | Ok (h, ps) => Ok (GFile (DPalworld c) h ps)
      | Fail f => Fail f
      end
    end
  end.

(** ** Destination device: an in-memory or file-like [Write + Seek]. *)
(** The destination of lib.rs:517-570. *)
Record dev := Dev { content : list byte; at_ : nat }.

(** Writing at the current position overwrites or extends; a gap is filled with
    zeros ([std::io::Cursor<Vec<u8>>], POSIX files). lib.rs:536-560. *)
Definition dwrite (bs : list byte) (d : dev) : dev :=
  Dev (firstn (at_ d) (content d ++ repeat Byte.x00 (at_ d - List.length (content d)))
       ++ bs ++ skipn (at_ d + List.length bs) (content d))
      (at_ d + List.length bs).
(** lib.rs:564 and 566. *)
Definition dseek (p : nat) (d : dev) : dev := Dev (content d) p.

(** The compressed payload, lib.rs:546-559. *)
Definition payload (z : zlib) (c : ctype) (b : list byte) : list byte :=
  match c with
  | CNone => b
  | CZlib => deflate z b
  | CTwice => deflate z (deflate z b)
  end.

(** [GvasFile::write], lib.rs:517-570.  Nothing reaches the destination before
    serialization has succeeded. *)
Definition save (z : zlib) (g : gfile) (d : dev) : outcome unit * dev :=
  match save_plain (g_header g, g_props g) with
  | Fail f => (Fail f, d)
  | Ok b =>
    match g_version g with
    | DDefault => (Ok tt, dwrite b d)
    | DPalworld c =>
      let d1 := dwrite (le_bytes 4 (len b)) d in
      let cpos := at_ d1 in
      let d2 := dwrite (le_bytes 4 0) d1 in
      let d3 := dwrite plz_magic d2 in
      let d4 := dwrite (le_bytes 1 (ctype_z c)) d3 in
      let d5 := dwrite (payload z c b) d4 in
      let epos := at_ d5 in
      let d6 := dseek cpos d5 in
      let d7 := dwrite (le_bytes 4 (Z.of_nat epos - (Z.of_nat cpos + 4))) d6 in
      (Ok tt, dseek epos d7)
    end
  end.
