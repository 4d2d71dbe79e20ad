(** Claims C36 and C40: resource bounds. *)
From Coq Require Import ZArith List Bool String Lia.
From Verif Require Import Base Str Types Versions Text Props File Spec Samples BoundThm.
Import ListNotations.
Open Scope Z_scope.

(** * C36: the number of elements is bounded by the input *)

(** Every element counted by [elems] (all depths, all containers) took at least one byte.
    [one p] is 0 for a property of unknown type with no content and 1 otherwise. *)
Theorem C36_property : forall n o vs ty hdr sug c p c', r_prop n o vs ty hdr sug c = Ok (p, c') ->
  one p + elems p <= pos c' - pos c.
Proof. exact elems_prop. Qed.
Print Assumptions C36_property.
Theorem C36_struct : forall n o vs ty c v c', r_sval n o vs (r_prop n o vs) ty c = Ok (v, c') ->
  1 + sval_elems v <= pos c' - pos c.
Proof. exact elems_sval. Qed.
Print Assumptions C36_struct.
Theorem C36_text : forall n vs c t c', r_text n vs c = Ok (t, c') -> 1 + text_elems t <= pos c' - pos c.
Proof. exact elems_text. Qed.
Print Assumptions C36_text.
(** A whole file: custom versions, properties and everything in them. *)
Theorem C36_file : forall o b f c, parse o b = Ok (f, c) -> file_elems f <= pos c <= len b.
Proof. exact elems_file. Qed.
Print Assumptions C36_file.
(** The elements that are not counted only occur in arrays and sets whose element type is
    unknown to the library. *)
Theorem C36_hollow : forall o b f, load_plain o b = Ok f -> Forall (fun e => hollow_ok (snd e) = true) (snd f).
Proof. exact hollow_file. Qed.
Print Assumptions C36_hollow.
(** There is no bound on those: any 32-bit count fits in a file below 200 bytes. *)
Theorem C36_unbounded : forall o k, Z.of_nat k < 4294967296 ->
  (exists b h, len b < 200 /\ load_plain o b = Ok (h, [(s2z "a", PArray (AProps (s2z "X") (repeat (PUnknown (s2z "X") []) k)))]))
  /\ (exists b h, len b < 200 /\ load_plain o b = Ok (h, [(s2z "a", PSet (s2z "X") 0 (repeat (PUnknown (s2z "X") []) k))])).
Proof. exact amplified. Qed.
Print Assumptions C36_unbounded.

Example C36_applies : exists c, parse o_sample sample_bytes = Ok (sample, c) /\ file_elems sample = 66 /\ pos c + 4 = len sample_bytes.
Proof. eexists. split; [vm_compute; reflexivity|]. split; vm_compute; reflexivity. Qed.
(** Two hollow elements and none: nothing is counted; with content they are. *)
Example C36_counts : elems (PArray (AProps (s2z "X") [PUnknown (s2z "X") []; PUnknown (s2z "X") []])) = 0
  /\ elems (PArray (AProps (s2z "X") [PUnknown (s2z "X") [Byte.x00]; PUnknown (s2z "X") [Byte.x00]])) = 2
  /\ hollow_ok (PMap (MProp KkStr (s2z "X") [([], PUnknown (s2z "X") [])])) = false.
Proof. repeat split. Qed.

(** * C40: the saved size is bounded by the loaded size *)
Theorem C40_size : forall o b f c, parse o b = Ok (f, c) ->
  exists b', save_plain f = Ok b' /\ len b' <= 2 * pos c + 4 /\ pos c <= len b.
Proof. exact saved_size. Qed.
Print Assumptions C40_size.
(** So a file of which less than 2 GiB are read loads, saves and loads again, with no
    condition on the saved size. *)
Theorem C40_reload : forall o b f c, (forall p i, probe o p i = false) -> parse o b = Ok (f, c) -> pos c < 2147483646 ->
  exists b', save_plain f = Ok b' /\ load_plain o b' = Ok f.
Proof. exact saved_reload. Qed.
Print Assumptions C40_reload.

Definition wide_class (n : nat) : str := 233 :: repeat 97 n.
(** The class name in one byte per character, with one character outside ASCII. *)
Definition narrow_file (n : nat) : list byte :=
  match w_header (Header 0x20A None (FEngine 4 27 0 0 []) 3 [] []) with
  | Ok (h, _) => firstn 35 h ++ le_bytes 4 (Z.of_nat n + 3) ++ z2b 195 :: z2b 169 :: repeat (z2b 97) n ++ [Byte.x00]
      ++ str_bytes (s2z "None")
  | Fail _ => []
  end.
(** The factor is needed: 1051 bytes become 2056. *)
Example C40_factor : exists f c b', parse o_plain (narrow_file 1000) = Ok (f, c) /\ h_class (fst f) = wide_class 1000
  /\ pos c = len (narrow_file 1000) /\ len (narrow_file 1000) = 1051 /\ save_plain f = Ok b' /\ len b' = 2056.
Proof.
  eexists. eexists. eexists. split; [vm_compute; reflexivity|]. split; [vm_compute; reflexivity|]. split; [vm_compute; reflexivity|].
  split; [vm_compute; reflexivity|]. split; [vm_compute; reflexivity|vm_compute; reflexivity].
Qed.
Example C40_applies : exists c, parse o_sample sample_bytes = Ok (sample, c) /\ save_plain sample = Ok sample_bytes.
Proof. eexists. split; vm_compute; reflexivity. Qed.
