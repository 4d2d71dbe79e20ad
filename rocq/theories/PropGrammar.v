(** Claim C41: the save format as a grammar. *)
From Coq Require Import ZArith List Bool String Lia.
From Verif Require Import Base Str Types Versions Text Props File Spec Samples BaseFacts Grammar GrammarFile.
Import ListNotations.
Open Scope Z_scope.

(** C41.  Loading succeeds with a value exactly on the inputs that start with a
    file of the grammar (Grammar.v) holding that value. *)
Theorem C41_load_iff : forall o, (forall p i, probe o p i = false) -> forall b h ps,
  load_plain o b = Ok (h, ps) <-> exists x t, b = x ++ t /\ is_file o h ps x.
Proof. exact load_grammar. Qed.
Print Assumptions C41_load_iff.
(** Integers in the grammar ([le_bytes]) are little endian. *)
Theorem C41_little_endian : forall w z,
  List.length (le_bytes w z) = w
  /\ forall i, (i < w)%nat -> b2z (nth i (le_bytes w z) Byte.x00) = z / 256 ^ Z.of_nat i mod 256.
Proof. intros w z. split; [apply length_le_bytes|apply little_endian]. Qed.
Print Assumptions C41_little_endian.
(** Reading consumes exactly that file. *)
Theorem C41_file_iff : forall o, (forall p i, probe o p i = false) -> forall b h ps c,
  parse o b = Ok ((h, ps), c)
  <-> exists x t, b = x ++ t /\ is_file o h ps x /\ c = Cur (len x) t [].
Proof. exact file_iff. Qed.
Print Assumptions C41_file_iff.
(** The same for single properties, in any context. *)
Theorem C41_property_iff : forall o, (forall p i, probe o p i = false) ->
  forall vs st ty hdr size b q p c, (forall z, size = Some z -> 0 <= z) ->
  r_prop (S (List.length b)) o vs ty hdr size (Cur q b st) = Ok (p, c)
  <-> exists x t, b = x ++ t /\ is_prop o vs st ty hdr size p x /\ c = Cur (q + len x) t st.
Proof. exact prop_iff. Qed.
Print Assumptions C41_property_iff.
(** ... and for texts. *)
Theorem C41_text_iff : forall vs st b q t c,
  r_text (S (List.length b)) vs (Cur q b st) = Ok (t, c)
  <-> exists x r, b = x ++ r /\ is_text vs t x /\ c = Cur (q + len x) r st.
Proof. exact text_iff. Qed.
Print Assumptions C41_text_iff.
(** Whatever the hash function does, a derivation is read as the value it holds. *)
Theorem C41_any_hashing : forall o h ps x t,
  is_file o h ps x -> parse o (x ++ t) = Ok ((h, ps), Cur (len x) t []).
Proof. exact derived_reads. Qed.
Print Assumptions C41_any_hashing.
(** No input starts with two different files or properties. *)
Theorem C41_file_unambiguous : forall o h h' ps ps' x x' t t',
  is_file o h ps x -> is_file o h' ps' x' -> x ++ t = x' ++ t' -> h = h' /\ ps = ps' /\ x = x' /\ t = t'.
Proof. exact file_unambiguous. Qed.
Print Assumptions C41_file_unambiguous.
Theorem C41_property_unambiguous : forall o vs st ty hdr size p p' x x' t t',
  is_prop o vs st ty hdr size p x -> is_prop o vs st ty hdr size p' x' -> x ++ t = x' ++ t' ->
  p = p' /\ x = x' /\ t = t'.
Proof. exact prop_unambiguous. Qed.
Print Assumptions C41_property_unambiguous.
(** What is saved is a file of the grammar holding the saved value, then four zeros. *)
Theorem C41_saved : forall o, (forall p i, probe o p i = false) -> forall f b,
  file_ok o same f = true -> save_plain f = Ok b -> len b < 4294967296 ->
  exists x, b = x ++ u4 0 /\ is_file o (fst f) (snd f) x.
Proof. exact file_written. Qed.
Print Assumptions C41_saved.
(** A property is written as its type name, then the property. *)
Theorem C41_property_written : forall o, (forall p i, probe o p i = false) -> forall vs path p b q,
  wf_prop o vs same true path p = true -> w_prop vs true p = Ok (b, q) -> len b < 4294967295 ->
  exists x y, b = x ++ y /\ text_of (type_of p) x /\ is_prop o vs path (type_of p) true None p y.
Proof. exact prop_written. Qed.
Print Assumptions C41_property_written.

(** The sample, with every kind of property, is in the grammar. *)
Example C41_applies : exists x, sample_bytes = x ++ u4 0 /\ is_file o_sample (fst sample) (snd sample) x.
Proof.
  apply C41_saved; [reflexivity|vm_compute; reflexivity|vm_compute; reflexivity|].
  vm_compute. reflexivity.
Qed.
(** Bytes by hand: an array of two integers, 5 and -1; length 12, index 0, element
    type, zero, count, elements. *)
Definition hand : list byte :=
  map z2b ([12;0;0;0; 0;0;0;0; 12;0;0;0] ++ s2z "IntProperty" ++ [0; 0; 2;0;0;0; 5;0;0;0; 255;255;255;255]).
Example C41_by_hand :
  is_prop o_plain [] [] (s2z "ArrayProperty") true None (PArray (AInts [5; -1])) hand.
Proof.
  assert (H : r_prop (S (List.length hand)) o_plain [] (s2z "ArrayProperty") true None (Cur 0 hand [])
    = Ok (PArray (AInts [5; -1]), Cur 37 [] [])) by (vm_compute; reflexivity).
  apply C41_property_iff in H as (x & t & E & P & C); [|reflexivity|discriminate].
  assert (t = []) as -> by congruence. rewrite app_nil_r in E. now rewrite E.
Qed.
