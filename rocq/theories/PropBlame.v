(** C72: a failed load tells the truth about the input.  Unless the input ended early, some bytes
    of it are what the error complains of: they are where it says, they hold the values it
    reports, and they are wrong for the reason it gives; what follows them does not matter. *)
From Coq Require Import ZArith List Bool String.
From Verif Require Import Base Str Types Versions Text Props File Samples Panics BlameSpec BlameThm WholeSave.
Import ListNotations.
Open Scope Z_scope.

Theorem C72_plain : forall o b f, load_plain o b = Fail f -> f <> Err EEof ->
  exists pre d t, b = pre ++ d ++ t /\ about o f (len pre) d
    /\ forall t', load_plain o (pre ++ d ++ t') = Fail f.
Proof. exact load_blames. Qed.
Print Assumptions C72_plain.

(** Containers: eight bytes of sizes, the magic bytes, the kind of compression, the data.  Faults
    inside the unpacked data are reported as by a load of that data. *)
Theorem C72_container : forall z o b f, load z o GPalworld b = Fail f -> f <> Err EEof ->
  exists a m t, b = a ++ m ++ t /\ len a = 8 /\ len m = 3
  /\ (m <> map z2b (s2z "PlZ") /\ f = Err (EMagic m)
      /\ (forall t', load z o GPalworld (a ++ m ++ t') = Fail f)
      \/ m = map z2b (s2z "PlZ") /\ exists v d t1, t = d ++ t1 /\ signed 1 v d
         /\ (~ In v (listed ETCompression) /\ f = Err (EEnum ETCompression v 12)
             /\ (forall t', load z o GPalworld (a ++ m ++ d ++ t') = Fail f)
             \/ v = 48 /\ load_plain o (firstn (Z.to_nat (le_val (firstn 4 a))) t1) = Fail f
             \/ v = 49 /\ (f = Err EIo /\ snd (inflate z t1) = ZBad
                           \/ load_plain o (firstn (Z.to_nat (le_val (firstn 4 a))) (fst (inflate z t1))) = Fail f)
             \/ v = 50 /\ (f = Err EIo /\ (snd (inflate z t1) = ZBad \/ snd (inflate z (fst (inflate z t1))) = ZBad)
                           \/ load_plain o (fst (inflate z (fst (inflate z t1)))) = Fail f))).
Proof. exact container_blames. Qed.
Print Assumptions C72_container.

(** A file with one property whose header starts at 119: name at 119, type at 125. *)
Definition one (ty : string) (b : list byte) : list byte := raw_file (s2z "a") (s2z ty) b.
Definition a_str (b : list byte) : list byte := one "StrProperty" (le_bytes 4 7 ++ le_bytes 4 0 ++ le_bytes 1 0 ++ b).
Definition refused (b : list byte) (e : error) : Prop := load_plain o_plain b = Fail (Err e).
Example C72_applies :
  refused (le_bytes 4 0) (EHeader HFileType 0)
  /\ refused (le_bytes 4 0x53415647 ++ le_bytes 4 4) (EHeader HSaveVersion 4)
  /\ refused (a_str (sb "x")) (EValueSize 7 6 150)
  /\ refused (one "Int8Property" (le_bytes 8 3 ++ le_bytes 1 0 ++ le_bytes 1 1)) (EValueSize 1 3 150)
  /\ refused (a_str (le_bytes 4 131073)) (EString 131073 150)
  /\ refused (a_str (le_bytes 4 2 ++ [Byte.x41; Byte.x42])) (EStrTerm 66 156)
  /\ refused (a_str (le_bytes 4 (-1) ++ [Byte.x41; Byte.x42])) (EStrTerm 16961 156)
  /\ refused (a_str (le_bytes 4 2 ++ [Byte.xff; Byte.x00])) (EUtf8 150)
  /\ refused (a_str (le_bytes 4 (-2) ++ le_bytes 2 55296 ++ le_bytes 2 0)) (EUtf16 150)
  /\ refused (one "BoolProperty" (le_bytes 8 0 ++ le_bytes 1 2)) (EBool 2 151)
  /\ refused (one "TextProperty" (le_bytes 4 7 ++ le_bytes 4 0 ++ le_bytes 1 0 ++ le_bytes 4 0 ++ le_bytes 1 14))
       (EEnum ETHistory 14 156)
  /\ refused (one "StrProperty" (le_bytes 4 7 ++ le_bytes 4 9)) (EArrayIndex 9 145)
  /\ refused (one "StrProperty" (le_bytes 4 7 ++ le_bytes 4 0 ++ le_bytes 1 3)) (ETerm 3 149)
  /\ refused (one "MapProperty" (le_bytes 4 12 ++ le_bytes 4 0 ++ sb "StructProperty" ++ sb "IntProperty"
                                 ++ le_bytes 1 0 ++ le_bytes 4 0 ++ le_bytes 4 1))
       (EHint (s2z "a.MapProperty.Key.StructProperty") 193)
  /\ refused (one "ArrayProperty" (le_bytes 4 8 ++ le_bytes 4 0 ++ sb "SetProperty" ++ le_bytes 1 0 ++ le_bytes 4 1))
       (EProperty (s2z "SetProperty is not supported in arrays") 172)
  /\ refused (one "ArrayProperty" (le_bytes 4 99 ++ le_bytes 4 0 ++ sb "StructProperty" ++ le_bytes 1 0 ++ le_bytes 4 0
                                   ++ sb "a" ++ sb "StructProperty" ++ le_bytes 8 5 ++ sb "T" ++ zero_guid ++ le_bytes 1 0))
       (EProperty (s2z "0 != 5") 231).
Proof. unfold refused. repeat apply conj; vm_compute; reflexivity. Qed.
Example C72_container_applies :
  load toy_zlib o_plain GPalworld (le_bytes 8 0 ++ map z2b (s2z "PlX")) = Fail (Err (EMagic (map z2b (s2z "PlX"))))
  /\ load toy_zlib o_plain GPalworld (le_bytes 8 0 ++ map z2b (s2z "PlZ3")) = Fail (Err (EEnum ETCompression 51 12))
  /\ load toy_zlib o_plain GPalworld (le_bytes 4 4 ++ le_bytes 4 0 ++ map z2b (s2z "PlZ0") ++ le_bytes 4 7)
     = Fail (Err (EHeader HFileType 7)).
Proof. repeat apply conj; vm_compute; reflexivity. Qed.
