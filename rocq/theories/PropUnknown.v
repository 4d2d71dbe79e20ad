(** Claim C15: properties of unknown type are kept verbatim. *)
From Coq Require Import ZArith List Bool String Lia.
From Verif Require Import Base Str Types Versions Text Props File Spec Samples StrThm UnknownThm.
Import ListNotations.
Open Scope Z_scope.

(** * With a header (top level and struct fields) *)

(** Accepted exactly when: size, zero index, zero byte, and that many bytes; the value
    is these bytes. *)
Theorem C15_header : forall n o vs ty sug p b st x c, unknown ty ->
  r_prop (S n) o vs ty true sug (Cur p b st) = Ok (x, c) <->
  exists raw t, len raw < 4294967296 /\ b = le_bytes 4 (len raw) ++ le_bytes 4 0 ++ [Byte.x00] ++ raw ++ t
    /\ x = PUnknown ty raw /\ c = Cur (p + 9 + len raw) t st.
Proof. exact unknown_iff. Qed.
Print Assumptions C15_header.
Theorem C15_header_written : forall vs ty raw, exists n, w_prop vs true (PUnknown ty raw)
  = Ok (str_bytes ty ++ le_bytes 4 (len raw) ++ le_bytes 4 0 ++ [Byte.x00] ++ raw, n).
Proof. intros. eexists. apply unknown_written. Qed.
Print Assumptions C15_header_written.

(** * Elements of arrays and sets *)

(** Accepted exactly when the declared size is that of the count and of equally long
    elements; the elements are cut out of the payload in order. *)
Theorem C15_array : forall n o vs ty sug p L e t0 st x c,
  unknown ty -> stored (Some ty) e -> 0 <= L < 4294967296 ->
  r_prop (S (S n)) o vs (s2z "ArrayProperty") true sug
    (Cur p (le_bytes 4 L ++ le_bytes 4 0 ++ e ++ [Byte.x00] ++ t0) st) = Ok (x, c) <->
  exists raws k t, Forall (fun r => len r = k) raws /\ len raws < 4294967296 /\ L = 4 + len raws * k
    /\ t0 = le_bytes 4 (len raws) ++ List.concat raws ++ t
    /\ x = PArray (AProps ty (map (PUnknown ty) raws)) /\ c = Cur (p + 13 + len e + len (List.concat raws)) t st.
Proof. exact unknown_array. Qed.
Print Assumptions C15_array.
Theorem C15_array_written : forall vs ty raws, exists n,
  w_prop vs true (PArray (AProps ty (map (PUnknown ty) raws)))
  = Ok (str_bytes (s2z "ArrayProperty") ++ le_bytes 4 (4 + len (List.concat raws)) ++ le_bytes 4 0 ++ str_bytes ty ++ [Byte.x00]
        ++ le_bytes 4 (len raws) ++ List.concat raws, n).
Proof. exact unknown_array_written. Qed.
Print Assumptions C15_array_written.
Theorem C15_set : forall n o vs ty sug p L e t0 st x c,
  unknown ty -> stored (Some ty) e -> 0 <= L < 4294967296 ->
  r_prop (S (S n)) o vs (s2z "SetProperty") true sug
    (Cur p (le_bytes 4 L ++ le_bytes 4 0 ++ e ++ [Byte.x00] ++ t0) st) = Ok (x, c) <->
  exists flags raws k t, Forall (fun r => len r = k) raws /\ 0 <= flags < 4294967296 /\ len raws < 4294967296 /\ L = 8 + len raws * k
    /\ t0 = le_bytes 4 flags ++ le_bytes 4 (len raws) ++ List.concat raws ++ t
    /\ x = PSet ty flags (map (PUnknown ty) raws) /\ c = Cur (p + 17 + len e + len (List.concat raws)) t st.
Proof. exact unknown_set. Qed.
Print Assumptions C15_set.
Theorem C15_set_written : forall vs ty flags raws, exists n,
  w_prop vs true (PSet ty flags (map (PUnknown ty) raws))
  = Ok (str_bytes (s2z "SetProperty") ++ le_bytes 4 (8 + len (List.concat raws)) ++ le_bytes 4 0 ++ str_bytes ty ++ [Byte.x00]
        ++ le_bytes 4 flags ++ le_bytes 4 (len raws) ++ List.concat raws, n).
Proof. exact unknown_set_written. Qed.
Print Assumptions C15_set_written.

(** * Maps *)

(** Map entries carry no sizes, so a map with an unknown key or value type is accepted
    only when it is empty: no bytes of unknown type can get lost in one. *)
Theorem C15_map_empty : forall n o vs kt vt sug p L ek ev t0 st x c,
  unknown kt \/ unknown vt -> stored (Some kt) ek -> stored (Some vt) ev -> 0 <= L < 4294967296 ->
  r_prop (S (S n)) o vs (s2z "MapProperty") true sug
    (Cur p (le_bytes 4 L ++ le_bytes 4 0 ++ ek ++ ev ++ [Byte.x00] ++ t0) st) = Ok (x, c) <->
  exists flags t, 0 <= flags < 4294967296 /\ L = 8 /\ t0 = le_bytes 4 flags ++ le_bytes 4 0 ++ t
    /\ x = PMap (map_new kt vt flags []) /\ c = Cur (p + 17 + len ek + len ev) t st.
Proof. exact unknown_map. Qed.
Print Assumptions C15_map_empty.

(** * Examples *)
Definition odd_array (L : Z) : list byte :=
  le_bytes 4 L ++ le_bytes 4 0 ++ str_bytes (s2z "Odd") ++ [Byte.x00] ++ le_bytes 4 3 ++ map z2b [1; 2; 3; 4; 5; 6; 7; 8].
Example C15_applies :
  unknown (s2z "Odd") /\ stored (Some (s2z "Odd")) (str_bytes (s2z "Odd"))
  /\ (exists c, r_prop 9 o_plain [] (s2z "ArrayProperty") true None (Cur 0 (odd_array 10) [])
        = Ok (PArray (AProps (s2z "Odd") (map (PUnknown (s2z "Odd")) [map z2b [1; 2]; map z2b [3; 4]; map z2b [5; 6]])), c)
        /\ rest c = map z2b [7; 8])
  (* a payload that does not divide evenly *)
  /\ r_prop 9 o_plain [] (s2z "ArrayProperty") true None (Cur 0 (odd_array 11) []) = Fail (Err (EValueSize 11 10 17))
  (* in a struct in a file: loaded, saved, identical *)
  /\ (let b := raw_file (s2z "s") (s2z "StructProperty")
                 (le_bytes 4 43 ++ le_bytes 4 0 ++ str_bytes (s2z "Mine") ++ zero_guid ++ [Byte.x00]
                  ++ str_bytes (s2z "f") ++ str_bytes (s2z "OddProperty")
                  ++ le_bytes 4 3 ++ le_bytes 4 0 ++ [Byte.x00] ++ map z2b [7; 0; 255]
                  ++ str_bytes (s2z "None")) in
      exists f, load_plain o_plain b = Ok f /\ save_plain f = Ok b
        /\ snd f = [(s2z "s", PStruct zero_guid (s2z "Mine") (SCustom [(s2z "f", [PUnknown (s2z "OddProperty") (map z2b [7; 0; 255])])]))]).
Proof.
  split; [apply unknown_kind; reflexivity|]. split; [apply FrameThm.str_stored; reflexivity|].
  split; [eexists; split; [vm_compute; reflexivity|reflexivity]|].
  split; [vm_compute; reflexivity|].
  eexists. split; [vm_compute; reflexivity|]. split; vm_compute; reflexivity.
Qed.
