(** Claim C59: which files a load and a save leave byte for byte as they are. *)
From Coq Require Import ZArith List Bool String Lia.
From Verif Require Import Base Str Types Versions Text Props File Spec Samples Grammar Tidy TidyFile.
Import ListNotations.
Open Scope Z_scope.

(** C59.  Loading and saving gives back the input exactly on canonical files: the
    format with every choice made (Tidy.v), closed by four zeros. *)
Theorem C59_exact_iff : forall o f b, (forall p i, probe o p i = false) -> len b < 4294967296 ->
  (load_plain o b = Ok f /\ save_plain f = Ok b)
  <-> (exists x, b = x ++ u4 0 /\ tidy_file o (fst f) (snd f) x).
Proof. exact exact_iff. Qed.
Print Assumptions C59_exact_iff.
(** Canonical files come back whatever the hash function does and however long they are. *)
Theorem C59_canonical_kept : forall o f x, tidy_file o (fst f) (snd f) x ->
  load_plain o (x ++ u4 0) = Ok f /\ save_plain f = Ok (x ++ u4 0).
Proof. exact exact_back. Qed.
Print Assumptions C59_canonical_kept.
(** Whatever was loaded, what is saved is canonical, and holds the loaded value. *)
Theorem C59_saved_canonical : forall o f b b', (forall p i, probe o p i = false) ->
  load_plain o b = Ok f -> save_plain f = Ok b' -> len b' < 4294967296 ->
  exists x, b' = x ++ u4 0 /\ tidy_file o (fst f) (snd f) x.
Proof. exact resaved_tidy. Qed.
Print Assumptions C59_saved_canonical.
(** A canonical file is a file of the format, holding the same value. *)
Theorem C59_canonical_in_format : forall o h ps b, tidy_file o h ps b -> is_file o h ps b.
Proof. exact tidy_file_in. Qed.
Print Assumptions C59_canonical_in_format.
(** A value has at most one canonical form, whatever hints or hashing. *)
Theorem C59_one_form : forall o o' f x x',
  tidy_file o (fst f) (snd f) x -> tidy_file o' (fst f) (snd f) x' -> x = x'.
Proof. exact tidy_unique. Qed.
Print Assumptions C59_one_form.
(** The same for strings, texts and single properties. *)
Theorem C59_string : forall s b,
  (r_fstring (Cur 0 b []) = Ok (s, Cur (len b) [] []) /\ exists n, w_fstring s = Ok (b, n)) <-> tidy_str s b.
Proof. exact string_exact. Qed.
Print Assumptions C59_string.
Theorem C59_text : forall vs t b,
  (r_text (S (List.length b)) vs (Cur 0 b []) = Ok (t, Cur (len b) [] []) /\ exists n, w_text vs t = Ok (b, n))
  <-> tidy_text vs t b.
Proof. exact text_exact. Qed.
Print Assumptions C59_text.
Theorem C59_property : forall o vs path ty p y, (forall q i, probe o q i = false) -> str_ok ty = true ->
  len (str_bytes ty ++ y) < 4294967296 ->
  (r_prop (S (List.length y)) o vs ty true None (Cur 0 y path) = Ok (p, Cur (len y) [] path)
   /\ exists n, w_prop vs true p = Ok (str_bytes ty ++ y, n))
  <-> tidy_prop o vs path ty true None p y.
Proof. exact prop_exact. Qed.
Print Assumptions C59_property.

(** The sample, with every kind of property, is canonical. *)
Example C59_applies : exists x, sample_bytes = x ++ u4 0 /\ tidy_file o_sample (fst sample) (snd sample) x.
Proof.
  apply C59_exact_iff; [reflexivity|vm_compute; reflexivity|]. split; vm_compute; reflexivity.
Qed.
(** A canonical array of two integers by hand, from the rules alone. *)
Example C59_by_hand : tidy_prop o_plain [] [] (s2z "ArrayProperty") true None (PArray (AInts [5; -1]))
  (map z2b ([12;0;0;0; 0;0;0;0; 12;0;0;0] ++ s2z "IntProperty" ++ [0; 0; 2;0;0;0; 5;0;0;0; 255;255;255;255])).
Proof.
  apply C59_property; [reflexivity|reflexivity|vm_compute; reflexivity|].
  split; [vm_compute; reflexivity|eexists; vm_compute; reflexivity].
Qed.

(** ** Files that are read but not kept: one for each choice the format leaves open *)
Definition bz : list Z -> list byte := map z2b.
Definition named (name ty : string) (body : list byte) : list byte :=
  str_bytes (s2z name) ++ str_bytes (s2z ty) ++ body.
Definition file_of (body tail : list byte) : list byte :=
  match w_header hdr4 with
  | Ok (h, _) => h ++ body ++ str_bytes (s2z "None") ++ tail
  | Fail _ => []
  end.
Definition header_of (vs : list (guid * Z)) : list byte :=
  match w_header (Header 0x205 None (FEngine 4 27 2 0 (s2z "b")) 3 vs (s2z "c")) with Ok (h, _) => h | Fail _ => [] end.
Definition int_ (n : Z) : list byte := framed 0 [] (u4 n).
Definition pair_map (k1 k2 : Z) : list byte :=
  framed 0 (str_bytes (s2z "IntProperty") ++ str_bytes (s2z "IntProperty"))
    (u4 0 ++ u4 2 ++ u4 k1 ++ u4 7 ++ u4 k2 ++ u4 8).
Definition two_structs (a b c : string) : list byte :=
  framed 0 (str_bytes (s2z "Mine") ++ repeat Byte.x00 16)
    (named a "IntProperty" (framed 0 [] (u4 1)) ++ named b "IntProperty" (framed 0 [] (u4 2))
     ++ named c "IntProperty" (framed 0 [] (u4 3)) ++ str_bytes (s2z "None")).
Definition untidy : list (list byte) :=
  [ (* bytes after the closing zeros, other closing bytes, none at all *)
    file_of (named "a" "IntProperty" (int_ 5)) (u4 0 ++ bz [1]);
    file_of (named "a" "IntProperty" (int_ 5)) (u4 9);
    file_of (named "a" "IntProperty" (int_ 5)) [];
    (* an ASCII string in UTF-16 *)
    file_of (named "a" "StrProperty" (framed 0 [] (bz [254;255;255;255; 65;0; 0;0]))) (u4 0);
    (* a byte of length 2; an enumerator whose length is wrong *)
    file_of (named "a" "ByteProperty" (u4 2 ++ u4 0 ++ str_bytes (s2z "E") ++ bz [0; 9])) (u4 0);
    file_of (named "a" "ByteProperty" (u4 7 ++ u4 0 ++ str_bytes (s2z "E") ++ bz [0; 2;0;0;0; 65; 0])) (u4 0);
    (* a guid twice among the custom versions *)
    header_of [(a_guid, 1); (a_guid, 2)] ++ str_bytes (s2z "None") ++ u4 0;
    (* a name twice *)
    file_of (named "a" "IntProperty" (int_ 5) ++ named "a" "IntProperty" (int_ 6)) (u4 0);
    (* a key twice *)
    file_of (named "a" "MapProperty" (pair_map 1 1)) (u4 0);
    (* fields of one name apart *)
    file_of (named "a" "StructProperty" (two_structs "x" "y" "x")) (u4 0) ].
Definition o_lax : opts := Opts false no_hints quiet.
Definition resaved (b : list byte) : outcome (list byte) :=
  match load_plain o_lax b with Ok f => save_plain f | Fail e => Fail e end.
Example C59_read_but_changed :
  forallb (fun b => match resaved b with
                    | Ok b' => negb (str_eqb (map b2z b) (map b2z b'))
                    | Fail _ => false end) untidy = true.
Proof. vm_compute. reflexivity. Qed.
(** Their tidied neighbours are kept. *)
Example C59_read_and_kept :
  forallb (fun b => match resaved b with
                    | Ok b' => str_eqb (map b2z b) (map b2z b')
                    | Fail _ => false end)
    [ file_of (named "a" "IntProperty" (int_ 5)) (u4 0);
      file_of (named "a" "StrProperty" (framed 0 [] (bz [2;0;0;0; 65; 0]))) (u4 0);
      file_of (named "a" "MapProperty" (pair_map 1 2)) (u4 0);
      file_of (named "a" "StructProperty" (two_structs "x" "x" "y")) (u4 0) ] = true.
Proof. vm_compute. reflexivity. Qed.
