(** Claims C07-C11, C25, C37: strings, headers, versions. *)
From Coq Require Import ZArith List Bool String Lia.
From Verif Require Import Base Str Types Versions VersionTables Text Props File Spec Samples StrThm MapFacts
  VersionThm HeaderThm.
Import ListNotations.
Open Scope Z_scope.

(** C07.  A written string reads back, consuming exactly its bytes, if and only
    if it has at most 131071 UTF-16 units ([coded char16 s us]: [us] are its
    UTF-16 units). *)
Theorem C07_round_trip_iff : forall s bs n us p t st,
  coded char16 s us -> w_fstring (Some s) = Ok (bs, n) ->
  (r_fstring (Cur p (bs ++ t) st) = Ok (Some s, Cur (p + len bs) t st) <-> len us + 1 <= 131072).
Proof. exact string_iff. Qed.
Print Assumptions C07_round_trip_iff.
Theorem C07_null : forall bs n p t st,
  w_fstring None = Ok (bs, n) -> r_fstring (Cur p (bs ++ t) st) = Ok (None, Cur (p + len bs) t st).
Proof. exact null_string. Qed.
Print Assumptions C07_null.
(** Longer strings are written and then rejected. *)
Theorem C07_long_rejected : forall s bs n us p t st,
  coded char16 s us -> w_fstring (Some s) = Ok (bs, n) -> 131072 < len us + 1 < 2147483648 ->
  exists k, (k = len us + 1 \/ k = - (len us + 1))
    /\ r_fstring (Cur p (bs ++ t) st) = Fail (Err (EString k p)).
Proof. exact long_string. Qed.
Print Assumptions C07_long_rejected.
(** Every Unicode string has UTF-16 units, and is written without complaint. *)
Theorem C07_every_string : forall s, unicode s ->
  (exists us, coded char16 s us /\ len us = units s) /\ exists bs n, w_fstring (Some s) = Ok (bs, n).
Proof. intros s H. split; [now apply coded16_unicode|]. eexists _, _. reflexivity. Qed.
Print Assumptions C07_every_string.
Example C07_applies : (exists us, coded char16 [104; 233; 128512] us /\ us = [104; 233; 0xD83D; 0xDE00])
  /\ (exists bs n, w_fstring (Some [104; 233; 128512]) = Ok (bs, n) /\ len bs = 14)
  /\ len (repeat 65 (Z.to_nat 131072)) = 131072.
Proof.
  split; [|split].
  - exists [104; 233; 0xD83D; 0xDE00]. split; [|reflexivity]. apply coded16. split; reflexivity.
  - eexists _, _. split; [reflexivity|]. vm_compute. reflexivity.
  - unfold len. rewrite repeat_length. lia.
Qed.

(** C08.  [read_fstring] accepts exactly the stored forms. *)
Theorem C08_accepts_iff : forall p b st o c,
  r_fstring (Cur p b st) = Ok (o, c)
  <-> exists bs t, stored o bs /\ b = bs ++ t /\ c = Cur (p + len bs) t st.
Proof. exact fstring_iff. Qed.
Print Assumptions C08_accepts_iff.
Theorem C08_length_error : forall p b st n, 4 <= len b -> n = to_signed 4 (le_val (firstn 4 b)) ->
  ~ (-131072 <= n <= 131072) -> r_fstring (Cur p b st) = Fail (Err (EString n p)).
Proof. exact fstring_length. Qed.
Print Assumptions C08_length_error.
Theorem C08_terminator_error : forall p st t,
  (forall body x, len body + 1 <= 131072 -> x <> Byte.x00 ->
     r_fstring (Cur p (le_bytes 4 (len body + 1) ++ body ++ x :: t) st)
     = Fail (Err (EStrTerm (b2z x) (p + 5 + len body))))
  /\ (forall ws x y, len ws + 1 <= 131072 -> ~ (x = Byte.x00 /\ y = Byte.x00) ->
     r_fstring (Cur p (le_bytes 4 (- (len ws + 1)) ++ flat_map (le_bytes 2) ws ++ x :: y :: t) st)
     = Fail (Err (EStrTerm (b2z x + 256 * b2z y) (p + 6 + 2 * len ws)))).
Proof. intros p st t. split; intros; [now apply fstring_bad_terminator8|now apply fstring_bad_terminator16]. Qed.
Print Assumptions C08_terminator_error.
Theorem C08_encoding_error : forall p st t,
  (forall body, len body + 1 <= 131072 -> (~ exists s us, coded char8 s us /\ body = map z2b us) ->
     r_fstring (Cur p (le_bytes 4 (len body + 1) ++ body ++ Byte.x00 :: t) st) = Fail (Err (EUtf8 p)))
  /\ (forall ws, len ws + 1 <= 131072 -> Forall (fun w => 0 <= w < 65536) ws ->
     (~ exists s, coded char16 s ws) ->
     r_fstring (Cur p (le_bytes 4 (- (len ws + 1)) ++ flat_map (le_bytes 2) ws ++ Byte.x00 :: Byte.x00 :: t) st)
     = Fail (Err (EUtf16 p))).
Proof. intros p st t. split; intros; [now apply fstring_bad_utf8|now apply fstring_bad_utf16]. Qed.
Print Assumptions C08_encoding_error.
Example C08_applies :
  r_fstring (Cur 7 (le_bytes 4 3 ++ map z2b [0xC3; 0xA9; 0; 9]) []) = Ok (Some [233], Cur 14 [Byte.x09] [])
  /\ r_fstring (Cur 7 (le_bytes 4 131073) []) = Fail (Err (EString 131073 7))
  /\ r_fstring (Cur 7 (le_bytes 4 3 ++ map z2b [0xC0; 0x80; 0]) []) = Fail (Err (EUtf8 7))
  /\ r_fstring (Cur 7 (le_bytes 4 (-2) ++ map z2b [0x00; 0xD8; 0; 0]) []) = Fail (Err (EUtf16 7)).
Proof. repeat split; vm_compute; reflexivity. Qed.

(** C09.  Re-encoding keeps the bytes exactly for the canonical form: one byte
    per unit for ASCII, two otherwise. *)
Theorem C09_same_bytes_iff : forall s bs bs' n, stored (Some s) bs -> w_string s = Ok (bs', n) ->
  (bs' = bs <-> (narrow bs <-> ascii s)).
Proof. exact rewrite_same. Qed.
Print Assumptions C09_same_bytes_iff.
Example C09_applies :
  stored (Some [233]) (le_bytes 4 3 ++ map z2b [0xC3; 0xA9] ++ [Byte.x00])
  /\ (exists n, w_string [233] = Ok (le_bytes 4 (-2) ++ map z2b [0xE9; 0; 0; 0], n)).
Proof.
  split; [|eexists; vm_compute; reflexivity].
  apply (stored_8 [233] [0xC3; 0xA9]); [|vm_compute; discriminate]. apply coded8. split; reflexivity.
Qed.

(** C10.  A header reads back, stopping right after it, exactly when it is in the
    supported window; what was read can always be written and read again. *)
Theorem C10_write_read_iff : forall h p t st, exists bs n, w_header h = Ok (bs, n)
  /\ (r_header (Cur p (bs ++ t) st) = Ok (h, Cur (p + len bs) t st) <-> header_ok h = true).
Proof. exact header_round_trip. Qed.
Print Assumptions C10_write_read_iff.
Theorem C10_read_write_read : forall c h c', r_header c = Ok (h, c') ->
  exists bs n, w_header h = Ok (bs, n)
    /\ forall p t st, r_header (Cur p (bs ++ t) st) = Ok (h, Cur (p + len bs) t st).
Proof. exact header_reread. Qed.
Print Assumptions C10_read_write_read.
Example C10_applies : header_ok hdr4 = true /\ header_ok hdr5 = true
  /\ header_ok (Header 0x20E None (h_engine hdr4) 3 [] []) = false.
Proof. repeat split; vm_compute; reflexivity. Qed.

(** C11.  A header is accepted exactly when the input starts with the bytes of a
    header in the window ([header_coded]), ... *)
Theorem C11_accepts_iff : forall p b st h c,
  r_header (Cur p b st) = Ok (h, c) <->
  exists l x t, b = x ++ t /\ header_coded h l x /\ h_versions h = ins_all guid_eqb l
    /\ c = Cur (p + len x) t st.
Proof. exact header_iff. Qed.
Print Assumptions C11_accepts_iff.
(** ... and each violation is reported with the field and its value, exactly when
    it is the first. *)
Theorem C11_file_type : forall p b st v,
  r_header (Cur p b st) = Fail (Err (EHeader HFileType v))
  <-> 4 <= len b /\ u32_at b 0 = v /\ v <> 0x53415647.
Proof. exact header_file_type. Qed.
Print Assumptions C11_file_type.
Theorem C11_save_version : forall p b st v,
  r_header (Cur p b st) = Fail (Err (EHeader HSaveVersion v))
  <-> 8 <= len b /\ u32_at b 0 = 0x53415647 /\ u32_at b 4 = v /\ v <> 2 /\ v <> 3.
Proof. exact header_save_version. Qed.
Print Assumptions C11_save_version.
Theorem C11_package_version : forall p b st v,
  r_header (Cur p b st) = Fail (Err (EHeader HPackage v))
  <-> 12 <= len b /\ u32_at b 0 = 0x53415647 /\ (u32_at b 4 = 2 \/ u32_at b 4 = 3)
      /\ u32_at b 8 = v /\ ~ (0x205 <= v <= 0x20D).
Proof. exact header_package. Qed.
Print Assumptions C11_package_version.
Theorem C11_package_version_ue5 : forall p b st v,
  r_header (Cur p b st) = Fail (Err (EHeader HPackageUE5 v))
  <-> 16 <= len b /\ u32_at b 0 = 0x53415647 /\ u32_at b 4 = 3 /\ 0x205 <= u32_at b 8 <= 0x20D
      /\ u32_at b 12 = v /\ ~ (1000 <= v <= 1009).
Proof. exact header_ue5. Qed.
Print Assumptions C11_package_version_ue5.
Theorem C11_custom_format : forall p b st v,
  r_header (Cur p b st) = Fail (Err (EHeader HCustomFormat v))
  <-> exists k e t, window b k /\ skipn (Z.to_nat k) b = e ++ le_bytes 4 v ++ t
      /\ engine_bytes e /\ 0 <= v < 4294967296 /\ v <> 3.
Proof. exact header_custom_format. Qed.
Print Assumptions C11_custom_format.
Example C11_applies :
  (exists b n c, w_header hdr5 = Ok (b, n) /\ r_header (Cur 0 b []) = Ok (hdr5, c))
  /\ (exists b n, w_header (Header 0x20D (Some 1009) (h_engine hdr5) 4 [] []) = Ok (b, n)
        /\ r_header (Cur 0 b []) = Fail (Err (EHeader HCustomFormat 4)))
  /\ r_header (Cur 0 (le_bytes 4 0x53415647 ++ le_bytes 4 4) []) = Fail (Err (EHeader HSaveVersion 4)).
Proof.
  split; [eexists _, _, _; split; [vm_compute; reflexivity|vm_compute; reflexivity]|].
  split; [eexists _, _; split; [vm_compute; reflexivity|vm_compute; reflexivity]|vm_compute; reflexivity].
Qed.

(** C25.  Requirements are decided by the last entry for a GUID in the stored list. *)
Theorem C25_last_entry : forall l g n,
  supports (ins_all guid_eqb l) g n = true <-> n <= last_version g l.
Proof. exact supports_last. Qed.
Print Assumptions C25_last_entry.
Theorem C25_header : forall p b st h c, r_header (Cur p b st) = Ok (h, c) ->
  exists l x t, b = x ++ t /\ header_coded h l x
    /\ forall g n, supports (h_versions h) g n = true <-> n <= last_version g l.
Proof. exact header_versions. Qed.
Print Assumptions C25_header.
Example C25_applies :
  last_version ue5_guid [(ue5_guid, 30); (a_guid, 1); (ue5_guid, 12)] = 12
  /\ last_version zero_guid [(ue5_guid, 30)] = 0
  /\ (exists b n h c, w_header (Header 0x20D None (h_engine hdr4) 3 [(ue5_guid, 30); (a_guid, 1); (ue5_guid, 12)] []) = Ok (b, n)
      /\ r_header (Cur 0 b []) = Ok (h, c) /\ h_versions h = [(ue5_guid, 12); (a_guid, 1)]).
Proof.
  split; [vm_compute; reflexivity|]. split; [vm_compute; reflexivity|].
  eexists _, _, _, _. split; [vm_compute; reflexivity|]. split; [vm_compute; reflexivity|vm_compute; reflexivity].
Qed.

(** C37.  Engine versions and the table of editor versions. *)
Theorem C37_engine_version : forall v, engine_of v = engine_spec (fe_major v) (fe_minor v).
Proof. exact engine_of_spec. Qed.
Print Assumptions C37_engine_version.
Theorem C37_injective : forall a b, engine_of a = engine_of b -> engine_of a <> EUnknown ->
  fe_major a = fe_major b /\ fe_minor a = fe_minor b.
Proof. exact engine_injective. Qed.
Print Assumptions C37_injective.
Theorem C37_editor_monotone : rows_monotone editor_mappings.
Proof. exact editor_monotone. Qed.
Print Assumptions C37_editor_monotone.
Theorem C37_latest_above_plus_one : exists a b,
  In (EAutomatic, Some a) editor_mappings /\ In (EAutomaticPlusOne, Some b) editor_mappings
  /\ age EAutomatic < age EAutomaticPlusOne /\ b < a.
Proof. exact latest_above_plus_one. Qed.
Print Assumptions C37_latest_above_plus_one.
(** The table names existing enumerators, one row per engine version. *)
Theorem C37_editor_complete :
  (forall e o, In (e, o) editor_mappings -> exists v, o = Some v /\ 0 <= v <= 42)
  /\ NoDup (map (fun r => age (fst r)) editor_mappings).
Proof. exact (conj editor_complete editor_rows_unique). Qed.
Print Assumptions C37_editor_complete.
(** The numbers tested elsewhere are the discriminants of the enumerators named. *)
Theorem C37_constants :
  discriminant 0 editor_names "CultureInvariantTextSerializationKeyStability" = Some v_culture
  /\ discriminant 0 ue5_names "TextFormatArgumentData64bitSupport" = Some v_arg64
  /\ discriminant 0 ue5_names "LargeWorldCoordinates" = Some v_lwc
  /\ discriminant 1000 object_names "InitialVersion" = Some 1000
  /\ discriminant 1000 object_names "DataResources" = Some 1009.
Proof. repeat split; vm_compute; reflexivity. Qed.
Print Assumptions C37_constants.
Example C37_applies : engine_of (h_engine hdr4) = UE4 27 /\ engine_of (h_engine hdr5) = UE5 2
  /\ engine_of (FEngine 5 3 0 0 []) = EUnknown /\ In (UE4 22, Some 30) editor_mappings.
Proof. repeat split; cbv; tauto. Qed.
