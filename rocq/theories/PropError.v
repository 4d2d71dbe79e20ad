(** Claim C75: what [unwrap] prints for the error of a load, and the cause it names. *)
From Coq Require Import ZArith List Bool String Lia.
From Verif Require Import Base Str Types Versions Text Props File Spec StrThm Message MessageThm Numeral Debug DebugSpec
  Samples WholeSave ErrorText ErrorSpec ErrorUtf8 ErrorThm PropMessage PropBlame.
Import ListNotations.
Open Scope Z_scope.

(** C75.  The error of a load or of a save has a [Debug] text, except for errors of zlib.  It names the declared
    variant and shows its fields in order; put into the declared format string, the same fields give
    the [Display] text. *)
Theorem C75_declared : forall names lone plain i e raw, failed e raw ->
  e = EIo \/ exists t m, debug_error names lone plain i raw e = Some (show plain i t) /\ message names e = Some m /\ shown lone raw t m.
Proof. exact debug_shown. Qed.
Print Assumptions C75_declared.
(** Two errors that print the same, on one line or on several, are the same, down to the bytes that are no text. *)
Theorem C75_tells : forall names lone plain i e raw e' raw' m, good_names names -> failed e raw -> failed e' raw' ->
  debug_error names lone plain i raw e = Some m -> debug_error names lone plain i raw' e' = Some m -> e = e' /\ raw = raw'.
Proof. exact debug_tells. Qed.
Print Assumptions C75_tells.
(** [{:?}] stays on one line, whatever the names in the file hold. *)
Theorem C75_one_line : forall names lone plain e raw m, good_names names -> ~ In 10 lone -> failed e raw ->
  debug_error names lone plain None raw e = Some m -> ~ In 10 m.
Proof. exact debug_line. Qed.
Print Assumptions C75_one_line.

(** Where a text stops being UTF-8: what std reports is the longest valid start, and how many bytes
    behind it belong to no character. *)
Theorem C75_utf8 : forall l, (utf8_error l = None <-> utf8 l) /\ forall v e, utf8_error l = Some (v, e) <-> first_bad l v e.
Proof. intros l. split; [apply error_none|]. intros v e. apply error_iff. Qed.
Print Assumptions C75_utf8.
(** Only strings that are not UTF-8 or UTF-16 have a cause.  For UTF-8 it is about the bytes of the string
    that is stored at the position in the error, and says where they stop being text. *)
Theorem C75_source : forall z o v b e, load z o v b = Fail (Err e) ->
  match source (raw_of (data_of z v b) e) e with
  | None => forall p, e <> EUtf8 p /\ e <> EUtf16 p
  | Some s => (exists p, e = EUtf16 p) /\ s = s2z "invalid utf-16: lone surrogate found"
    \/ exists p pre body t, e = EUtf8 p /\ data_of z v b = pre ++ le_bytes 4 (len body + 1) ++ body ++ Byte.x00 :: t /\ len pre = p
       /\ raw_of (data_of z v b) e = body /\ utf8_text body s
  end.
Proof. exact source_text. Qed.
Print Assumptions C75_source.

(** The names that rustc gives, and std's [FromUtf16Error(())]. *)
Example C75_names : good_names type_names /\ ~ In 10 (s2z "FromUtf16Error(())").
Proof.
  split; [split; [exact (proj1 C61_names)|intros t; destruct t; vm_compute; reflexivity]|].
  vm_compute. intros H. repeat (destruct H as [H|H]; [discriminate H|]). exact H.
Qed.
Definition ascii (c : Z) : bool := (32 <=? c) && (c <=? 126).
Definition says i v b := load_debug type_names (s2z "FromUtf16Error(())") ascii i toy_zlib o_plain v b.
(** A character cut off, one that is too long, a surrogate; a missing hint; a property type with a line
    break, which is escaped here but not in the [Display] text. *)
Definition cut_off : list byte := a_str (le_bytes 4 5 ++ [Byte.x61; Byte.xe2; Byte.x82; Byte.x62; Byte.x00]).
Example C75_applies :
  says None GDefault cut_off
    = Some (s2z "Deserialize(FromUtf8Error(FromUtf8Error { bytes: [97, 226, 130, 98], error: Utf8Error { valid_up_to: 1, error_len: Some(2) } }, 150))")
  /\ source (raw_of (data_of toy_zlib GDefault cut_off) (EUtf8 150)) (EUtf8 150)
    = Some (s2z "invalid utf-8 sequence of 2 bytes from index 1")
  /\ says None GDefault (a_str (le_bytes 4 3 ++ [Byte.xf0; Byte.x9f; Byte.x00]))
    = Some (s2z "Deserialize(FromUtf8Error(FromUtf8Error { bytes: [240, 159], error: Utf8Error { valid_up_to: 0, error_len: None } }, 150))")
  /\ says None GDefault (a_str (le_bytes 4 (-2) ++ le_bytes 2 55296 ++ le_bytes 2 0))
    = Some (s2z "Deserialize(FromUtf16Error(FromUtf16Error(()), 150))")
  /\ says None GDefault sample_bytes
    = Some (map (fun c => if c =? 39 then 34 else c) (s2z "Deserialize(MissingHint('StructProperty', 'set.SetProperty.StructProperty', 1509))"))
  /\ says None GDefault []
    = Some (map (fun c => if c =? 39 then 34 else c) (s2z "Io(Error { kind: UnexpectedEof, message: 'failed to fill whole buffer' })"))
  /\ says (Some 0%nat) GPalworld (repeat (z2b 255) 20)
    = Some (s2z "Deserialize(" ++ [10] ++ s2z "    InvalidHeader(" ++ [10] ++ s2z "        " ++ [34] ++ s2z "Invalid PlZ magic [255, 255, 255]" ++ [34] ++ s2z ","
            ++ [10] ++ s2z "    )," ++ [10] ++ s2z ")").
Proof. vm_compute. repeat split; reflexivity. Qed.
Definition bare : gfile := GFile DDefault hdr5 [(s2z "v", PStruct zero_guid (s2z "Vector") (SFixed XVectorF [1; 2; 3]))].
Example C75_failed :
  failed (EUtf8 150) [Byte.x61; Byte.xe2; Byte.x82; Byte.x62] /\ failed (ESerialize (SLwc XVectorF)) []
  /\ debug_error type_names [] ascii None [] (ESerialize (SLwc XVectorF))
     = Some (s2z "Serialize(InvalidValue(" ++ [34] ++ s2z "VectorF not supported when LWC is enabled, use VectorD" ++ [34] ++ s2z "))").
Proof.
  split; [left; exists toy_zlib, o_plain, GDefault, cut_off; split; vm_compute; reflexivity|].
  split; [right; exists toy_zlib, bare, (Dev [] 0); eexists; split; vm_compute; reflexivity|vm_compute; reflexivity].
Qed.
Definition odd_type : list byte := one "MapProperty" (le_bytes 4 0 ++ le_bytes 4 0
  ++ str_bytes [65; 10; 66] ++ str_bytes (s2z "IntProperty") ++ [Byte.x00] ++ le_bytes 4 0 ++ le_bytes 4 1).
Example C75_display_lines : exists p,
  load toy_zlib o_plain GDefault odd_type = Fail (Err (EProperty [65; 10; 66] p))
  /\ (exists m, message type_names (EProperty [65; 10; 66] p) = Some m /\ In 10 m)
  /\ says None GDefault odd_type = Some (s2z "Deserialize(InvalidProperty(" ++ [34] ++ s2z "A\nB" ++ [34] ++ s2z ", " ++ decimal p ++ s2z "))").
Proof.
  eexists. split; [vm_compute; reflexivity|]. split; [|vm_compute; reflexivity]. eexists. split; [reflexivity|]. vm_compute. tauto.
Qed.
(** Where texts stop: a stray byte, an overlong form, a surrogate, a character above U+10FFFF, a cut. *)
Example C75_utf8_applies :
  let at_ l := utf8_error (map z2b l) in
  at_ [97; 128; 98] = Some (1, Some 1) /\ at_ [192; 128] = Some (0, Some 1) /\ at_ [224; 159; 191] = Some (0, Some 1)
  /\ at_ [195; 169; 237; 160; 128] = Some (2, Some 1) /\ at_ [244; 144; 128; 128] = Some (0, Some 1)
  /\ at_ [240; 159; 152] = Some (0, None) /\ at_ [240; 159; 152; 40] = Some (0, Some 3) /\ at_ [240; 159; 152; 128] = None
  /\ first_bad (map z2b [97; 226; 130; 98]) 1 (Some 2).
Proof. repeat (split; [vm_compute; reflexivity|]). apply error_iff. vm_compute. reflexivity. Qed.
