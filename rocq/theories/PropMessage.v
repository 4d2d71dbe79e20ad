(** Claim C61: the texts of errors. *)
From Coq Require Import ZArith List Bool String Lia.
From Verif Require Import Base Str Types Versions Text Props File Spec Samples WholeSave Numeral GateThm Message MessageThm.
Import ListNotations.
Open Scope Z_scope.

(** C61.  The error of a load has a text, except for errors of zlib. *)
Theorem C61_text : forall names z o v b e, load z o v b = Fail (Err e) ->
  (exists m, message names e = Some m) \/ e = EIo /\ v = GPalworld.
Proof. exact load_text. Qed.
Print Assumptions C61_text.
(** The text says what is wrong in the words of the table [wording]. *)
Theorem C61_wording : forall names z o v b e m, load z o v b = Fail (Err e) ->
  message names e = Some m -> wording names e m.
Proof. exact load_wording. Qed.
Print Assumptions C61_wording.
(** Where a position is known, the text ends with it, in hexadecimal; it lies in the
    file or in what the file unpacks to. *)
Theorem C61_where : forall names z o v b e p m, load z o v b = Fail (Err e) ->
  place e = Some p -> message names e = Some m ->
  exists d what h, counted z v b d /\ m = what ++ s2z " at position 0x" ++ h /\ hex_numeral h p /\ p <= len d.
Proof. exact load_where. Qed.
Print Assumptions C61_where.
(** A refused save has a text too.  It names something that is in the file, and the
    kind of struct it says to use instead would not be refused. *)
Theorem C61_saving : forall names z g d e d', distinct guid_eqb (h_versions (g_header g)) = true ->
  save z g d = (Fail (Err e), d') ->
  exists m, message names e = Some m /\ explains (h_versions (g_header g)) (file_leaves (g_header g, g_props g)) m.
Proof. exact save_explains. Qed.
Print Assumptions C61_saving.
(** The text tells the error: two failed loads or saves that print the same failed the same
    way, whatever the names of properties and paths printed. *)
Theorem C61_tells : forall names e e' m, plain_names names -> reported e -> reported e' ->
  message names e = Some m -> message names e' = Some m -> e = e'.
Proof. exact reported_tells. Qed.
Print Assumptions C61_tells.

(** What rustc's [type_name] gives. *)
Definition type_names (t : etype) : str :=
  s2z match t with
  | ETHistory => "gvas::properties::text_property::TextHistoryType"
  | ETArgument => "gvas::properties::text_property::FormatArgumentType"
  | ETRounding => "gvas::properties::text_property::RoundingMode"
  | ETStyle => "gvas::properties::text_property::DateTimeStyle"
  | ETTransform => "gvas::properties::text_property::TransformType"
  | ETCompression => "gvas::game_version::PalworldCompressionType"
  end.
Example C61_names : plain_names type_names.
Proof.
  split; [intros t t'|intros t]; [destruct t, t'; try reflexivity; intros E; vm_compute in E; discriminate E|].
  destruct t; vm_compute; intros H; repeat (destruct H as [H|H]; [discriminate H|]); exact H.
Qed.
(** A missing hint, a wrong magic number, a wrong container, a bad terminator. *)
Example C61_applies :
  let said o v b := match load toy_zlib o v b with
                    | Fail (Err e) => message type_names e
                    | _ => None
                    end in
  said o_plain GDefault sample_bytes
    = Some (s2z "Missing hint for struct StructProperty at path set.SetProperty.StructProperty at position 0x5e5")
  /\ said o_plain GDefault (map z2b [71; 86; 65; 82; 0])
    = Some (s2z "Invalid header: File type 1380013639 not recognized")
  /\ said o_plain GPalworld (repeat (z2b 255) 20)
    = Some (s2z "Invalid header: Invalid PlZ magic [255, 255, 255]")
  /\ said o_plain GPalworld (repeat (z2b 0) 8 ++ plz_magic ++ [z2b 200])
    = Some (s2z "No discriminant in enum `gvas::game_version::PalworldCompressionType` matches the value `-56` at position 0xc")
  /\ said o_plain GDefault [] = Some (s2z "failed to fill whole buffer").
Proof. vm_compute. repeat split; reflexivity. Qed.
(** Two refused saves: a single precision vector in a file with large world coordinates,
    a double one in a file without. *)
Example C61_saving_applies :
  let said h x := match save toy_zlib (GFile DDefault h [(s2z "v", PStruct zero_guid (s2z "Vector") (SFixed x [1; 2; 3]))]) (Dev [] 0) with
                  | (Fail (Err e), _) => message type_names e
                  | _ => None
                  end in
  distinct guid_eqb (h_versions hdr5) = true
  /\ said hdr5 XVectorF = Some (s2z "Invalid value VectorF not supported when LWC is enabled, use VectorD")
  /\ said hdr5 XVectorD = None
  /\ said hdr4 XRotatorD = Some (s2z "Invalid value RotatorD not supported when LWC is disabled, use RotatorF")
  /\ said hdr4 XRotatorF = None.
Proof. vm_compute. repeat split; reflexivity. Qed.
