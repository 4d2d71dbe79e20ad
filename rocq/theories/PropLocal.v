(** Claims C47 to C50: position independence, version features, editing in place,
    nesting depth. *)
From Coq Require Import ZArith List Bool String Lia.
From Verif Require Import Base Str Types Versions Text Props File Spec Samples GateThm Shift ShiftThm
  Patch Depth.
Import ListNotations.
Open Scope Z_scope.

(** * C47: reading does not depend on where the stream starts *)

(** Moving the start of a stream by [d] ([moved]) moves the final position and the
    position in an error ([moved_result], [moved_err]) by [d] and changes nothing
    else.  [same_opts]: same hints, same build, same hash collisions. *)
Theorem C47_file : forall d n o o' c, same_opts d o o' ->
  r_file n o' (moved d c) = moved_result d (r_file n o c).
Proof. exact shifted_file. Qed.
Print Assumptions C47_file.
(** A whole file that starts at offset [p] of its stream. *)
Theorem C47_embedded : forall o o' b p, same_opts p o o' ->
  r_file (S (List.length b)) o' (Cur p b []) = moved_result p (parse o b).
Proof. exact embedded. Qed.
Print Assumptions C47_embedded.
Theorem C47_header : forall d c, r_header (moved d c) = moved_result d (r_header c).
Proof. exact shifted_header. Qed.
Print Assumptions C47_header.
Theorem C47_property : forall d n o o' vs ty hdr sug c, same_opts d o o' ->
  r_prop n o' vs ty hdr sug (moved d c) = moved_result d (r_prop n o vs ty hdr sug c).
Proof. exact shifted_prop. Qed.
Print Assumptions C47_property.
Theorem C47_text : forall d n vs c, r_text n vs (moved d c) = moved_result d (r_text n vs c).
Proof. exact shifted_text. Qed.
Print Assumptions C47_text.
(** The container, whatever zlib does. *)
Theorem C47_container : forall z d c, r_palworld z (moved d c) = moved_result d (r_palworld z c).
Proof. exact shifted_palworld. Qed.
Print Assumptions C47_container.

(** The sample read at offset 1000, and an error whose position moves. *)
Example C47_applies :
  same_opts 1000 o_sample o_sample
  /\ r_file (S (List.length sample_bytes)) o_sample (Cur 1000 sample_bytes [])
     = Ok (sample, Cur 3226 (le_bytes 4 0) [])
  /\ moved_result 1000 (parse o_plain sample_bytes)
     = Fail (Err (EHint (s2z "set.SetProperty.StructProperty") 2509))
  /\ parse o_plain sample_bytes = Fail (Err (EHint (s2z "set.SetProperty.StructProperty") 1509)).
Proof. split; [repeat split|]. split; [vm_compute; reflexivity|]. split; vm_compute; reflexivity. Qed.

(** * C48: versions matter only through three features *)

(** [features]: 12 and 28 of FUE5ReleaseStreamObjectVersion and 32 of
    FEditorObjectVersion.  Two version tables that agree on which of these are
    reached read everything alike, failures included ... *)
Theorem C48_read_property : forall vs vs', distinct guid_eqb vs = true -> distinct guid_eqb vs' = true ->
  same_features vs vs' -> forall n o ty hdr sug c, r_prop n o vs' ty hdr sug c = r_prop n o vs ty hdr sug c.
Proof. exact read_prop_features. Qed.
Print Assumptions C48_read_property.
Theorem C48_read_entries : forall vs vs', distinct guid_eqb vs = true -> distinct guid_eqb vs' = true ->
  same_features vs vs' -> forall n m o c, r_entries n m o vs' c = r_entries n m o vs c.
Proof. exact read_entries_features. Qed.
Print Assumptions C48_read_entries.
(** ... and write everything alike. *)
Theorem C48_write_property : forall vs vs', distinct guid_eqb vs = true -> distinct guid_eqb vs' = true ->
  same_features vs vs' ->
  (forall p hdr, w_prop vs' hdr p = w_prop vs hdr p) /\ (forall v, w_sval vs' v = w_sval vs v)
  /\ (forall a, w_array vs' a = w_array vs a) /\ (forall m, w_map vs' m = w_map vs m).
Proof. exact write_features. Qed.
Print Assumptions C48_write_property.
(** Changing the header of a file (engine, class, unrelated versions) changes the
    header bytes and no others. *)
Theorem C48_new_header : forall vs vs', distinct guid_eqb vs = true -> distinct guid_eqb vs' = true ->
  same_features vs vs' ->
  forall h h' ps, h_versions h = vs -> h_versions h' = vs' ->
  forall b, save_plain (h, ps) = Ok b -> forall hb k, w_header h = Ok (hb, k) ->
  forall hb' k', w_header h' = Ok (hb', k') ->
  exists t, b = hb ++ t /\ save_plain (h', ps) = Ok (hb' ++ t).
Proof. exact save_features. Qed.
Print Assumptions C48_new_header.
(** Each of the three makes a difference: something that is read with the version
    just reached and refused with one less. *)
Theorem C48_needed : forall g n, In (g, n) features ->
  exists p c c', r_prop 3 o_plain [(g, n)] (type_of p) true None c = Ok (p, c')
    /\ forall q d, r_prop 3 o_plain [(g, n - 1)] (type_of p) true None c <> Ok (q, d).
Proof. exact features_matter. Qed.
Print Assumptions C48_needed.

(** UE 5.2 and a later version with other tables. *)
Example C48_applies :
  let vs := h_versions hdr5 in let vs' := [(a_guid, 3); (editor_guid, 32); (ue5_guid, 100)] in
  distinct guid_eqb vs = true /\ distinct guid_eqb vs' = true /\ same_features vs vs' /\ vs <> vs'.
Proof.
  cbv zeta. repeat split; try discriminate; try (vm_compute; reflexivity).
  - intros _. unfold features in H. cbn [In] in H.
    repeat (destruct H as [H|H]; [injection H as <- <-; eexists; split; [cbn; eauto|lia]|]). destruct H.
  - intros _. unfold features in H. cbn [In] in H.
    repeat (destruct H as [H|H]; [injection H as <- <-; eexists; split; [cbn; eauto|lia]|]). destruct H.
Qed.

(** * C49: editing *)

(** The bytes of a file are a header, one segment for each property and a
    terminator; header and terminator do not depend on the properties and each
    segment is the one in a file with that property alone. *)
Theorem C49_segments : forall h, exists H T, forall ps b, save_plain (h, ps) = Ok b <->
  exists segs, Forall2 (fun e s => save_plain (h, [e]) = Ok (H ++ s ++ T)) ps segs
    /\ b = H ++ List.concat segs ++ T.
Proof. exact segments. Qed.
Print Assumptions C49_segments.
(** Replacing a part of a property, however deep ([edit], Patch.v), by one with
    equally many bytes replaces just these bytes. *)
Theorem C49_part : forall vs x x' bx k bx' k',
  part_bytes vs x = Ok (bx, k) -> part_bytes vs x' = Ok (bx', k') -> len bx' = len bx ->
  forall y y' b n, edit x x' y y' -> part_bytes vs y = Ok (b, n) ->
  exists pre suf n', b = pre ++ bx ++ suf /\ part_bytes vs y' = Ok (pre ++ bx' ++ suf, n').
Proof. exact patch_part. Qed.
Print Assumptions C49_part.
Theorem C49_file : forall h l1 l2 name p p' x x' bx k bx' k',
  part_bytes (h_versions h) x = Ok (bx, k) -> part_bytes (h_versions h) x' = Ok (bx', k') -> len bx' = len bx ->
  edit x x' (PartP true p) (PartP true p') ->
  forall b, save_plain (h, l1 ++ (name, p) :: l2) = Ok b ->
  exists pre suf, b = pre ++ bx ++ suf /\ save_plain (h, l1 ++ (name, p') :: l2) = Ok (pre ++ bx' ++ suf).
Proof. exact patch_file. Qed.
Print Assumptions C49_file.

(** A number inside a struct inside an array of structs. *)
Example C49_applies :
  let x := PartP true (PNum I32 1) in let x' := PartP true (PNum I32 77) in
  edit x x'
    (PartP true (PArray (AStructs (s2z "structs") (s2z "Item") zero_guid
       ([SCustom []] ++ SCustom ([(s2z "m", [PBool true])] ++ (s2z "n", [PBool false] ++ PNum I32 1 :: []) :: []) :: []))))
    (PartP true (PArray (AStructs (s2z "structs") (s2z "Item") zero_guid
       ([SCustom []] ++ SCustom ([(s2z "m", [PBool true])] ++ (s2z "n", [PBool false] ++ PNum I32 77 :: []) :: []) :: []))))
  /\ exists b b' k k', part_bytes [] x = Ok (b, k) /\ part_bytes [] x' = Ok (b', k') /\ len b' = len b /\ b' <> b.
Proof.
  cbv zeta. split; [apply EditStructs, EditField, EditHere|].
  do 4 eexists. repeat split; try (vm_compute; reflexivity). vm_compute. discriminate.
Qed.

(** * C50: nesting depth *)

(** Properties and texts inside one another ([depth]) take at least six bytes a level ... *)
Theorem C50_bound : forall o b f c, parse o b = Ok (f, c) -> 6 * file_depth f <= pos c <= len b.
Proof. exact depth_file. Qed.
Print Assumptions C50_bound.
(** ... and there is no other limit: n + 2 levels in 6 n + 90 bytes, read with a call
    nested in a call for each level. *)
Theorem C50_unbounded : forall o n, 6 * Z.of_nat n + 90 < 4294967296 ->
  exists b f, len b = 6 * Z.of_nat n + 90 /\ load_plain o b = Ok f /\ file_depth f = Z.of_nat n + 2.
Proof. exact deep_file. Qed.
Print Assumptions C50_unbounded.

Example C50_applies : file_depth sample = 3 /\ exists c, parse o_sample sample_bytes = Ok (sample, c) /\ pos c = 2226.
Proof. split; [vm_compute; reflexivity|]. eexists. split; vm_compute; reflexivity. Qed.
