(** Claims C16 and C17: what the custom versions of a file decide. *)
From Coq Require Import ZArith List Bool String Lia.
From Verif Require Import Base Str Types Versions VersionTables Text Props File Spec Samples RoundTrip StrThm FrameThm GateThm.
Import ListNotations.
Open Scope Z_scope.

(** * C16: large world coordinates *)

(** The keys of the two tables of versions that matter, as files hold them: 425E9BD8-464D-BD24-A8AC-1284791764DF
    and ED68B0E4-E942-94F4-0BDA-31A241BB462E (tests/common/vector2d.rs:172 and 60). *)
Definition release_key : guid :=
  map z2b [0x42; 0x5E; 0x9B; 0xD8; 0x46; 0x4D; 0xBD; 0x24; 0xA8; 0xAC; 0x12; 0x84; 0x79; 0x17; 0x64; 0xDF].
Definition editor_key : guid :=
  map z2b [0xED; 0x68; 0xB0; 0xE4; 0xE9; 0x42; 0x94; 0xF4; 0x0B; 0xDA; 0x31; 0xA2; 0x41; 0xBB; 0x46; 0x2E].
(** The version tested is that of the enumerator, and the test is a comparison with the
    file's entry. *)
Theorem C16_version : discriminant 0 ue5_names "LargeWorldCoordinates" = Some 28
  /\ forall vs, distinct guid_eqb vs = true -> has_lwc vs = true <-> exists n, In (release_key, n) vs /\ 28 <= n.
Proof. split; [reflexivity|]. intros vs D. change release_key with ue5_guid. exact (supports_iff vs ue5_guid 28 D eq_refl). Qed.
Print Assumptions C16_version.

(** A Vector, Vector2D, Rotator or Quat is read as its number of doubles exactly when
    the file's version is at least that, else as floats. *)
Theorem C16_read : forall m o vs rp ty n xf xd wide, In (ty, n, xf, xd) vector_types ->
  distinct guid_eqb vs = true -> (wide = true <-> at_least ue5_guid 28 vs) -> forall c v c',
  r_sval m o vs rp ty c = Ok (v, c') <->
  exists l, List.length l = n /\ v = SFixed (if wide then xd else xf) l
    /\ Forall (fun z => 0 <= z < (if wide then 18446744073709551616 else 4294967296)) l
    /\ eats c (flat_map (le_bytes (if wide then 8 else 4)) l) c'.
Proof. exact read_vector. Qed.
Print Assumptions C16_read.
(** The other built-in struct types do not look at the versions. *)
Theorem C16_read_others : forall m o vs vs' rp ty c,
  In ty (map s2z ["DateTime"; "Timespan"; "LinearColor"; "IntPoint"; "Guid"; "GameplayTagContainer"]%string) ->
  r_sval m o vs rp ty c = r_sval m o vs' rp ty c.
Proof. exact read_unversioned. Qed.
Print Assumptions C16_read_others.

(** Writing succeeds when nothing inside the value, however deep, has the wrong
    precision (or argument width, or lacks a header it needs); otherwise the failure is
    that of the first such thing, in writing order, and no bytes are returned. *)
Theorem C16_written : forall vs v, distinct guid_eqb vs = true -> verdict vs (w_sval vs v) (sval_leaves v).
Proof. exact sval_verdict. Qed.
Print Assumptions C16_written.
Theorem C16_written_property : forall vs hdr p, distinct guid_eqb vs = true -> verdict vs (w_prop vs hdr p) (leaves hdr p).
Proof. exact prop_verdict. Qed.
Print Assumptions C16_written_property.
Theorem C16_saved : forall f, distinct guid_eqb (h_versions (fst f)) = true ->
  verdict (h_versions (fst f)) (save_plain f) (file_leaves f).
Proof. exact file_verdict. Qed.
Print Assumptions C16_saved.
(** So one vector of the wrong precision anywhere keeps the whole file from being
    written. *)
Theorem C16_wrong_precision : forall f x, distinct guid_eqb (h_versions (fst f)) = true ->
  In (LFixed x) (file_leaves f) ->
  (In x singles /\ at_least ue5_guid 28 (h_versions (fst f)) \/ In x doubles /\ ~ at_least ue5_guid 28 (h_versions (fst f))) ->
  exists e, save_plain f = Fail e.
Proof.
  intros f x D I H. pose proof (file_verdict f D) as V. destruct (save_plain f) as [b|e]; [exfalso|eauto].
  destruct H as [[H A]|[H A]]; eapply (V (LFixed x)); eauto; constructor; assumption.
Qed.
Print Assumptions C16_wrong_precision.

(** The same twelve bytes as a Vector in a file without and with the version: three
    floats, or a failure (too short for three doubles). *)
Example C16_read_case :
  let b := le_bytes 4 1 ++ le_bytes 4 2 ++ le_bytes 4 3 in
  r_sval 0 o_plain [(ue5_guid, 27)] (fun ty hdr sug => r_prop 0 o_plain [] ty hdr sug) (s2z "Vector") (Cur 0 b []) = Ok (SFixed XVectorF [1; 2; 3], Cur 12 [] [])
  /\ (exists e, r_sval 0 o_plain [(ue5_guid, 28)] (fun ty hdr sug => r_prop 0 o_plain [] ty hdr sug) (s2z "Vector") (Cur 0 b []) = Fail e)
  /\ r_sval 0 o_plain [(ue5_guid, 28)] (fun ty hdr sug => r_prop 0 o_plain [] ty hdr sug) (s2z "Vector") (Cur 0 (b ++ b) [])
     = Ok (SFixed XVectorD [8589934593; 4294967299; 12884901890], Cur 24 [] []).
Proof. split; [vm_compute; reflexivity|]. split; [eexists; vm_compute; reflexivity|vm_compute; reflexivity]. Qed.
(** A float vector inside a struct inside an array, in a UE5 file. *)
Example C16_nested :
  let p := PArray (AStructs (s2z "a") (s2z "T") zero_guid
             [SCustom [(s2z "v", [PStruct zero_guid (s2z "Vector") (SFixed XVectorF [0; 0; 0])])]]) in
  distinct guid_eqb (h_versions hdr5) = true /\ at_least ue5_guid 28 (h_versions hdr5)
  /\ In (LFixed XVectorF) (file_leaves (hdr5, [(s2z "a", p)]))
  /\ save_plain (hdr5, [(s2z "a", p)]) = Fail (Err (ESerialize (SLwc XVectorF)))
  /\ exists b, save_plain (hdr4, [(s2z "a", p)]) = Ok b.
Proof.
  split; [reflexivity|]. split; [exists 30; split; [now left|lia]|]. split; [now left|]. split; [vm_compute; reflexivity|].
  eexists. vm_compute. reflexivity.
Qed.

(** * C17: texts *)

Theorem C17_version :
  discriminant 0 ue5_names "TextFormatArgumentData64bitSupport" = Some 12
  /\ discriminant 0 editor_names "CultureInvariantTextSerializationKeyStability" = Some 32
  /\ (forall vs, distinct guid_eqb vs = true -> has_arg64 vs = true <-> exists n, In (release_key, n) vs /\ 12 <= n)
  /\ (forall vs, distinct guid_eqb vs = true -> has_culture vs = true <-> exists n, In (editor_key, n) vs /\ 32 <= n).
Proof.
  split; [reflexivity|]. split; [reflexivity|]. split; intros vs D.
  - change release_key with ue5_guid. exact (supports_iff vs ue5_guid 12 D eq_refl).
  - change editor_key with editor_guid. exact (supports_iff vs editor_guid 32 D eq_refl).
Qed.
Print Assumptions C17_version.

(** Integer arguments (tag 0 signed, tag 1 unsigned) are read as eight bytes exactly
    when the version says so, else as four. *)
Theorem C17_read_argument : forall vs rt wide (signed : bool), distinct guid_eqb vs = true ->
  (wide = true <-> at_least ue5_guid 12 vs) -> forall p t st a c,
  r_farg vs rt (Cur p ((if signed then Byte.x00 else Byte.x01) :: t) st) = Ok (a, c) <->
  exists z, (if signed then s_ok else u_ok) (if wide then 8 else 4) z = true
    /\ a = (if signed then if wide then AInt64 z else AInt z else if wide then AUInt64 z else AUInt z)
    /\ eats (Cur (p + 1) t st) (le_bytes (if wide then 8 else 4) z) c.
Proof. exact read_int_arg. Qed.
Print Assumptions C17_read_argument.
(** After history type -1 a presence flag and possibly a string follow exactly when the
    editor version says so, else nothing. *)
Theorem C17_read_culture : forall n vs culture, distinct guid_eqb vs = true -> (culture = true <-> at_least editor_guid 32 vs) ->
  forall f p t st x c, 0 <= f < 4294967296 ->
  r_text (S n) vs (Cur p (le_bytes 4 f ++ Byte.xff :: t) st) = Ok (x, c) <->
  if culture then
    (x = FText f HEmpty /\ eats (Cur (p + 5) t st) (le_bytes 4 0) c)
    \/ exists s e, stored s e /\ x = FText f (HNone s) /\ eats (Cur (p + 5) t st) (le_bytes 4 1 ++ e) c
  else x = FText f HEmpty /\ c = Cur (p + 5) t st.
Proof. exact read_plain_text. Qed.
Print Assumptions C17_read_culture.

(** Writing a text panics exactly when some integer argument in it, however deep, has
    the wrong width. *)
Theorem C17_written : forall vs t, distinct guid_eqb vs = true -> verdict vs (w_text vs t) (text_leaves t).
Proof. exact text_verdict. Qed.
Print Assumptions C17_written.
Theorem C17_wrong_width : forall vs wide t, distinct guid_eqb vs = true -> (wide = true <-> at_least ue5_guid 12 vs) ->
  In (LArg (negb wide)) (text_leaves t) -> w_text vs t = Fail (Panic PArgWidth).
Proof.
  intros vs wide t D W I. pose proof (text_verdict vs t D) as V. destruct (w_text vs t) as [b|e]; cbn [verdict] in V.
  - exfalso. eapply V; [exact I|]. destruct wide; cbn [negb]; constructor; [now apply W|]. intros A. apply W in A. discriminate.
  - destruct V as (l1 & l & l2 & E & C & _). assert (IN : In l (text_leaves t)) by (rewrite E; apply in_or_app; right; now left).
    clear - C IN. pose proof (text_args t l IN) as [w ->]. inversion C; reflexivity.
Qed.
Print Assumptions C17_wrong_width.

(** What was written reads back as the text itself, except that without the editor
    version culture-invariant strings are gone; [strip_text true] is the identity. *)
Theorem C17_loss : forall vs culture t b k, distinct guid_eqb vs = true -> (culture = true <-> at_least editor_guid 32 vs) ->
  text_fits t = true -> w_text vs t = Ok (b, k) -> forall n p t' st, len b < Z.of_nat n ->
  r_text n vs (Cur p (b ++ t') st) = Ok (strip_text culture t, Cur (p + len b) t' st).
Proof. exact text_rereads. Qed.
Print Assumptions C17_loss.
Theorem C17_no_loss : forall t, strip_text true t = t.
Proof. exact (proj1 strip_text_id). Qed.
Print Assumptions C17_no_loss.
(** Whole files: a file and its stripped version have the same bytes, so loading gives
    the stripped one. *)
Theorem C17_file_loss : forall f, save_plain (strip_file f) = save_plain f
  /\ (at_least editor_guid 32 (h_versions (fst f)) -> distinct guid_eqb (h_versions (fst f)) = true -> strip_file f = f).
Proof.
  intros f. split; [apply strip_saved|]. intros A D. apply strip_file_id.
  exact (proj2 (supports_iff (h_versions (fst f)) editor_guid 32 D eq_refl) A).
Qed.
Print Assumptions C17_file_loss.
Theorem C17_file_reload : forall o f b, (forall p i, probe o p i = false) -> save_plain f = Ok b -> len b < 4294967296 ->
  (load_plain o b = Ok (strip_file f) <-> file_ok o same (strip_file f) = true).
Proof. intros o f b P E L. apply save_load_iff; auto. now rewrite strip_saved. Qed.
Print Assumptions C17_file_reload.

(** A nested text with a lost string and a 64 bit argument. *)
Definition C17_text : ftext :=
  FText 3 (HOrdered (FText 0 (HNone (Some (s2z "kept?")))) [AInt64 (-5); AText (FText 1 (HNone (Some (s2z "inner"))))]).
Example C17_case :
  let vs := [(ue5_guid, 12); (editor_guid, 31)] in let vs' := [(ue5_guid, 12); (editor_guid, 32)] in
  text_fits C17_text = true /\ at_least ue5_guid 12 vs /\ ~ at_least editor_guid 32 vs /\ at_least editor_guid 32 vs'
  /\ (exists b k, w_text vs C17_text = Ok (b, k)
        /\ r_text 60 vs (Cur 0 b []) = Ok (FText 3 (HOrdered (FText 0 HEmpty) [AInt64 (-5); AText (FText 1 HEmpty)]), Cur (len b) [] []))
  /\ (exists b k, w_text vs' C17_text = Ok (b, k) /\ r_text 100 vs' (Cur 0 b []) = Ok (C17_text, Cur (len b) [] []))
  /\ w_text [(ue5_guid, 11)] C17_text = Fail (Panic PArgWidth).
Proof.
  cbv zeta. split; [reflexivity|]. split; [exists 12; split; [now left|lia]|].
  split; [intros (n & I & L); cbn [In] in I; destruct I as [X|[X|[]]]; [apply (f_equal (fun e => Byte.to_nat (hd Byte.x00 (fst e)))) in X; vm_compute in X; discriminate|apply (f_equal snd) in X; cbn [snd] in X; lia]|].
  split; [exists 32; split; [right; now left|lia]|].
  split; [eexists; eexists; split; [vm_compute; reflexivity|vm_compute; reflexivity]|].
  split; [eexists; eexists; split; [vm_compute; reflexivity|vm_compute; reflexivity]|vm_compute; reflexivity].
Qed.
