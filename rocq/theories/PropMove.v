(** C69: moving a file to other custom versions.
    Loading a file, replacing its header ([GvasFile] has public fields, lib.rs:332-343)
    and saving it again is how a program changes the versions of a file. *)
From Coq Require Import ZArith List Bool String Lia.
From Verif Require Import Base Str Types Versions VersionTables Text Props File Spec Samples Induct RoundTrip GateThm MoveThm.
Import ListNotations.
Open Scope Z_scope.

(** The same properties can be saved under a header exactly if the number its table
    gives for FUE5ReleaseStreamObjectVersion suits every place of the content. *)
Theorem C69_saves : forall h ps n, distinct guid_eqb (h_versions h) = true -> says (h_versions h) ue5_guid n ->
  (exists b, save_plain (h, ps) = Ok b) <-> (forall l, In l (file_leaves (h, ps)) -> wants n l).
Proof. exact saves_iff. Qed.
Print Assumptions C69_saves.
(** Every table says one number. *)
Theorem C69_says : forall vs g, (exists n, says vs g n)
  /\ (distinct guid_eqb vs = true -> forall n m, says vs g n -> says vs g m -> n = m).
Proof.
  intros vs g. split; [apply says_some|]. intros D n m A B. rewrite <- (says_get _ _ _ D A). exact (says_get _ _ _ D B).
Qed.
Print Assumptions C69_says.

(** There is a table under which it can be saved unless the content itself mixes what
    no table allows together. *)
Theorem C69_possible : forall h ps,
  (exists vs b, header_ok (with_versions h vs) = true /\ save_plain (with_versions h vs, ps) = Ok b)
  <-> (exists vs, header_ok (with_versions h vs) = true) /\ ~ mixed (file_leaves (h, ps)).
Proof. exact can_be_moved. Qed.
Print Assumptions C69_possible.

(** What was moved loads as the content under the new header, less the
    culture-invariant strings the new versions have no room for, if the keys of its maps
    stay keys: nothing is taken from them and hashing agrees with equality, or they are
    unequal afterwards too, under any hashing. *)
Theorem C69_moved : forall o h ps b h' b', load_plain o b = Ok (h, ps) ->
  header_ok h' = true -> save_plain (h', ps) = Ok b' -> len b' < 4294967296 ->
  (forall p i, probe o p i = false) /\ strip_file (h', ps) = (h', ps)
  \/ forallb (fun e => uniq (snd e)) (snd (strip_file (h', ps))) = true ->
  load_plain o b' = Ok (strip_file (h', ps)).
Proof. exact moved. Qed.
Print Assumptions C69_moved.
(** To editor version 32 or later nothing is lost. *)
Theorem C69_upward : forall o h ps b h' b', load_plain o b = Ok (h, ps) ->
  header_ok h' = true -> at_least editor_guid 32 (h_versions h') -> save_plain (h', ps) = Ok b' -> len b' < 4294967296 ->
  (forall p i, probe o p i = false) \/ forallb (fun e => uniq (snd e)) ps = true ->
  load_plain o b' = Ok (h', ps).
Proof. exact moved_up. Qed.
Print Assumptions C69_upward.
(** Files that load under every hashing: those that load under hashing by equality and
    have no equal keys. *)
Theorem C69_any_hashing : forall o f, file_ok o eqv f = true <->
  file_ok o same f = true /\ forallb (fun e => uniq (snd e)) (snd f) = true.
Proof. exact file_eqv_iff. Qed.
Print Assumptions C69_any_hashing.

(** Moving back gives the old bytes exactly if nothing was lost on the way. *)
Theorem C69_back : forall o h ps b h' b',
  load_plain o b = Ok (h, ps) -> save_plain (h, ps) = Ok b -> len b < 4294967296 ->
  header_ok h' = true -> move o h' b = Ok b' -> len b' < 4294967296 ->
  (forall p i, probe o p i = false) /\ strip_file (h', ps) = (h', ps)
  \/ forallb (fun e => uniq (snd e)) (snd (strip_file (h', ps))) = true ->
  (move o h b' = Ok b <-> strip_file (h', ps) = (h', ps)).
Proof. exact there_and_back. Qed.
Print Assumptions C69_back.

(** Without the condition on keys an entry of a map can be lost: two text keys that
    differ in their culture-invariant strings only become one. *)
Definition C69_none (s : string) : property := PText (FText 0 (HNone (Some (s2z s)))).
Definition C69_map (l : list (property * property)) : list (str * property) :=
  [(s2z "m", PMap (MGen (s2z "TextProperty") (s2z "IntProperty") 0 l))].
Definition C69_two : list (property * property) := [(C69_none "a", PNum I32 1); (C69_none "b", PNum I32 2)].
Definition C69_one : list (property * property) := [(PText (FText 0 HEmpty), PNum I32 2)].
Definition C69_old : header := with_versions hdr4 [(editor_guid, 31)].
Theorem C69_keys_refuted : exists o h ps b h' b' ps', (forall p i, probe o p i = false) /\ load_plain o b = Ok (h, ps)
  /\ header_ok h' = true /\ save_plain (h', ps) = Ok b' /\ len b' < 4294967296
  /\ load_plain o b' = Ok (h', ps') /\ (h', ps') <> strip_file (h', ps)
  /\ ps = C69_map C69_two /\ ps' = C69_map C69_one.
Proof.
  exists o_plain, hdr4, (C69_map C69_two), (bytes_of (hdr4, C69_map C69_two)), C69_old, (bytes_of (C69_old, C69_map C69_two)), (C69_map C69_one).
  split; [reflexivity|]. split; [vm_compute; reflexivity|]. split; [reflexivity|]. split; [vm_compute; reflexivity|].
  split; [vm_compute; reflexivity|]. split; [vm_compute; reflexivity|]. split; [|split; reflexivity].
  intros X. apply (f_equal (fun f => match snd f with [(_, PMap (MGen _ _ _ l))] => len l | _ => 0 end)) in X. vm_compute in X. discriminate.
Qed.
Print Assumptions C69_keys_refuted.

(** The sample file moves to a header without culture-invariant strings and back; a
    file with one loses it; single precision cannot move to 28. *)
Definition C69_text : list (str * property) := [(s2z "t", C69_none "x"); (s2z "v", PStruct zero_guid (s2z "Vector") (SFixed XVectorF [1; 2; 3]))].
Example C69_case :
  load_plain o_sample sample_bytes = Ok sample /\ save_plain sample = Ok sample_bytes /\ header_ok C69_old = true
  /\ strip_file (C69_old, sample_props) = (C69_old, sample_props)
  /\ (exists b', move o_sample C69_old sample_bytes = Ok b' /\ b' <> sample_bytes
        /\ load_plain o_sample b' = Ok (C69_old, sample_props) /\ move o_sample hdr4 b' = Ok sample_bytes).
Proof.
  split; [vm_compute; reflexivity|]. split; [vm_compute; reflexivity|]. split; [reflexivity|]. split; [vm_compute; reflexivity|].
  exists (bytes_of (C69_old, sample_props)). split; [vm_compute; reflexivity|]. split; [|split; vm_compute; reflexivity].
  intros X. apply (f_equal len) in X. vm_compute in X. discriminate.
Qed.
Example C69_case_lost :
  let b := bytes_of (hdr4, C69_text) in let b' := bytes_of (C69_old, C69_text) in
  load_plain o_plain b = Ok (hdr4, C69_text) /\ move o_plain C69_old b = Ok b'
  /\ forallb (fun e => uniq (snd e)) (snd (strip_file (C69_old, C69_text))) = true
  /\ strip_file (C69_old, C69_text) <> (C69_old, C69_text)
  /\ load_plain o_plain b' = Ok (strip_file (C69_old, C69_text)) /\ move o_plain hdr4 b' <> Ok b.
Proof.
  cbv zeta. split; [vm_compute; reflexivity|]. split; [vm_compute; reflexivity|]. split; [vm_compute; reflexivity|].
  split; [|split; [vm_compute; reflexivity|]].
  - intros X. apply (f_equal (fun f => match snd f with (_, PText (FText _ HEmpty)) :: _ => true | _ => false end)) in X. vm_compute in X. discriminate.
  - intros X. apply (f_equal (fun r => match r with Ok b => len b | Fail _ => 0 end)) in X. vm_compute in X. discriminate.
Qed.
Example C69_case_wants :
  let ls := file_leaves (hdr4, C69_text) in
  ls = [LFixed XVectorF] /\ ~ mixed ls /\ wants 27 (LFixed XVectorF) /\ ~ wants 28 (LFixed XVectorF)
  /\ (exists b, save_plain (with_versions hdr4 [(ue5_guid, 27)], C69_text) = Ok b)
  /\ save_plain (with_versions hdr4 [(ue5_guid, 28)], C69_text) <> Ok (bytes_of (with_versions hdr4 [(ue5_guid, 28)], C69_text))
  /\ mixed [LFixed XVectorF; LArg true; LFixed XRotatorD] /\ mixed [LArg false; LFixed XVectorD].
Proof.
  cbv zeta. split; [reflexivity|].
  assert (W : forall l, In l (file_leaves (hdr4, C69_text)) -> wants 27 l).
  { intros l [<-|[]]. split; [lia|]. cbn. intuition discriminate. }
  split; [apply wants_some; exists 27; split; [lia|exact W]|].
  split; [exact (W _ (or_introl eq_refl))|]. split; [intros [X _]; specialize (X ltac:(cbn; tauto)); lia|].
  split; [eexists; vm_compute; reflexivity|]. split; [vm_compute; discriminate|].
  split; [right; left; exists XVectorF, XRotatorD; cbn; tauto|].
  right. right. right. split; [now left|]. exists XVectorD. cbn. tauto.
Qed.
