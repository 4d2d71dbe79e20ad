(** C73: a load reports the end of the input exactly if the bytes given leave the result open. *)
From Coq Require Import ZArith List Bool String.
From Verif Require Import Base Str Types Versions Text Props File Samples WholeSave LostThm OpenThm OpenBox.
Import ListNotations.
Open Scope Z_scope.

Theorem C73_open : forall o b, load_plain o b = Fail (Err EEof) <->
  exists t t', load_plain o (b ++ t) <> load_plain o (b ++ t').
Proof. exact open_iff. Qed.
Print Assumptions C73_open.
(** Put differently, no input is so short of data that nothing could complete it. *)
Theorem C73_completed : forall o b, exists t, load_plain o (b ++ t) <> Fail (Err EEof).
Proof. exact completed. Qed.
Print Assumptions C73_completed.
(** In a container the end of the input is reported exactly if its frame is cut, if its payload is shorter
    than declared, or if what it holds is cut.  (Compressed twice, nothing is compared with the declared size.) *)
Theorem C73_container : forall z o b, load z o GPalworld b = Fail (Err EEof) <->
  cut_frame b
  \/ exists c n field x, b = container c n field x /\ 0 <= n < 4294967296 /\ len field = 4
     /\ (lacks z n x c \/ exists d, holds z n x c d /\ exists t t', load_plain o (d ++ t) <> load_plain o (d ++ t')).
Proof. exact box_eof. Qed.
Print Assumptions C73_container.
(** So for containers C73_open fails: what an uncompressed one holds is cut at the declared size, and nothing
    that follows can change that. *)
Theorem C73_final : forall z o n field x t, 0 <= n <= len x -> n < 4294967296 -> len field = 4 ->
  load z o GPalworld (container CNone n field x ++ t) = load z o GPalworld (container CNone n field x).
Proof. exact box_final. Qed.
Print Assumptions C73_final.
Theorem C73_container_refuted : exists b, forall z o t, load z o GPalworld (b ++ t) = Fail (Err EEof).
Proof.
  exists (container CNone 5 (le_bytes 4 0) (firstn 5 sample_bytes)). intros z o t.
  rewrite C73_final; [|vm_compute; split; discriminate|reflexivity|reflexivity].
  apply C73_container. right. exists CNone, 5, (le_bytes 4 0), (firstn 5 sample_bytes).
  split; [reflexivity|]. split; [split; [discriminate|reflexivity]|]. split; [reflexivity|]. right.
  eexists. split; [apply HoldsNone; vm_compute; discriminate|]. apply C73_open. vm_compute. reflexivity.
Qed.
Print Assumptions C73_container_refuted.

(** A file cut inside its class name; a property asking for 2^32-1 bytes. *)
Example C73_applies :
  load_plain o_plain (firstn 100 sample_bytes) = Fail (Err EEof)
  /\ load_plain o_plain (raw_file (s2z "a") (s2z "Strange") (le_bytes 4 4294967295 ++ le_bytes 5 0)) = Fail (Err EEof).
Proof. split; vm_compute; reflexivity. Qed.
Example C73_concrete : let b := firstn 100 sample_bytes in
  load_plain o_sample (b ++ skipn 100 sample_bytes) <> load_plain o_sample (b ++ repeat Byte.xff 200).
Proof.
  cbv zeta. rewrite firstn_skipn. intros H.
  assert (E : match load_plain o_sample sample_bytes, load_plain o_sample (firstn 100 sample_bytes ++ repeat Byte.xff 200) with
              | Ok _, Fail _ => true | _, _ => false end = true) by (vm_compute; reflexivity).
  rewrite H in E. destruct (load_plain o_sample (_ ++ _)); discriminate.
Qed.
(** A frame that is cut, a payload that is, and content that is, both uncompressed and in a (toy) stream. *)
Example C73_boxes :
  map (fun b => match load toy_zlib o_plain GPalworld b with Fail (Err EEof) => true | _ => false end)
    [firstn 11 (container CNone 0 (le_bytes 4 0) []); container CNone 5 (le_bytes 4 0) (firstn 4 sample_bytes);
     container CNone 5 (le_bytes 4 0) sample_bytes; container CZlib 5 (le_bytes 4 0) (payload toy_zlib CZlib sample_bytes);
     repeat Byte.xff 11]
  = [true; true; true; true; false].
Proof. vm_compute. reflexivity. Qed.
