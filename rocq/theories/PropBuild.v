(** Claim C39, continued: saving in a debug build and in a release build. *)
From Coq Require Import ZArith List Bool String Lia.
From Verif Require Import Base Str Types Versions Text Props File DebugSave Spec Samples DebugSaveThm DebugLoad.
Import ListNotations.
Open Scope Z_scope.

(** With the string writer of a release build, the writers of [DebugSave] are those of the model. *)
Theorem C39_writers : forall f, dsave_plain w_string f = save_plain f.
Proof. exact writers_same. Qed.
Print Assumptions C39_writers.

(** One text: the debug build panics exactly on a text that is not ASCII and has 2^31 - 1
    UTF-16 units, or that many more by a multiple of 2^32; any other it writes like the
    release build. *)
Theorem C39_text : forall site s, is_str s = true ->
  (debug_string site s = Fail (Panic site)
   <-> (exists c, In c s /\ 127 < c) /\ (units s + 1) mod 4294967296 = 2147483648)
  /\ (debug_string site s <> Fail (Panic site) -> debug_string site s = w_string s).
Proof. exact string_iff. Qed.
Print Assumptions C39_text.

(** A whole file, whatever is in it: unless the debug build panics, it saves the same bytes
    or gives the same error. *)
Theorem C39_saving : forall site f,
  debug_save site f <> Fail (Panic site) -> debug_save site f = save_plain f.
Proof. exact debug_same. Qed.
Print Assumptions C39_saving.

(** It does not panic where the release build saves less than 4 GiB. *)
Theorem C39_saving_small : forall site f b,
  save_plain f = Ok b -> len b < 4294967300 -> debug_save site f = Ok b.
Proof. exact debug_small. Qed.
Print Assumptions C39_saving_small.

(** Where the release build fails, so does the debug build. *)
Theorem C39_saving_fails : forall site f e, save_plain f = Fail e ->
  debug_save site f = Fail e \/ debug_save site f = Fail (Panic site).
Proof. exact debug_fails. Qed.
Print Assumptions C39_saving_fails.

(** The same of one property, with or without its header: bytes, count and error. *)
Theorem C39_property : forall site vs hdr p,
  dw_prop (debug_string site) vs hdr p = w_prop vs hdr p
  \/ dw_prop (debug_string site) vs hdr p = Fail (Panic site)
     /\ forall b n, w_prop vs hdr p = Ok (b, n) -> 4294967300 <= len b.
Proof. exact debug_property. Qed.
Print Assumptions C39_property.

(** A file that was loaded, from whatever bytes and however large, is saved alike; so is every
    file that can be represented. *)
Theorem C39_saving_loaded : forall site z o v b g, load z o v b = Ok g ->
  debug_save site (g_header g, g_props g) = save_plain (g_header g, g_props g).
Proof. exact short_loaded. Qed.
Print Assumptions C39_saving_loaded.
Theorem C39_saving_valid : forall site o sep f, file_ok o sep f = true -> debug_save site f = save_plain f.
Proof. exact short_file. Qed.
Print Assumptions C39_saving_valid.

(** The sample is saved by both; a text of 2^31 - 1 letters e-acute as class name is not. *)
Example C39_saving_applies :
  (exists b, debug_save PArgWidth sample = Ok b /\ save_plain sample = Ok b)
  /\ (load_plain o_sample sample_bytes = Ok sample /\ file_ok o_sample eqv sample = true)
  /\ (forall site, debug_save site endless_file = Fail (Panic site))
  /\ exists b, save_plain endless_file = Ok b.
Proof.
  split; [eexists; split; vm_compute; reflexivity|].
  split; [split; vm_compute; reflexivity|]. split.
  - intros site. exact (panics_there site endless [] endless_unwritable).
  - exact (saves_there endless).
Qed.
