(** Claim C33: the byte counts returned by the writing functions. *)
From Coq Require Import ZArith List Bool String Lia.
From Verif Require Import Base Str Types Versions Text Props File Spec Samples StrThm FrameThm CountThm.
Import ListNotations.
Open Scope Z_scope.

(** An ASCII string of n characters takes n+5 bytes and reports 2n+6; any other string
    reports what it takes. *)
Theorem C33_string : forall s, exists b n, w_string s = Ok (b, n)
  /\ ((forall c, In c s -> 0 <= c <= 127) -> len b = len s + 5 /\ n = 2 * len s + 6)
  /\ ((exists c, In c s /\ 127 < c) -> n = len b).
Proof. exact string_sizes. Qed.
Print Assumptions C33_string.

(** In general the count exceeds the bytes by exactly: n+1 for each ASCII string of n
    characters, n-4 for each tag container of n tags, and -17 for each header of a name
    property.  ([guids_ok]: the guids in the value have 16 bytes.) *)
Theorem C33_count : forall vs hdr p b n, w_prop vs hdr p = Ok (b, n) -> guids_ok (items (has_culture vs) hdr p) ->
  n = len b + total (items (has_culture vs) hdr p).
Proof. exact count_prop. Qed.
Print Assumptions C33_count.
Theorem C33_struct_count : forall vs v b n, w_sval vs v = Ok (b, n) -> guids_ok (sval_items (has_culture vs) v) ->
  n = len b + total (sval_items (has_culture vs) v).
Proof. exact count_sval. Qed.
Print Assumptions C33_struct_count.
Theorem C33_text_count : forall vs t b n, w_text vs t = Ok (b, n) -> guids_ok (text_items (has_culture vs) t) ->
  n = len b + total (text_items (has_culture vs) t).
Proof. exact count_text. Qed.
Print Assumptions C33_text_count.
Theorem C33_header_count : forall h b n, w_header h = Ok (b, n) -> guids_ok (header_items h) -> n = len b + total (header_items h).
Proof. exact count_header. Qed.
Print Assumptions C33_header_count.
(** So the count is exact without ASCII strings, tag containers and name headers. *)
Theorem C33_exact : forall vs hdr p b n, w_prop vs hdr p = Ok (b, n) -> Forall plain (items (has_culture vs) hdr p) -> n = len b.
Proof. exact count_exact. Qed.
Print Assumptions C33_exact.

(** The size stored in a header is the number of bytes of the value, not the count. *)
Theorem C33_stored_size : forall vs p bs n, w_prop vs true p = Ok (bs, n) -> head_ok p = true ->
  exists t body f, bs = t ++ f /\ stored (Some (type_of p)) t /\ value_part vs p body
    /\ (len body < 4294967296 -> framed (type_of p) (len body) (index_of p) (names_of p) (raw_of p) body f).
Proof. exact frame_written. Qed.
Print Assumptions C33_stored_size.

(** Over-reported, exact and under-reported. *)
Example C33_over : exists b, w_prop [] true (PStr (Some (s2z "abc"))) = Ok (b, 49) /\ len b = 33.
Proof. eexists. split; [vm_compute; reflexivity|vm_compute; reflexivity]. Qed.
Example C33_exact_case : let p := PSet [233] 0 [PUnknown [233] (map z2b [1; 2; 3]); PStr (Some [8364; 65])] in
  Forall plain (items true false p) /\ exists b, w_prop [] false p = Ok (b, 21) /\ len b = 21.
Proof.
  cbv zeta. split; [|eexists; split; [vm_compute; reflexivity|vm_compute; reflexivity]].
  cbn [items head_items flat_map iopt app]. constructor; [|constructor]. exists 8364. split; [now left|lia].
Qed.
Example C33_under : exists b, w_prop [] true (PName 0 None) = Ok (b, 13) /\ len b = 30.
Proof. eexists. split; [vm_compute; reflexivity|vm_compute; reflexivity]. Qed.
Example C33_tags : exists b, w_sval [] (STags [[233]]) = Ok (b, 9) /\ len b = 12.
Proof. eexists. split; [vm_compute; reflexivity|vm_compute; reflexivity]. Qed.
