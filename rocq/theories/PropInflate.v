(** Claim C68: what is assumed about zlib holds of a decoder of the format. *)
From Coq Require Import ZArith List Bool String Lia.
From Verif Require Import Base Str Types Versions Text Props File Spec Samples Device Whole WholeSave
  Inflate InflateSpec InflateCode InflateThm RepoFiles RepoTests RepoRun.
Import ListNotations.
Open Scope Z_scope.

(** C68.  The decoder accepts exactly the byte strings that begin with a stream by the rules
    of the two documents, and delivers what the stream stands for. *)
Theorem C68_exact : forall z d,
  inflate rfc_zlib z = (d, ZDone) <-> exists x t, z = x ++ t /\ stream x d.
Proof. exact rfc_exact. Qed.
Print Assumptions C68_exact.
(** By the rules, a stream stands for one thing only, and says where it ends. *)
Theorem C68_rules_unique : forall x d t x' d' t', stream x d -> stream x' d' -> x ++ t = x' ++ t' ->
  x = x' /\ t = t' /\ d = d'.
Proof. exact stream_one. Qed.
Print Assumptions C68_rules_unique.
(** More bytes never take back what was delivered; they change neither a result nor an error
    in the data. *)
Theorem C68_more : forall x t,
  (snd (inflate rfc_zlib x) <> ZShort -> inflate rfc_zlib (x ++ t) = inflate rfc_zlib x)
  /\ exists s, fst (inflate rfc_zlib (x ++ t)) = fst (inflate rfc_zlib x) ++ s.
Proof. exact rfc_more. Qed.
Print Assumptions C68_more.
(** [ZShort] means the input is short: the loops of the decoder do not run out of fuel. *)
Theorem C68_fuel : forall l n, (fuel_for l <= n)%nat ->
  inflate rfc_zlib l
  = match zstream n (Zst (bits_of l) []) with ZVal _ s => (rev (zout s), ZDone) | ZStop e d => (rev d, e) end.
Proof. exact rfc_fuel. Qed.
Print Assumptions C68_fuel.
(** With any compressor that follows the rules, all that is assumed about zlib in the other
    claims holds; of a decoder that reports a cut stream as an error, also what C05 asks for. *)
Theorem C68_contract : forall c, (forall x, stream (c x) x) ->
  zlib_ok (Zlib c rfc_inflate) /\ zlib_more (Zlib c rfc_inflate)
  /\ zlib_ok (Zlib c strict_inflate) /\ zlib_more (Zlib c strict_inflate) /\ zlib_strict (Zlib c strict_inflate).
Proof. exact rfc_contract. Qed.
Print Assumptions C68_contract.
(** There is such a compressor. *)
Theorem C68_store : forall d, stream (rfc_store d) d.
Proof. exact rfc_store_stream. Qed.
Print Assumptions C68_store.
(** So a representable file, written in any container mode with any compressor that follows
    the rules, reads back; nothing is assumed about the decoder. *)
Theorem C68_container : forall c o g d d' b, (forall x, stream (c x) x) ->
  (forall p i, probe o p i = false) -> file_ok o same (file_of g) = true ->
  save_plain (file_of g) = Ok b -> len b < 4294967296 -> save (Zlib c rfc_inflate) g d = (Ok tt, d') ->
  load (Zlib c rfc_inflate) o (match g_version g with DDefault => GDefault | DPalworld _ => GPalworld end)
       (skipn (at_ d) (content d')) = Ok g.
Proof. exact rfc_container. Qed.
Print Assumptions C68_container.

(** The sample file in each mode. *)
Example C68_sample : forall c, load rfc_zlib o_sample GPalworld
    (content (snd (save rfc_zlib (GFile (DPalworld c) (fst sample) (snd sample)) (Dev [] 0))))
  = Ok (GFile (DPalworld c) (fst sample) (snd sample)).
Proof. intros []; vm_compute; reflexivity. Qed.
(** Streams made by zlib: with the fixed codes and a repetition that overlaps itself, and with
    codes of its own; then one that is cut, and one with a wrong checksum. *)
Example C68_streams :
  rfc_inflate (hex ["78da4b4c84010014e103cb"%string]) = (List.repeat Byte.x61 10, ZDone)
  /\ rfc_inflate (hex ["78da1d87310100000c82b282fd3b6cea2100281049cdf23f039bcdc6018acc1128"%string])
     = (list_byte_of_string "aaabbaaacbacabbabbacaabbcacaabaaaaaabbbcaabaa", ZDone)
  /\ rfc_inflate (hex ["78da4b4c84010014e1"%string]) = (List.repeat Byte.x61 10, ZShort)
  /\ rfc_inflate (hex ["78da4b4c84010014e103cc"%string]) = (List.repeat Byte.x61 10, ZBad).
Proof. vm_compute. repeat split. Qed.
(** The repository's test file for the container, resources/test/palworld_zlib.sav: by the
    rules, its compressed part stands for the data that RepoRun.v reads. *)
Example C68_repository : stream (skipn 12 (hex palworld_packed)) (hex palworld_unpacked).
Proof.
  assert (rfc_inflate (skipn 12 (hex palworld_packed)) = (hex palworld_unpacked, ZDone)) as E by (vm_compute; reflexivity).
  assert (snd (rfc_inflate (removelast (skipn 12 (hex palworld_packed)))) = ZShort) as C by (vm_compute; reflexivity).
  apply rfc_sound in E. destruct E as (x & t & E & S). rewrite E in *. destruct t as [|b t]; [now rewrite app_nil_r|].
  rewrite removelast_app in C by discriminate. rewrite (rfc_complete x _ _ S) in C. discriminate.
Qed.
(** The file loads with the decoder, and what it holds is written as those data again. *)
Example C68_palworld :
  match load rfc_zlib (a_opts no_hints) GPalworld (hex palworld_packed) with
  | Ok g => g_version g = DPalworld CZlib /\ save_plain (g_header g, g_props g) = Ok (hex palworld_unpacked)
            /\ load rfc_zlib (a_opts no_hints) GPalworld (content (snd (save rfc_zlib g (Dev [] 0)))) = Ok g
  | Fail _ => False
  end.
Proof. vm_compute. repeat split. Qed.
