(** More consequences for whole files, with witnesses. *)
From Coq Require Import ZArith List Bool String Lia ZifyBool ZifyNat.
From Verif Require Import Base Str Types Versions Text Props File Spec Samples BaseFacts ReaderFacts Sane ReadThm
  Prim StrFacts Decode DecodeFile Induct AcceptFile EqFacts RoundTrip Device Whole.
Import ListNotations.
Open Scope Z_scope.

Lemma saves o f : file_ok o same f = true -> exists b, save_plain f = Ok b.
Proof. apply wrote_file. Qed.
Lemma save_load_any o f b : save_plain f = Ok b -> len b < 4294967296 ->
  (file_ok o eqv f = true -> load_plain o b = Ok f)
  /\ (load_plain o b = Ok f -> file_ok o same f = true).
Proof.
  intros E L. split; [|apply load_ok]. intros H.
  pose proof (reload_any o (probe o) f b [] H E L) as R. rewrite app_nil_r in R. destruct o; exact R.
Qed.
Lemma fixed_point o b f b1 : (forall p i, probe o p i = false) ->
  load_plain o b = Ok f -> save_plain f = Ok b1 -> len b1 < 4294967296 ->
  exists f2, load_plain o b1 = Ok f2 /\ save_plain f2 = Ok b1.
Proof.
  intros P L E Hl. exists f. split; [|exact E]. apply load_ok in L.
  now apply (proj2 (save_load_iff o f b1 P E Hl)).
Qed.

(** Two keys that are equal up to the order of their fields. *)
Definition twin_keys : header * list (str * property) :=
  (hdr4,
   [(s2z "map", PMap (MGen (s2z "StructProperty") (s2z "IntProperty") 0
     [(PSValue (SCustom [(s2z "x", [PNum I32 1]); (s2z "y", [PNum I32 2])]), PNum I32 10);
      (PSValue (SCustom [(s2z "y", [PNum I32 2]); (s2z "x", [PNum I32 1])]), PNum I32 20)]))]).
Lemma merging : exists o pr b f b',
  load_plain o b = Ok f /\ save_plain f = Ok b' /\ len b' < 4294967296
  /\ load_plain (with_probe o pr) b' <> Ok f.
Proof.
  exists o_sample, noisy, (bytes_of twin_keys), twin_keys, (bytes_of twin_keys).
  split; [vm_compute; reflexivity|]. split; [vm_compute; reflexivity|].
  split; [vm_compute; reflexivity|]. vm_compute. discriminate.
Qed.
(** A custom struct field without values leaves no trace. *)
Lemma same_bytes : exists f f' b, f <> f' /\ save_plain f = Ok b /\ save_plain f' = Ok b.
Proof.
  exists (hdr4, [(s2z "s", PStruct zero_guid (s2z "T") (SCustom []))]),
         (hdr4, [(s2z "s", PStruct zero_guid (s2z "T") (SCustom [(s2z "x", [])]))]).
  eexists. split; [discriminate|]. split; vm_compute; reflexivity.
Qed.

Lemma container_round_trip z o g d d' b :
  zlib_ok z -> (forall p i, probe o p i = false) -> file_ok o same (file_of g) = true ->
  save_plain (file_of g) = Ok b -> len b < 4294967296 -> save z g d = (Ok tt, d') ->
  load z o (match g_version g with DDefault => GDefault | DPalworld _ => GPalworld end)
       (skipn (at_ d) (content d')) = Ok g.
Proof.
  intros Hz P H W L S0. rewrite save_frame in S0. fold (file_of g) in S0. rewrite W in S0.
  injection S0 as <-. destruct d as [c q]. rewrite dwrite_patch. cbn [content at_]. rewrite patch_skip.
  destruct g as [w h ps]. cbn [g_version g_header g_props file_of] in *. change (match w with DDefault => GDefault | DPalworld _ => GPalworld end) with (asked w).
  apply (load_frame z o w b (h, ps)); auto.
  intros t. pose proof (reload_quiet o (probe o) (h, ps) b t H P W L) as R. destruct o; exact R.
Qed.

(** A zlib meeting the contract: a marker byte before each data byte. *)
Fixpoint pack (x : list byte) : list byte :=
  match x with [] => [Byte.x00] | b :: r => Byte.x01 :: b :: pack r end.
Fixpoint unpack1 (l : list byte) : list byte * zend :=
  match l with
  | [] | [Byte.x01] => ([], ZShort)
  | Byte.x00 :: _ => ([], ZDone)
  | Byte.x01 :: b :: r => let (d, e) := unpack1 r in (b :: d, e)
  | _ => ([], ZBad)
  end.
Definition toy_zlib : zlib := Zlib pack unpack1.
Lemma toy_ok : zlib_ok toy_zlib.
Proof.
  intros x t. cbn. induction x as [|b x IH]; [reflexivity|]. cbn. now rewrite IH.
Qed.

(** ** More bytes after a container *)

(** A decoder fed with more input delivers at least as much, and what comes after
    the end of its stream does not matter. *)
Definition zlib_more (z : zlib) : Prop := forall x t,
  (snd (inflate z x) = ZDone -> inflate z (x ++ t) = inflate z x)
  /\ exists s, fst (inflate z (x ++ t)) = fst (inflate z x) ++ s.
Lemma toy_more : zlib_more toy_zlib.
Proof.
  intros x t. cbn [inflate toy_zlib]. revert x.
  assert (G : forall n x, (List.length x < n)%nat ->
    (snd (unpack1 x) = ZDone -> unpack1 (x ++ t) = unpack1 x) /\ exists s, fst (unpack1 (x ++ t)) = fst (unpack1 x) ++ s).
  { induction n as [|n IH]; intros x L; [lia|]. destruct x as [|a r].
    - cbn. split; [discriminate|eauto].
    - destruct r as [|b r].
      + destruct a; cbn; (split; [try discriminate; reflexivity|eauto]).
      + cbn in L. specialize (IH r ltac:(lia)). destruct IH as [I1 (s & I2)].
        destruct a; cbn; (try (split; [try discriminate; reflexivity|exists []; reflexivity])).
        destruct (unpack1 (r ++ t)) as [d e], (unpack1 r) as [d' e']. cbn in *. split.
        * intros X. specialize (I1 X). congruence.
        * exists s. now rewrite I2. }
  intros x. apply (G (S (List.length x))). lia.
Qed.
(** The same decoder, but for a cut stream being an error. *)
Definition strict_zlib : zlib :=
  Zlib pack (fun x => (fst (unpack1 x), match snd (unpack1 x) with ZShort => ZBad | e => e end)).
Lemma strict_more : zlib_more strict_zlib.
Proof.
  intros x t. destruct (toy_more x t) as [A B]. cbn [inflate toy_zlib strict_zlib fst snd] in *. split; [|exact B].
  intros S. assert (snd (unpack1 x) = ZDone) as D by (destruct (snd (unpack1 x)); congruence). now rewrite (A D).
Qed.
Lemma strict_ok : zlib_ok strict_zlib.
Proof. intros x t. pose proof (toy_ok x t) as H. cbn [inflate deflate toy_zlib strict_zlib] in *. now rewrite H. Qed.
Lemma take_more n c d k t : take n c = Ok (d, k) ->
  take n (Cur (pos c) (rest c ++ t) (stk c)) = Ok (d, Cur (pos k) (rest k ++ t) (stk k)).
Proof.
  unfold take. cbn [rest pos stk]. destruct (Z.leb_spec n (len (rest c))); [|discriminate].
  rewrite len_app. pose proof (len_nonneg t). destruct (Z.leb_spec n (len (rest c) + len t)); [|lia].
  intros X. injection X as <- <-. cbn [rest pos stk]. do 2 f_equal.
  - rewrite firstn_app. replace (Z.to_nat n - List.length (rest c))%nat with O by (unfold len in *; lia).
    cbn. apply app_nil_r.
  - f_equal. rewrite skipn_app. replace (Z.to_nat n - List.length (rest c))%nat with O by (unfold len in *; lia). reflexivity.
Qed.
Lemma u32_more c d k t : r_u32 c = Ok (d, k) ->
  r_u32 (Cur (pos c) (rest c ++ t) (stk c)) = Ok (d, Cur (pos k) (rest k ++ t) (stk k)).
Proof.
  unfold r_u32, r_uint, bind. destruct (take 4 c) as [[x k1]|] eqn:E; [|discriminate].
  intros X; injection X as <- <-. now rewrite (take_more _ _ _ _ t E).
Qed.
Lemma ctype_more c d k t : r_enum ETCompression (enum_of ctype_z ctypes) c = Ok (d, k) ->
  r_enum ETCompression (enum_of ctype_z ctypes) (Cur (pos c) (rest c ++ t) (stk c)) = Ok (d, Cur (pos k) (rest k ++ t) (stk k)).
Proof.
  unfold r_enum, r_i8, r_sint, r_uint, bind. destruct (take 1 c) as [[x k1]|] eqn:E; [|discriminate].
  rewrite (take_more _ _ _ _ t E). unfold ret. destruct (enum_of _ _ _); [|discriminate].
  intros X; injection X as <- <-. reflexivity.
Qed.
(** A decoder that takes a cut stream for an error. *)
Definition zlib_strict (z : zlib) : Prop := forall x, snd (inflate z x) <> ZShort.
Lemma strict_strict : zlib_strict strict_zlib.
Proof. intros x. cbn. destruct (snd (unpack1 x)); discriminate. Qed.
Lemma unpacked_more z v b w d t : zlib_more z -> v = GPalworld -> unpacked z v b = Ok (w, d) ->
  unpacked z v (b ++ t) = Ok (w, d)
  \/ ~ zlib_strict z /\ w = DPalworld CTwice
     /\ (unpacked z v (b ++ t) = Fail (Err EIo) \/ exists s, unpacked z v (b ++ t) = Ok (w, d ++ s)).
Proof.
  intros M ->. unfold unpacked, r_palworld, bind.
  destruct (r_u32 (Cur 0 b [])) as [[n k1]|] eqn:E1; [|discriminate].
  pose proof (u32_more _ _ _ t E1) as F1. cbn [pos rest stk] in F1. rewrite F1.
  destruct (r_u32 k1) as [[n' k2]|] eqn:E2; [|discriminate]. rewrite (u32_more _ _ _ t E2).
  destruct (take 3 k2) as [[m k3]|] eqn:E3; [|discriminate]. rewrite (take_more _ _ _ _ t E3).
  destruct (negb _); [discriminate|].
  destruct (r_enum _ _ k3) as [[c k4]|] eqn:E4; [|discriminate]. rewrite (ctype_more _ _ _ t E4).
  cbn [rest].
  destruct c.
  - destruct (take n k4) as [[x k5]|] eqn:E5; [|discriminate]. rewrite (take_more _ _ _ _ t E5). auto.
  - intros X. left. revert X. destruct (M (rest k4) t) as [_ (s & H)]. unfold zread_exact. rewrite H, len_app.
    destruct (Z.leb_spec n (len (fst (inflate z (rest k4))))); [|discriminate].
    pose proof (len_nonneg s). destruct (Z.leb_spec n (len (fst (inflate z (rest k4))) + len s)); [|lia].
    rewrite firstn_app. replace (Z.to_nat n - List.length (fst (inflate z (rest k4))))%nat with O by (unfold len in *; lia).
    cbn [firstn]. now rewrite app_nil_r.
  - destruct (M (rest k4) t) as [_ (s & H)]. unfold zread_to_end, zagain, zover. cbn [fst snd]. rewrite H.
    destruct (M (fst (inflate z (rest k4))) s) as [H1 (s' & H2)].
    destruct (snd (inflate z (fst (inflate z (rest k4))))) eqn:E5.
    + rewrite H1 by reflexivity. rewrite E5. auto.
    + intros X. right. split; [intros S; exact (S _ E5)|]. rewrite H2.
      assert (w = DPalworld CTwice /\ d = fst (inflate z (fst (inflate z (rest k4))))) as [-> ->]
        by (destruct (snd (inflate z (rest k4))); [split; congruence..|discriminate]).
      split; [reflexivity|].
      destruct (snd (inflate z (fst (inflate z (rest k4)) ++ s))); [right; eauto| |left; reflexivity].
      destruct (snd (inflate z (rest k4 ++ t))); eauto.
    + discriminate.
Qed.
Lemma load_more z o v b g t : zlib_more z \/ v = GDefault -> load z o v b = Ok g ->
  load z o v (b ++ t) = Ok g
  \/ ~ zlib_strict z /\ g_version g = DPalworld CTwice /\ load z o v (b ++ t) = Fail (Err EIo).
Proof.
  intros Hz. rewrite !load_unpacked. destruct v.
  - cbn [unpacked]. destruct (load_plain o b) as [[h ps]|f] eqn:E; [|discriminate].
    rewrite (load_extend o b t) by congruence. rewrite E. auto.
  - destruct Hz as [Hz|Hz]; [|discriminate].
    destruct (unpacked z GPalworld b) as [[w d]|f] eqn:E; [|discriminate].
    destruct (unpacked_more z _ b w d t Hz eq_refl E) as [-> |(S & -> & [-> |[s ->]])]; [auto| |].
    + destruct (load_plain o d) as [[h ps]|f]; [|discriminate]. intros X. injection X as <-. auto.
    + destruct (load_plain o d) as [[h ps]|f] eqn:L; [|discriminate]. intros X. injection X as <-.
      rewrite (load_extend o d s) by congruence. rewrite L. auto.
Qed.
Lemma load_more_strict z o v b g t : zlib_more z /\ zlib_strict z \/ v = GDefault -> load z o v b = Ok g ->
  load z o v (b ++ t) = Ok g.
Proof.
  intros Hz L. destruct (load_more z o v b g t) as [E|(S & V & _)]; auto; [tauto|].
  destruct Hz as [[_ Hz]| ->]; [contradiction|]. rewrite load_unpacked in L. cbn [unpacked] in L.
  destruct (load_plain o b) as [[h ps]|f]; [|discriminate]. injection L as <-. discriminate V.
Qed.
