(** Short writes (C29), framing (C27) and untouched destinations (C28). *)
From Coq Require Import ZArith List Bool String Lia ZifyBool ZifyNat.
From Verif Require Import Base Str Types Versions Text Props File Spec BaseFacts StrFacts Decode DecodeProp DecodeFile RoundTrip
  Device ShortWrite.
Import ListNotations.
Open Scope Z_scope.

(** ** Specification *)

(** Every call takes at least one byte. *)
Definition positive (s : schedule) : Prop := forall i, exists k, s i = Some (S k).
(** Writing nothing changes nothing. *)
Definition put (bs : list byte) (d : dev) : dev := match bs with [] => d | _ => dwrite bs d end.
(** [d'] is [d] after some of [bs], but not all, has been written. *)
Definition put_some (bs : list byte) (d d' : dev) : Prop :=
  exists a b, bs = a ++ b /\ b <> [] /\ d' = put a d.
(** The pieces of a compressor make up its output. *)
Definition whole (cut : cutter) : Prop :=
  forall x, List.concat (early cut x) ++ List.concat (late cut x) = x.

(** ** Proofs *)
Lemma put_app a b d : put b (put a d) = put (a ++ b) d.
Proof.
  destruct a as [|x a]; [reflexivity|]. destruct b as [|y b]; [now rewrite app_nil_r|].
  unfold put. cbn [app]. rewrite dwrite_app. reflexivity.
Qed.
Lemma put_inside bs d : (at_ d <= List.length (content d))%nat -> put bs d = dwrite bs d.
Proof.
  intros H. destruct bs; [|reflexivity]. destruct d as [c p]. cbn [put content at_] in *.
  rewrite dwrite_patch. unfold patch. cbn [List.length app]. rewrite Nat.add_0_r.
  replace (p - List.length c)%nat with O by lia. cbn [repeat app]. now rewrite firstn_skipn.
Qed.
Lemma put_dwrite bs d : bs <> [] -> put bs d = dwrite bs d.
Proof. now destruct bs. Qed.
Lemma skip_shorter {A} (bs : list A) n f : (List.length bs <= S f)%nat -> (0 < n)%nat -> (List.length (skipn n bs) <= f)%nat.
Proof. intros. rewrite skipn_length. lia. Qed.
(** [write_all] either delivers everything or stops after a beginning. *)
Lemma all_of_it_spec s f : forall bs d, (List.length bs <= f)%nat ->
  match all_of_it s f bs d with
  | (Ok _, d') => s_dev d' = put bs (s_dev d)
  | (Fail e, d') => e = Err EIo /\ put_some bs (s_dev d) (s_dev d') /\ ~ positive s
  end.
Proof.
  induction f as [|f IH]; intros bs d L.
  - destruct bs; [reflexivity|cbn in L; lia].
  - destruct bs as [|x bs]; [reflexivity|]. set (l := x :: bs) in *.
    change (all_of_it s (S f) l d) with
      (match once s l d with
       | (Fail e, d') => (Fail e, d') | (Ok O, d') => (Fail (Err EIo), d')
       | (Ok n, d') => all_of_it s f (skipn n l) d' end).
    unfold once. destruct (s (s_calls d)) as [k|] eqn:E.
    + destruct (Nat.min k (List.length l)) as [|n] eqn:M.
      * cbn [s_dev]. split; [reflexivity|]. split; [exists [], l; split; [reflexivity|split; [discriminate|reflexivity]]|].
        intros P. destruct (P (s_calls d)) as [j Ej]. rewrite E in Ej. injection Ej as ->.
        unfold l in M. cbn in M. lia.
      * specialize (IH (skipn (S n) l) (SDev (dwrite (firstn (S n) l) (s_dev d)) (S (s_calls d)))).
        assert (Lk : (List.length (skipn (S n) l) <= f)%nat) by (apply skip_shorter; lia).
        specialize (IH Lk). cbn [s_dev] in IH.
        assert (D : dwrite (firstn (S n) l) (s_dev d) = put (firstn (S n) l) (s_dev d)) by reflexivity.
        rewrite D in IH. destruct (all_of_it s f (skipn (S n) l) _) as [[u|e] d'].
        -- rewrite IH, put_app, firstn_skipn. reflexivity.
        -- destruct IH as (-> & (a & b & Eab & Nb & Ed) & N). split; [reflexivity|]. split; [|exact N].
           exists (firstn (S n) l ++ a), b. split; [rewrite <- app_assoc, <- Eab; now rewrite firstn_skipn|].
           split; [exact Nb|]. rewrite Ed. apply put_app.
    + cbn [s_dev]. split; [reflexivity|]. split; [exists [], l; split; [reflexivity|split; [discriminate|reflexivity]]|].
      intros P. destruct (P (s_calls d)) as [j Ej]. congruence.
Qed.
Lemma wall_spec s bs d :
  match wall s bs d with
  | (Ok _, d') => s_dev d' = put bs (s_dev d)
  | (Fail e, d') => e = Err EIo /\ put_some bs (s_dev d) (s_dev d') /\ ~ positive s
  end.
Proof. apply all_of_it_spec. lia. Qed.
Lemma wall_ok s bs d : positive s -> exists d', wall s bs d = (Ok tt, d') /\ s_dev d' = put bs (s_dev d).
Proof.
  intros P. pose proof (wall_spec s bs d) as H. destruct (wall s bs d) as [[[]|e] d'].
  - eauto. - destruct H as (_ & _ & N). contradiction.
Qed.
Lemma walls_ok s l : forall d, positive s ->
  exists d', walls s l d = (Ok tt, d') /\ s_dev d' = put (List.concat l) (s_dev d).
Proof.
  induction l as [|bs l IH]; intros d P; cbn [walls List.concat].
  - exists d. split; reflexivity.
  - destruct (wall_ok s bs d P) as (d1 & E1 & D1). rewrite E1. cbn [thenw].
    destruct (IH d1 P) as (d2 & E2 & D2). exists d2. split; [exact E2|]. rewrite D2, D1. apply put_app.
Qed.
Lemma dwrite_inside bs d : (at_ (dwrite bs d) <= List.length (content (dwrite bs d)))%nat.
Proof.
  destruct d as [c p]. rewrite dwrite_patch. cbn [at_ content]. unfold patch.
  rewrite !app_length, firstn_length, repeat_length, skipn_length. lia.
Qed.
Lemma le_nonempty n z : (0 < n)%nat -> le_bytes n z <> [].
Proof. intros H E. pose proof (len_le_bytes n z). rewrite E, len_nil in H0. lia. Qed.
Lemma saved_nonempty f b : save_plain f = Ok b -> b <> [].
Proof.
  unfold save_plain. destruct (w_file f) as [[x n]|] eqn:E; [|discriminate]. intros X. injection X as <-.
  unfold w_file in E. apply seq_ok in E as (y & m1 & y2 & m2 & E1 & E2 & -> & ->).
  apply seq_ok in E2 as (y0 & m0 & y1 & m3 & E0 & E2 & -> & ->).
  apply seq_ok in E2 as (y3 & m4 & y4 & m5 & E3 & E4 & -> & ->).
  unfold w_int, emit in E4. injection E4 as <- <-. intros X.
  apply app_eq_nil in X as [_ X]. apply app_eq_nil in X as [_ X]. apply app_eq_nil in X as [_ X].
  discriminate.
Qed.
Lemma sseek_ok s p d : positive s -> exists d', sseek s p d = (Ok tt, d') /\ s_dev d' = dseek p (s_dev d).
Proof. intros P. unfold sseek. destruct (P (s_calls d)) as [k ->]. eexists. split; reflexivity. Qed.
Lemma sposition_ok s d : positive s -> exists d', sposition s d = (Ok tt, d') /\ s_dev d' = s_dev d.
Proof.
  intros P. destruct (sseek_ok s (at_ (s_dev d)) d P) as (d' & E & D). exists d'. split; [exact E|].
  rewrite D. now destruct (s_dev d).
Qed.
Lemma spayload_ok s z cut c b d : positive s -> whole cut ->
  exists d', spayload s z cut c b d = (Ok tt, d') /\ s_dev d' = put (payload z c b) (s_dev d).
Proof.
  intros P W. unfold spayload.
  match goal with |- context [walls s ?x d] => destruct (walls_ok s x d P) as (d1 & -> & D1) end.
  match goal with |- context [walls s ?x d1] => destruct (walls_ok s x d1 P) as (d2 & -> & D2) end.
  exists d2. split; [reflexivity|]. cbn [snd]. rewrite D2, D1, put_app. f_equal.
  destruct c; cbn [List.concat]; rewrite ?app_nil_r, ?concat_app; try reflexivity; apply W.
Qed.
(** Whatever the schedule, a destination that keeps taking bytes gets the file. *)
Lemma short_save s z cut g d : positive s -> whole cut ->
  fst (ssave s z cut g d) = fst (save z g (s_dev d))
  /\ s_dev (snd (ssave s z cut g d)) = snd (save z g (s_dev d)).
Proof.
  intros P HC. unfold ssave, save. destruct (save_plain (g_header g, g_props g)) as [b|f] eqn:Eb; [|split; reflexivity].
  apply saved_nonempty in Eb.
  destruct (g_version g) as [|c].
  - destruct (wall_ok s b d P) as (d' & -> & D). cbn [fst snd]. split; [reflexivity|]. rewrite D. now apply put_dwrite.
  - destruct (wall_ok s (le_bytes 4 (len b)) d P) as (d1 & -> & D1). cbn [thenw].
    rewrite put_dwrite in D1 by (apply le_nonempty; lia).
    destruct (sposition_ok s d1 P) as (d1' & -> & D1'). cbn [thenw]. rewrite <- D1' in D1.
    destruct (wall_ok s (le_bytes 4 0) d1' P) as (d2 & -> & D2). cbn [thenw].
    rewrite put_dwrite in D2 by (apply le_nonempty; lia).
    destruct (wall_ok s plz_magic d2 P) as (d3 & -> & D3). cbn [thenw].
    rewrite put_dwrite in D3 by discriminate.
    destruct (wall_ok s (le_bytes 1 (ctype_z c)) d3 P) as (d4 & -> & D4). cbn [thenw].
    rewrite put_dwrite in D4 by (apply le_nonempty; lia).
    assert (I : (at_ (s_dev d4) <= List.length (content (s_dev d4)))%nat) by (rewrite D4; apply dwrite_inside).
    destruct (spayload_ok s z cut c b d4 P HC) as (d5 & -> & D5). cbn [thenw].
    rewrite put_inside in D5 by exact I.
    destruct (sposition_ok s d5 P) as (d5' & -> & D5'). cbn [thenw]. rewrite <- D5' in D5.
    rewrite <- D1, <- D2, <- D3, <- D4, <- D5.
    destruct (sseek_ok s (at_ (s_dev d1')) d5' P) as (d6 & -> & D6). cbn [thenw]. rewrite <- D6.
    match goal with |- context [wall s ?x ?y] => destruct (wall_ok s x y P) as (d7 & -> & D7) end.
    rewrite put_dwrite in D7 by (apply le_nonempty; lia). cbn [thenw].
    destruct (sseek_ok s (at_ (s_dev d5')) d7 P) as (d8 & -> & D8). cbn [fst snd].
    split; [reflexivity|]. rewrite D8, D7. reflexivity.
Qed.
(** A plain save on a failing destination: everything, or a beginning and the error. *)
Lemma failing_save s z cut g d : g_version g = DDefault ->
  match ssave s z cut g d with
  | (Ok _, d') => exists b, save_plain (file_of g) = Ok b /\ s_dev d' = dwrite b (s_dev d)
  | (Fail e, d') => save_plain (file_of g) = Fail e /\ d' = d
      \/ exists b, save_plain (file_of g) = Ok b /\ e = Err EIo /\ put_some b (s_dev d) (s_dev d')
  end.
Proof.
  intros V. unfold ssave. fold (file_of g). destruct (save_plain (file_of g)) as [b|f] eqn:Eb; [|left; split; reflexivity].
  rewrite V. pose proof (wall_spec s b d) as H. destruct (wall s b d) as [[u|e] d'].
  - exists b. split; [reflexivity|]. rewrite H. apply put_dwrite. eapply saved_nonempty; eauto.
  - right. exists b. split; [reflexivity|]. tauto.
Qed.

(** ** Headers written directly *)
Definition calls_bytes (l : list wcall) : list byte := flat_map call_bytes l.
Lemma calls_app a b : calls_bytes (a ++ b) = calls_bytes a ++ calls_bytes b.
Proof. apply flat_map_app. Qed.
Lemma string_calls_bytes t : calls_bytes (string_calls t) = str_bytes t.
Proof.
  unfold string_calls, str_bytes. destruct (is_ascii t).
  - unfold calls_bytes. cbn [flat_map call_bytes]. now rewrite app_nil_r.
  - unfold calls_bytes. cbn [flat_map call_bytes]. f_equal. rewrite flat_map_app. cbn [flat_map call_bytes].
    rewrite app_nil_r. f_equal.
    induction (utf16_enc t) as [|w l IH]; [reflexivity|]. cbn [map flat_map call_bytes]. now rewrite IH.
Qed.
Lemma header_calls_bytes h : exists n, w_header h = Ok (calls_bytes (header_calls h), n).
Proof.
  unfold w_header, header_calls, engine_calls.
  assert (V : exists x n, seqs w_version (h_versions h) = Ok (x, n)
    /\ calls_bytes (flat_map (fun e => [WAll (fst e); WAll (le_bytes 4 (snd e))]) (h_versions h)) = x).
  { induction (h_versions h) as [|[g v] l (x & n & E & B)]; [exists [], 0; split; reflexivity|].
    cbn [seqs flat_map]. rewrite E. unfold w_version, w_guid, w_u32, w_int, emit. cbn [seq fst snd].
    eexists _, _. split; [reflexivity|]. cbn [app]. unfold calls_bytes in *. cbn [flat_map call_bytes fst snd].
    rewrite B. now rewrite <- app_assoc. }
  destruct V as (x & n & E & B). rewrite E. unfold w_fengine, w_u32, w_int, w_string, emit.
  rewrite !calls_app, !string_calls_bytes, B. unfold calls_bytes. cbn [flat_map call_bytes].
  destruct (h_ue5 h); cbn [seq skip emit flat_map call_bytes app]; eexists; f_equal; f_equal;
    rewrite ?app_nil_r; repeat rewrite <- app_assoc; reflexivity.
Qed.
(** Delivered in full when no bare [write] is cut short. *)
Lemma run_calls_ok s l : positive s ->
  (forall bs i k, In (WOnce bs) l -> s i = Some k -> (List.length bs <= k)%nat) ->
  forall d, exists d', run_calls s l d = (Ok tt, d') /\ s_dev d' = put (calls_bytes l) (s_dev d).
Proof.
  intros P. induction l as [|c l IH]; intros H d; cbn [run_calls].
  - exists d. split; reflexivity.
  - assert (D1 : exists d1, run_call s c d = (Ok tt, d1) /\ s_dev d1 = put (call_bytes c) (s_dev d)).
    { destruct c as [bs|bs]; cbn [run_call call_bytes]; [now apply wall_ok|].
      unfold once. destruct (P (s_calls d)) as [k Ek]. rewrite Ek.
      specialize (H bs _ _ (or_introl eq_refl) Ek). rewrite Nat.min_r by exact H.
      destruct (List.length bs) as [|n] eqn:L.
      - destruct bs; [|discriminate]. eexists. split; reflexivity.
      - eexists. split; [reflexivity|]. cbn [s_dev]. rewrite <- L, firstn_all. destruct bs; [discriminate|reflexivity]. }
    destruct D1 as (d1 & -> & D1). cbn [thenw].
    destruct (IH (fun bs i k X => H bs i k (or_intror X)) d1) as (d2 & -> & D2).
    exists d2. split; [reflexivity|]. rewrite D2, D1, put_app. reflexivity.
Qed.
(** What a short destination gets of an ASCII string: success is reported whatever
    the bare [write] took. *)
Lemma string_dropped s t d : positive s -> is_ascii t = true -> t <> [] ->
  exists k d', (0 < k <= List.length t)%nat
    /\ (exists i, s i = Some k \/ k = List.length t)
    /\ run_calls s (string_calls t) d = (Ok tt, d')
    /\ s_dev d' = put (le_bytes 4 (len t + 1) ++ map z2b (firstn k t) ++ [Byte.x00]) (s_dev d).
Proof.
  intros P A N. unfold string_calls. rewrite A. cbn [run_calls run_call].
  destruct (wall_ok s (le_bytes 4 (len t + 1)) d P) as (d1 & -> & D1). cbn [thenw].
  unfold once at 1. destruct (P (s_calls d1)) as [k Ek]. rewrite Ek. rewrite map_length.
  destruct (Nat.min (S k) (List.length t)) as [|n] eqn:M; [destruct t; [contradiction|cbn in M; lia]|].
  cbn [thenw]. unfold once. cbn [s_calls].
  destruct (P (S (s_calls d1))) as [j Ej]. rewrite Ej. cbn [List.length]. rewrite Nat.min_r by lia.
  cbn [thenw]. exists (S n). eexists. split; [lia|]. split.
  { exists (s_calls d1). destruct (Nat.min_dec (S k) (List.length t)); [left; rewrite Ek; f_equal; lia|right; lia]. }
  split; [reflexivity|]. cbn [s_dev]. rewrite firstn_map.
  change (firstn 1 [Byte.x00]) with [Byte.x00]. rewrite dwrite_app, D1. rewrite <- put_app. destruct t; [contradiction|]. reflexivity.
Qed.

(** ** Framing and surroundings *)
Lemma save_parts z g d d' : save z g d = (Ok tt, d') ->
  exists bs, at_ d' = (at_ d + List.length bs)%nat
    /\ firstn (at_ d) (content d') = firstn (at_ d) (content d) ++ repeat Byte.x00 (at_ d - List.length (content d))
    /\ skipn (at_ d') (content d') = skipn (at_ d') (content d)
    /\ firstn (List.length bs) (skipn (at_ d) (content d')) = bs
    /\ exists b, save_plain (file_of g) = Ok b /\ bs = frame z (g_version g) b.
Proof.
  intros H. apply save_ok in H as (b & Eb & Ec & Ea). exists (frame z (g_version g) b).
  set (bs := frame z (g_version g) b) in *. split; [exact Ea|]. rewrite Ec, Ea. unfold patch.
  set (pre := firstn (at_ d) (content d) ++ repeat Byte.x00 (at_ d - List.length (content d))).
  assert (LP : List.length pre = at_ d) by apply pad_length.
  assert (X : forall r, firstn (at_ d) (content d) ++ repeat Byte.x00 (at_ d - List.length (content d)) ++ r = pre ++ r)
    by (intros r; unfold pre; now rewrite <- app_assoc).
  rewrite X. split; [now rewrite firstn_exact|]. split.
  - rewrite app_assoc. rewrite skipn_exact by (rewrite app_length; lia). reflexivity.
  - rewrite skipn_exact by exact LP. rewrite firstn_exact by reflexivity. split; [reflexivity|]. eauto.
Qed.
Lemma frame_fields z g d d' c : save z g d = (Ok tt, d') -> g_version g = DPalworld c ->
  exists b body tail, save_plain (file_of g) = Ok b
    /\ skipn (at_ d) (content d')
       = le_bytes 4 (len b) ++ le_bytes 4 (len body + 4) ++ map z2b [80; 108; 90]
         ++ [z2b (match c with CNone => 48 | CZlib => 49 | CTwice => 50 end)] ++ body ++ tail
    /\ body = match c with CNone => b | CZlib => deflate z b | CTwice => deflate z (deflate z b) end
    /\ (at_ d' = at_ d + 12 + List.length body)%nat.
Proof.
  intros H V. apply save_ok in H as (b & Eb & Ec & Ea). rewrite V in *. cbn [frame] in *.
  exists b, (payload z c b), (skipn (at_ d + List.length (frame z (DPalworld c) b)) (content d)).
  split; [exact Eb|]. split; [|split].
  - rewrite Ec. unfold patch. rewrite app_assoc. rewrite skipn_exact by apply pad_length. cbn [frame].
    rewrite <- !app_assoc. destruct c; reflexivity.
  - destruct c; reflexivity.
  - rewrite Ea. rewrite !app_length, !length_le_bytes. change (List.length plz_magic) with 3%nat. lia.
Qed.
(** Reading: the second length is ignored, the rest is checked. *)
Lemma bad_magic z o pre m t : len pre = 8 -> len m = 3 -> m <> map z2b [80; 108; 90] ->
  load z o GPalworld (pre ++ m ++ t) = Fail (Err (EMagic m)).
Proof.
  intros Lp Lm Nm. unfold load, r_palworld, bind, r_u32.
  assert (S4 : exists a b, pre = a ++ b /\ len a = 4 /\ len b = 4).
  { exists (firstn 4 pre), (skipn 4 pre). rewrite firstn_skipn. split; [reflexivity|].
    unfold len in *. rewrite firstn_length, skipn_length. lia. }
  destruct S4 as (a & b & -> & La & Lb). rewrite <- app_assoc.
  pose proof (dec_any [] 4 a La) as D1. change (Z.of_nat 4) with 4 in D1. rewrite D1.
  pose proof (dec_any [] 4 b Lb) as D2. change (Z.of_nat 4) with 4 in D2. rewrite D2.
  rewrite (dec_take_n [] 3 m Lm).
  assert (E : list_eqb Byte.eqb m plz_magic = false).
  { destruct (list_eqb Byte.eqb m plz_magic) eqn:E; [|reflexivity]. exfalso. apply Nm.
    change (map z2b [80; 108; 90]) with plz_magic. apply guid_eqb_eq. exact E. }
  rewrite E. reflexivity.
Qed.
Lemma bad_mode z o pre v t : len pre = 8 -> -128 <= v <= 127 -> (v < 48 \/ 50 < v) ->
  load z o GPalworld (pre ++ map z2b [80; 108; 90] ++ le_bytes 1 v ++ t) = Fail (Err (EEnum ETCompression v 12)).
Proof.
  intros Lp R Nv. unfold load, r_palworld, bind, r_u32.
  assert (S4 : exists a b, pre = a ++ b /\ len a = 4 /\ len b = 4).
  { exists (firstn 4 pre), (skipn 4 pre). rewrite firstn_skipn. split; [reflexivity|].
    unfold len in *. rewrite firstn_length, skipn_length. lia. }
  destruct S4 as (a & b & -> & La & Lb). rewrite <- app_assoc.
  pose proof (dec_any [] 4 a La) as D1. change (Z.of_nat 4) with 4 in D1. rewrite D1.
  pose proof (dec_any [] 4 b Lb) as D2. change (Z.of_nat 4) with 4 in D2. rewrite D2.
  rewrite (dec_take_n [] 3 (map z2b [80; 108; 90]) eq_refl).
  change (list_eqb Byte.eqb (map z2b [80; 108; 90]) plz_magic) with true. cbn [negb].
  unfold r_enum, r_i8, bind.
  pose proof (dec_sint [] 1 v ltac:(lia) ltac:(unfold s_ok, in_range; lia)) as D3. change (Z.of_nat 1) with 1 in D3.
  rewrite D3.
  assert (E : enum_of ctype_z ctypes v = None).
  { unfold enum_of, ctypes, ctype_z. cbn [find]. repeat (match goal with |- context [?x =? ?y] =>
      destruct (Z.eqb_spec x y); [lia|] end). reflexivity. }
  rewrite E. unfold position, fail. cbn [pos]. rewrite len_le_bytes, La, Lb. reflexivity.
Qed.
