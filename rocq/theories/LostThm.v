(** Saves on destinations that fail (C60). *)
From Coq Require Import ZArith List Bool String Lia ZifyBool ZifyNat.
From Verif Require Import Base Str Types Versions Text Props File Spec BaseFacts StrFacts Decode DecodeFile RoundTrip
  Device ShortWrite ShortThm ReaderFacts Sane ReadThm Whole WholeSave.
Import ListNotations.
Open Scope Z_scope.

(** ** Specification *)

(** A container with the given length field and payload. *)
Definition container (c : ctype) (n : Z) (field x : list byte) : list byte :=
  le_bytes 4 n ++ field ++ map z2b [80; 108; 90]
  ++ [z2b (match c with CNone => 48 | CZlib => 49 | CTwice => 50 end)] ++ x.
(** [a] is a beginning of [x]. *)
Definition begins (a x : list byte) : Prop := exists t, x = a ++ t.

(** ** Devices *)
Lemma begins_refl x : begins x x.
Proof. exists []. now rewrite app_nil_r. Qed.
Lemma begins_app a x : begins a (a ++ x).
Proof. now exists x. Qed.
Lemma begins_in a b x : begins b x -> begins (a ++ b) (a ++ x).
Proof. intros [t ->]. exists t. now rewrite app_assoc. Qed.
Lemma begins_more a x y : begins a x -> begins a (x ++ y).
Proof. intros [t ->]. exists (t ++ y). now rewrite app_assoc. Qed.

(** Patching the length field inside what was just written. *)
Lemma patched A Z4 N R d : A <> [] -> List.length Z4 = List.length N ->
  dwrite N (dseek (at_ d + List.length A) (dwrite (A ++ Z4 ++ R) d))
  = Dev (content (dwrite (A ++ N ++ R) d)) (at_ d + List.length A + List.length N).
Proof.
  intros NA L. destruct d as [c p]. rewrite !dwrite_patch. unfold dseek. cbn [content at_].
  rewrite dwrite_patch. f_equal.
  set (pre := firstn p c ++ repeat Byte.x00 (p - List.length c)).
  assert (LP : List.length pre = p) by apply pad_length.
  set (post := skipn (p + List.length (A ++ Z4 ++ R)) c).
  replace (patch c p (A ++ Z4 ++ R)) with ((pre ++ A) ++ Z4 ++ (R ++ post)).
  2:{ unfold patch, pre, post. rewrite <- !app_assoc. reflexivity. }
  replace (p + List.length A)%nat with (List.length (pre ++ A)) by (rewrite app_length; lia).
  rewrite patch_mid by lia. unfold patch, pre, post. rewrite <- !app_assoc.
  do 6 f_equal. f_equal. rewrite !app_length. lia.
Qed.
Lemma at_dwrite bs d : at_ (dwrite bs d) = (at_ d + List.length bs)%nat.
Proof. reflexivity. Qed.

(** ** Calls *)
Lemma thenw_ok {A} r (k : sdev -> outcome A * sdev) x d' : thenw r k = (Ok x, d') ->
  exists d1, r = (Ok tt, d1) /\ k d1 = (Ok x, d').
Proof. destruct r as [[[]|e] d1]; cbn [thenw]; [eauto|discriminate]. Qed.
Lemma thenw_fail {A} r (k : sdev -> outcome A * sdev) e d' : thenw r k = (Fail e, d') ->
  r = (Fail e, d') \/ exists d1, r = (Ok tt, d1) /\ k d1 = (Fail e, d').
Proof. destruct r as [[[]|f] d1]; cbn [thenw]; [eauto|intros X; injection X as -> ->; auto]. Qed.
Section Sched.
Context (s : schedule).
Lemma wall_done bs d d' : wall s bs d = (Ok tt, d') -> s_dev d' = put bs (s_dev d).
Proof. pose proof (wall_spec s bs d) as H. intros E. now rewrite E in H. Qed.
Lemma wall_stops bs d e d' : wall s bs d = (Fail e, d') -> e = Err EIo /\ put_some bs (s_dev d) (s_dev d').
Proof. pose proof (wall_spec s bs d) as H. intros E. rewrite E in H. tauto. Qed.
Lemma sseek_done p d d' : sseek s p d = (Ok tt, d') -> s_dev d' = dseek p (s_dev d).
Proof. unfold sseek. destruct (s (s_calls d)); [|discriminate]. intros X; injection X as <-. reflexivity. Qed.
Lemma sseek_stops p d e d' : sseek s p d = (Fail e, d') -> e = Err EIo /\ s_dev d' = s_dev d.
Proof. unfold sseek. destruct (s (s_calls d)); [discriminate|]. intros X; injection X as <- <-. auto. Qed.
Lemma sposition_done d d' : sposition s d = (Ok tt, d') -> s_dev d' = s_dev d.
Proof. intros E. apply sseek_done in E. rewrite E. now destruct (s_dev d). Qed.
Lemma walls_spec l : forall d, match walls s l d with
  | (Ok _, d') => s_dev d' = put (List.concat l) (s_dev d)
  | (Fail e, d') => e = Err EIo /\ put_some (List.concat l) (s_dev d) (s_dev d')
  end.
Proof.
  induction l as [|bs l IH]; intros d; cbn [walls List.concat]; [reflexivity|].
  pose proof (wall_spec s bs d) as H. destruct (wall s bs d) as [[[]|e] d1]; cbn [thenw].
  - specialize (IH d1). destruct (walls s l d1) as [[[]|e] d2].
    + now rewrite IH, H, put_app.
    + destruct IH as (-> & a & b & E & Nb & D). split; [reflexivity|].
      exists (bs ++ a), b. rewrite E, app_assoc, D, H, put_app. auto.
  - destruct H as (-> & (a & b & E & Nb & D) & _). split; [reflexivity|].
    exists a, (b ++ List.concat l). rewrite E, app_assoc. split; [reflexivity|]. split; [|exact D].
    destruct b; [contradiction|discriminate].
Qed.
Lemma walls_writes l d : exists a, begins a (List.concat l) /\ s_dev (snd (walls s l d)) = put a (s_dev d).
Proof.
  pose proof (walls_spec l d) as H. destruct (walls s l d) as [[[]|e] d']; cbn [snd].
  - exists (List.concat l). split; [apply begins_refl|exact H].
  - destruct H as (_ & a & b & E & _ & D). exists a. split; [rewrite E; apply begins_app|exact D].
Qed.

(** ** The payload *)
Lemma spayload_done z cut c b d d' : whole cut -> spayload s z cut c b d = (Ok tt, d') ->
  exists p, s_dev d' = put p (s_dev d) /\ begins p (payload z c b)
    /\ (c <> CTwice -> p = payload z c b)
    /\ (c = CTwice -> begins (List.concat (early cut (payload z c b))) p).
Proof.
  intros W. unfold spayload. set (x := payload z c b).
  match goal with |- context [walls s ?l d] => pose proof (walls_spec l d) as H; destruct (walls s l d) as [[[]|e] d1] end;
    [|discriminate].
  intros X; injection X as <-.
  match goal with |- context [walls s ?l d1] => destruct (walls_writes l d1) as (a & Ba & D) end.
  rewrite D, H, put_app. eexists. split; [reflexivity|].
  destruct c; cbn [List.concat] in *.
  - destruct Ba as [t Et]. symmetry in Et. apply app_eq_nil in Et as [-> ->].
    rewrite !app_nil_r. split; [apply begins_refl|]. split; [reflexivity|discriminate].
  - destruct Ba as [t Et]. symmetry in Et. apply app_eq_nil in Et as [-> ->].
    rewrite app_nil_r, concat_app, W. split; [apply begins_refl|]. split; [reflexivity|discriminate].
  - split; [|split; [congruence|intros _; apply begins_app]].
    rewrite <- (W x) at 2. now apply begins_in.
Qed.
Lemma spayload_stops z cut c b d e d' : spayload s z cut c b d = (Fail e, d') ->
  e = Err EIo /\ exists p, s_dev d' = put p (s_dev d) /\ (c = CNone -> begins p b).
Proof.
  unfold spayload. set (x := payload z c b).
  match goal with |- context [walls s ?l d] => pose proof (walls_spec l d) as H; destruct (walls s l d) as [[[]|f] d1] end;
    [discriminate|].
  intros X; injection X as <- <-. destruct H as (-> & p & q & E & Nq & D). split; [reflexivity|].
  destruct c.
  - exists p. split; [exact D|]. intros _. cbn [List.concat] in E. rewrite app_nil_r in E.
    change x with b in E. rewrite E. apply begins_app.
  - destruct (walls_writes (after cut x (s_calls d1)) d1) as (a & _ & ->). rewrite D, put_app.
    eexists. split; [reflexivity|discriminate].
  - destruct (walls_writes (after cut x (s_calls d1)) d1) as (a & _ & ->). rewrite D, put_app.
    eexists. split; [reflexivity|discriminate].
Qed.

(** ** Saves *)
Lemma ctype_byte c : le_bytes 1 (ctype_z c) = [z2b (match c with CNone => 48 | CZlib => 49 | CTwice => 50 end)].
Proof. destruct c; reflexivity. Qed.
Lemma container_eq c n field x :
  container c n field x = le_bytes 4 n ++ field ++ plz_magic ++ le_bytes 1 (ctype_z c) ++ x.
Proof. unfold container. now rewrite ctype_byte. Qed.
Definition head_of (c : ctype) (n : Z) : list byte := container c n (le_bytes 4 0) [].
Lemma head_app c n x : head_of c n ++ x = container c n (le_bytes 4 0) x.
Proof. unfold head_of. rewrite !container_eq. rewrite <- !app_assoc. reflexivity. Qed.

(** The state after the framing and a payload, and where the length goes. *)
Lemma saved_container c n x N d :
  let d5 := dwrite (container c n (le_bytes 4 0) x) d in
  let cpos := at_ (dwrite (le_bytes 4 n) d) in
  List.length N = 4%nat ->
  dwrite N (dseek cpos d5) = Dev (content (dwrite (container c n N x) d)) (at_ d + 8)
  /\ Z.of_nat (at_ d5) - (Z.of_nat cpos + 4) = len x + 4.
Proof.
  cbv zeta. intros L. rewrite !at_dwrite, !container_eq, !app_length, !length_le_bytes. split.
  - pose proof (patched (le_bytes 4 n) (le_bytes 4 0) N (plz_magic ++ le_bytes 1 (ctype_z c) ++ x) d) as H.
    rewrite length_le_bytes, L in H. rewrite length_le_bytes in H. rewrite H; [f_equal; lia| |reflexivity].
    apply le_nonempty; lia.
  - change (List.length plz_magic) with 3%nat. unfold len. lia.
Qed.
Lemma container_dwrite c n N x d : List.length N = 4%nat ->
  dwrite (container c n N x) d
  = Dev (content (dwrite (container c n N x) d)) (at_ (dwrite (container c n (le_bytes 4 0) x) d)).
Proof.
  intros L. destruct d as [co p]. rewrite !dwrite_patch. cbn [content at_]. f_equal.
  rewrite !container_eq, !app_length, L, !length_le_bytes. reflexivity.
Qed.
(** What success means. *)
Lemma save_done z cut g d d' : whole cut -> ssave s z cut g d = (Ok tt, d') ->
  exists b, save_plain (file_of g) = Ok b /\
    match g_version g with
    | DDefault => s_dev d' = dwrite b (s_dev d)
    | DPalworld c => exists p,
        s_dev d' = dwrite (container c (len b) (le_bytes 4 (len p + 4)) p) (s_dev d)
        /\ begins p (payload z c b)
        /\ (c <> CTwice -> p = payload z c b)
        /\ (c = CTwice -> begins (List.concat (early cut (payload z c b))) p)
    end.
Proof.
  intros W. unfold ssave. fold (file_of g). destruct (save_plain (file_of g)) as [b|f] eqn:Eb; [|discriminate].
  intros H. exists b. split; [reflexivity|]. destruct (g_version g) as [|c].
  - apply wall_done in H. rewrite H. apply put_dwrite. eapply saved_nonempty; eauto.
  - apply thenw_ok in H as (d1 & E1 & H). apply wall_done in E1.
    rewrite put_dwrite in E1 by (apply le_nonempty; lia).
    apply thenw_ok in H as (d1' & E1' & H). apply sposition_done in E1'. rewrite E1 in E1'. clear E1 d1.
    cbv zeta in H.
    apply thenw_ok in H as (d2 & E2 & H). apply wall_done in E2.
    rewrite put_dwrite in E2 by (apply le_nonempty; lia).
    apply thenw_ok in H as (d3 & E3 & H). apply wall_done in E3.
    rewrite put_dwrite in E3 by discriminate.
    apply thenw_ok in H as (d4 & E4 & H). apply wall_done in E4.
    rewrite put_dwrite in E4 by (apply le_nonempty; lia).
    apply thenw_ok in H as (d5 & E5 & H). apply spayload_done in E5 as (p & E5 & Bp & NT & TW); [|exact W].
    apply thenw_ok in H as (d5' & E5' & H). apply sposition_done in E5'. rewrite E5 in E5'. clear E5 d5.
    cbv zeta in H.
    assert (D5 : s_dev d5' = dwrite (container c (len b) (le_bytes 4 0) p) (s_dev d)).
    { rewrite E5', put_inside by (rewrite E4; apply dwrite_inside).
      rewrite E4, E3, E2, E1', !dwrite_app, container_eq. reflexivity. }
    apply thenw_ok in H as (d6 & E6 & H). apply sseek_done in E6.
    apply thenw_ok in H as (d7 & E7 & H). apply wall_done in E7.
    rewrite put_dwrite in E7 by (apply le_nonempty; lia).
    apply sseek_done in H. exists p. split; [|auto].
    rewrite H, E7, E6, D5, E1'.
    destruct (saved_container c (len b) p (le_bytes 4 (len p + 4)) (s_dev d) (length_le_bytes _ _)) as [X Y].
    rewrite Y, X. rewrite (container_dwrite c (len b) (le_bytes 4 (len p + 4)) p (s_dev d) (length_le_bytes _ _)).
    unfold dseek. cbn [content]. reflexivity.
Qed.
(** What failure leaves. *)
Lemma save_stops z cut g d e d' : ssave s z cut g d = (Fail e, d') ->
  save_plain (file_of g) = Fail e /\ d' = d
  \/ exists b, save_plain (file_of g) = Ok b /\ e = Err EIo /\
      match g_version g with
      | DDefault => put_some b (s_dev d) (s_dev d')
      | DPalworld c => exists field x p, len field = 4 /\ (c = CNone -> x = b)
          /\ begins p (container c (len b) field x)
          /\ content (s_dev d') = content (put p (s_dev d))
      end.
Proof.
  unfold ssave. fold (file_of g). destruct (save_plain (file_of g)) as [b|f] eqn:Eb.
  2:{ intros X; injection X as <- <-. auto. }
  intros H. right. exists b. split; [reflexivity|]. destruct (g_version g) as [|c].
  - now apply wall_stops in H.
  - assert (Z4 : len (le_bytes 4 0) = 4) by reflexivity.
    (* a failure that leaves a beginning of the container without its length *)
    assert (K : forall p q, (c = CNone -> begins q b) -> begins p (container c (len b) (le_bytes 4 0) q) ->
        s_dev d' = put p (s_dev d) -> exists field x p, len field = 4 /\ (c = CNone -> x = b)
          /\ begins p (container c (len b) field x)
          /\ content (s_dev d') = content (put p (s_dev d))).
    { intros p q Hq [t Ht] ->. exists (le_bytes 4 0), (match c with CNone => b | _ => q end), p.
      split; [reflexivity|]. split; [now intros ->|]. split; [|reflexivity].
      destruct c; try (now exists t). destruct (Hq eq_refl) as [u ->].
      exists (t ++ u). rewrite app_assoc, <- Ht, !container_eq, <- !app_assoc. reflexivity. }
    apply thenw_fail in H as [H|(d1 & E1 & H)].
    { apply wall_stops in H as (-> & p & q & E & _ & D). split; [reflexivity|]. apply (fun h1 h2 => K p b h1 h2 D); [intros _; apply begins_refl|].
      rewrite container_eq, E, <- app_assoc. apply begins_app. }
    apply wall_done in E1.
    apply thenw_fail in H as [H|(d1' & E1' & H)].
    { apply sseek_stops in H as (-> & D). split; [reflexivity|]. rewrite E1 in D.
      apply (fun h1 h2 => K (le_bytes 4 (len b)) b h1 h2 D); [intros _; apply begins_refl|]. rewrite container_eq. apply begins_app. }
    apply sposition_done in E1'. rewrite E1 in E1'. clear E1 d1. cbv zeta in H.
    apply thenw_fail in H as [H|(d2 & E2 & H)].
    { apply wall_stops in H as (-> & p & q & E & _ & D). split; [reflexivity|]. rewrite E1', put_app in D.
      apply (fun h1 h2 => K _ b h1 h2 D); [intros _; apply begins_refl|].
      rewrite container_eq, E, <- app_assoc. apply begins_in, begins_app. }
    apply wall_done in E2. rewrite E1', put_app in E2.
    apply thenw_fail in H as [H|(d3 & E3 & H)].
    { apply wall_stops in H as (-> & p & q & E & _ & D). split; [reflexivity|]. rewrite E2, put_app, <- app_assoc in D.
      apply (fun h1 h2 => K _ b h1 h2 D); [intros _; apply begins_refl|].
      rewrite container_eq, E, <- app_assoc. apply begins_in, begins_in, begins_app. }
    apply wall_done in E3. rewrite E2, put_app, <- app_assoc in E3.
    apply thenw_fail in H as [H|(d4 & E4 & H)].
    { apply wall_stops in H as (-> & p & q & E & _ & D). split; [reflexivity|]. rewrite E3, put_app, <- !app_assoc in D.
      apply (fun h1 h2 => K _ b h1 h2 D); [intros _; apply begins_refl|].
      rewrite container_eq, E, <- app_assoc. apply begins_in, begins_in, begins_in, begins_app. }
    apply wall_done in E4. rewrite E3, put_app, <- !app_assoc in E4.
    apply thenw_fail in H as [H|(d5 & E5 & H)].
    { apply spayload_stops in H as (-> & p & D & Hp). split; [reflexivity|]. rewrite E4, put_app, <- !app_assoc in D.
      apply (fun h1 h2 => K _ p h1 h2 D); [exact Hp|]. rewrite container_eq. apply begins_refl. }
    assert (P5 : exists p, s_dev d5 = put p (s_dev d4) /\ (c = CNone -> p = b)).
    { unfold spayload in E5.
      match type of E5 with context [walls s ?l d4] => pose proof (walls_spec l d4) as X; destruct (walls s l d4) as [[[]|?] d9] end;
        [|discriminate]. injection E5 as <-.
      match goal with |- context [walls s ?l d9] => destruct (walls_writes l d9) as (a & Ba & ->) end.
      rewrite X, put_app. eexists. split; [reflexivity|]. intros ->. cbn [List.concat payload] in *.
      destruct Ba as [t Et]. symmetry in Et. apply app_eq_nil in Et as [-> ->]. now rewrite !app_nil_r. }
    destruct P5 as (x & D5 & Hx).
    assert (D5' : s_dev d5 = dwrite (container c (len b) (le_bytes 4 0) x) (s_dev d)).
    { rewrite D5, E4, put_app, <- !app_assoc, put_dwrite; [now rewrite container_eq|].
      intros X. apply app_eq_nil in X as [X _]. revert X. apply le_nonempty; lia. }
    assert (KP : (c = CNone -> begins x b)) by (intros ->; rewrite Hx by reflexivity; apply begins_refl).
    assert (PC : forall n f y, put (container c n f y) (s_dev d) = dwrite (container c n f y) (s_dev d)).
    { intros n f y. apply put_dwrite. rewrite container_eq. intros X. apply app_eq_nil in X as [X _].
      revert X. apply le_nonempty; lia. }
    apply thenw_fail in H as [H|(d5' & E5' & H)].
    { apply sseek_stops in H as (-> & D). split; [reflexivity|]. rewrite D5', <- PC in D.
      apply (fun h1 h2 => K _ x h1 h2 D); [exact KP|]. apply begins_refl. }
    apply sposition_done in E5'. rewrite D5' in E5'. cbv zeta in H.
    apply thenw_fail in H as [H|(d6 & E6 & H)].
    { apply sseek_stops in H as (-> & D). split; [reflexivity|]. rewrite E5', <- PC in D.
      apply (fun h1 h2 => K _ x h1 h2 D); [exact KP|]. apply begins_refl. }
    apply sseek_done in E6.
    set (N := le_bytes 4 (Z.of_nat (at_ (s_dev d5')) - (Z.of_nat (at_ (s_dev d1')) + 4))) in *.
    rewrite E5' in E6. rewrite E1', put_dwrite in E6 by (apply le_nonempty; lia).
    assert (L : forall a t, N = a ++ t -> exists z4, List.length (a ++ z4) = 4%nat
       /\ content (dwrite a (s_dev d6)) = content (dwrite (container c (len b) (a ++ z4) x) (s_dev d))).
    { intros a t EN. exists (skipn (List.length a) (le_bytes 4 0)).
      assert (LN : (List.length a <= 4)%nat).
      { pose proof (length_le_bytes 4 (Z.of_nat (at_ (s_dev d5')) - (Z.of_nat (at_ (s_dev d1')) + 4))) as X.
        fold N in X. rewrite EN, app_length in X. lia. }
      split; [rewrite app_length, skipn_length, length_le_bytes; lia|].
      rewrite E6, at_dwrite, length_le_bytes.
      pose proof (patched (le_bytes 4 (len b)) (firstn (List.length a) (le_bytes 4 0)) a
         (skipn (List.length a) (le_bytes 4 0) ++ plz_magic ++ le_bytes 1 (ctype_z c) ++ x) (s_dev d)) as X.
      rewrite length_le_bytes in X. rewrite container_eq. rewrite container_eq.
      rewrite <- (firstn_skipn (List.length a) (le_bytes 4 0)) at 1. rewrite <- !app_assoc. rewrite X.
      - reflexivity.
      - apply le_nonempty; lia.
      - rewrite firstn_length, length_le_bytes. lia. }
    apply thenw_fail in H as [H|(d7 & E7 & H)].
    { apply wall_stops in H as (-> & a & t & E & _ & D). split; [reflexivity|].
      destruct (L a t E) as (z4 & L4 & C4).
      exists (a ++ z4), x, (container c (len b) (a ++ z4) x). split; [unfold len; lia|]. split; [exact Hx|].
      split; [apply begins_refl|]. rewrite PC, <- C4, D. f_equal. apply put_inside. rewrite E6.
      unfold dseek. cbn [at_ content]. etransitivity; [|apply dwrite_inside].
      rewrite !at_dwrite, container_eq, app_length. lia. }
    apply wall_done in E7. apply sseek_stops in H as (-> & D). split; [reflexivity|].
    destruct (L N [] ltac:(now rewrite app_nil_r)) as (z4 & L4 & C4).
    exists (N ++ z4), x, (container c (len b) (N ++ z4) x). split; [unfold len; lia|]. split; [exact Hx|].
    split; [apply begins_refl|]. rewrite PC, <- C4, D, E7. reflexivity.
Qed.
End Sched.

(** ** Consequences *)
(** Except after compressing twice, success means that everything was delivered. *)
Lemma reported s z cut g d d' : whole cut -> g_version g <> DPalworld CTwice ->
  ssave s z cut g d = (Ok tt, d') -> save z g (s_dev d) = (Ok tt, s_dev d').
Proof.
  intros W V H. apply save_done in H as (b & Eb & H); [|exact W].
  rewrite save_frame. fold (file_of g). rewrite Eb. f_equal. symmetry.
  destruct (g_version g) as [|c]; cbn [frame]; [exact H|].
  destruct H as (p & D & _ & N & _). rewrite D, container_eq, N by congruence. reflexivity.
Qed.
Lemma twice s z cut g d d' : whole cut -> g_version g = DPalworld CTwice ->
  ssave s z cut g d = (Ok tt, d') ->
  exists b p, save_plain (file_of g) = Ok b
    /\ s_dev d' = dwrite (container CTwice (len b) (le_bytes 4 (len p + 4)) p) (s_dev d)
    /\ begins p (deflate z (deflate z b))
    /\ begins (List.concat (early cut (deflate z (deflate z b)))) p.
Proof.
  intros W V H. apply save_done in H as (b & Eb & H); [|exact W]. rewrite V in H.
  destruct H as (p & D & B & _ & E). exists b, p. auto.
Qed.
(** A beginning of a loadable file loads as that file or not at all. *)
Lemma beginning_loads z o v b g p : zlib_more z \/ v = GDefault -> load z o v b = Ok g -> begins p b ->
  forall g', load z o v p = Ok g' -> g' = g.
Proof.
  intros Z H [t ->] g' H'. destruct (load_more z o v p g' t Z H') as [E|(_ & _ & E)]; congruence.
Qed.
Lemma fresh_dwrite a : content (dwrite a (Dev [] 0)) = a.
Proof. rewrite dwrite_patch. unfold patch. cbn [content List.length firstn repeat Nat.sub app]. now rewrite skipn_nil, app_nil_r. Qed.
Lemma fresh a : content (put a (Dev [] 0)) = a.
Proof. destruct a; [reflexivity|]. apply fresh_dwrite. Qed.
Lemma crash_plain s z cut g n o g0 b d' r : g_version g = DDefault ->
  save_plain (file_of g) = Ok b -> load z o GDefault b = Ok g0 ->
  ssave s z cut g (SDev (Dev [] 0) n) = (r, d') ->
  load z o GDefault (content (s_dev d')) = Ok g0
  \/ r = Fail (Err EIo) /\ load z o GDefault (content (s_dev d')) = Fail (Err EEof).
Proof.
  intros V Eb Hl H. destruct r as [[]|e].
  - left. unfold ssave in H. fold (file_of g) in H. rewrite Eb, V in H. apply wall_done in H.
    rewrite H, fresh. exact Hl.
  - apply save_stops in H as [[H _]|(b' & Eb' & -> & H)]; [congruence|].
    rewrite V in H. destruct H as (p & q & Epq & _ & ->). cbn [s_dev]. rewrite fresh.
    assert (b' = p ++ q /\ b' = b) as [-> <-] by (split; congruence).
    unfold load in *. destruct (load_plain o (p ++ q)) as [[h ps]|f] eqn:El; [|discriminate].
    unfold load_plain in El. destruct (parse o (p ++ q)) as [[f c]|f] eqn:Ep; [|discriminate].
    injection El as ->. pose proof (truncated _ _ _ _ (List.length p) Ep) as T.
    rewrite firstn_exact in T by reflexivity. rewrite T. destruct (pos c <=? _); auto.
Qed.
Lemma second_length z o (n : list byte) c f f' x : len f = 4 -> len f' = 4 ->
  load z o GPalworld (container c (len n) f x) = load z o GPalworld (container c (len n) f' x).
Proof.
  intros Hf Hf'. rewrite !container_eq. unfold load, r_palworld, bind, r_u32.
  pose proof (dec_any [] 4 (le_bytes 4 (len n)) (len_le_bytes _ _)) as D1. change (Z.of_nat 4) with 4 in D1. rewrite !D1.
  pose proof (dec_any [] 4 f Hf) as D2. pose proof (dec_any [] 4 f' Hf') as D3. change (Z.of_nat 4) with 4 in D2, D3.
  rewrite D2, D3. rewrite Hf, Hf'. reflexivity.
Qed.
Lemma crash_none s z cut g n o g0 b d' r : zlib_more z -> g_version g = DPalworld CNone -> whole cut ->
  save_plain (file_of g) = Ok b -> load z o GPalworld (frame z (g_version g) b) = Ok g0 ->
  ssave s z cut g (SDev (Dev [] 0) n) = (r, d') ->
  forall g', load z o GPalworld (content (s_dev d')) = Ok g' -> g' = g0.
Proof.
  intros Z V W Eb Hl H g' Hg. rewrite V in Hl. destruct r as [[]|e].
  - apply reported in H; [|exact W|congruence]. apply save_ok in H as (b' & Eb' & C & _).
    assert (b' = b) as -> by congruence. rewrite C, V in Hg. revert Hg. unfold patch.
    cbn [s_dev content at_ List.length firstn repeat Nat.sub app]. rewrite skipn_nil, app_nil_r. congruence.
  - apply save_stops in H as [[H _]|(b' & Eb' & -> & H)]; [congruence|].
    assert (b' = b) as -> by congruence. rewrite V in H.
    destruct H as (field & x & p & L & Hx & B & C). rewrite (Hx eq_refl) in B. cbn [s_dev] in C. rewrite fresh in C.
    rewrite C in Hg. eapply beginning_loads; [left; exact Z| |exact B|exact Hg].
    rewrite <- Hl. cbn [frame]. rewrite <- container_eq. apply second_length; [exact L|apply len_le_bytes].
Qed.
Lemma twice_loads s z cut g n o g0 b d' : zlib_more z -> g_version g = DPalworld CTwice -> whole cut ->
  save_plain (file_of g) = Ok b -> load z o GPalworld (frame z (g_version g) b) = Ok g0 ->
  ssave s z cut g (SDev (Dev [] 0) n) = (Ok tt, d') ->
  forall g', load z o GPalworld (content (s_dev d')) = Ok g' -> g' = g0.
Proof.
  intros Z V W Eb Hl H g' Hg. rewrite V in Hl. apply twice in H as (b' & p & Eb' & D & B & _); [|exact W|exact V].
  assert (b' = b) as -> by congruence. rewrite D in Hg. cbn [s_dev] in Hg. rewrite fresh_dwrite in Hg.
  rewrite (second_length z o b CTwice _ (le_bytes 4 (len (payload z CTwice b) + 4))) in Hg by apply len_le_bytes.
  eapply beginning_loads; [left; exact Z|exact Hl| |exact Hg]. cbn [frame]. rewrite <- container_eq.
  unfold container. repeat apply begins_in. exact B.
Qed.
