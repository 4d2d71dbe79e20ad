(** The destination device and the Palworld container. *)
From Coq Require Import ZArith List Bool String Lia ZifyBool ZifyNat.
From Verif Require Import Base Str Types Versions Text Props File Spec BaseFacts StrFacts Decode DecodeFile RoundTrip.
Import ListNotations.
Open Scope Z_scope.

(** [bs] written over [c] from offset [p]: what comes before and after stays,
    a gap is filled with zeros. *)
Definition patch (c : list byte) (p : nat) (bs : list byte) : list byte :=
  firstn p c ++ repeat Byte.x00 (p - List.length c) ++ bs ++ skipn (p + List.length bs) c.
(** The bytes of a container. *)
Definition frame (z : zlib) (v : dversion) (b : list byte) : list byte :=
  match v with
  | DDefault => b
  | DPalworld c =>
    le_bytes 4 (len b) ++ le_bytes 4 (len (payload z c b) + 4) ++ plz_magic
    ++ le_bytes 1 (ctype_z c) ++ payload z c b
  end.

Lemma pad_firstn p (c : list byte) :
  firstn p (c ++ repeat Byte.x00 (p - List.length c)) = firstn p c ++ repeat Byte.x00 (p - List.length c).
Proof.
  rewrite firstn_app. f_equal. apply firstn_all2. rewrite repeat_length. lia.
Qed.
Lemma pad_length p (c : list byte) :
  List.length (firstn p c ++ repeat Byte.x00 (p - List.length c)) = p.
Proof. rewrite app_length, firstn_length, repeat_length. lia. Qed.
Lemma dwrite_patch bs c p : dwrite bs (Dev c p) = Dev (patch c p bs) (p + List.length bs).
Proof. unfold dwrite, patch. cbn [content at_]. rewrite pad_firstn, <- app_assoc. reflexivity. Qed.
Lemma skipn_skipn {A} n : forall m (l : list A), skipn n (skipn m l) = skipn (m + n) l.
Proof.
  intros m. revert n. induction m as [|m IH]; intros n l; [reflexivity|].
  destruct l; [now rewrite !skipn_nil|]. cbn. apply IH.
Qed.
Lemma skipn_exact {A} (a b : list A) n : List.length a = n -> skipn n (a ++ b) = b.
Proof. intros <-. rewrite skipn_app, skipn_all, Nat.sub_diag. reflexivity. Qed.
Lemma firstn_exact {A} (a b : list A) n : List.length a = n -> firstn n (a ++ b) = a.
Proof. intros <-. rewrite firstn_app, Nat.sub_diag, firstn_all. cbn. apply app_nil_r. Qed.
(** Writing inside an existing content. *)
Lemma patch_mid a old b new : List.length new = List.length old ->
  patch (a ++ old ++ b) (List.length a) new = a ++ new ++ b.
Proof.
  intros L. unfold patch. rewrite firstn_exact by reflexivity.
  rewrite !app_length. replace (_ - _)%nat with O by lia. cbn [repeat app].
  f_equal. f_equal. rewrite app_assoc. apply skipn_exact. rewrite app_length. lia.
Qed.
Lemma dwrite_app a b d : dwrite b (dwrite a d) = dwrite (a ++ b) d.
Proof.
  destruct d as [c p]. rewrite !dwrite_patch. f_equal; [|rewrite app_length; lia].
  set (pre := firstn p c ++ repeat Byte.x00 (p - List.length c)).
  assert (P : List.length pre = p) by apply pad_length.
  assert (E : patch c p a = (pre ++ a) ++ skipn (p + List.length a) c).
  { unfold patch. fold pre. rewrite <- !app_assoc. unfold pre. now rewrite <- app_assoc. }
  rewrite E. unfold patch.
  rewrite firstn_exact by (rewrite app_length; lia).
  rewrite (app_length (pre ++ a)), (app_length pre).
  replace (_ - _)%nat with O by lia. cbn [repeat app].
  rewrite skipn_app, skipn_all2 by (rewrite app_length; lia). rewrite app_length. cbn [app].
  rewrite skipn_skipn, P. unfold patch, pre. rewrite <- !app_assoc. do 4 f_equal. f_equal. rewrite app_length. lia.
Qed.

Lemma save_frame z g d : save z g d =
  match save_plain (g_header g, g_props g) with
  | Fail f => (Fail f, d)
  | Ok b => (Ok tt, dwrite (frame z (g_version g) b) d)
  end.
Proof.
  unfold save. destruct (save_plain _) as [b|f]; [|reflexivity].
  destruct (g_version g) as [|c]; [reflexivity|]. cbn [frame]. f_equal.
  rewrite !dwrite_app.
  set (P := payload z c b). destruct d as [co p]. rewrite !dwrite_patch. cbn [at_].
  unfold dseek. cbn [content at_]. rewrite dwrite_patch. cbn [content at_].
  set (A := le_bytes 4 (len b)).
  assert (LA : List.length A = 4%nat) by apply length_le_bytes.
  set (Z4 := le_bytes 4 0). set (M := plz_magic). set (T := le_bytes 1 (ctype_z c)).
  set (pre := firstn p co ++ repeat Byte.x00 (p - List.length co)).
  assert (LP : List.length pre = p) by apply pad_length.
  rewrite LA.
  assert (LZ : List.length Z4 = 4%nat) by apply length_le_bytes.
  assert (LM : List.length M = 3%nat) by reflexivity.
  assert (LT : List.length T = 1%nat) by apply length_le_bytes.
  set (N := le_bytes 4 (Z.of_nat _ - _)).
  assert (EN : N = le_bytes 4 (len P + 4)).
  { unfold N. f_equal. rewrite !app_length, LA, LZ, LM, LT. unfold len. lia. }
  assert (LN : List.length N = 4%nat) by apply length_le_bytes.
  rewrite <- EN. clearbody N. f_equal.
  - set (post := skipn (p + List.length (A ++ Z4 ++ M ++ T ++ P)) co).
    replace (patch co p (A ++ Z4 ++ M ++ T ++ P)) with ((pre ++ A) ++ Z4 ++ ((M ++ T ++ P) ++ post)).
    2:{ unfold patch, pre, post. rewrite <- !app_assoc. reflexivity. }
    replace (p + 4)%nat with (List.length (pre ++ A)) by (rewrite app_length; lia).
    rewrite patch_mid by lia.
    unfold patch, pre, post. rewrite <- !app_assoc.
    do 4 f_equal. f_equal. f_equal. f_equal. f_equal. f_equal. rewrite !app_length. lia.
  - rewrite !app_length. lia.
Qed.

(** ** Reading a container back *)
Definition asked (v : dversion) : gversion :=
  match v with DDefault => GDefault | DPalworld _ => GPalworld end.
(** What a container holds after its 12 bytes of framing. *)
Definition unpack (z : zlib) (c : ctype) (n : Z) (x : list byte) : outcome (list byte) :=
  match c with
  | CNone => if n <=? len x then Ok (firstn (Z.to_nat n) x) else Fail (Err EEof)
  | CZlib => zread_exact n (inflate z x)
  | CTwice => zread_to_end (zagain z (inflate z x))
  end.
Lemma dec_any st w bs : len bs = Z.of_nat w -> decodes st (r_uint (Z.of_nat w)) bs (le_val bs).
Proof.
  intros H. unfold r_uint. eapply dec_bind_last; [now apply dec_take_n|apply dec_ret].
Qed.
Lemma palworld_load z o n field c x : 0 <= n < 4294967296 -> len field = 4 ->
  load z o GPalworld (le_bytes 4 n ++ field ++ plz_magic ++ le_bytes 1 (ctype_z c) ++ x)
  = match unpack z c n x with
    | Fail f => Fail f
    | Ok d => match load_plain o d with
              | Ok (h, ps) => Ok (GFile (DPalworld c) h ps)
              | Fail f => Fail f
              end
    end.
Proof.
  intros Hn Hf. unfold load, r_palworld, bind.
  pose proof (dec_uint [] 4 n ltac:(unfold u_ok, in_range; lia)) as D1. unfold r_u32.
  change (Z.of_nat 4) with 4 in D1. rewrite D1.
  pose proof (dec_any [] 4 field Hf) as D2. change (Z.of_nat 4) with 4 in D2. rewrite D2.
  rewrite (dec_take_n [] 3 plz_magic eq_refl).
  replace (list_eqb Byte.eqb plz_magic plz_magic) with true by reflexivity. cbn [negb].
  assert (D3 : decodes [] (r_enum ETCompression (enum_of ctype_z ctypes)) (le_bytes 1 (ctype_z c)) c).
  { unfold r_enum, r_i8. pose proof (dec_sint [] 1 (ctype_z c) ltac:(lia) ltac:(destruct c; reflexivity)) as D3.
    eapply dec_bind_last; [exact D3|]. destruct c; apply dec_ret. }
  rewrite D3. cbn [rest]. unfold unpack.
  destruct c.
  - unfold take. cbn [rest]. destruct (n <=? len x); [|reflexivity].
    destruct (load_plain o _) as [[h ps]|f]; reflexivity.
  - destruct (zread_exact n (inflate z x)) as [d|f]; [|reflexivity].
    destruct (load_plain o d) as [[h ps]|f]; reflexivity.
  - destruct (zread_to_end _) as [d|f]; [|reflexivity].
    destruct (load_plain o d) as [[h ps]|f]; reflexivity.
Qed.
Lemma unpack_payload z c b t : zlib_ok z -> unpack z c (len b) (payload z c b ++ t) = Ok b.
Proof.
  intros H. destruct c; cbn [unpack payload].
  - rewrite len_app. pose proof (len_nonneg t). destruct (Z.leb_spec (len b) (len b + len t)); [|lia].
    f_equal. apply firstn_exact. unfold len. lia.
  - rewrite H. unfold zread_exact. cbn [fst]. rewrite Z.leb_refl. f_equal. rewrite <- (app_nil_r b) at 2.
    rewrite firstn_exact by (unfold len; lia). reflexivity.
  - unfold zagain. rewrite H. cbn [fst]. pose proof (H b []) as H0. rewrite app_nil_r in H0. rewrite H0. reflexivity.
Qed.
Lemma load_frame z o v b f t : zlib_ok z -> len b < 4294967296 ->
  (forall s, load_plain o (b ++ s) = Ok f) ->
  load z o (asked v) (frame z v b ++ t) = Ok (GFile v (fst f) (snd f)).
Proof.
  intros Hz L H. destruct v as [|c]; cbn [asked frame].
  - unfold load. rewrite H. now destruct f.
  - rewrite <- !app_assoc. pose proof (len_nonneg b). rewrite palworld_load by (rewrite ?len_le_bytes; lia).
    rewrite unpack_payload by assumption. specialize (H []). rewrite app_nil_r in H. rewrite H. now destruct f.
Qed.

(** ** Files *)
Definition file_of (g : gfile) : header * list (str * property) := (g_header g, g_props g).
Lemma load_inv z o v b g : load z o v b = Ok g ->
  asked (g_version g) = v /\ exists d, load_plain o d = Ok (file_of g).
Proof.
  unfold load. destruct v.
  - destruct (load_plain o b) as [[h ps]|f] eqn:E; [|discriminate]. intros X; injection X as <-.
    split; [reflexivity|]. exists b. exact E.
  - destruct (r_palworld z _) as [[[c d] k]|f]; [|discriminate].
    destruct (load_plain o d) as [[h ps]|f] eqn:E; [|discriminate]. intros X; injection X as <-.
    split; [reflexivity|]. exists d. exact E.
Qed.
Lemma save_ok z g d d' : save z g d = (Ok tt, d') ->
  exists b, save_plain (file_of g) = Ok b
    /\ content d' = patch (content d) (at_ d) (frame z (g_version g) b)
    /\ at_ d' = (at_ d + List.length (frame z (g_version g) b))%nat.
Proof.
  rewrite save_frame. fold (file_of g). destruct (save_plain (file_of g)) as [b|f]; [|discriminate].
  intros X. injection X as <-. exists b. destruct d as [c p]. rewrite dwrite_patch. auto.
Qed.
Lemma save_fail z g d f d' : save z g d = (Fail f, d') -> d' = d /\ save_plain (file_of g) = Fail f.
Proof.
  rewrite save_frame. fold (file_of g). destruct (save_plain (file_of g)) as [b|f']; [discriminate|].
  intros X. injection X as <- <-. auto.
Qed.
