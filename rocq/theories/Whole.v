(** Reading with either game version, in terms of the unpacked bytes. *)
From Coq Require Import ZArith List Bool String Lia ZifyBool ZifyNat.
From Verif Require Import Base Str Types Versions Text Props File Spec BaseFacts ReaderFacts Sane ReadThm
  Prim StrFacts Decode DecodeFile Induct AcceptFile EqFacts RoundTrip Device.
Import ListNotations.
Open Scope Z_scope.

Definition unpacked (z : zlib) (v : gversion) (b : list byte) : outcome (dversion * list byte) :=
  match v with
  | GDefault => Ok (DDefault, b)
  | GPalworld => match r_palworld z (Cur 0 b []) with
                 | Ok ((c, d), _) => Ok (DPalworld c, d)
                 | Fail f => Fail f
                 end
  end.
Lemma load_unpacked z o v b : load z o v b =
  match unpacked z v b with
  | Fail f => Fail f
  | Ok (w, d) => match load_plain o d with
                 | Ok (h, ps) => Ok (GFile w h ps)
                 | Fail f => Fail f
                 end
  end.
Proof.
  unfold load, unpacked. destruct v; [reflexivity|].
  destruct (r_palworld z _) as [[[c d] k]|f]; reflexivity.
Qed.
(** Failures of the container itself. *)
Definition container_fault (f : fault) : Prop :=
  match f with
  | Err EEof | Err EIo | Err (EMagic _) | Err (EEnum ETCompression _ _) => True
  | _ => False
  end.
Lemma unpacked_fault z v b f : unpacked z v b = Fail f -> container_fault f.
Proof.
  unfold unpacked. destruct v; [discriminate|].
  destruct (r_palworld z _) as [[[c d] k]|g] eqn:E; [discriminate|]. intros X; injection X as ->.
  revert E. unfold r_palworld, bind at 1 2 3.
  assert (U : forall k g, r_u32 k = Fail g -> g = Err EEof).
  { intros k g. unfold r_u32, r_uint, bind, take. destruct (_ <=? _); [discriminate|congruence]. }
  destruct (r_u32 _) as [[n k1]|g] eqn:E1; [|apply U in E1; intros X; injection X as <-; subst; exact I].
  destruct (r_u32 k1) as [[n' k2]|g] eqn:E2; [|apply U in E2; intros X; injection X as <-; subst; exact I].
  destruct (take 3 k2) as [[m k3]|g] eqn:E3.
  2: { unfold take in E3. destruct (_ <=? _); [discriminate|]. injection E3 as <-. intros X; injection X as <-. exact I. }
  destruct (negb _); [intros X; injection X as <-; exact I|].
  unfold bind. destruct (r_enum _ _ k3) as [[c k4]|g] eqn:E4.
  2: { intros X; injection X as ->. revert E4. unfold r_enum, r_i8, r_sint, r_uint, bind, take, ret, position.
       destruct (_ <=? _); [|intros X; injection X as <-; exact I]. destruct (enum_of _ _ _); [discriminate|].
       unfold fail. intros X; injection X as <-. exact I. }
  destruct c.
  - destruct (take n k4) as [[d k5]|g] eqn:E5; [discriminate|].
    unfold take in E5. destruct (_ <=? _); [discriminate|]. injection E5 as <-.
    intros X; injection X as <-. exact I.
  - unfold zread_exact. destruct (_ <=? _); [discriminate|]. destruct (snd _); intros X; injection X as <-; exact I.
  - unfold zread_to_end. destruct (snd _); try discriminate. intros X; injection X as <-. exact I.
Qed.
(** A fault of the whole read is one of the container or one of the contents. *)
Lemma load_fault z o v b f : load z o v b = Fail f ->
  container_fault f \/ exists w d, unpacked z v b = Ok (w, d) /\ load_plain o d = Fail f.
Proof.
  rewrite load_unpacked. destruct (unpacked z v b) as [[w d]|g] eqn:E.
  - destruct (load_plain o d) as [[h ps]|g] eqn:L; [discriminate|]. intros X; injection X as ->. eauto.
  - intros X; injection X as ->. left. eapply unpacked_fault, E.
Qed.

Lemma load_ends z o v b : load z o v b <> Fail Oof.
Proof.
  intros E. apply load_fault in E. destruct E as [[]|(w & d & _ & E)].
  unfold load_plain in E. pose proof (terminates o d). destruct (parse o d) as [[f c]|f]; congruence.
Qed.
Lemma load_any_hints z o o' v b : more_hints o o' ->
  (forall path p, load z o v b <> Fail (Err (EHint path p))) -> load z o' v b = load z o v b.
Proof.
  intros M H. rewrite !load_unpacked in *. destruct (unpacked z v b) as [[w d]|f]; [|reflexivity].
  rewrite (load_hints o o' d M); [reflexivity|]. intros path p E. rewrite E in H. now apply (H path p).
Qed.
Lemma load_any_release z o v b : (forall s, load z o v b <> Fail (Panic s)) ->
  load z (release o) v b = load z o v b.
Proof.
  intros H. rewrite !load_unpacked in *. destruct (unpacked z v b) as [[w d]|f]; [|reflexivity].
  rewrite (load_release o d); [reflexivity|]. intros s E. rewrite E in H. now apply (H s).
Qed.
Lemma load_any_panic z o v b s : load z o v b = Fail (Panic s) -> read_panic (dbg o) s.
Proof.
  intros E. apply load_fault in E. destruct E as [[]|(w & d & _ & E)]. eapply load_panic, E.
Qed.
Lemma load_any_hint z o v b path p : load z o v b = Fail (Err (EHint path p)) -> hints o path = None.
Proof.
  intros E. apply load_fault in E. destruct E as [[]|(w & d & _ & E)]. now apply hint_missing in E.
Qed.

(** ** Saving what was loaded *)
Lemma patch_skip c p bs : skipn p (patch c p bs) = bs ++ skipn (p + List.length bs) c.
Proof.
  unfold patch. rewrite app_assoc. apply skipn_exact. apply pad_length.
Qed.
Lemma reload z o pr v b g d : zlib_ok z \/ v = GDefault -> load z o v b = Ok g ->
  exists bytes d', save_plain (file_of g) = Ok bytes /\ save z g d = (Ok tt, d')
    /\ (len bytes < 4294967296 -> (forall p i, pr p i = false) \/ file_ok o eqv (file_of g) = true ->
        load z (with_probe o pr) v (skipn (at_ d) (content d')) = Ok g).
Proof.
  intros Hz H. pose proof (load_inv _ _ _ _ _ H) as (A & p & L).
  destruct (load_save_load o pr p _ L) as (b' & W & R).
  exists b', (dwrite (frame z (g_version g) b') d). split; [exact W|]. split.
  { rewrite save_frame. fold (file_of g). now rewrite W. }
  intros Hl Hp. specialize (R Hl Hp). destruct d as [c q]. rewrite dwrite_patch. cbn [content at_].
  rewrite patch_skip. destruct g as [w h ps]. cbn [g_version g_header g_props file_of] in *.
  subst v. destruct Hz as [Hz|Hz].
  - now apply (load_frame z _ w b' (h, ps)).
  - destruct w; [|discriminate]. cbn [frame asked]. unfold load. now rewrite R.
Qed.
