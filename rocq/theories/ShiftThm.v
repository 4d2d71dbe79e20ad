(** Position independence of reading, and the three features through which the
    version table matters. *)
From Coq Require Import ZArith List Bool String Lia ZifyBool ZifyNat.
From Verif Require Import Base Str Types Versions Text Props File Spec BaseFacts ReaderFacts Induct
  GateThm Samples Shift.
Import ListNotations.
Open Scope Z_scope.

(** The same options as seen from a stream that starts [d] bytes earlier: same
    hints, same build, and the same hash collisions at each entry. *)
Definition same_opts (d : Z) (o o' : opts) : Prop :=
  dbg o' = dbg o /\ (forall path, hints o' path = hints o path)
  /\ (forall p i, probe o' (p + d) i = probe o p i).

Lemma shifted_file d n o o' c : same_opts d o o' ->
  r_file n o' (moved d c) = moved_result d (r_file n o c).
Proof. intros (H1 & H2 & H3). now apply s_file. Qed.
Lemma shifted_prop d n o o' vs ty hdr sug c : same_opts d o o' ->
  r_prop n o' vs ty hdr sug (moved d c) = moved_result d (r_prop n o vs ty hdr sug c).
Proof. intros (H1 & H2 & H3). now apply s_prop. Qed.
Lemma shifted_text d n vs c : r_text n vs (moved d c) = moved_result d (r_text n vs c).
Proof. now apply s_text. Qed.
Lemma shifted_header d c : r_header (moved d c) = moved_result d (r_header c).
Proof. apply s_header. Qed.
Lemma shifted_palworld z d c : r_palworld z (moved d c) = moved_result d (r_palworld z c).
Proof.
  revert c. change (sh d (r_palworld z) (r_palworld z)). unfold r_palworld, r_u32.
  do 2 (apply sh_bind; [apply s_uint|intros]). apply sh_bind; [apply s_take|intros].
  destruct (negb _); [now apply sh_fail|]. apply sh_bind; [apply s_enum|intros t].
  intros c. change (rest (moved d c)) with (rest c). destruct t.
  - rewrite (sh_take d _ c). destruct (take a c) as [[x k]|f] eqn:E; cbn [moved_result]; [reflexivity|].
    unfold take in E. destruct (a <=? len (rest c)); [discriminate|]. injection E as <-. reflexivity.
  - unfold zread_exact. destruct (inflate z (rest c)) as [x [| |]]; repeat (destruct (_ <=? _)); reflexivity.
  - unfold zread_to_end. destruct (snd _); reflexivity.
Qed.
(** A file embedded in a larger stream. *)
Lemma embedded o o' b p : same_opts p o o' ->
  r_file (S (List.length b)) o' (Cur p b []) = moved_result p (parse o b).
Proof. intros H. unfold parse. rewrite <- (shifted_file p _ o o' _ H). reflexivity. Qed.

(** ** Features *)
Definition features : list (guid * Z) := [(ue5_guid, 12); (ue5_guid, 28); (editor_guid, 32)].
Definition same_features (vs vs' : list (guid * Z)) : Prop :=
  forall g n, In (g, n) features -> at_least g n vs <-> at_least g n vs'.

Lemma features_eq vs vs' : distinct guid_eqb vs = true -> distinct guid_eqb vs' = true ->
  same_features vs vs' ->
  has_lwc vs' = has_lwc vs /\ has_arg64 vs' = has_arg64 vs /\ has_culture vs' = has_culture vs.
Proof.
  intros D D' S. unfold has_lwc, has_arg64, has_culture, v_lwc, v_arg64, v_culture.
  assert (X : forall g n, In (g, n) features -> 0 < n -> supports vs' g n = supports vs g n).
  { intros g n I P. apply eq_true_iff_eq. rewrite !supports_iff by auto. now rewrite (S g n I). }
  repeat split; apply X; cbn; auto; lia.
Qed.
Lemma moved_0 c : moved 0 c = c.
Proof. destruct c. unfold moved. cbn. f_equal. lia. Qed.
Lemma moved_result_0 {A} (x : outcome (A * cur)) : moved_result 0 x = x.
Proof.
  destruct x as [[a c]|f]; cbn [moved_result]; [now rewrite moved_0|]. f_equal.
  destruct f as [e|s| ]; try reflexivity. destruct e; cbn; repeat f_equal; lia.
Qed.
Lemma at_0 {A} (r r' : reader A) c : sh 0 r r' -> r' c = r c.
Proof. intros H. specialize (H c). now rewrite moved_0, moved_result_0 in H. Qed.

Section Features.
Context (vs vs' : list (guid * Z)).
Hypothesis D : distinct guid_eqb vs = true.
Hypothesis D' : distinct guid_eqb vs' = true.
Hypothesis S : same_features vs vs'.

Lemma read_prop_features n o ty hdr sug c : r_prop n o vs' ty hdr sug c = r_prop n o vs ty hdr sug c.
Proof.
  destruct (features_eq vs vs' D D' S) as (F1 & F2 & F3). apply at_0, s_prop; auto. intros. now rewrite Z.add_0_r.
Qed.
Lemma read_entries_features n m o c : r_entries n m o vs' c = r_entries n m o vs c.
Proof.
  destruct (features_eq vs vs' D D' S) as (F1 & F2 & F3). apply at_0, s_entries; auto. intros. now rewrite Z.add_0_r.
Qed.
Lemma read_text_features n c : r_text n vs' c = r_text n vs c.
Proof. destruct (features_eq vs vs' D D' S) as (F1 & F2 & F3). now apply at_0, s_text. Qed.

Lemma seqs_ext {A} (f g : A -> out) l : Forall (fun a => f a = g a) l -> seqs f l = seqs g l.
Proof. induction 1 as [|a l H _ IH]; cbn [seqs]; [reflexivity|]. now rewrite H, IH. Qed.

Lemma write_text_features :
  (forall t, w_text vs' t = w_text vs t) /\ (forall h, w_hist vs' h = w_hist vs h)
  /\ (forall a, w_farg vs' a = w_farg vs a).
Proof.
  destruct (features_eq vs vs' D D' S) as (F1 & F2 & F3).
  apply text_all; intros; cbn [w_text w_hist w_farg]; unfold w_argint; rewrite ?F2, ?F3; try congruence.
  all: rewrite H; do 3 f_equal; apply seqs_ext; revert H0; apply Forall_impl;
    try (intros [k v]; cbn [snd]; intros E); try (intros v E); now rewrite E.
Qed.
Lemma write_features :
  (forall p hdr, w_prop vs' hdr p = w_prop vs hdr p) /\ (forall v, w_sval vs' v = w_sval vs v)
  /\ (forall a, w_array vs' a = w_array vs a) /\ (forall m, w_map vs' m = w_map vs m).
Proof.
  destruct (features_eq vs vs' D D' S) as (F1 & F2 & F3). destruct write_text_features as (T & _).
  apply (prop_all (fun p => forall hdr, w_prop vs' hdr p = w_prop vs hdr p)
           (fun v => w_sval vs' v = w_sval vs v) (fun a => w_array vs' a = w_array vs a)
           (fun m => w_map vs' m = w_map vs m));
    intros; cbn [w_prop w_sval w_array w_map]; try reflexivity.
  - now rewrite T.
  - now rewrite H.
  - do 3 f_equal. apply seqs_ext. revert H. apply Forall_impl. auto.
  - now rewrite H.
  - now rewrite H.
  - destruct hdr; auto.
  - unfold w_fixed. now rewrite F1.
  - f_equal. apply seqs_ext. revert H. apply Forall_impl. intros [k ps]. cbn [snd]. intros H. apply seqs_ext.
    revert H. apply Forall_impl. intros p E. now rewrite E.
  - rewrite (seqs_ext _ (w_sval vs)) by (revert H; now apply Forall_impl). reflexivity.
  - f_equal. apply seqs_ext. revert H. apply Forall_impl. auto.
  - do 2 f_equal. apply seqs_ext. revert H. apply Forall_impl. intros [ke v]. cbn [snd]. intros E. now rewrite E.
  - do 2 f_equal. apply seqs_ext. revert H. apply Forall_impl. intros [ke v]. cbn [fst snd]. intros [E1 E2].
    now rewrite E1, E2.
Qed.
Lemma save_features h h' ps : h_versions h = vs -> h_versions h' = vs' ->
  forall b, save_plain (h, ps) = Ok b -> forall hb k, w_header h = Ok (hb, k) ->
  forall hb' k', w_header h' = Ok (hb', k') ->
  exists t, b = hb ++ t /\ save_plain (h', ps) = Ok (hb' ++ t).
Proof.
  intros V V' b E hb k Eh hb' k' Eh'. unfold save_plain, w_file in *. cbn [fst snd] in *. rewrite V in E. rewrite V', Eh'.
  rewrite Eh in E.
  rewrite (seqs_ext _ (fun '(name, p) => w_string name +> w_prop vs true p)).
  2:{ apply Forall_forall. intros [nm p] _. now rewrite (proj1 write_features p true). }
  unfold seq at 1 in E. unfold seq at 1. destruct (seqs _ ps +> _) as [[t n]|]; [|discriminate].
  injection E as <-. eauto.
Qed.
End Features.

(** Each of the three thresholds makes a difference. *)
Definition after_type (w : out) (ty : str) : cur :=
  match w with Ok (b, _) => Cur 0 (skipn (List.length (str_bytes ty)) b) [] | Fail _ => Cur 0 [] [] end.
Definition feature_witness : list ((guid * Z) * property) :=
  [((ue5_guid, 12), PText (FText 0 (HNumber (AInt64 5) None None)));
   ((ue5_guid, 28), PStruct zero_guid (s2z "Vector") (SFixed XVectorD [1; 2; 3]));
   ((editor_guid, 32), PText (FText 0 (HNone (Some (s2z "x")))))].
Lemma features_matter g n : In (g, n) features ->
  exists p c c', r_prop 3 o_plain [(g, n)] (type_of p) true None c = Ok (p, c')
    /\ forall q d, r_prop 3 o_plain [(g, n - 1)] (type_of p) true None c <> Ok (q, d).
Proof.
  unfold features. cbn [In]. intros H.
  assert (X : exists p, In ((g, n), p) feature_witness).
  { repeat (destruct H as [H|H]; [injection H as <- <-; eexists; unfold feature_witness; cbn; eauto|]). destruct H. }
  destruct X as (p & X). exists p, (after_type (w_prop [(g, n)] true p) (type_of p)).
  unfold feature_witness in X. cbn [In] in X.
  repeat (destruct X as [X|X]; [injection X as <- <- <-; eexists; split; [vm_compute; reflexivity|];
    intros q d E; vm_compute in E; discriminate E|]). destruct X.
Qed.
