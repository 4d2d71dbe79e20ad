(** Consequences of the generic reader facts for whole reads. *)
From Coq Require Import ZArith List Bool String Lia ZifyBool ZifyNat.
From Verif Require Import Base Str Types Versions Text Props File BaseFacts ReaderFacts Sane Rel Prim.
Import ListNotations.
Open Scope Z_scope.

Definition start (b : list byte) : cur := Cur 0 b [].

Definition no_hint_needed (f : fault) : Prop :=
  match f with Err (EHint _ _) => False | _ => True end.
Lemma all_prim o n : prim (fun _ => True) (r_file n o).
Proof. apply q_file; auto. Qed.

Lemma ext_start t b : ext t (start b) = start (b ++ t).
Proof. reflexivity. Qed.

(** ** Fuel *)
Lemma parse_sane o b n : (List.length b < n)%nat ->
  match r_file n o (start b) with
  | Ok (_, c') => exists bs, b = bs ++ rest c' /\ pos c' = len bs /\ stk c' = []
  | Fail (Err e) => err_in 0 (len b) e
  | Fail (Panic s) => read_panic (dbg o) s
  | Fail Oof => False
  end.
Proof.
  intros H. pose proof (s_file o n (start b) ltac:(cbn; unfold len; lia)) as Hs.
  destruct (r_file n o (start b)) as [[a c']|[]]; auto.
  destruct Hs as (bs & ? & ? & ? & ?). exists bs. auto.
Qed.

Lemma fuel_enough o b n : (List.length b < n)%nat -> r_file n o (start b) = parse o b.
Proof.
  intros H. pose proof (x_file (fun f => f = Oof) [] o o (S (List.length b)) n
    ltac:(cbv beta; congruence) ltac:(cbv beta; auto) ltac:(cbv beta; auto) eq_refl ltac:(lia) ltac:(cbv beta; auto) (start b)) as R.
  rewrite ext_start, app_nil_r in R. unfold parse. fold (start b).
  pose proof (parse_sane o b (S (List.length b)) ltac:(lia)) as Hs.
  destruct (r_file (S (List.length b)) o (start b)) as [[a c']|f].
  - rewrite R. destruct c'. unfold ext. cbn. now rewrite app_nil_r.
  - destruct R as [->|R]; [contradiction|exact R].
Qed.

Lemma terminates o b : parse o b <> Fail Oof.
Proof.
  pose proof (parse_sane o b (S (List.length b)) ltac:(lia)) as Hs. fold (parse o b) in Hs.
  unfold parse. fold (start b). intros E. rewrite E in Hs. exact Hs.
Qed.

(** ** More input *)
Lemma parse_extend o b t : parse o b <> Fail (Err EEof) ->
  match parse o b with
  | Ok (f, c) => parse o (b ++ t) = Ok (f, ext t c)
  | Fail f => parse o (b ++ t) = Fail f
  end.
Proof.
  intros Hne.
  pose proof (x_file (fun f => f = Oof \/ f = Err EEof) t o o
    (S (List.length b)) (S (List.length (b ++ t)))
    ltac:(cbv beta; auto) ltac:(cbv beta; auto) ltac:(cbv beta; auto) eq_refl ltac:(rewrite app_length; lia) ltac:(cbv beta; auto) (start b)) as R.
  rewrite ext_start in R. fold (parse o b) in R. fold (parse o (b ++ t)) in R.
  pose proof (terminates o b) as T.
  unfold start in R. fold (parse o b) in R. fold (parse o (b ++ t)) in R.
  destruct (parse o b) as [[a c]|f]; [exact R|].
  destruct R as [[->| ->]|R]; [congruence|congruence|exact R].
Qed.

Lemma load_extend o b t : load_plain o b <> Fail (Err EEof) ->
  load_plain o (b ++ t) = load_plain o b.
Proof.
  unfold load_plain. intros H. pose proof (parse_extend o b t) as E.
  destruct (parse o b) as [[f c]|f]; rewrite E; congruence.
Qed.

(** ** Less input *)
Lemma parse_consumed o b f c : parse o b = Ok (f, c) ->
  exists bs, b = bs ++ rest c /\ pos c = len bs /\ stk c = []
    /\ forall t, parse o (bs ++ t) = Ok (f, Cur (len bs) t []).
Proof.
  intros E. destruct (prim_local _ _ _ (all_prim o (S (List.length b))) _ _ _ E)
    as (bs & R & P & K & T). cbn in R, P, K. exists bs. repeat split; auto.
  intros t. specialize (T t). cbn in T. rewrite P, K in T.
  pose proof (fuel_enough o (bs ++ t) (S (Nat.max (List.length b) (List.length (bs ++ t)))) ltac:(lia)) as F1.
  pose proof (x_file (fun f => f = Oof) [] o o (S (List.length b))
    (S (Nat.max (List.length b) (List.length (bs ++ t))))
    ltac:(cbv beta; congruence) ltac:(cbv beta; auto) ltac:(cbv beta; auto) eq_refl ltac:(lia) ltac:(cbv beta; auto) (start (bs ++ t))) as X.
  unfold start at 1 in X. rewrite T in X. rewrite <- F1.
  rewrite ext_start, app_nil_r in X. rewrite X. unfold ext. cbn. now rewrite app_nil_r.
Qed.

Lemma truncated o b f c n : parse o b = Ok (f, c) ->
  load_plain o (firstn n b) = if pos c <=? Z.of_nat n then Ok f else Fail (Err EEof).
Proof.
  intros E. destruct (parse_consumed o b f c E) as (bs & R & P & K & T). rewrite P.
  destruct (Z.leb_spec (len bs) (Z.of_nat n)).
  - assert (F : firstn n b = bs ++ firstn (n - List.length bs) (rest c)).
    { rewrite R, firstn_app. f_equal. apply firstn_all2. unfold len in *. lia. }
    unfold load_plain. rewrite F, T. reflexivity.
  - assert (F : firstn n bs = firstn n b).
    { rewrite R at 1. rewrite firstn_app.
      replace (n - List.length bs)%nat with O by (unfold len in *; lia).
      cbn. now rewrite app_nil_r. }
    rewrite <- F. specialize (T []). rewrite app_nil_r in T.
    assert (D : {parse o (firstn n bs) = Fail (Err EEof)} + {parse o (firstn n bs) <> Fail (Err EEof)}).
    { destruct (parse o (firstn n bs)) as [|[[]| |]]; auto; right; congruence. }
    destruct D as [D|D]; [unfold load_plain; now rewrite D|].
    pose proof (parse_extend o (firstn n bs) (skipn n bs) D) as X. rewrite firstn_skipn, T in X.
    destruct (parse o (firstn n bs)) as [[g d]|g] eqn:Eg; [|congruence].
    injection X as <- X1 X2 X3.
    pose proof (parse_consumed _ _ _ _ Eg) as (bs' & R' & P' & _).
    assert (L : len (firstn n bs) = len bs' + len (rest d)) by (rewrite R'; apply len_app).
    pose proof (len_nonneg (rest d)).
    assert (len (firstn n bs) <= Z.of_nat n) by (unfold len; rewrite firstn_length; lia). lia.
Qed.

(** ** More hints *)
Definition more_hints (o o' : opts) : Prop :=
  dbg o' = dbg o /\ probe o' = probe o
  /\ forall path ty, hints o path = Some ty -> hints o' path = Some ty.

Lemma load_hints o o' b : more_hints o o' ->
  (forall path p, load_plain o b <> Fail (Err (EHint path p))) ->
  load_plain o' b = load_plain o b.
Proof.
  intros (Hd & Hp & Hh) Hne.
  pose proof (x_file (fun f => exists path p, f = Err (EHint path p)) [] o o'
    (S (List.length b)) (S (List.length b)) ltac:(cbv beta; congruence)) as X.
  specialize (X ltac:(intros path; destruct (hints o path) eqn:E;
    [left; symmetry; now apply Hh|right; split; eauto])
    ltac:(cbv beta; auto) ltac:(cbv beta; auto) ltac:(lia) ltac:(cbv beta; congruence) (start b)).
  rewrite ext_start, app_nil_r in X. unfold start in X.
  fold (parse o b) in X. fold (parse o' b) in X. unfold load_plain in *.
  destruct (parse o b) as [[f c]|f].
  - now rewrite X.
  - destruct X as [(path & p & ->)|X]; [now elim (Hne path p)|now rewrite X].
Qed.

Lemma hint_missing o b path p : load_plain o b = Fail (Err (EHint path p)) ->
  hints o path = None /\ 0 <= p <= len b.
Proof.
  unfold load_plain. destruct (parse o b) as [[f c]|f] eqn:E; [discriminate|].
  intros X; injection X as ->. split.
  - destruct (prim_fault (fun f => match f with Err (EHint path _) => hints o path = None | _ => True end)
      _ (r_file (S (List.length b)) o)) with (2 := E) as [H|H]; auto; [|discriminate].
    apply q_file; [intros [[]| |]; tauto|auto].
  - pose proof (parse_sane o b (S (List.length b)) ltac:(lia)) as Hs.
    unfold start in Hs. fold (parse o b) in Hs. rewrite E in Hs. exact Hs.
Qed.

(** ** Debug and release builds *)
Definition release (o : opts) : opts := Opts false (hints o) (probe o).
Lemma load_release o b : (forall s, load_plain o b <> Fail (Panic s)) ->
  load_plain (release o) b = load_plain o b.
Proof.
  intros Hne.
  pose proof (x_file (fun f => exists s, f = Panic s) [] o (release o)
    (S (List.length b)) (S (List.length b)) ltac:(cbv beta; congruence) ltac:(cbv beta; auto)) as X.
  specialize (X ltac:(destruct (dbg o) eqn:D; [right; cbn; repeat split; eauto|left; auto])
    eq_refl ltac:(lia) ltac:(cbv beta; congruence) (start b)).
  rewrite ext_start, app_nil_r in X. unfold start in X.
  fold (parse o b) in X. fold (parse (release o) b) in X. unfold load_plain in *.
  destruct (parse o b) as [[f c]|f].
  - now rewrite X.
  - destruct X as [(s & ->)|X]; [now elim (Hne s)|now rewrite X].
Qed.

(** ** Panics and positions *)
Lemma load_panic o b s : load_plain o b = Fail (Panic s) -> read_panic (dbg o) s.
Proof.
  unfold load_plain. pose proof (parse_sane o b (S (List.length b)) ltac:(lia)) as Hs.
  unfold start in Hs. fold (parse o b) in Hs.
  destruct (parse o b) as [[f c]|f]; [discriminate|]. intros X; injection X as ->. exact Hs.
Qed.
Lemma load_position o b e : load_plain o b = Fail (Err e) -> err_in 0 (len b) e.
Proof.
  unfold load_plain. pose proof (parse_sane o b (S (List.length b)) ltac:(lia)) as Hs.
  unfold start in Hs. fold (parse o b) in Hs.
  destruct (parse o b) as [[f c]|f]; [discriminate|]. intros X; injection X as ->. exact Hs.
Qed.
Lemma header_no_panic c s : r_header c <> Fail (Panic s).
Proof.
  intros E. pose proof (s_header (fun _ => False) (len (rest c) + 1) c ltac:(lia)) as Hs.
  rewrite E in Hs. exact Hs.
Qed.
Lemma header_terminates c : r_header c <> Fail Oof.
Proof.
  intros E. pose proof (s_header (fun _ => False) (len (rest c) + 1) c ltac:(lia)) as Hs.
  rewrite E in Hs. exact Hs.
Qed.
(** ** The location stack *)
Lemma prop_stack n o vs ty hdr sug c p c' :
  r_prop n o vs ty hdr sug c = Ok (p, c') -> stk c' = stk c.
Proof.
  intros E.
  destruct (prim_local (fun _ => True) _ _ ltac:(apply q_prop; auto) _ _ _ E) as (bs & _ & _ & Hs & _).
  exact Hs.
Qed.
