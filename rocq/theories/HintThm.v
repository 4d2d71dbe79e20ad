(** Missing hints: what the report means and how supplying them converges. *)
From Coq Require Import ZArith List Bool String Lia ZifyBool ZifyNat.
From Verif Require Import Base Str Types Versions Text Props File BaseFacts Prim ReadThm HintRel Device Whole.
Import ListNotations.
Open Scope Z_scope.

Lemma hint_progress o o' b path p ty : more_hints o o' -> hints o' path = Some ty ->
  load_plain o b = Fail (Err (EHint path p)) ->
  match parse o' b with
  | Ok (_, c) => p < pos c
  | Fail (Err (EHint path' p')) => p < p' /\ hints o' path' = None
  | Fail _ => True
  end.
Proof.
  intros M Hp E. pose proof (adv_file o o' M (S (List.length b)) (start b)) as [_ A].
  unfold start in A. fold (parse o b) in A. fold (parse o' b) in A.
  unfold load_plain in E. destruct (parse o b) as [[f c]|f] eqn:Eo; [discriminate|].
  injection E as ->. destruct A as [[A _]|[_ A]]; [congruence|].
  destruct (parse o' b) as [[f c]|f] eqn:E'; cbn in A; [lia|].
  destruct f as [[]| |]; auto. split; [lia|].
  assert (L : load_plain o' b = Fail (Err (EHint path0 position))).
  { unfold load_plain. now rewrite E'. }
  now apply hint_missing in L.
Qed.

Section Loop.
(** What the user answers when asked for the type at a path. *)
Context (answer : str -> str).
(** Read; when a hint is missing, supply it and read again, at most [n] times. *)
Fixpoint ask_and_retry (n : nat) (o : opts) (b : list byte) : outcome (header * list (str * property)) :=
  match load_plain o b with
  | Fail (Err (EHint path p)) =>
    match n with
    | O => Fail (Err (EHint path p))
    | S n' => ask_and_retry n' (add_hint o path (answer path)) b
    end
  | r => r
  end.
Lemma retry_ends n : forall o b path p q, load_plain o b = Fail (Err (EHint path p)) ->
  (Z.to_nat (len b - p) < n)%nat -> ask_and_retry n o b <> Fail (Err (EHint q p))
  /\ forall q r, ask_and_retry n o b <> Fail (Err (EHint q r)).
Proof.
  induction n as [|n IH]; intros o b path p q E L; [lia|].
  pose proof (hint_missing o b path p E) as [Hn Hp].
  pose proof (hint_progress o (add_hint o path (answer path)) b path p (answer path)) as G.
  specialize (G (add_hint_more o path (answer path) Hn)).
  specialize (G ltac:(cbn; now rewrite str_eqb_refl) E).
  assert (X : forall q r, ask_and_retry (S n) o b <> Fail (Err (EHint q r))).
  { intros q' r. cbn [ask_and_retry]. rewrite E.
    destruct (load_plain (add_hint o path (answer path)) b) as [f|f] eqn:E1.
    - destruct n; cbn [ask_and_retry]; rewrite E1; discriminate.
    - assert (D : (exists a c, f = Err (EHint a c)) \/ forall a c, f <> Err (EHint a c)).
      { destruct f as [[]| |]; try (right; intros; discriminate). left. eauto. }
      destruct D as [(a & c & ->)|D].
      + pose proof (hint_missing _ _ _ _ E1) as [_ Hc].
        unfold load_plain in E1. destruct (parse (add_hint o path (answer path)) b) as [[f k]|f] eqn:E2; [discriminate|].
        injection E1 as ->. destruct G as [G _].
        assert (E3 : load_plain (add_hint o path (answer path)) b = Fail (Err (EHint a c)))
          by (unfold load_plain; now rewrite E2).
        apply (IH _ b a c q' E3). lia.
      + intros X. assert (ask_and_retry n (add_hint o path (answer path)) b = Fail f).
        { destruct n; cbn [ask_and_retry]; rewrite E1; destruct f as [[]| |]; try reflexivity; now elim (D path0 position). }
        rewrite H in X. injection X as ->. now elim (D q' r). }
  split; [apply X|exact X].
Qed.
Lemma retry_converges o b q r : ask_and_retry (S (List.length b)) o b <> Fail (Err (EHint q r)).
Proof.
  destruct (load_plain o b) as [f|f] eqn:E.
  - cbn [ask_and_retry]. rewrite E. discriminate.
  - assert (D : (exists a c, f = Err (EHint a c)) \/ forall a c, f <> Err (EHint a c)).
    { destruct f as [[]| |]; try (right; intros; discriminate). left. eauto. }
    destruct D as [(a & c & ->)|D].
    + apply (retry_ends _ o b a c q E). pose proof (hint_missing _ _ _ _ E) as [_ Hc]. unfold len in *. lia.
    + cbn [ask_and_retry]. rewrite E. destruct f as [[]| |]; try discriminate. now elim (D path position).
Qed.
(** The answers given on the way do not disturb: the final answer is what a read
    with the final hint table gives. *)
Lemma retry_is_read n : forall o b, exists o', dbg o' = dbg o /\ probe o' = probe o
  /\ (forall path ty, hints o path = Some ty -> hints o' path = Some ty)
  /\ ask_and_retry n o b = load_plain o' b.
Proof.
  induction n as [|n IH]; intros o b.
  - exists o. repeat split; auto. cbn [ask_and_retry].
    destruct (load_plain o b) as [f|[[]| |]]; reflexivity.
  - cbn [ask_and_retry]. destruct (load_plain o b) as [f|f] eqn:E.
    + exists o. repeat split; auto.
    + assert (D : (exists a c, f = Err (EHint a c)) \/ forall a c, f <> Err (EHint a c)).
      { destruct f as [[]| |]; try (right; intros; discriminate). left. eauto. }
      destruct D as [(a & c & ->)|D].
      * destruct (IH (add_hint o a (answer a)) b) as (o' & D1 & P1 & H1 & E1).
        pose proof (hint_missing o b a c E) as [Hn _].
        destruct (add_hint_more o a (answer a) Hn) as (D2 & P2 & H2).
        exists o'. repeat split; try congruence. auto.
      * exists o. repeat split; auto. destruct f as [[]| |]; auto. now elim (D path position).
Qed.
End Loop.
