(** Two properties of readers, closed under composition.

    [sane]: what one run does to the cursor and which faults it can raise.
    [rr]: how two runs relate when the second gets more input, more fuel, more
    hints or a release build. *)
From Coq Require Import ZArith List Bool String Lia ZifyBool ZifyNat.
From Verif Require Import Base BaseFacts.
Import ListNotations.
Open Scope Z_scope.

(** ** One run *)

(** Positions carried by an error lie in the given range; errors of the container,
    of zlib and of saving do not occur. *)
Definition err_in (lo hi : Z) (e : error) : Prop :=
  match e with
  | EEof | EHeader _ _ => True
  | EIo | EMagic _ | ESerialize _ => False
  | EValueSize _ _ p | EString _ p | EStrTerm _ p | EBool _ p | EHint _ p
  | EProperty _ p | EEnum _ _ p | EArrayIndex _ p | ETerm _ p
  | EUtf16 p | EUtf8 p => lo <= p <= hi
  end.

(** From a cursor with fewer than [N] bytes left: a successful run consumes a
    prefix of at least [lo] bytes, advances the position by as much and leaves
    the path stack alone; a failing run reports a position inside the input, or
    panics at a site in [P]; it never runs out of fuel. *)
Definition sane (P : psite -> Prop) (N lo : Z) {A} (r : reader A) : Prop :=
  forall c, len (rest c) < N ->
  match r c with
  | Ok (_, c') => exists bs, rest c = bs ++ rest c' /\ pos c' = pos c + len bs
                             /\ lo <= len bs /\ stk c' = stk c
  | Fail (Err e) => err_in (pos c) (pos c + len (rest c)) e
  | Fail (Panic s) => P s
  | Fail Oof => False
  end.

Lemma err_in_weaken lo hi lo' hi' e : lo' <= lo -> hi <= hi' -> err_in lo hi e -> err_in lo' hi' e.
Proof. destruct e; cbn; lia. Qed.

Section Sane.
Context (P : psite -> Prop).

Lemma sane_weaken N lo N' lo' {A} (r : reader A) :
  sane P N lo r -> N' <= N -> lo' <= lo -> sane P N' lo' r.
Proof.
  intros H HN Hlo c Hc. specialize (H c ltac:(lia)).
  destruct (r c) as [[a c']|[]]; auto.
  destruct H as (bs & ? & ? & ? & ?). exists bs. repeat split; auto; lia.
Qed.

Lemma sane_ret N lo {A} (a : A) : lo <= 0 -> sane P N lo (ret a).
Proof. intros H c Hc. cbn. exists []. rewrite len_nil. repeat split; auto; lia. Qed.

Lemma sane_bind N lo l1 {A B} (r : reader A) (k : A -> reader B) :
  sane P N l1 r -> (forall a, sane P (N - l1) (lo - l1) (k a)) -> sane P N lo (bind r k).
Proof.
  intros H1 H2 c Hc. unfold bind. specialize (H1 c Hc).
  destruct (r c) as [[a c1]|[]]; auto.
  destruct H1 as (b1 & E1 & P1 & L1 & S1).
  assert (HL : len (rest c) = len b1 + len (rest c1)) by (rewrite E1; apply len_app).
  specialize (H2 a c1 ltac:(lia)).
  destruct (k a c1) as [[x c2]|[]]; auto.
  - destruct H2 as (b2 & E2 & P2 & L2 & S2). exists (b1 ++ b2).
    rewrite E1, E2, len_app, app_assoc. repeat split; auto; lia || congruence.
  - pose proof (len_nonneg b1). eapply err_in_weaken; [| |exact H2]; lia.
Qed.

Lemma sane_fail N lo {A} f : match f with
                             | Err e => forall c, err_in (pos c) (pos c + len (rest c)) e
                             | Panic s => P s
                             | Oof => False
                             end -> sane P N lo (@fail A f).
Proof. intros H c Hc. unfold fail. destruct f; auto. Qed.

Lemma sane_panic N lo {A} s : P s -> sane P N lo (@fail A (Panic s)).
Proof. intros H. apply sane_fail. exact H. Qed.

Lemma sane_position_fail N lo {A} (f : Z -> error) :
  (forall p lo hi, lo <= p <= hi -> err_in lo hi (f p)) ->
  sane P N lo (p <- position ;; @fail A (Err (f p))).
Proof.
  intros H c Hc. cbn. apply H. pose proof (len_nonneg (rest c)). lia.
Qed.

Lemma sane_position N : sane P N 0 position.
Proof. intros c Hc. cbn. exists []. rewrite len_nil. repeat split; auto; lia. Qed.

Lemma sane_get_stk N : sane P N 0 get_stk.
Proof. intros c Hc. cbn. exists []. rewrite len_nil. repeat split; auto; lia. Qed.

Lemma sane_take N n : sane P N n (take n).
Proof.
  intros c Hc. unfold take. destruct (Z.leb_spec n (len (rest c))); [|exact I].
  exists (firstn (Z.to_nat n) (rest c)). cbn. rewrite firstn_skipn.
  unfold len in *. rewrite firstn_length. repeat split; lia.
Qed.

Lemma sane_scoped N lo {A} s (r : reader A) : sane P N lo r -> sane P N lo (scoped s r).
Proof.
  intros H c Hc. unfold scoped, bind, push, pop, ret.
  specialize (H (Cur (pos c) (rest c) (s :: stk c)) Hc).
  destruct (r _) as [[a c']|[]]; auto.
  destruct H as (bs & E & Hp & Hl & Hs). cbn in *. exists bs. rewrite Hs. auto.
Qed.

Lemma sane_repn N {A} n (r : reader A) : sane P N 0 r -> sane P N 0 (repn n r).
Proof.
  intros H. induction n as [|n IH]; cbn [repn].
  - apply sane_ret. lia.
  - eapply sane_bind; [exact H|intros a]. rewrite !Z.sub_0_r.
    eapply sane_bind; [exact IH|intros l]. apply sane_ret. lia.
Qed.

Lemma sane_rep N {A} n (r : reader A) : sane P N 0 r -> sane P N 0 (rep n r).
Proof. intros H c Hc. rewrite rep_repn. exact (sane_repn N (Z.to_nat n) r H c Hc). Qed.

Lemma sane_mapM N {A B} (f : A -> reader B) l :
  (forall a, sane P N 0 (f a)) -> sane P N 0 (mapM f l).
Proof.
  intros H. induction l as [|a l IH]; cbn [mapM].
  - apply sane_ret. lia.
  - eapply sane_bind; [apply H|intros b]. rewrite !Z.sub_0_r.
    eapply sane_bind; [exact IH|intros l']. apply sane_ret. lia.
Qed.

End Sane.

(** ** Two runs *)

(** The same cursor with more input behind it. *)
Definition ext (t : list byte) (c : cur) : cur := Cur (pos c) (rest c ++ t) (stk c).

(** The second run, on input extended by [t], agrees with the first unless the
    first failed with a fault in [Bad]. *)
Definition rr (Bad : fault -> Prop) (t : list byte) {A} (r r' : reader A) : Prop :=
  forall c, match r c with
            | Ok (a, c') => r' (ext t c) = Ok (a, ext t c')
            | Fail f => Bad f \/ r' (ext t c) = Fail f
            end.

Section Rr.
Context (Bad : fault -> Prop) (t : list byte).

Lemma rr_ret {A} (a : A) : rr Bad t (ret a) (ret a).
Proof. intros c. reflexivity. Qed.
Lemma rr_fail {A} f : rr Bad t (@fail A f) (fail f).
Proof. intros c. cbn. auto. Qed.
Lemma rr_bad {A} f (r : reader A) : Bad f -> rr Bad t (fail f) r.
Proof. intros H c. cbn. auto. Qed.
Lemma rr_bind {A B} (r r' : reader A) (k k' : A -> reader B) :
  rr Bad t r r' -> (forall a, rr Bad t (k a) (k' a)) -> rr Bad t (bind r k) (bind r' k').
Proof.
  intros H1 H2 c. unfold bind. specialize (H1 c).
  destruct (r c) as [[a c1]|f].
  - rewrite H1. apply H2.
  - destruct H1 as [H1|H1]; [auto|]. rewrite H1. auto.
Qed.
Lemma rr_position : rr Bad t position position.
Proof. intros c. reflexivity. Qed.
Lemma rr_get_stk : rr Bad t get_stk get_stk.
Proof. intros c. reflexivity. Qed.
Lemma rr_take n : (t <> [] -> Bad (Err EEof)) -> rr Bad t (take n) (take n).
Proof.
  intros H c. unfold take, ext. cbn [pos rest stk].
  destruct (Z.leb_spec n (len (rest c))).
  - rewrite len_app. pose proof (len_nonneg t).
    destruct (Z.leb_spec n (len (rest c) + len t)); [|lia].
    rewrite firstn_app, skipn_app.
    replace (Z.to_nat n - List.length (rest c))%nat with O by (unfold len in *; lia).
    cbn. rewrite app_nil_r. reflexivity.
  - destruct t as [|x t'] eqn:E.
    + right. rewrite app_nil_r. destruct (Z.leb_spec n (len (rest c))); [lia|reflexivity].
    + left. apply H. discriminate.
Qed.
Lemma rr_scoped {A} s (r r' : reader A) : rr Bad t r r' -> rr Bad t (scoped s r) (scoped s r').
Proof.
  intros H c. unfold scoped, bind, push, pop, ret.
  specialize (H (Cur (pos c) (rest c) (s :: stk c))).
  change (Cur (pos (ext t c)) (rest (ext t c)) (s :: stk (ext t c)))
    with (ext t (Cur (pos c) (rest c) (s :: stk c))).
  destruct (r _) as [[a c']|f].
  - rewrite H. reflexivity.
  - destruct H as [H|H]; [auto|]. rewrite H. auto.
Qed.
Lemma rr_repn {A} n (r r' : reader A) : rr Bad t r r' -> rr Bad t (repn n r) (repn n r').
Proof.
  intros H. induction n as [|n IH]; cbn [repn]; [apply rr_ret|].
  apply rr_bind; [exact H|intros]. apply rr_bind; [exact IH|intros]. apply rr_ret.
Qed.
Lemma rr_rep {A} n (r r' : reader A) : rr Bad t r r' -> rr Bad t (rep n r) (rep n r').
Proof. intros H c. rewrite !rep_repn. exact (rr_repn _ r r' H c). Qed.
Lemma rr_mapM {A B} (f f' : A -> reader B) l :
  (forall a, rr Bad t (f a) (f' a)) -> rr Bad t (mapM f l) (mapM f' l).
Proof.
  intros H. induction l as [|a l IH]; cbn [mapM]; [apply rr_ret|].
  apply rr_bind; [apply H|intros]. apply rr_bind; [exact IH|intros]. apply rr_ret.
Qed.
End Rr.
