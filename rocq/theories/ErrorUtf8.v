(** Where std says that a text stops being UTF-8 is where it does (C75). *)
From Coq Require Import ZArith List Bool String Lia ZifyBool ZifyNat.
From Verif Require Import Base BaseFacts Str Guid StrFacts StrThm ErrorText ErrorSpec.
Import ListNotations.
Open Scope Z_scope.

Lemma utf8_dec_iff l : utf8 l <-> utf8_dec l <> None.
Proof.
  pose proof (utf8_dec_none l) as H. unfold utf8 in *. split; [tauto|].
  intros E. destruct (utf8_dec l) as [s|] eqn:D; [|congruence].
  apply utf8_dec_inv in D as [D1 D2]. exists s, (utf8_enc s). split; [now apply coded8|]. now rewrite <- D2.
Qed.
Lemma second3_eq c0 c1 : inr 224 239 c0 = true ->
  second3 c0 c1 = (if c0 =? 224 then inr 160 191 c1 else if c0 =? 237 then inr 128 159 c1 else inr 128 191 c1).
Proof. unfold second3, inr. destruct (Z.eqb_spec c0 224), (Z.eqb_spec c0 237); lia. Qed.
Lemma second4_eq c0 c1 : inr 240 244 c0 = true ->
  second4 c0 c1 = (if c0 =? 240 then inr 144 191 c1 else if c0 =? 244 then inr 128 143 c1 else inr 128 191 c1).
Proof. unfold second4, inr. destruct (Z.eqb_spec c0 240), (Z.eqb_spec c0 244); lia. Qed.

(** One whole character in front. *)
Definition char_front (pre : list byte) : Prop := forall x, exists c, utf8_dec (pre ++ x) = ocons c (utf8_dec x).
Lemma front_iff pre x : char_front pre -> utf8 (pre ++ x) <-> utf8 x.
Proof. intros H. destruct (H x) as [c E]. rewrite !utf8_dec_iff, E. destruct (utf8_dec x); cbn; split; congruence. Qed.
Lemma firstz_front pre l k : 0 <= k -> firstz (len pre + k) (pre ++ l) = pre ++ firstz k l.
Proof.
  intros K. unfold firstz, len. rewrite firstn_app, firstn_all2 by lia. do 2 f_equal. lia.
Qed.
Lemma front_start pre x : char_front pre -> start8 (pre ++ x) <-> start8 x.
Proof. intros H. unfold start8. split; intros [t T]; exists t; rewrite <- app_assoc in *; now apply (front_iff pre _ H). Qed.
Lemma front_bad pre l v e : char_front pre -> 0 < len pre -> first_bad l v e -> first_bad (pre ++ l) (len pre + v) e.
Proof.
  intros H P (V & A & B & C). pose proof (fun k K => firstz_front pre l k K) as F.
  assert (G : forall n, 0 <= n -> firstz (len pre + v + n) (pre ++ l) = pre ++ firstz (v + n) l).
  { intros n N. rewrite <- F by lia. f_equal. lia. }
  split; [rewrite len_app; lia|]. split; [|split].
  - rewrite F by lia. now apply front_iff.
  - intros k K. rewrite len_app in K. replace k with (len pre + (k - len pre)) by lia. rewrite F by lia.
    rewrite front_iff by exact H. apply B. lia.
  - destruct e as [n|]; [|now apply front_start]. destruct C as (C1 & C2 & C3). rewrite len_app. split; [exact C1|]. split; [lia|].
    destruct C3 as [(S1 & S2 & S3)|(S1 & S2)]; [left|right].
    + rewrite G by lia. replace (len pre + v + n + 1) with (len pre + v + (n + 1)) by lia. rewrite G by lia.
      split; [now apply front_start|]. split; [lia|]. rewrite front_start by exact H. now rewrite Z.add_assoc.
    + split; [exact S1|]. rewrite G by lia. now rewrite front_start.
Qed.

(** No character in front. *)
Lemma bad_here l e : l <> [] -> (forall k, utf8_dec (firstn (S k) l) = None) ->
  match e with
  | None => start8 l
  | Some n => 1 <= n <= 3 /\ n <= len l
      /\ (start8 (firstz n l) /\ n < len l /\ ~ start8 (firstz (n + 1) l) \/ n = 1 /\ ~ start8 (firstz 1 l))
  end -> first_bad l 0 e.
Proof.
  intros NE H E. split; [destruct l; [congruence|rewrite len_cons; pose proof (len_nonneg l); lia]|].
  split; [exists [], []; split; [constructor|reflexivity]|]. split; [|exact E].
  intros k K. rewrite utf8_dec_iff. unfold firstz. destruct (Z.to_nat k) as [|j] eqn:J; [lia|]. rewrite H. tauto.
Qed.
Ltac known := repeat match goal with H : ?x = true |- _ => progress rewrite ?H | H : ?x = false |- _ => progress rewrite ?H end.
Ltac fz := unfold firstz; repeat match goal with |- context [Z.to_nat ?n] => let m := eval compute in (Z.to_nat n) in change (Z.to_nat n) with m end.
Ltac never := intros [t0 T]; apply utf8_dec_iff in T; apply T; clear T; fz; cbn [app firstn utf8_dec];
  cbv zeta; known; cbn [andb]; try reflexivity;
  do 4 try (destruct t0 as [|? t0]; cbn [app]; known; cbn [andb]; try reflexivity).
Ltac prefix := intros k; do 5 try (destruct k as [|k]; cbn [firstn utf8_dec]; cbv zeta; known; cbn [andb]; try reflexivity);
  do 4 try (match goal with |- context [match ?x with [] => _ | _ => _ end] => destruct x end; try reflexivity).
Lemma some_second3 c0 : inr 224 239 c0 = true -> exists b, second3 c0 (b2z b) = true.
Proof.
  intros H. exists (if c0 =? 224 then Byte.xa0 else Byte.x80). rewrite second3_eq by exact H.
  destruct (Z.eqb_spec c0 224); [reflexivity|]. destruct (c0 =? 237); reflexivity.
Qed.
Lemma some_second4 c0 : inr 240 244 c0 = true -> exists b, second4 c0 (b2z b) = true.
Proof.
  intros H. exists (if c0 =? 240 then Byte.x90 else Byte.x80). rewrite second4_eq by exact H.
  destruct (Z.eqb_spec c0 240); [reflexivity|]. destruct (c0 =? 244); reflexivity.
Qed.
Ltac can t := exists t; apply utf8_dec_iff; fz; cbn [app firstn utf8_dec]; cbv zeta; known; cbn [andb];
  try (change (inr 128 191 (b2z Byte.x80)) with true; cbn [andb]); cbn [ocons]; discriminate.
Ltac front := intros x; eexists; cbn [app utf8_dec]; cbv zeta; known; cbn [andb]; reflexivity.
Lemma error_where : forall n l, (List.length l <= n)%nat ->
  match utf8_error l with None => utf8 l | Some (v, e) => first_bad l v e end.
Proof.
  induction n as [|n IH]; intros [|b0 r0] L; try (cbn in L; lia); try (cbn; exists [], []; split; [constructor|reflexivity]).
  assert (NEXT : forall pre r, char_front pre -> pre <> [] -> b0 :: r0 = pre ++ r ->
    match later (len pre) (utf8_error r) with None => utf8 (b0 :: r0) | Some (v, e) => first_bad (b0 :: r0) v e end).
  { intros pre r F NE E. rewrite E. assert (P : (0 < List.length pre)%nat) by (destruct pre; [congruence|cbn; lia]).
    specialize (IH r ltac:(apply (f_equal (@List.length byte)) in E; rewrite app_length in E; cbn in E, L; lia)).
    destruct (utf8_error r) as [[v e]|]; cbn [later]; [apply front_bad; [exact F|unfold len; lia|exact IH]|now apply front_iff]. }
  cbn [utf8_error]. cbv zeta. set (c0 := b2z b0) in *.
  destruct (inr 0 127 c0) eqn:A1. { apply (NEXT [b0] r0); [|discriminate|reflexivity]. subst c0. front. }
  destruct (inr 194 223 c0) eqn:A2.
  { destruct r0 as [|b1 r1].
    - apply bad_here; [discriminate|subst c0; prefix|]. subst c0. can [Byte.x80].
    - destruct (inr 128 191 (b2z b1)) eqn:B1; [apply (NEXT [b0; b1] r1); [subst c0; front|discriminate|reflexivity]|].
      subst c0. apply bad_here; [discriminate|prefix|]. rewrite !len_cons. pose proof (len_nonneg r1). split; [lia|]. split; [lia|]. left.
      split; [can [Byte.x80]|]. split; [lia|]. never. }
  destruct (inr 224 239 c0) eqn:A3.
  { destruct (some_second3 c0 A3) as [w W]. rewrite second3_eq in W by exact A3.
    destruct r0 as [|b1 r1].
    - subst c0. apply bad_here; [discriminate|prefix|]. can [w; Byte.x80].
    - destruct (second3 c0 (b2z b1)) eqn:B1; rewrite second3_eq in B1 by exact A3.
      + destruct r1 as [|b2 r2]; [subst c0; clear W; apply bad_here; [discriminate|prefix|]; can [Byte.x80]|].
        destruct (inr 128 191 (b2z b2)) eqn:B2; [apply (NEXT [b0; b1; b2] r2); [subst c0; clear W; front|discriminate|reflexivity]|].
        subst c0. clear W. apply bad_here; [discriminate|prefix|]. rewrite !len_cons. pose proof (len_nonneg r2). split; [lia|]. split; [lia|]. left.
        split; [can [Byte.x80]|]. split; [lia|]. never.
      + subst c0. apply bad_here; [discriminate|clear W; prefix|]. rewrite !len_cons. pose proof (len_nonneg r1). split; [lia|]. split; [lia|]. left.
        split; [clear B1; can [w; Byte.x80]|]. split; [lia|]. clear W. never. }
  destruct (inr 240 244 c0) eqn:A4.
  { destruct (some_second4 c0 A4) as [w W]. rewrite second4_eq in W by exact A4.
    destruct r0 as [|b1 r1].
    - subst c0. apply bad_here; [discriminate|prefix|]. can [w; Byte.x80; Byte.x80].
    - destruct (second4 c0 (b2z b1)) eqn:B1; rewrite second4_eq in B1 by exact A4.
      + destruct r1 as [|b2 r2]; [subst c0; clear W; apply bad_here; [discriminate|prefix|]; can [Byte.x80; Byte.x80]|].
        destruct (inr 128 191 (b2z b2)) eqn:B2.
        * destruct r2 as [|b3 r3]; [subst c0; clear W; apply bad_here; [discriminate|prefix|]; can [Byte.x80]|].
          destruct (inr 128 191 (b2z b3)) eqn:B3; [apply (NEXT [b0; b1; b2; b3] r3); [subst c0; clear W; front|discriminate|reflexivity]|].
          subst c0. clear W. apply bad_here; [discriminate|prefix|]. rewrite !len_cons. pose proof (len_nonneg r3). split; [lia|]. split; [lia|]. left.
          split; [can [Byte.x80]|]. split; [lia|]. never.
        * subst c0. clear W. apply bad_here; [discriminate|prefix|]. rewrite !len_cons. pose proof (len_nonneg r2). split; [lia|]. split; [lia|]. left.
          split; [can [Byte.x80; Byte.x80]|]. split; [lia|]. never.
      + subst c0. apply bad_here; [discriminate|clear W; prefix|]. rewrite !len_cons. pose proof (len_nonneg r1). split; [lia|]. split; [lia|]. left.
        split; [clear B1; can [w; Byte.x80; Byte.x80]|]. split; [lia|]. clear W. never. }
  subst c0. apply bad_here; [discriminate|prefix|]. rewrite len_cons. pose proof (len_nonneg r0). split; [lia|]. split; [lia|].
  right. split; [reflexivity|]. never.
Qed.

Lemma whole_bad l v e : first_bad l v e -> ~ utf8 l.
Proof.
  intros (V & _ & B & _) U. apply (B (len l) ltac:(lia)). unfold firstz, len. rewrite Nat2Z.id, firstn_all. exact U.
Qed.
Lemma start_less l j k : 0 <= j <= k -> start8 (firstz k l) -> start8 (firstz j l).
Proof.
  intros J [t T]. unfold firstz in *. rewrite <- (firstn_skipn (Z.to_nat j) (firstn (Z.to_nat k) l)) in T.
  rewrite firstn_firstn, Nat.min_l in T by lia. rewrite <- app_assoc in T. eexists. exact T.
Qed.
Lemma first_bad_one l v e v' e' : first_bad l v e -> first_bad l v' e' -> v = v' /\ e = e'.
Proof.
  intros (V & A & B & C) (V' & A' & B' & C').
  assert (v = v') as <-. { destruct (Z.lt_trichotomy v v') as [H|[H|H]]; [exfalso; exact (B v' ltac:(lia) A')|exact H|exfalso; exact (B' v ltac:(lia) A)]. }
  split; [reflexivity|].
  assert (W : start8 l -> forall k, 0 <= k -> start8 (firstz k l)).
  { intros [t T] k K. exists (skipn (Z.to_nat k) l ++ t). unfold firstz. rewrite app_assoc, firstn_skipn. exact T. }
  destruct e as [n|], e' as [n'|]; [| | |reflexivity].
  - f_equal. destruct C as (C1 & C2 & C3), C' as (D1 & D2 & D3).
    destruct C3 as [(S1 & S2 & S3)|(-> & S3)], D3 as [(T1 & T2 & T3)|(-> & T3)].
    + destruct (Z.lt_trichotomy n n') as [H|[H|H]]; [|exact H|].
      * exfalso. apply S3. apply (start_less l (v + n + 1) (v + n')); [lia|exact T1].
      * exfalso. apply T3. apply (start_less l (v + n' + 1) (v + n)); [lia|exact S1].
    + exfalso. apply T3. apply (start_less l (v + 1) (v + n)); [lia|exact S1].
    + exfalso. apply S3. apply (start_less l (v + 1) (v + n')); [lia|exact T1].
    + reflexivity.
  - exfalso. destruct C as (C1 & C2 & [(S1 & S2 & S3)|(S1 & S3)]); apply S3, W; try exact C'; lia.
  - exfalso. destruct C' as (C1 & C2 & [(S1 & S2 & S3)|(S1 & S3)]); apply S3, W; try exact C; lia.
Qed.
Lemma error_iff l v e : utf8_error l = Some (v, e) <-> first_bad l v e.
Proof.
  pose proof (error_where _ l (le_n _)) as H. split.
  - intros E. rewrite E in H. exact H.
  - intros F. destruct (utf8_error l) as [[v' e']|].
    + destruct (first_bad_one _ _ _ _ _ F H) as [<- <-]. reflexivity.
    + exfalso. exact (whole_bad _ _ _ F H).
Qed.
Lemma error_none l : utf8_error l = None <-> utf8 l.
Proof.
  pose proof (error_where _ l (le_n _)) as H. split.
  - intros E. rewrite E in H. exact H.
  - intros U. destruct (utf8_error l) as [[v e]|]; [exfalso; exact (whole_bad _ _ _ H U)|reflexivity].
Qed.
