(** Every text of the grammar is accepted, unless it nests too deep; running out of fuel
    does not happen. *)
From Coq Require Import ZArith List Bool String Lia ZifyBool ZifyNat QArith.
From Verif Require Import Base Str Json Numeral Nearest MapFacts BaseFacts JsonSyntax JsonGrammar JsonRead GrammarText.
Import ListNotations.
Open Scope Z_scope.

Scheme json_text_ind2 := Induction for text_as Sort Prop
  with items_ind2 := Induction for items_as Sort Prop
  with members_ind2 := Induction for members_as Sort Prop
  with member_ind2 := Induction for member_as Sort Prop.
Combined Scheme json_text_all from json_text_ind2, items_ind2, members_ind2, member_ind2.

(** ** First characters *)
Definition starts (s : str) : Prop := exists c r, s = c :: r /\ is_space c = false /\ c <> 93 /\ c <> 125 /\ c <> 44.
Lemma whole_starts i t : whole i -> exists c r, i ++ t = c :: r /\ is_digit c = true.
Proof. intros (N & D & _). destruct D as [|c i D _]; [easy|]. exists c, (i ++ t). split; [reflexivity|now apply is_digit_iff]. Qed.
Lemma starts_skip s t : starts s -> skip (s ++ t) = s ++ t.
Proof. intros (c & r & -> & S & _). now apply skip_stop. Qed.
Lemma starts_length s : starts s -> (1 <= List.length s)%nat.
Proof. intros (c & r & -> & _). cbn [List.length]. lia. Qed.

(** ** Scalars *)
Lemma digit_cases c : is_digit c = true ->
  (c =? 110) = false /\ (c =? 116) = false /\ (c =? 102) = false /\ (c =? 45) = false.
Proof. unfold is_digit. lia. Qed.
Lemma number_complete j w t : num_text j w -> follow t -> exists neg c r,
  w = (if neg : bool then [45] else []) ++ c :: r /\ is_digit c = true /\ p_number neg ((c :: r) ++ t) = POk (j, t).
Proof.
  intros [i W V|i W V|neg i f x e y b W FX EY G R FI] T.
  - pose proof (number_lexed false i [] [] 0 [] t W fr_none ex_none T) as L. cbn [app] in L.
    destruct (whole_starts i [] W) as (c & r & E & D). rewrite app_nil_r in E. subst i. exists false, c, r. split; [reflexivity|]. split; [exact D|]. rewrite L.
    change (2 ^ 64) with 18446744073709551616 in V. now replace (value (c :: r) <? 18446744073709551616) with true by lia.
  - pose proof (number_lexed true i [] [] 0 [] t W fr_none ex_none T) as L. cbn [app] in L.
    destruct (whole_starts i [] W) as (c & r & E & D). rewrite app_nil_r in E. subst i. exists true, c, r. split; [reflexivity|]. split; [exact D|]. rewrite L.
    change (2 ^ 63) with 9223372036854775808 in V. now replace ((0 <? value (c :: r)) && (value (c :: r) <=? 9223372036854775808)) with true by lia.
  - assert (NN : 0 <= value (i ++ f)) by (apply value_nonneg, Forall_app; split; [apply W|apply (fraction_digits _ _ FX)]).
    assert (RC := real_complete neg _ _ b NN R FI).
    destruct (whole_starts i (x ++ y) W) as (c & r & E & D). exists neg, c, r. split; [now rewrite E|]. split; [exact D|]. rewrite <- E, <- !app_assoc.
    rewrite (number_lexed neg i f x e y t W FX EY T). change (len f) with (Z.of_nat (List.length f)). rewrite RC. cbn [pbind].
    destruct FX as [|g GN GD]; [|destruct EY; reflexivity]. destruct EY as [|]; [|reflexivity].
    specialize (G eq_refl eq_refl). cbn [List.length] in RC. rewrite app_nil_r in RC. change (0 - Z.of_nat 0) with 0 in RC.
    change (2 ^ 63) with 9223372036854775808 in G. change (2 ^ 64) with 18446744073709551616 in G.
    destruct neg; rewrite RC.
    + now replace ((0 <? value i) && (value i <=? 9223372036854775808)) with false by lia.
    + now replace (value i <? 18446744073709551616) with false by lia.
Qed.
(** ** Fuel *)
Definition fueled {A} (r : pres A) : Prop := r <> PErr PFuel.
Lemma fueled_bind {A B} (r : pres A) (k : A -> pres B) : fueled r -> (forall a, r = POk a -> fueled (k a)) -> fueled (pbind r k).
Proof. destruct r as [a|e]; cbn [pbind]; [auto|]. intros F _ E. apply F. congruence. Qed.
Lemma fueled_ok {A} (a : A) : fueled (POk a). Proof. discriminate. Qed.
Lemma fueled_syntax {A} : fueled (@PErr A PSyntax). Proof. discriminate. Qed.
Lemma fraction_fueled s : fueled (p_fraction s).
Proof. unfold p_fraction. destruct s as [|c s]; [discriminate|]. destruct (c =? 46); [|discriminate]. destruct (span s) as [[|] ?]; discriminate. Qed.
Lemma exponent_fueled s : fueled (p_exponent s).
Proof.
  unfold p_exponent. destruct s as [|c s]; [discriminate|]. destruct ((c =? 101) || (c =? 69)); [|discriminate].
  match goal with |- fueled (let '(_, _) := ?m in _) => destruct m end. destruct (span _) as [[|] ?]; discriminate.
Qed.
Lemma real_fueled neg n e : fueled (p_real neg n e).
Proof. unfold p_real. now destruct (_ =? _). Qed.
Lemma number_fueled neg s : fueled (p_number neg s).
Proof.
  unfold p_number. destruct (span s) as [[|c i] r]; [discriminate|]. destruct (_ && _); [discriminate|].
  apply fueled_bind; [apply fraction_fueled|]. intros [f r1] _. apply fueled_bind; [apply exponent_fueled|]. intros [e r2] _.
  assert (R : forall a b c, fueled (pbind (p_real a b c) (fun j => POk (j, r2)))) by (intros; apply fueled_bind; [apply real_fueled|discriminate]).
  destruct f; [apply R|]. destruct e; [apply R|]. destruct neg; [destruct (_ && _)|destruct (_ <? _)]; try discriminate; apply R.
Qed.
Lemma chars_fueled n : forall s, (List.length s < n)%nat -> fueled (p_chars s).
Proof.
  assert (PC : forall c r, fueled r -> fueled (pcons c r)) by (intros; apply fueled_bind; [assumption|intros []; discriminate]).
  induction n as [|n IH]; [lia|]. intros s L. destruct s as [|c s]; [discriminate|]. cbn [List.length] in L. cbn [p_chars].
  destruct (c =? 34); [discriminate|]. destruct (c =? 92).
  - destruct s as [|e s]; [discriminate|]. cbn [List.length] in L. destruct (e =? 117).
    + destruct s as [|a1 [|a2 [|a3 [|a4 s]]]]; try discriminate. cbn [List.length] in L. destruct (hex4 _ _ _ _); [|discriminate].
      destruct (_ && _).
      * destruct s as [|b1 [|b2 [|b3 [|b4 [|b5 [|b6 s]]]]]]; try discriminate. cbn [List.length] in L. destruct (_ && _); [|discriminate].
        destruct (hex4 _ _ _ _); [|discriminate]. destruct (_ && _); [|discriminate]. apply PC, IH. lia.
      * destruct (_ && _); [discriminate|]. apply PC, IH. lia.
    + destruct (unescape e); [|discriminate]. apply PC, IH. lia.
  - destruct (c <? 32); [discriminate|]. apply PC, IH. lia.
Qed.
Lemma word_fueled w j : forall s, fueled (p_word w j s).
Proof. induction w as [|c w IH]; intros s; cbn [p_word]; [discriminate|]. destruct s; [discriminate|]. destruct (_ =? _); [apply IH|discriminate]. Qed.
Lemma skip_length s : (List.length (skip s) <= List.length s)%nat.
Proof. induction s as [|c s IH]; [cbn; lia|]. cbn [skip]. destruct (is_space c); cbn [List.length]; lia. Qed.
Section Parser.
Context (mk : list (str * json) -> list (str * json)) (num : bool -> str -> pres (json * str)) (chs : str -> pres (str * str))
  (merge : list (str * json) -> list (str * json) -> Prop) (number : json -> str -> Prop) (inside : str -> str -> Prop)
  (merges : forall l m, merge l m <-> m = mk l) (merges_none : mk [] = [])
  (num_sound : forall neg s j t, num neg s = POk (j, t) -> exists w, s = w ++ t /\ number j ((if neg then [45] else []) ++ w))
  (chs_sound : forall s x t, chs s = POk (x, t) -> exists w, s = w ++ 34 :: t /\ inside x w)
  (num_complete : forall j w t, number j w -> follow t -> exists neg c r,
    w = (if neg : bool then [45] else []) ++ c :: r /\ is_digit c = true /\ num neg ((c :: r) ++ t) = POk (j, t))
  (chs_complete : forall x w t, inside x w -> chs (w ++ 34 :: t) = POk (x, t))
  (num_fueled : forall neg s, fueled (num neg s)) (chs_fueled : forall s, fueled (chs s)).
Local Notation p_value := (p_value mk num chs).
Local Notation p_items := (p_items mk num chs).
Local Notation p_members := (p_members mk num chs).
Local Notation p_item := (p_item mk num chs).
Local Notation p_member := (p_member mk num chs).
Local Notation json_text := (text_as merge number inside).
Local Notation items := (items_as merge number inside).
Local Notation members := (members_as merge number inside).
Local Notation member := (member_as merge number inside).
Local Notation quoted := (quoted_as inside).
Local Notation document := (document_as merge number inside).
Lemma number_starts j s : number j s -> starts s.
Proof.
  intros H. destruct (num_complete j s [] H I) as ([|] & c & r & -> & D & _); (eexists; eexists; split; [reflexivity|]); [repeat split; discriminate|].
  unfold is_digit in D. unfold is_space. lia.
Qed.
Lemma text_starts d j s : json_text d j s -> starts s.
Proof.
  intros []; try (do 2 eexists; split; [reflexivity|]; repeat split; discriminate).
  - now apply (number_starts j0).
  - destruct H as (w & _ & ->). do 2 eexists; split; [reflexivity|]; repeat split; discriminate.
Qed.
(** ** Leading white space *)
Lemma value_skip n d a s : spaces a -> p_value n d (a ++ s) = p_value n d s.
Proof. intros A. destruct n as [|n]; [reflexivity|]. now rewrite !p_value_S, skip_app. Qed.
Lemma items_skip n d first a s : spaces a -> p_items n d first (a ++ s) = p_items n d first s.
Proof. intros A. destruct n as [|n]; [reflexivity|]. now rewrite !p_items_S, skip_app. Qed.
Lemma members_skip n d first a s : spaces a -> p_members n d first (a ++ s) = p_members n d first s.
Proof. intros A. destruct n as [|n]; [reflexivity|]. now rewrite !p_members_S, skip_app. Qed.

Lemma value_number n d j s t : number j s -> follow t -> p_value (S n) d (s ++ t) = POk (j, t).
Proof.
  intros H T. destruct (num_complete j s t H T) as ([|] & c & r & -> & D & <-); cbn [app].
  - now rewrite p_value_S, skip_stop.
  - rewrite p_value_S. rewrite skip_stop by (unfold is_digit, is_space in *; lia). destruct (digit_cases c D) as (-> & -> & -> & ->). now rewrite D.
Qed.
Lemma string_complete n d x s t : quoted x s -> p_value (S n) d (s ++ t) = POk (JStr x, t).
Proof.
  intros (w & C & ->). rewrite p_value_S. cbn [app]. rewrite skip_stop by reflexivity. cbn [Z.eqb Pos.eqb].
  change (is_digit 34) with false. cbn iota. rewrite <- app_assoc. cbn [app]. now rewrite (chs_complete x w t C).
Qed.
Lemma array_open n d s : p_value (S n) (S d) (91 :: s) = ('(l, t) <- p_items n d true s ;;; POk (JArr l, t)).
Proof. reflexivity. Qed.
Lemma object_open n d s : p_value (S n) (S d) (123 :: s) = ('(l, t) <- p_members n d true s ;;; POk (JObj (mk l), t)).
Proof. reflexivity. Qed.

(** ** The whole *)
Definition within {A} (d D : nat) (a : A) : pres A := if (d <=? D)%nat then POk a else PErr PDepth.
Lemma within_S {A} d D (a : A) : within (S d) (S D) a = within d D a.
Proof. reflexivity. Qed.
Definition value_done d j s := forall n D t, (2 * List.length s <= n)%nat -> follow t -> p_value n D (s ++ t) = within d D (j, t).
Definition items_done d l s := forall n D first t, (2 * List.length s + 2 <= n)%nat ->
  p_items n D first ((if first : bool then [] else [44]) ++ s ++ 93 :: t) = within d D (l, t).
Definition members_done d l s := forall n D first t, (2 * List.length s + 2 <= n)%nat ->
  p_members n D first ((if first : bool then [] else [44]) ++ s ++ 125 :: t) = within d D (l, t).
Definition member_done d (k : str) v s := exists a q b c w e, spaces a /\ quoted k q /\ spaces b /\ spaces c /\ starts w /\ value_done d v w
  /\ spaces e /\ s = a ++ q ++ b ++ 58 :: c ++ w ++ e.

Lemma items_step d v a s n D first z : spaces a -> starts s ->
  value_done d v s -> (1 <= n)%nat ->
  p_items (S n) D first ((if first : bool then [] else [44]) ++ a ++ s ++ z) = p_item n D (s ++ z).
Proof.
  intros A ST _ _. destruct ST as (c & r & -> & SP & N & _ & NC). rewrite p_items_S. destruct first; cbn [app].
  - rewrite skip_app, skip_stop by assumption. now replace (c =? 93) with false by lia.
  - rewrite skip_stop by reflexivity. cbn [Z.eqb Pos.eqb]. rewrite skip_app, skip_stop by assumption. now replace (c =? 93) with false by lia.
Qed.
Lemma members_step n D first k q b c w z : quoted k q -> spaces b -> spaces c ->
  forall a, spaces a ->
  p_members (S n) D first ((if first : bool then [] else [44]) ++ a ++ q ++ b ++ 58 :: c ++ w ++ z)
  = ('(v, q3) <- p_value n D (w ++ z) ;;; '(l, q4) <- p_members n D false q3 ;;; POk ((k, v) :: l, q4)).
Proof.
  intros (x & C & ->) B CC a A.
  assert (E : p_member n D 34 (x ++ 34 :: b ++ 58 :: c ++ w ++ z)
    = ('(v, q3) <- p_value n D (w ++ z) ;;; '(l, q4) <- p_members n D false q3 ;;; POk ((k, v) :: l, q4))).
  { unfold p_member. rewrite Z.eqb_refl, (chs_complete k x _ C). cbn [pbind]. rewrite skip_app, skip_stop by auto.
    rewrite Z.eqb_refl. now rewrite value_skip. }
  rewrite p_members_S. cbn [app]. rewrite <- (app_assoc x). cbn [app]. destruct first; cbn [app].
  - rewrite skip_app, skip_stop by auto. exact E.
  - rewrite skip_stop by reflexivity. cbn [Z.eqb Pos.eqb]. rewrite skip_app, skip_stop by auto. exact E.
Qed.
Lemma within_max {A} d e D (x : A) : within (Nat.max d e) D x = if (d <=? D)%nat then within e D x else PErr PDepth.
Proof.
  unfold within. destruct (d <=? D)%nat eqn:X, (e <=? D)%nat eqn:Y; destruct (Nat.max d e <=? D)%nat eqn:M; try reflexivity; lia.
Qed.

Lemma parser_complete : (forall d j s, json_text d j s -> value_done d j s)
  /\ (forall d l s, items d l s -> items_done d l s) /\ (forall d l s, members d l s -> members_done d l s)
  /\ (forall d k v s, member d k v s -> member_done d k v s).
Proof.
  apply json_text_all.
  - intros n D t L T. destruct n as [|n]; [cbn in L; lia|]. reflexivity.
  - intros n D t L T. destruct n as [|n]; [cbn in L; lia|]. reflexivity.
  - intros n D t L T. destruct n as [|n]; [cbn in L; lia|]. reflexivity.
  - intros j s N n D t L T. pose proof (starts_length s (number_starts j s N)). destruct n as [|n]; [lia|].
    rewrite (value_number n D j s t N T). reflexivity.
  - intros x s Q n D t L T. destruct n as [|n]; [destruct Q as (w & _ & ->); cbn in L; lia|].
    rewrite (string_complete n D x s t Q). reflexivity.
  - intros s A n D t L T. cbn [List.length] in L. rewrite app_length in L. cbn [List.length] in L.
    destruct n as [|[|n]]; [lia..|]. destruct D as [|D]; [reflexivity|]. cbn [app]. rewrite <- app_assoc, array_open, items_skip by assumption. reflexivity.
  - intros d l s _ IH n D t L T. cbn [List.length] in L. rewrite app_length in L. cbn [List.length] in L.
    destruct n as [|n]; [lia|]. destruct D as [|D]; [reflexivity|]. cbn [app]. rewrite <- app_assoc, array_open. cbn [app].
    pose proof (IH n D true t ltac:(lia)) as E. cbn [app] in E. rewrite E. unfold within. cbn [Nat.leb]. now destruct (d <=? D)%nat.
  - intros s A n D t L T. cbn [List.length] in L. rewrite app_length in L. cbn [List.length] in L.
    destruct n as [|[|n]]; [lia..|]. destruct D as [|D]; [reflexivity|]. cbn [app]. rewrite <- app_assoc, object_open, members_skip by assumption. cbn -[within]. rewrite merges_none. reflexivity.
  - intros d l m s _ IH C n D t L T. cbn [List.length] in L. rewrite app_length in L. cbn [List.length] in L. apply merges in C. subst m.
    destruct n as [|n]; [lia|]. destruct D as [|D]; [reflexivity|]. cbn [app]. rewrite <- app_assoc, object_open. cbn [app].
    pose proof (IH n D true t ltac:(lia)) as E. cbn [app] in E. rewrite E. unfold within. cbn [Nat.leb]. now destruct (d <=? D)%nat.
  - intros d v a s b A T IH B n D first t L. rewrite !app_length in L. pose proof (starts_length s (text_starts _ _ _ T)) as SL.
    destruct n as [|n]; [lia|]. rewrite <- !app_assoc. rewrite (items_step d v) by (eauto using text_starts; lia).
    unfold p_item. rewrite (IH n D (b ++ 93 :: t)) by first [lia|apply follow_spaces; [exact B|cbn; tauto]].
    unfold within. destruct (d <=? D)%nat; cbn [pbind]; [|reflexivity]. rewrite items_skip by assumption. destruct n as [|n]; [lia|]. reflexivity.
  - intros d e v l a s b r A T IH B _ IHr n D first t L. rewrite !app_length in L. cbn [List.length] in L.
    pose proof (starts_length s (text_starts _ _ _ T)) as SL.
    destruct n as [|n]; [lia|]. rewrite <- !app_assoc. rewrite (items_step d v) by (eauto using text_starts; lia).
    unfold p_item. cbn [app]. rewrite (IH n D (b ++ 44 :: r ++ 93 :: t)) by first [lia|apply follow_spaces; [exact B|cbn; tauto]].
    rewrite within_max. unfold within at 1. destruct (d <=? D)%nat; cbn [pbind]; [|reflexivity]. rewrite items_skip by assumption.
    pose proof (IHr n D false t ltac:(lia)) as E. cbn [app] in E. rewrite E. unfold within. now destruct (e <=? D)%nat.
  - intros d k v s _ (a & q & b & c & w & e & A & Q & B & C & ST & IH & E & ->) n D first t L.
    rewrite !app_length in L. cbn [List.length] in L. rewrite !app_length in L. pose proof (starts_length w ST) as SL.
    destruct n as [|n]; [lia|]. rewrite <- !app_assoc. cbn [app]. rewrite <- !app_assoc.
    rewrite (members_step n D first k q b c w (e ++ 125 :: t) Q B C a A).
    rewrite (IH n D (e ++ 125 :: t)) by first [lia|apply follow_spaces; [exact E|cbn; tauto]].
    unfold within. destruct (d <=? D)%nat; cbn [pbind]; [|reflexivity]. rewrite members_skip by assumption. destruct n as [|n]; [lia|]. reflexivity.
  - intros d f k v l s r _ (a & q & b & c & w & e & A & Q & B & C & ST & IH & E & ->) _ IHr n D first t L.
    rewrite !app_length in L. cbn [List.length] in L. rewrite !app_length in L. pose proof (starts_length w ST) as SL.
    destruct n as [|n]; [lia|]. rewrite <- !app_assoc. cbn [app]. rewrite <- !app_assoc. cbn [app].
    rewrite (members_step n D first k q b c w (e ++ 44 :: r ++ 125 :: t) Q B C a A).
    rewrite (IH n D (e ++ 44 :: r ++ 125 :: t)) by first [lia|apply follow_spaces; [exact E|cbn; tauto]].
    rewrite within_max. unfold within at 1. destruct (d <=? D)%nat; cbn [pbind]; [|reflexivity]. rewrite members_skip by assumption.
    pose proof (IHr n D false t ltac:(lia)) as EE. cbn [app] in EE. rewrite EE. unfold within. now destruct (f <=? D)%nat.
  - intros d k v q a b c s e A Q B C T IH E. exists a, q, b, c, s, e. repeat (split; [eauto using text_starts|]). reflexivity.
Qed.

Lemma value_less n d s j t : p_value n d s = POk (j, t) -> (List.length t < List.length s)%nat.
Proof.
  intros H. destruct (parser_sound mk num chs merge number inside merges merges_none num_sound chs_sound n) as (V & _). apply V in H as (e & a & w & -> & _ & T & _).
  pose proof (starts_length w (text_starts _ _ _ T)). rewrite !app_length. lia.
Qed.
Lemma chs_less s x t : chs s = POk (x, t) -> (List.length t < List.length s)%nat.
Proof. intros H. apply chs_sound in H as (w & -> & _). rewrite app_length. cbn [List.length]. lia. Qed.
Lemma parser_fueled n : (forall d s, (2 * List.length s + 1 <= n)%nat -> fueled (p_value n d s))
  /\ (forall d first s, (2 * List.length s + 2 <= n)%nat -> fueled (p_items n d first s))
  /\ (forall d first s, (2 * List.length s + 2 <= n)%nat -> fueled (p_members n d first s)).
Proof.
  induction n as [|n (V & I & M)]; [repeat split; intros; lia|]. split; [|split].
  - intros d s L. rewrite p_value_S. pose proof (skip_length s) as K. destruct (skip s) as [|c r]; [discriminate|]. cbn [List.length] in K.
    repeat match goal with |- fueled (if ?b then p_word _ _ _ else _) => destruct b; [apply word_fueled|] end.
    destruct (c =? 45); [apply num_fueled|]. destruct (is_digit c); [apply num_fueled|].
    destruct (c =? 34); [apply fueled_bind; [apply chs_fueled|intros []; discriminate]|].
    destruct (c =? 91); [destruct d; [discriminate|]; apply fueled_bind; [apply I; lia|intros []; discriminate]|].
    destruct (c =? 123); [destruct d; [discriminate|]; apply fueled_bind; [apply M; lia|intros []; discriminate]|]. discriminate.
  - intros d first s L. rewrite p_items_S.
    assert (IT : forall q, (List.length q <= List.length s)%nat -> fueled (p_item n d q)).
    { intros q Q. unfold p_item. apply fueled_bind; [apply V; lia|]. intros [v q1] E. apply value_less in E.
      apply fueled_bind; [apply I; lia|intros []; discriminate]. }
    pose proof (skip_length s) as K. destruct (skip s) as [|c r]; [discriminate|]. cbn [List.length] in K.
    destruct (c =? 93); [discriminate|]. destruct first; [apply IT; cbn [List.length]; lia|]. destruct (c =? 44); [|discriminate].
    pose proof (skip_length r) as K'. destruct (skip r) as [|x q]; [discriminate|]. destruct (x =? 93); [discriminate|]. apply IT. lia.
  - intros d first s L. rewrite p_members_S.
    assert (IT : forall c q, (List.length q < List.length s)%nat -> fueled (p_member n d c q)).
    { intros c q Q. unfold p_member. destruct (c =? 34); [|discriminate].
      apply fueled_bind; [apply chs_fueled|]. intros [k q1] E. apply chs_less in E.
      pose proof (skip_length q1) as K. destruct (skip q1) as [|x q2]; [discriminate|]. cbn [List.length] in K. destruct (x =? 58); [|discriminate].
      apply fueled_bind; [apply V; lia|]. intros [v q3] E'. apply value_less in E'.
      apply fueled_bind; [apply M; lia|intros []; discriminate]. }
    pose proof (skip_length s) as K. destruct (skip s) as [|c r]; [discriminate|]. cbn [List.length] in K.
    destruct (c =? 125); [discriminate|]. destruct first; [apply IT; lia|]. destruct (c =? 44); [|discriminate].
    pose proof (skip_length r) as K'. destruct (skip r) as [|x q]; [discriminate|]. cbn [List.length] in K'. apply IT. lia.
Qed.

(** ** Whole texts *)
Definition p_whole (s : str) : pres json :=
  match p_value (S (2 * List.length s)) depth_limit s with
  | POk (j, r) => match skip r with [] => POk j | _ => PErr PSyntax end
  | PErr e => PErr e
  end.
Lemma whole_deep d j s : document d j s -> p_whole s = if (d <=? depth_limit)%nat then POk j else PErr PDepth.
Proof.
  intros (a & t & b & A & T & B & ->). unfold p_whole. rewrite value_skip by assumption.
  destruct parser_complete as (C & _).
  rewrite (C d j t T) by first [rewrite ?app_length; lia|rewrite <- (app_nil_r b); apply follow_spaces; [exact B|exact I]].
  unfold within. destruct (d <=? depth_limit)%nat; [|reflexivity]. now rewrite (proj2 (skip_all b) B).
Qed.
Lemma whole_sound s j : p_whole s = POk j -> exists d, document d j s /\ (d <= depth_limit)%nat.
Proof.
  unfold p_whole. destruct (p_value _ _ s) as [[j' r]|] eqn:E; [|discriminate].
  destruct (parser_sound mk num chs merge number inside merges merges_none num_sound chs_sound (S (2 * List.length s))) as (V & _). apply V in E as (d & a & w & -> & A & T & L).
  destruct (skip r) eqn:S; [|discriminate]. intros H; injection H as ->. apply skip_all in S. exists d. split; [|exact L].
  exists a, w, r. auto.
Qed.
Lemma whole_iff s j : p_whole s = POk j <-> exists d, document d j s /\ (d <= depth_limit)%nat.
Proof.
  split; [apply whole_sound|]. intros (d & D & L). rewrite (whole_deep d j s D). now replace (d <=? depth_limit)%nat with true by lia.
Qed.
Lemma whole_fueled s : p_whole s <> PErr PFuel.
Proof.
  unfold p_whole. destruct (parser_fueled (S (2 * List.length s))) as (V & _). specialize (V depth_limit s ltac:(lia)). unfold fueled in V.
  destruct (p_value _ _ s) as [[j r]|e]; [destruct (skip r); discriminate|]. congruence.
Qed.
(** The value and the depth are determined. *)
Lemma whole_unique s d d' j j' : document d j s -> document d' j' s -> j = j' /\ d = d'.
Proof.
  intros (a & t & b & A & T & B & E) (a' & t' & b' & A' & T' & B' & E').
  destruct parser_complete as (C & _).
  assert (G : forall D, within d D (j, b) = within d' D (j', b')).
  { intros D. rewrite <- (C d j t T (2 * List.length s)%nat D b), <- (C d' j' t' T' (2 * List.length s)%nat D b').
    - now rewrite <- (value_skip _ D a (t ++ b)), <- (value_skip _ D a' (t' ++ b')), <- E, <- E' by assumption.
    - rewrite E', !app_length. lia.
    - rewrite <- (app_nil_r b'). apply follow_spaces; [exact B'|exact I].
    - rewrite E, !app_length. lia.
    - rewrite <- (app_nil_r b). apply follow_spaces; [exact B|exact I]. }
  pose proof (G d) as G1. pose proof (G d') as G2. unfold within in *. rewrite Nat.leb_refl in G1, G2.
  destruct (d' <=? d)%nat eqn:L1; [|discriminate]. destruct (d <=? d')%nat eqn:L2; [|discriminate].
  split; [congruence|lia].
Qed.
End Parser.

(** ** Values *)
Lemma values_merge (l m : list (str * json)) : collapsed str_eqb l m <-> m = ins_all str_eqb l.
Proof. apply collapsed_str_eq. Qed.
Lemma chars_fueled' s : fueled (p_chars s).
Proof. apply (chars_fueled (S (List.length s))). lia. Qed.
Ltac by_values L := first
  [apply (L (ins_all str_eqb) p_number p_chars (collapsed str_eqb) num_text chars values_merge eq_refl number_sound chars_sound'
     number_complete chars_complete number_fueled chars_fueled')
  |apply (L (ins_all str_eqb) p_number p_chars (collapsed str_eqb) num_text chars values_merge eq_refl number_sound chars_sound'
     number_complete number_fueled chars_fueled')
  |apply (L (ins_all str_eqb) p_number p_chars (collapsed str_eqb) num_text chars values_merge eq_refl number_sound chars_sound'
     number_complete chars_complete)
  |apply (L (ins_all str_eqb) p_number p_chars (collapsed str_eqb) num_text chars values_merge eq_refl number_sound chars_sound')].
Lemma from_text_deep d j s : document d j s -> from_text s = if (d <=? depth_limit)%nat then POk j else PErr PDepth.
Proof. by_values whole_deep. Qed.
Lemma from_text_sound s j : from_text s = POk j -> exists d, document d j s /\ (d <= depth_limit)%nat.
Proof. by_values whole_sound. Qed.
Lemma from_text_iff s j : from_text s = POk j <-> exists d, document d j s /\ (d <= depth_limit)%nat.
Proof. by_values whole_iff. Qed.
Lemma from_text_fueled s : from_text s <> PErr PFuel.
Proof. by_values whole_fueled. Qed.
(** The value and the depth are determined. *)
Lemma document_unique s d d' j j' : document d j s -> document d' j' s -> j = j' /\ d = d'.
Proof. by_values whole_unique. Qed.
