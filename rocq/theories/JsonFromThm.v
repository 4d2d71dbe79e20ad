(** The texts that are read straight into a file, and the members they hold. *)
From Coq Require Import ZArith List Bool String Lia ZifyBool ZifyNat.
From Verif Require Import Base Str BaseFacts Json JsonSpec JsonSyntax Numeral JsonGrammar JsonRead JsonComplete JsonFrom JsonLoose.
Import ListNotations.
Open Scope Z_scope.

(** ** Skipped numbers *)
Lemma skip_number_sound neg s j t : i_number neg s = POk (j, t) ->
  exists w, s = w ++ t /\ loose_number j ((if neg then [45] else []) ++ w).
Proof.
  unfold i_number. destruct (span s) as [i r] eqn:S. apply span_sound in S as (-> & F & ND).
  destruct i as [|c i]; [discriminate|]. remember (c :: i) as k. assert (K : k <> []) by (subst; discriminate). clear Heqk c i.
  destruct ((hd 0 k =? 48) && negb (len k =? 1)) eqn:Z0; [discriminate|]. intros H. pcases H. injection H as <- <-.
  apply fraction_sound in E as (x & -> & FX & XN). apply exponent_sound in E0 as (y & -> & EY & YN).
  exists (k ++ x ++ y). split; [now rewrite <- !app_assoc|]. eapply l_number; [|exact FX|exact EY].
  split; [exact K|]. split; [exact F|]. intros Z. destruct k as [|c [|c' k]]; [easy|cbn in Z; now subst|].
  cbn [hd] in Z. unfold len in Z0. cbn [List.length hd] in Z0. lia.
Qed.
Lemma skip_number_complete j w t : loose_number j w -> follow t -> exists neg c r,
  w = (if neg : bool then [45] else []) ++ c :: r /\ is_digit c = true /\ i_number neg ((c :: r) ++ t) = POk (j, t).
Proof.
  intros [neg i f x e y W FX EY] T. destruct (whole_starts i (x ++ y) W) as (c & r & E & D). exists neg, c, r.
  split; [now rewrite E|]. split; [exact D|]. rewrite <- E, <- !app_assoc. destruct W as (NI & DI & ZI).
  assert (T' : hd 0 t <> 46 /\ hd 0 t <> 101 /\ hd 0 t <> 69) by (destruct t as [|c' t]; cbn [follow hd In] in *; lia).
  assert (NE : no_digit (y ++ t)).
  { destruct EY as [|c']; [now apply follow_no_digit|]. cbn [app no_digit]. unfold is_digit. cbn [In] in *. lia. }
  assert (NF : no_digit (x ++ y ++ t)) by (destruct FX; [exact NE|reflexivity]).
  unfold i_number. rewrite span_complete by assumption. destruct i as [|a i]; [easy|]. remember (a :: i) as k.
  assert (ZE : (hd 0 k =? 48) && negb (len k =? 1) = false).
  { destruct (hd 0 k =? 48) eqn:E0; [|reflexivity]. cbn [andb]. rewrite ZI by lia. reflexivity. }
  rewrite ZE. rewrite (fraction_complete f x); [|assumption|exact NE|].
  2:{ intros ->. destruct EY as [|c']; [cbn [app]; lia|]. cbn [app hd In] in *. lia. }
  cbn [pbind]. rewrite (exponent_complete e y); [|assumption|now apply follow_no_digit|lia]. reflexivity.
Qed.
Lemma skip_number_fueled neg s : fueled (i_number neg s).
Proof.
  unfold i_number. destruct (span s) as [[|c i] r]; [discriminate|]. destruct (_ && _); [discriminate|].
  apply fueled_bind; [apply fraction_fueled|]. intros [f r1] _. apply fueled_bind; [apply exponent_fueled|]. intros [e r2] _. discriminate.
Qed.
(** ** Skipped strings *)
Lemma skip_chars_sound_n n : forall s x t, (List.length s < n)%nat -> i_chars s = POk (x, t) -> exists w, s = w ++ 34 :: t /\ loose_chars x w /\ x = [].
Proof.
  induction n as [|n IH]; intros s x t L; [lia|]. destruct s as [|c s]; [discriminate|]. cbn [List.length] in L. cbn [i_chars].
  destruct (c =? 34) eqn:Q.
  { intros H; injection H as <- <-. exists []. assert (c = 34) by lia. subst. repeat split. constructor. }
  destruct (c =? 92) eqn:B.
  - assert (c = 92) by lia. subst c. destruct s as [|e s]; [discriminate|]. cbn [List.length] in L. destruct (e =? 117) eqn:U.
    + assert (e = 117) by lia. subst e. destruct s as [|a1 [|a2 [|a3 [|a4 s]]]]; try discriminate. cbn [List.length] in L.
      destruct (hex4 a1 a2 a3 a4) as [u|] eqn:HX; [|discriminate]. apply hex4_iff in HX. intros H.
      apply IH in H as (w & -> & C & ->); [|lia]. exists (92 :: 117 :: [a1; a2; a3; a4] ++ w). split; [reflexivity|]. split; [|reflexivity]. eapply l_unicode; eauto.
    + destruct (unescape e) as [c|] eqn:UE; [|discriminate]. intros H.
      apply IH in H as (w & -> & C & ->); [|lia]. exists (92 :: e :: w). split; [reflexivity|]. split; [|reflexivity]. apply (l_escape e c); auto. now apply unescape_iff.
  - destruct (c <? 32) eqn:CT; [discriminate|]. intros H.
    apply IH in H as (w & -> & C & ->); [|lia]. exists (c :: w). split; [reflexivity|]. split; [|reflexivity]. apply l_plain; auto; lia.
Qed.
Lemma skip_chars_sound s x t : i_chars s = POk (x, t) -> exists w, s = w ++ 34 :: t /\ loose_chars x w.
Proof. intros H. apply (skip_chars_sound_n (S (List.length s))) in H as (w & E & C & _); [eauto|lia]. Qed.
Lemma skip_chars_complete x w t : loose_chars x w -> i_chars (w ++ 34 :: t) = POk (x, t).
Proof.
  intros C. induction C as [|c u A B D C IH|e c u I C IH|u h v H C IH].
  - reflexivity.
  - cbn [app i_chars]. replace (c =? 34) with false by lia. replace (c =? 92) with false by lia. now replace (c <? 32) with false by lia.
  - cbn [app i_chars]. cbn [Z.eqb Pos.eqb]. pose proof (proj2 (unescape_iff e c) I) as UE. rewrite UE.
    now replace (e =? 117) with false by (unfold escapes in I; cbn [In] in I; repeat (destruct I as [E|I]; [injection E as <- <-; reflexivity|]); destruct I).
  - apply hex_four_chars in H as (a & b & c & d & -> & H). cbn [app i_chars]. cbn [Z.eqb Pos.eqb]. now rewrite H.
Qed.
Lemma skip_chars_fueled_n n : forall s, (List.length s < n)%nat -> fueled (i_chars s).
Proof.
  induction n as [|n IH]; [lia|]. intros s L. destruct s as [|c s]; [discriminate|]. cbn [List.length] in L. cbn [i_chars].
  destruct (c =? 34); [discriminate|]. destruct (c =? 92).
  - destruct s as [|e s]; [discriminate|]. cbn [List.length] in L. destruct (e =? 117).
    + destruct s as [|a1 [|a2 [|a3 [|a4 s]]]]; try discriminate. cbn [List.length] in L. destruct (hex4 _ _ _ _); [|discriminate]. apply IH. lia.
    + destruct (unescape e); [|discriminate]. apply IH. lia.
  - destruct (c <? 32); [discriminate|]. apply IH. lia.
Qed.
Lemma skip_chars_fueled s : fueled (i_chars s).
Proof. apply (skip_chars_fueled_n (S (List.length s))). lia. Qed.

(** ** Values with every member kept, and skipped values *)
Lemma keep_merge (l m : list (str * json)) : l = m <-> m = (fun x => x) l.
Proof. split; congruence. Qed.
Lemma raw_sound n d s j t : p_value (fun l => l) p_number p_chars n d s = POk (j, t) ->
  exists e a w, s = a ++ w ++ t /\ spaces a /\ raw_text e j w /\ (e <= d)%nat.
Proof. intros H. now apply (proj1 (parser_sound _ _ _ eq num_text chars keep_merge eq_refl number_sound chars_sound' n)) in H. Qed.
Lemma raw_complete d j w n D a t : raw_text d j w -> (2 * List.length w <= n)%nat -> spaces a -> follow t ->
  p_value (fun l => l) p_number p_chars n D (a ++ w ++ t) = within d D (j, t).
Proof.
  intros T L A F. rewrite value_skip by exact A.
  now apply (proj1 (parser_complete _ _ _ eq num_text chars keep_merge eq_refl number_sound chars_sound' number_complete chars_complete number_fueled chars_fueled')).
Qed.
Definition loose_as := text_as eq loose_number loose_chars.
Lemma loose_sound n d s j t : p_value (fun l => l) i_number i_chars n d s = POk (j, t) ->
  exists e a w, s = a ++ w ++ t /\ spaces a /\ loose_as e j w /\ (e <= d)%nat.
Proof. intros H. now apply (proj1 (parser_sound _ _ _ eq loose_number loose_chars keep_merge eq_refl skip_number_sound skip_chars_sound n)) in H. Qed.
Lemma loose_complete d j w n D a t : loose_as d j w -> (2 * List.length w <= n)%nat -> spaces a -> follow t ->
  p_value (fun l => l) i_number i_chars n D (a ++ w ++ t) = within d D (j, t).
Proof.
  intros T L A F. rewrite value_skip by exact A.
  now apply (proj1 (parser_complete _ _ _ eq loose_number loose_chars keep_merge eq_refl skip_number_sound skip_chars_sound skip_number_complete skip_chars_complete skip_number_fueled skip_chars_fueled)).
Qed.
(** A value has no more brackets than characters. *)
Lemma brackets_length merge number inside : (forall d j s, text_as merge number inside d j s -> (d <= List.length s)%nat)
  /\ (forall d l s, items_as merge number inside d l s -> (d <= List.length s)%nat)
  /\ (forall d l s, members_as merge number inside d l s -> (d <= List.length s)%nat)
  /\ (forall d k v s, member_as merge number inside d k v s -> (d <= List.length s)%nat).
Proof.
  apply json_text_all; intros; try (cbn; lia); repeat (cbn [List.length]; rewrite ?app_length); cbn [List.length]; lia.
Qed.
Lemma loose_text_starts d j w : loose_as d j w -> starts w.
Proof. apply (text_starts i_number i_chars eq loose_number loose_chars skip_number_sound skip_chars_sound skip_number_complete skip_chars_complete skip_number_fueled skip_chars_fueled). Qed.
Lemma raw_text_starts d j w : raw_text d j w -> starts w.
Proof. apply (text_starts p_number p_chars eq num_text chars number_sound chars_sound' number_complete chars_complete number_fueled chars_fueled'). Qed.

Lemma ignore_sound s j t : p_ignore s = POk (j, t) -> j = JNull /\ exists a w, s = a ++ w ++ t /\ spaces a /\ loose_text w.
Proof.
  unfold p_ignore. intros H. pcases H. injection H as <- <-. split; [reflexivity|]. apply loose_sound in E as (e & a & w & -> & A & T & _).
  exists a, w. repeat split; auto. now exists e, j0.
Qed.
Lemma ignore_complete a w t : spaces a -> loose_text w -> follow t -> p_ignore (a ++ w ++ t) = POk (JNull, t).
Proof.
  intros A (d & j & T) F. unfold p_ignore. rewrite (loose_complete d j); [|exact T|rewrite !app_length; lia|exact A|exact F].
  unfold within. pose proof (proj1 (brackets_length _ _ _) _ _ _ T). rewrite !app_length. now replace (d <=? _)%nat with true by lia.
Qed.

(** ** The members of a file *)
Lemma asked_iff k : existsb (str_eqb k) file_fields = true <-> exists x, In x asked /\ k = s2z x.
Proof.
  rewrite existsb_exists. unfold file_fields, asked. setoid_rewrite str_eqb_eq. split.
  - intros (x & I & ->). apply in_map_iff in I as (y & <- & I). eauto.
  - intros (x & I & ->). eexists. split; [apply in_map, I|reflexivity].
Qed.
Lemma field_sound k s v t : p_field k 126 s = POk (v, t) -> exists a w, s = a ++ w ++ t /\ spaces a /\ field_text k v w.
Proof.
  unfold p_field. destruct (existsb (str_eqb k) file_fields) eqn:E.
  - apply asked_iff in E as (x & I & ->). intros H. apply raw_sound in H as (e & a & w & -> & A & T & L). exists a, w. repeat split; auto. econstructor; eauto.
  - intros H. apply ignore_sound in H as (-> & a & w & -> & A & T). exists a, w. repeat split; auto. constructor; auto.
    intros x I EQ. assert (X : existsb (str_eqb k) file_fields = true) by (apply asked_iff; eauto). congruence.
Qed.
Lemma field_complete k v a w t : field_text k v w -> spaces a -> follow t -> p_field k 126 (a ++ w ++ t) = POk (v, t).
Proof.
  intros [d x v' w' I T L|k' w' N T] A F; unfold p_field.
  - rewrite (proj2 (asked_iff (s2z x))) by eauto. rewrite (raw_complete d v'); [|exact T|rewrite !app_length; lia|exact A|exact F].
    unfold within. now replace (d <=? 126)%nat with true by lia.
  - destruct (existsb (str_eqb k') file_fields) eqn:E.
    + apply asked_iff in E as (x & I & ->). now elim (N x I).
    + now apply ignore_complete.
Qed.
Lemma field_starts k v w : field_text k v w -> starts w.
Proof. intros [d x v' w' I T L|k' w' N (d & j & T)]; [now apply (raw_text_starts d v')|now apply (loose_text_starts d j)]. Qed.

Definition f_member (n d : nat) (c : Z) (q : str) : pres (list (str * json) * str) :=
  if c =? 34 then
    '(k, q1) <- p_chars q ;;;
    match skip q1 with
    | [] => PErr PSyntax
    | x :: q2 =>
      if x =? 58 then
        '(v, q3) <- p_field k d q2 ;;; '(l, q4) <- p_fields n d false q3 ;;; POk ((k, v) :: l, q4)
      else PErr PSyntax
    end
  else PErr PSyntax.
Lemma p_fields_S n d first s : p_fields (S n) d first s =
  match skip s with
  | [] => PErr PSyntax
  | c :: r =>
    if c =? 125 then POk ([], r)
    else if first then f_member n d c r
    else if c =? 44 then
      match skip r with
      | [] => PErr PSyntax
      | x :: q => f_member n d x q
      end
    else PErr PSyntax
  end.
Proof. reflexivity. Qed.
Definition fields_fine (n : nat) := forall first s l t, p_fields n 126 first s = POk (l, t) ->
  (l = [] /\ exists a, spaces a /\ s = a ++ 125 :: t)
  \/ exists a w, s = a ++ (if first : bool then w else 44 :: w) ++ 125 :: t /\ spaces a /\ fields_text l w.
Lemma f_member_fine n c q l t : fields_fine n -> f_member n 126 c q = POk (l, t) ->
  exists w, c :: q = w ++ 125 :: t /\ fields_text l w.
Proof.
  intros I H. unfold f_member in H. destruct (c =? 34) eqn:C; [|discriminate]. assert (c = 34) by lia. subst c. pcases H.
  apply (string_sound _ _ chars_sound') in E as (k & EK & QK). rewrite EK.
  destruct (skip_split s0) as (b & B & ->). destruct (skip s0) as [|x q2]; [discriminate|]. destruct (x =? 58) eqn:X; [|discriminate].
  assert (x = 58) by lia. subst x. pcases H. injection H as <- <-.
  apply field_sound in E as (a & w & -> & A & T). apply I in E0 as [(-> & f & F & ->)|(f & w' & -> & F & T')].
  - exists ([] ++ k ++ b ++ 58 :: a ++ w ++ f). split; [repeat (cbn [app]; rewrite <- ?app_assoc); reflexivity|].
    constructor; auto using spaces_nil.
  - exists (([] ++ k ++ b ++ 58 :: a ++ w ++ f) ++ 44 :: w'). split; [repeat (cbn [app]; rewrite <- ?app_assoc); reflexivity|].
    constructor; auto using spaces_nil.
Qed.
Lemma fields_spaces a l w : spaces a -> fields_text l w -> fields_text l (a ++ w).
Proof.
  intros A H. inversion H; subst.
  - rewrite app_assoc. constructor; auto. now apply Forall_app.
  - rewrite app_assoc, (app_assoc a a0). constructor; auto. now apply Forall_app.
Qed.
Lemma fields_sound n : fields_fine n.
Proof.
  induction n as [|n I]; [intros ? *; discriminate|]. intros first s l t. rewrite p_fields_S.
  destruct (skip_split s) as (a & A & ES). destruct (skip s) as [|c r]; [discriminate|]. subst s.
  destruct (c =? 125) eqn:C.
  { intros H; injection H as <- <-. left. split; [reflexivity|]. exists a. assert (c = 125) by lia. now subst. }
  intros H. right. destruct first.
  + apply (f_member_fine n) in H as (w & -> & T); [|assumption..]. exists a, w. auto.
  + destruct (c =? 44) eqn:C'; [|discriminate]. assert (c = 44) by lia. subst c. clear C C'.
    destruct (skip_split r) as (b & B & ER). destruct (skip r) as [|x q]; [discriminate|]. subst r.
    apply (f_member_fine n) in H as (w & EW & T); [|assumption..].
    exists a, (b ++ w). rewrite EW. split; [cbn [app]; now rewrite <- !app_assoc|]. split; [exact A|]. now apply fields_spaces.
Qed.
Lemma fields_skip n d first a s : spaces a -> p_fields n d first (a ++ s) = p_fields n d first s.
Proof. intros A. destruct n as [|n]; [reflexivity|]. now rewrite !p_fields_S, skip_app. Qed.
Lemma fields_step n d first k q b z : quoted k q -> spaces b -> forall a, spaces a ->
  p_fields (S n) d first ((if first : bool then [] else [44]) ++ a ++ q ++ b ++ 58 :: z)
  = ('(v, q3) <- p_field k d z ;;; '(l, q4) <- p_fields n d false q3 ;;; POk ((k, v) :: l, q4)).
Proof.
  intros (x & C & ->) B a A.
  assert (E : f_member n d 34 (x ++ 34 :: b ++ 58 :: z)
    = ('(v, q3) <- p_field k d z ;;; '(l, q4) <- p_fields n d false q3 ;;; POk ((k, v) :: l, q4))).
  { unfold f_member. rewrite Z.eqb_refl, (chars_complete k x _ C). cbn [pbind]. rewrite skip_app, skip_stop by auto. now rewrite Z.eqb_refl. }
  rewrite p_fields_S. cbn [app]. rewrite <- (app_assoc x). cbn [app]. destruct first; cbn [app].
  - rewrite skip_app, skip_stop by auto. exact E.
  - rewrite skip_stop by reflexivity. cbn [Z.eqb Pos.eqb]. rewrite skip_app, skip_stop by auto. exact E.
Qed.
Lemma fields_complete l w : fields_text l w -> forall n first t, (List.length w + 1 <= n)%nat ->
  p_fields n 126 first ((if first : bool then [] else [44]) ++ w ++ 125 :: t) = POk (l, t).
Proof.
  intros T. induction T as [k v a q b c s e A Q B C T E|k v a q b c s e l r A Q B C T E R IH]; intros n first t L.
  - destruct n as [|n]; [lia|]. rewrite !app_length in L. cbn [List.length] in L. rewrite !app_length in L.
    replace ((a ++ q ++ b ++ 58 :: c ++ s ++ e) ++ 125 :: t) with (a ++ q ++ b ++ 58 :: (c ++ s ++ e ++ 125 :: t)) by (repeat (cbn [app]; rewrite <- ?app_assoc); reflexivity).
    rewrite (fields_step n 126 first k q b _ Q B a A). rewrite (field_complete k v c s) by first [assumption|apply follow_spaces; [assumption|cbn; tauto]].
    cbn [pbind]. rewrite fields_skip by assumption. destruct n as [|n]; [lia|]. reflexivity.
  - destruct n as [|n]; [lia|]. repeat (rewrite ?app_length in L; cbn [List.length] in L).
    replace (((a ++ q ++ b ++ 58 :: c ++ s ++ e) ++ 44 :: r) ++ 125 :: t) with (a ++ q ++ b ++ 58 :: (c ++ s ++ e ++ 44 :: r ++ 125 :: t)) by (repeat (cbn [app]; rewrite <- ?app_assoc); reflexivity).
    rewrite (fields_step n 126 first k q b _ Q B a A). rewrite (field_complete k v c s) by first [assumption|apply follow_spaces; [assumption|cbn; tauto]].
    cbn [pbind]. rewrite fields_skip by assumption. pose proof (IH n false t ltac:(lia)) as EE. cbn [app] in EE. rewrite EE. reflexivity.
Qed.

(** ** Whole texts *)
Lemma top_sound s j t : p_top s = POk (j, t) -> exists a w, s = a ++ w ++ t /\ spaces a /\ top_text j w.
Proof.
  unfold p_top. destruct (skip_split s) as (a & A & ES). destruct (skip s) as [|c r] eqn:SK; [discriminate|].
  destruct (c =? 123) eqn:C.
  - assert (c = 123) by lia. subst c. intros H. pcases H. injection H as <- <-.
    apply fields_sound in E as [(-> & b & B & ->)|(b & w & -> & B & T)].
    + exists a, (123 :: b ++ [125]). rewrite ES. split; [repeat (cbn [app]; rewrite <- ?app_assoc); reflexivity|]. split; [exact A|now constructor].
    + exists a, (123 :: (b ++ w) ++ [125]). rewrite ES. split; [repeat (cbn [app]; rewrite <- ?app_assoc); reflexivity|]. split; [exact A|]. constructor. now apply fields_spaces.
  - destruct (c =? 91) eqn:C'; [|discriminate]. assert (c = 91) by lia. subst c. intros H.
    assert (exists l, j = JArr l) as (l & ->).
    { rewrite p_value_S, SK in H. cbn [Z.eqb Pos.eqb] in H. change (is_digit 91) with false in H. cbn iota in H. unfold depth_limit in H. pcases H. injection H as <- <-. eauto. }
    apply raw_sound in H as (e & b & w & -> & B & T & L). exists b, w. repeat split; auto. now apply (tt_array e).
Qed.
Lemma top_complete j a w t : spaces a -> top_text j w -> follow t -> p_top (a ++ w ++ t) = POk (j, t).
Proof.
  intros A T F. unfold p_top. rewrite skip_app by exact A.
  destruct T as [s S|l s T|d l s T L].
  - cbn [app]. rewrite skip_stop by reflexivity. rewrite Z.eqb_refl. rewrite <- app_assoc, fields_skip by exact S. reflexivity.
  - cbn [app]. rewrite skip_stop by reflexivity. rewrite Z.eqb_refl. rewrite <- app_assoc.
    change (depth_limit - 1)%nat with 126%nat. pose proof (fields_complete l s T (S (List.length (s ++ [125] ++ t))) true t) as E. cbn [app] in *. rewrite E; [reflexivity|].
    rewrite app_length. cbn [List.length]. lia.
  - assert (exists r, s = 91 :: r) as (r & E).
    { inversion T as [| | |j s' N| | | | |]; subst; eauto. inversion N. }
    assert (SK : skip (s ++ t) = 91 :: r ++ t) by (rewrite E; cbn [app]; now rewrite skip_stop). rewrite SK. cbn [Z.eqb Pos.eqb].
    rewrite (raw_complete d (JArr l)); [|exact T|rewrite !app_length; lia|exact A|exact F].
    unfold within. change depth_limit with 127%nat. now replace (d <=? 127)%nat with true by lia.
Qed.
Lemma from_top_iff s j : from_top s = POk j <-> top_document j s.
Proof.
  unfold from_top. split.
  - intros H. pcases H. destruct (skip s0) eqn:S; [|discriminate]. injection H as <-. apply skip_all in S.
    apply top_sound in E as (a & w & -> & A & T). exists a, w, s0. auto.
  - intros (a & w & b & A & T & B & ->). rewrite (top_complete j a w b A T) by (rewrite <- (app_nil_r b); apply follow_spaces; [exact B|exact I]).
    cbn [pbind]. now rewrite (proj2 (skip_all b) B).
Qed.
