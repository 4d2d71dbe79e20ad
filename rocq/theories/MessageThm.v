(** Facts about the texts of errors. *)
From Coq Require Import ZArith List Bool String Lia ZifyBool ZifyNat.
From Verif Require Import Base Str Types Versions Text Props BaseFacts File ReaderFacts Sane ReadThm Numeral Message Spec GateThm.
Import ListNotations.
Open Scope string_scope.
Open Scope list_scope.
Open Scope Z_scope.

(** ** Specification *)

(** Numerals with a sign, and in base sixteen. *)
Definition number (s : str) (z : Z) : Prop :=
  0 <= z /\ numeral s z \/ z < 0 /\ exists t, s = 45 :: t /\ numeral t (- z).
Definition hex_digit (c : Z) : Prop := 48 <= c <= 57 \/ 97 <= c <= 102.
Definition hex_value (s : str) : Z :=
  fold_left (fun n c => 16 * n + (if c <? 58 then c - 48 else c - 87)) s 0.
Definition hex_numeral (s : str) (z : Z) : Prop :=
  s <> [] /\ Forall hex_digit s /\ hex_value s = z /\ (hd 0 s = 48 -> s = [48]).

(** The position an error carries. *)
Definition place (e : error) : option Z :=
  match e with
  | EEof | EIo | EHeader _ _ | EMagic _ | ESerialize _ => None
  | EValueSize _ _ p | EString _ p | EStrTerm _ p | EBool _ p | EHint _ p
  | EProperty _ p | EEnum _ _ p | EArrayIndex _ p | ETerm _ p
  | EUtf16 p | EUtf8 p => Some p
  end.
(** The names of enums are told apart and contain no quote. *)
Definition plain_names (names : etype -> str) : Prop :=
  (forall t t', names t = names t' -> t = t') /\ forall t, ~ In 96 (names t).

(** The names of the kinds of struct that come in two precisions. *)
Definition precisions : list (str * fixed * fixed) :=
  [(s2z "Vector2", XVector2F, XVector2D); (s2z "Vector", XVectorF, XVectorD);
   (s2z "Rotator", XRotatorF, XRotatorD); (s2z "Quat", XQuatF, XQuatD)].

(** The texts. *)
Inductive bytes_text : list byte -> str -> Prop :=
| BT1 b s : numeral s (b2z b) -> bytes_text [b] s
| BTn b s r t : numeral s (b2z b) -> bytes_text r t -> bytes_text (b :: r) (s ++ s2z ", " ++ t).
Inductive wording (names : etype -> str) : error -> str -> Prop :=
| WEof : wording names EEof (s2z "failed to fill whole buffer")
| WFile v n : number n v -> wording names (EHeader HFileType v) (s2z "Invalid header: File type " ++ n ++ s2z " not recognized")
| WSave v n : number n v -> wording names (EHeader HSaveVersion v) (s2z "Invalid header: GVAS version " ++ n ++ s2z " not supported")
| WPackage v n : number n v ->
  wording names (EHeader HPackage v) (s2z "Invalid header: Package file version " ++ n ++ s2z " not supported")
| WPackage5 v n : number n v ->
  wording names (EHeader HPackageUE5 v) (s2z "Invalid header: UE5 Package file version " ++ n ++ s2z " is not supported")
| WCustom v n : number n v ->
  wording names (EHeader HCustomFormat v) (s2z "Invalid header: Custom version format " ++ n ++ s2z " not supported")
| WMagic bs t : bytes_text bs t -> wording names (EMagic bs) (s2z "Invalid header: Invalid PlZ magic [" ++ t ++ s2z "]")
| WSize x g p a b h : number a x -> number b g -> hex_numeral h p ->
  wording names (EValueSize x g p) (s2z "Invalid value size, expected " ++ a ++ s2z " got " ++ b ++ s2z " at position 0x" ++ h)
| WString x p a h : number a x -> hex_numeral h p ->
  wording names (EString x p) (s2z "Invalid string size " ++ a ++ s2z " at position 0x" ++ h)
| WStrTerm x p a h : number a x -> hex_numeral h p ->
  wording names (EStrTerm x p) (s2z "Invalid string terminator " ++ a ++ s2z " at position 0x" ++ h)
| WBool x p a h : number a x -> hex_numeral h p ->
  wording names (EBool x p) (s2z "Invalid boolean value " ++ a ++ s2z " at position 0x" ++ h)
| WHint path p h : hex_numeral h p ->
  wording names (EHint path p) (s2z "Missing hint for struct StructProperty at path " ++ path ++ s2z " at position 0x" ++ h)
| WProperty what p h : hex_numeral h p ->
  wording names (EProperty what p) (s2z "Invalid property " ++ what ++ s2z " at position 0x" ++ h)
| WEnum t x p a h : number a x -> hex_numeral h p ->
  wording names (EEnum t x p)
    (s2z "No discriminant in enum `" ++ names t ++ s2z "` matches the value `" ++ a ++ s2z "` at position 0x" ++ h)
| WIndex x p a h : number a x -> hex_numeral h p ->
  wording names (EArrayIndex x p) (s2z "Unexpected array_index value " ++ a ++ s2z " at position 0x" ++ h)
| WTerm x p a h : number a x -> hex_numeral h p ->
  wording names (ETerm x p) (s2z "Unexpected terminator value " ++ a ++ s2z " at position 0x" ++ h)
| WUtf16 p h : hex_numeral h p -> wording names (EUtf16 p) (s2z "Invalid UTF-16 string at position 0x" ++ h)
| WUtf8 p h : hex_numeral h p -> wording names (EUtf8 p) (s2z "Invalid UTF-8 string at position 0x" ++ h)
| WHeader : wording names (ESerialize SStructHeader)
    (s2z "Invalid value StructPropertyValue can not be serialized with a header")
| WInfo : wording names (ESerialize SArrayInfo) (s2z "Invalid value struct_info is only supported for StructProperty")
| WSingle k xf xd : In (k, xf, xd) precisions ->
  wording names (ESerialize (SLwc xf)) (s2z "Invalid value " ++ k ++ s2z "F not supported when LWC is enabled, use " ++ k ++ s2z "D")
| WDouble k xf xd : In (k, xf, xd) precisions ->
  wording names (ESerialize (SLwc xd)) (s2z "Invalid value " ++ k ++ s2z "D not supported when LWC is disabled, use " ++ k ++ s2z "F").

(** ** Proofs *)
Lemma split_left (P : Z -> Prop) c a a' r r' : Forall P a -> Forall P a' -> ~ P c ->
  a ++ c :: r = a' ++ c :: r' -> a = a' /\ r = r'.
Proof.
  intros F. revert a'. induction F as [|x a Hx F IH]; intros a' F' N E.
  - destruct F' as [|y a' Hy F']; cbn [app] in E; [injection E as E2; auto|]. injection E as E1 E2. subst y. contradiction.
  - destruct F' as [|y a' Hy F']; cbn [app] in E; injection E as E1 E2; [subst x; contradiction|].
    destruct (IH a' F' N E2). now subst.
Qed.
Lemma differ (P : Z -> Prop) c d a b r r' : Forall P a -> Forall P b -> ~ P c -> ~ P d ->
  a ++ c :: r = b ++ d :: r' -> c = d.
Proof.
  intros F. revert b. induction F as [|x a Hx F IH]; intros b F' N M E.
  - destruct F' as [|y b Hy F']; cbn [app] in E; injection E as E1 E2; [exact E1|]. subst. contradiction.
  - destruct F' as [|y b Hy F']; cbn [app] in E; injection E as E1 E2; [subst; contradiction|]. eauto.
Qed.
Lemma split_right (P : Z -> Prop) c a a' r r' : Forall P r -> Forall P r' -> ~ P c ->
  a ++ c :: r = a' ++ c :: r' -> a = a' /\ r = r'.
Proof.
  intros F F' N E. apply (f_equal (@rev Z)) in E. rewrite !rev_app_distr in E. cbn [rev] in E. rewrite <- !app_assoc in E.
  cbn [app] in E. apply (split_left P) in E as [E1 E2]; auto using Forall_rev.
  apply (f_equal (@rev Z)) in E1, E2. rewrite !rev_involutive in E1, E2. now subst.
Qed.

Lemma hex_value_snoc s c : hex_value (s ++ [c]) = 16 * hex_value s + (if c <? 58 then c - 48 else c - 87).
Proof. unfold hex_value. now rewrite fold_left_app. Qed.
Lemma hex_char_ok d : 0 <= d < 16 ->
  hex_digit (hex_char d) /\ (if hex_char d <? 58 then hex_char d - 48 else hex_char d - 87) = d /\ (hex_char d = 48 -> d = 0).
Proof. intros H. unfold hex_char, hex_digit. destruct (d <? 10) eqn:E; [replace (48 + d <? 58) with true by lia|replace (87 + d <? 58) with false by lia]; lia. Qed.
Lemma hex_digits_S f z : hex_digits (S f) z = if z <? 16 then [hex_char z] else hex_digits f (z / 16) ++ [hex_char (z mod 16)].
Proof. reflexivity. Qed.
Lemma hex_one z : 0 <= z < 16 -> hex_numeral [hex_char z] z /\ (0 < z -> hd 0 [hex_char z] <> 48).
Proof.
  intros H. destruct (hex_char_ok z H) as (D & V & L). split.
  - split; [discriminate|]. split; [constructor; [exact D|constructor]|]. split; [unfold hex_value; cbn [fold_left]; lia|].
    cbn [hd]. intros X. now rewrite X.
  - cbn [hd]. intros Z1 Z2. specialize (L Z2). lia.
Qed.
Lemma hex_digits_numeral f : forall z, 0 <= z < 16 ^ Z.of_nat (S f) ->
  hex_numeral (hex_digits (S f) z) z /\ (0 < z -> hd 0 (hex_digits (S f) z) <> 48).
Proof.
  induction f as [|f IH]; intros z H.
  - change (16 ^ Z.of_nat 1) with 16 in H. cbn [hex_digits]. replace (z <? 16) with true by lia. now apply hex_one.
  - rewrite hex_digits_S. destruct (z <? 16) eqn:E; [apply hex_one; lia|].
    assert (Hq : 0 <= z / 16 < 16 ^ Z.of_nat (S f)).
    { split; [apply Z.div_pos; lia|]. apply Z.div_lt_upper_bound; [lia|].
      replace (16 * 16 ^ Z.of_nat (S f)) with (16 ^ Z.of_nat (S (S f))); [lia|].
      rewrite (Nat2Z.inj_succ (S f)), Z.pow_succ_r by lia. reflexivity. }
    specialize (IH _ Hq). remember (hex_digits (S f) (z / 16)) as s.
    destruct IH as [(N & D & V & L) P]. assert (Pz : 0 < z / 16) by lia. specialize (P Pz).
    destruct (hex_char_ok (z mod 16) ltac:(lia)) as (Dc & Vc & _).
    assert (Hd : hd 0 (s ++ [hex_char (z mod 16)]) = hd 0 s) by (destruct s; [contradiction|reflexivity]).
    split.
    + split; [destruct s; intros X; discriminate X|]. split; [apply Forall_app; split; [exact D|constructor; [exact Dc|constructor]]|].
      split; [rewrite hex_value_snoc, V, Vc; lia|]. rewrite Hd. intros X. contradiction.
    + now rewrite Hd.
Qed.
Lemma hexadecimal_ok z : 0 <= z -> exists h, hexadecimal z = 48 :: 120 :: h /\ hex_numeral h z.
Proof.
  intros H. exists (hex_digits (S (Z.to_nat (Z.log2 z))) z). split; [reflexivity|].
  apply hex_digits_numeral. split; [exact H|].
  pose proof (Z.log2_nonneg z) as N. rewrite Nat2Z.inj_succ, Z2Nat.id by exact N.
  destruct (Z.eq_dec z 0) as [->|E]; [reflexivity|].
  pose proof (Z.log2_spec z ltac:(lia)) as [_ L].
  pose proof (Z.pow_le_mono_l 2 16 (Z.succ (Z.log2 z)) ltac:(lia)). lia.
Qed.
Lemma signed_ok z : number (signed z) z.
Proof.
  unfold signed, number. destruct (z <? 0) eqn:E.
  - right. split; [lia|]. exists (decimal (- z)). split; [reflexivity|]. apply decimal_numeral. lia.
  - left. split; [lia|]. apply decimal_numeral. lia.
Qed.
Definition sdigit (c : Z) : Prop := digit c \/ c = 45.
Lemma number_digits s z : number s z -> Forall sdigit s.
Proof.
  intros [[_ (_ & F & _)]|[_ (t & -> & (_ & F & _))]].
  - eapply Forall_impl; [|exact F]. intros c Hc. now left.
  - constructor; [now right|]. eapply Forall_impl; [|exact F]. intros c Hc. now left.
Qed.
Lemma number_value s z z' : number s z -> number s z' -> z = z'.
Proof.
  intros [[P (_ & F & V & _)]|[P (t & -> & (_ & F & V & _))]] [[P' (_ & F' & V' & _)]|[P' (t' & E & (_ & F' & V' & _))]].
  - lia.
  - subst s. inversion F as [|? ? X _]; subst. unfold digit in X. lia.
  - inversion F' as [|? ? X _]; subst. unfold digit in X. lia.
  - injection E as <-. lia.
Qed.
Lemma signed_inj z z' : signed z = signed z' -> z = z'.
Proof. intros E. apply (number_value (signed z)); [|rewrite E]; apply signed_ok. Qed.
Lemma signed_split c z z' r r' : ~ sdigit c -> signed z ++ c :: r = signed z' ++ c :: r' -> z = z' /\ r = r'.
Proof.
  intros N E. apply (split_left sdigit) in E as [E ->]; [|apply (number_digits _ z)|apply (number_digits _ z')|exact N]; try apply signed_ok.
  split; [now apply signed_inj|reflexivity].
Qed.
Lemma decimal_inj z z' : 0 <= z -> 0 <= z' -> decimal z = decimal z' -> z = z'.
Proof.
  intros H H' E. destruct (decimal_numeral z H) as (_ & _ & V & _), (decimal_numeral z' H') as (_ & _ & V' & _). congruence.
Qed.

(** Positions end a text. *)
Lemma at_split a a' p p' : 0 <= p -> 0 <= p' -> a ++ at_position p = a' ++ at_position p' -> a = a' /\ p = p'.
Proof.
  intros H H' E. unfold at_position in E.
  destruct (hexadecimal_ok p H) as (h & Eh & (_ & F & V & _)), (hexadecimal_ok p' H') as (h' & Eh' & (_ & F' & V' & _)).
  rewrite Eh, Eh' in E.
  assert (N : ~ hex_digit 120) by (unfold hex_digit; lia).
  replace (a ++ s2z " at position " ++ 48 :: 120 :: h) with ((a ++ s2z " at position 0") ++ 120 :: h) in E
    by (rewrite <- app_assoc; reflexivity).
  replace (a' ++ s2z " at position " ++ 48 :: 120 :: h') with ((a' ++ s2z " at position 0") ++ 120 :: h') in E
    by (rewrite <- app_assoc; reflexivity).
  apply (split_right hex_digit) in E as [E ->]; auto. apply app_inv_tail in E. split; [exact E|congruence].
Qed.

(** Lists of bytes. *)
Lemma b2z_nonneg b : 0 <= b2z b.
Proof. unfold b2z. lia. Qed.
Lemma decimal_digits b : Forall sdigit (decimal (b2z b)).
Proof. apply (number_digits _ (b2z b)). left. split; [apply b2z_nonneg|]. apply decimal_numeral, b2z_nonneg. Qed.
Lemma decimal_head b : exists c s, decimal (b2z b) = c :: s /\ sdigit c.
Proof.
  pose proof (decimal_digits b) as F. destruct (decimal_numeral (b2z b) (b2z_nonneg b)) as (N & _).
  destruct (decimal (b2z b)) as [|c s]; [contradiction|]. inversion F; subst. eauto.
Qed.
Lemma items_cons b l : items (b :: l) = decimal (b2z b) ++ match l with [] => [] | _ => s2z ", " ++ items l end.
Proof. destruct l; [cbn [items]; now rewrite app_nil_r|reflexivity]. Qed.
Lemma b2z_inj' a b : decimal (b2z a) = decimal (b2z b) -> a = b.
Proof. intros E. apply decimal_inj in E; [|apply b2z_nonneg..]. now apply BaseFacts.b2z_inj. Qed.
Lemma items_inj l : forall l', items l ++ s2z "]" = items l' ++ s2z "]" -> l = l'.
Proof.
  assert (N : ~ sdigit 93) by (unfold sdigit, digit; lia). assert (M : ~ sdigit 44) by (unfold sdigit, digit; lia).
  change (s2z "]") with [93].
  induction l as [|b l IH]; intros [|b' l'] E; [reflexivity| | |].
  - rewrite items_cons, <- app_assoc in E. destruct (decimal_head b') as (c & s & Es & D). rewrite Es in E.
    cbn [items app] in E. injection E as <- _. contradiction.
  - rewrite items_cons, <- app_assoc in E. destruct (decimal_head b) as (c & s & Es & D). rewrite Es in E.
    cbn [items app] in E. injection E as -> _. contradiction.
  - rewrite !items_cons, <- !app_assoc in E. destruct l as [|b2 l], l' as [|b3 l'].
    + cbn [app] in E. apply (split_left sdigit) in E as [E _]; auto using decimal_digits. now rewrite (b2z_inj' _ _ E).
    + change (s2z ", ") with [44; 32] in E. cbn [app] in E. apply (differ sdigit) in E; auto using decimal_digits. discriminate.
    + change (s2z ", ") with [44; 32] in E. cbn [app] in E. apply (differ sdigit) in E; auto using decimal_digits. discriminate.
    + change (s2z ", ") with [44; 32] in E. cbn [app] in E.
      apply (split_left sdigit) in E as [E1 E2]; auto using decimal_digits. injection E2 as E2.
      rewrite (b2z_inj' _ _ E1). f_equal. apply IH. exact E2.
Qed.

(** ** The texts *)
Definition placed (e : error) : Prop := match place e with Some p => 0 <= p | None => True end.

(** The texts without the positions. *)
Definition body (names : etype -> str) (e : error) : str :=
  match e with
  | EValueSize expected got _ => s2z "Invalid value size, expected " ++ signed expected ++ s2z " got " ++ signed got
  | EString n _ => s2z "Invalid string size " ++ signed n
  | EStrTerm t _ => s2z "Invalid string terminator " ++ signed t
  | EBool v _ => s2z "Invalid boolean value " ++ signed v
  | EHint path _ => s2z "Missing hint for struct " ++ s2z "StructProperty" ++ s2z " at path " ++ path
  | EProperty what _ => s2z "Invalid property " ++ what
  | EEnum t v _ => s2z "No discriminant in enum `" ++ names t ++ s2z "` matches the value `" ++ signed v ++ s2z "`"
  | EArrayIndex i _ => s2z "Unexpected array_index value " ++ signed i
  | ETerm t _ => s2z "Unexpected terminator value " ++ signed t
  | EUtf16 _ => s2z "Invalid UTF-16 string"
  | EUtf8 _ => s2z "Invalid UTF-8 string"
  | _ => []
  end.
Lemma message_body names e p : place e = Some p -> message names e = Some (body names e ++ at_position p).
Proof.
  intros P. destruct e; try discriminate; injection P as ->; cbn [message body]; f_equal;
    generalize (at_position p); intros ?tail; rewrite <- ?app_assoc; reflexivity.
Qed.
Lemma message_position names e p m : 0 <= p -> place e = Some p -> message names e = Some m ->
  exists what h, m = what ++ s2z " at position 0x" ++ h /\ hex_numeral h p.
Proof.
  intros H P M. destruct (hexadecimal_ok p H) as (h & E & N).
  rewrite (message_body _ _ _ P) in M. injection M as <-. exists (body names e), h.
  split; [|exact N]. unfold at_position. rewrite E. reflexivity.
Qed.

Ltac spell E :=
  repeat match type of E with context [s2z ?x] =>
    let t := eval vm_compute in (s2z x) in change (s2z x) with t in E end; cbn [app] in E.
Ltac clash E := exfalso; spell E; discriminate E.
Lemma body_inj names e e' p : plain_names names -> place e = Some p -> place e' = Some p ->
  body names e = body names e' -> e = e'.
Proof.
  intros [I Q] P P' E.
  assert (D : ~ sdigit 32) by (unfold sdigit, digit; lia). assert (D' : ~ sdigit 96) by (unfold sdigit, digit; lia).
  destruct e; try discriminate P; destruct e'; try discriminate P'; cbn [place body] in *;
    injection P as ->; injection P' as ->; try (clash E); try reflexivity.
  - apply app_inv_head in E. spell E. apply signed_split in E as [-> E]; [|exact D].
    apply (app_inv_head [103; 111; 116; 32]) in E. apply signed_inj in E. now subst.
  - apply app_inv_head, signed_inj in E. now subst.
  - apply app_inv_head, signed_inj in E. now subst.
  - apply app_inv_head, signed_inj in E. now subst.
  - do 3 apply app_inv_head in E. now subst.
  - apply app_inv_head in E. now subst.
  - apply app_inv_head in E. spell E. apply (split_left (fun c => c <> 96)) in E as [E1 E2].
    + spell E2. match type of E2 with ?l ++ _ = _ => idtac | _ => idtac end.
      assert (E3 : signed value ++ [96] = signed value0 ++ [96]) by (injection E2; auto).
      apply signed_split in E3 as [-> _]; [|exact D']. now rewrite (I _ _ E1).
    + apply Forall_forall. intros c Hc ->. now apply (Q t).
    + apply Forall_forall. intros c Hc ->. now apply (Q t0).
    + lia.
  - apply app_inv_head, signed_inj in E. now subst.
  - apply app_inv_head, signed_inj in E. now subst.
Qed.
Lemma header_inj f v f' v' : header_reason f v = header_reason f' v' -> f = f' /\ v = v'.
Proof.
  assert (D : ~ sdigit 32) by (unfold sdigit, digit; lia).
  intros E. destruct f, f'; cbn [header_reason] in E; try (clash E); split; try reflexivity;
    apply app_inv_head in E; spell E; now apply signed_split in E as [-> _].
Qed.
Lemma none_some names e e' p m : place e = None -> place e' = Some p -> message names e = Some m -> message names e' = Some m -> False.
Proof.
  intros P P' M M'. rewrite <- M in M'. clear M.
  destruct e; try discriminate P; try match goal with w : serr |- _ => destruct w as [|x| |]; [|destruct x| |] end;
    (destruct e'; try discriminate P'; try discriminate M'; injection M' as M'; clash M').
Qed.
Lemma refuses e : (exists s, e = ESerialize s) \/ forall s, e <> ESerialize s.
Proof. destruct e; eauto; right; discriminate. Qed.
Lemma refusal_inj s s' m : refusal s = Some m -> refusal s' = Some m -> s = s'.
Proof.
  intros M M'. destruct s as [|x| |]; try destruct x; try discriminate M; (destruct s' as [|x'| |]; try destruct x'; try discriminate M');
    try reflexivity; rewrite <- M' in M; vm_compute in M; discriminate M.
Qed.
Lemma refusal_other names e s m : (forall s, e <> ESerialize s) -> place e = None ->
  message names (ESerialize s) = Some m -> message names e = Some m -> False.
Proof.
  intros N P M M'. destruct e; try discriminate P; try discriminate M'; try (exfalso; eapply N; reflexivity);
    rewrite <- M' in M; clear M'; destruct s as [|x| |]; try destruct x; try discriminate M; injection M as M; clash M.
Qed.
Lemma message_inj names e e' m : plain_names names -> placed e -> placed e' ->
  message names e = Some m -> message names e' = Some m -> e = e'.
Proof.
  intros K H H' M M'. unfold placed in *. destruct (place e) as [p|] eqn:P, (place e') as [p'|] eqn:P'.
  - rewrite (message_body _ _ _ P) in M. rewrite (message_body _ _ _ P') in M'. rewrite <- M in M'.
    injection M' as E. symmetry in E. apply at_split in E as [E ->]; auto. eapply body_inj; eauto.
  - exfalso. eapply none_some; [exact P'|exact P|exact M'|exact M].
  - exfalso. eapply none_some; [exact P|exact P'|exact M|exact M'].
  - destruct (refuses e) as [[s ->]|R], (refuses e') as [[s' ->]|R'].
    { f_equal. cbn [message] in *. destruct (refusal s) as [r|] eqn:T, (refusal s') as [r'|] eqn:T'; try discriminate M; try discriminate M'.
      rewrite <- M in M'. injection M' as E. subst r'. eapply refusal_inj; eauto. }
    { exfalso. eapply refusal_other; [exact R'|exact P'|exact M|exact M']. }
    { exfalso. eapply refusal_other; [exact R|exact P|exact M'|exact M]. }
    destruct e; try discriminate P; try discriminate M; try (exfalso; eapply R; reflexivity);
      destruct e'; try discriminate P'; try discriminate M'; try (exfalso; eapply R'; reflexivity);
      try reflexivity; rewrite <- M in M'; clear M; cbn [message] in M'; injection M' as E; try (clash E).
    + apply header_inj in E as [-> ->]. reflexivity.
    + exfalso. destruct f; clash E.
    + exfalso. destruct f; clash E.
    + apply items_inj in E. now subst.
Qed.

Lemma items_text l : l <> [] -> bytes_text l (items l).
Proof.
  induction l as [|b l IH]; [contradiction|]. intros _. pose proof (decimal_numeral (b2z b) (b2z_nonneg b)) as D.
  destruct l as [|b2 l]; [now constructor|]. change (items (b :: b2 :: l)) with (decimal (b2z b) ++ s2z ", " ++ items (b2 :: l)).
  constructor; [exact D|]. apply IH. discriminate.
Qed.
Lemma message_wording names e m : placed e -> e <> EMagic [] -> message names e = Some m -> wording names e m.
Proof.
  intros H B M. destruct e; try discriminate M; [injection M as <-..|]; unfold placed in H; cbn [place] in H;
    try (destruct (hexadecimal_ok _ H) as (h & E & N); unfold at_position; rewrite E).
  - constructor.
  - destruct f; cbn [header_reason]; rewrite app_assoc; constructor; apply signed_ok.
  - apply (WMagic names bs (items bs)). apply items_text. congruence.
  - apply WSize; auto using signed_ok.
  - apply WString; auto using signed_ok.
  - apply WStrTerm; auto using signed_ok.
  - apply WBool; auto using signed_ok.
  - apply WHint; auto.
  - apply WProperty; auto.
  - apply (WEnum names t value position (signed value) h); auto using signed_ok.
  - apply WIndex; auto using signed_ok.
  - apply WTerm; auto using signed_ok.
  - apply WUtf16; auto.
  - apply WUtf8; auto.
  - match goal with w : serr |- _ => destruct w as [|x| |]; [|destruct x| |] end; try discriminate M; injection M as <-;
      first [exact (WHeader names)|exact (WInfo names)
            |exact (WSingle names (s2z "Vector2") XVector2F XVector2D ltac:(cbn; tauto))
            |exact (WDouble names (s2z "Vector2") XVector2F XVector2D ltac:(cbn; tauto))
            |exact (WSingle names (s2z "Vector") XVectorF XVectorD ltac:(cbn; tauto))
            |exact (WDouble names (s2z "Vector") XVectorF XVectorD ltac:(cbn; tauto))
            |exact (WSingle names (s2z "Rotator") XRotatorF XRotatorD ltac:(cbn; tauto))
            |exact (WDouble names (s2z "Rotator") XRotatorF XRotatorD ltac:(cbn; tauto))
            |exact (WSingle names (s2z "Quat") XQuatF XQuatD ltac:(cbn; tauto))
            |exact (WDouble names (s2z "Quat") XQuatF XQuatD ltac:(cbn; tauto))].
Qed.

(** ** Loads *)
Lemma err_in_place lo hi e p : err_in lo hi e -> place e = Some p -> lo <= p <= hi.
Proof. destruct e; cbn [err_in place]; intros H E; try discriminate; injection E as <-; exact H. Qed.
(** Errors of unpacking carry positions in the file, and are not those of saving. *)
Definition fine (lo hi : Z) (e : error) : Prop :=
  match e with ESerialize _ => False | EIo => True | EMagic bs => bs <> [] | _ => err_in lo hi e end.
Lemma err_fine lo hi e : err_in lo hi e -> fine lo hi e.
Proof. destruct e; cbn [fine err_in]; tauto. Qed.
Lemma fine_place lo hi e p : fine lo hi e -> place e = Some p -> lo <= p <= hi.
Proof. destruct e; cbn [fine err_in place]; intros H E; try discriminate; injection E as <-; exact H. Qed.
Lemma fine_step {A} (r : reader A) c lo : sane (fun _ => False) (len (rest c) + 1) lo r ->
  match r c with
  | Ok (_, c') => pos c <= pos c' /\ pos c' + len (rest c') = pos c + len (rest c)
  | Fail (Err e) => fine (pos c) (pos c + len (rest c)) e
  | Fail _ => False
  end.
Proof.
  intros H. specialize (H c ltac:(lia)). destruct (r c) as [[a c']|[e| |]]; try exact H; [|now apply err_fine].
  destruct H as (bs & -> & -> & _). rewrite len_app. pose proof (len_nonneg bs). lia.
Qed.
Lemma fine_weaken lo lo' hi e : lo' <= lo -> fine lo hi e -> fine lo' hi e.
Proof. destruct e; cbn [fine err_in]; auto; lia. Qed.
Lemma palworld_err z b e : r_palworld z (Cur 0 b []) = Fail (Err e) -> fine 0 (len b) e.
Proof.
  unfold r_palworld. unfold bind at 1.
  pose proof (fine_step r_u32 (Cur 0 b []) 4 (s_u32 _ _)) as S1. cbn [pos rest] in S1. rewrite Z.add_0_l in S1.
  destruct (r_u32 (Cur 0 b [])) as [[n c1]|[e1| |]]; [|intros E; injection E as <-; exact S1|contradiction|contradiction].
  unfold bind at 1. pose proof (fine_step r_u32 c1 4 (s_u32 _ _)) as S2. rewrite (proj2 S1) in S2.
  destruct (r_u32 c1) as [[n2 c2]|[e1| |]];
    [|intros E; injection E as <-; eapply fine_weaken; [|exact S2]; lia|contradiction|contradiction].
  unfold bind at 1. pose proof (fine_step (take 3) c2 3 (s_take _ _ _)) as S3. rewrite (proj2 S2) in S3.
  destruct (take 3 c2) as [[m c3]|[e1| |]] eqn:T;
    [|intros E; injection E as <-; eapply fine_weaken; [|exact S3]; lia|contradiction|contradiction].
  destruct (negb _).
  { intros E; injection E as <-. unfold take in T. destruct (3 <=? len (rest c2)) eqn:L; [|discriminate]. injection T as <- _.
    destruct (rest c2) as [|x l]; [discriminate L|]. discriminate. }
  unfold bind at 1. pose proof (fine_step (r_enum ETCompression (enum_of ctype_z ctypes)) c3 1 (s_enum _ _ _ _)) as S4.
  rewrite (proj2 S3) in S4.
  destruct (r_enum ETCompression _ c3) as [[t c4]|[e1| |]];
    [|intros E; injection E as <-; eapply fine_weaken; [|exact S4]; lia|contradiction|contradiction].
  destruct t.
  - unfold take. destruct (n <=? _); [discriminate|]. intros E; injection E as <-. exact I.
  - unfold zread_exact. destruct (n <=? _); [discriminate|]. intros E; injection E as <-. destruct (snd _); exact I.
  - unfold zread_to_end. destruct (snd _); try discriminate. intros E; injection E as <-. exact I.
Qed.
(** The bytes that positions are counted in: the file, or what it unpacks to. *)
Definition counted (z : zlib) (v : gversion) (b d : list byte) : Prop :=
  d = b \/ v = GPalworld /\ exists c k, r_palworld z (Cur 0 b []) = Ok ((c, d), k).
Lemma load_fine z o v b e : load z o v b = Fail (Err e) ->
  exists d, counted z v b d /\ fine 0 (len d) e.
Proof.
  intros E. destruct v; cbn [load] in E.
  - exists b. split; [now left|]. destruct (load_plain o b) as [[h ps]|f] eqn:L; [discriminate|]. injection E as ->.
    eapply err_fine, load_position; exact L.
  - destruct (r_palworld z (Cur 0 b [])) as [[[c d] k]|f] eqn:R.
    + exists d. split; [right; eauto|]. destruct (load_plain o d) as [[h ps]|f] eqn:L; [discriminate|]. injection E as ->.
      eapply err_fine, load_position; exact L.
    + injection E as ->. exists b. split; [now left|]. eapply palworld_err; exact R.
Qed.
Lemma load_place z o v b e p : load z o v b = Fail (Err e) -> place e = Some p ->
  exists d, counted z v b d /\ 0 <= p <= len d.
Proof.
  intros E P. destruct (load_fine _ _ _ _ _ E) as (d & C & H). exists d. split; [exact C|]. eapply fine_place; eauto.
Qed.
Lemma load_placed z o v b e : load z o v b = Fail (Err e) -> placed e.
Proof.
  intros E. unfold placed. destruct (place e) as [p|] eqn:P; [|exact I].
  destruct (load_place _ _ _ _ _ _ E P) as (d & _ & H). lia.
Qed.
Lemma load_tells names z o v b e z' o' v' b' e' m : plain_names names ->
  load z o v b = Fail (Err e) -> load z' o' v' b' = Fail (Err e') ->
  message names e = Some m -> message names e' = Some m -> e = e'.
Proof. intros K L L'. apply message_inj; eauto using load_placed. Qed.
Lemma load_where names z o v b e p m : load z o v b = Fail (Err e) -> place e = Some p -> message names e = Some m ->
  exists d what h, counted z v b d /\ m = what ++ s2z " at position 0x" ++ h /\ hex_numeral h p /\ p <= len d.
Proof.
  intros L P M. destruct (load_place _ _ _ _ _ _ L P) as (d & C & H).
  destruct (message_position _ _ _ _ (proj1 H) P M) as (what & h & E & N). exists d, what, h. split; [exact C|]. split; [exact E|]. split; [exact N|lia].
Qed.
(** Every error of a load has a text unless it is zlib's. *)
Lemma load_text names z o v b e : load z o v b = Fail (Err e) ->
  (exists m, message names e = Some m) \/ e = EIo /\ v = GPalworld.
Proof.
  intros E. destruct v; cbn [load] in E.
  - left. destruct (load_plain o b) as [[h ps]|f] eqn:L; [discriminate|]. injection E as ->.
    apply load_position in L. destruct e; cbn [err_in] in L; try contradiction; eexists; reflexivity.
  - destruct (load_fine z o GPalworld b e E) as (d & _ & H). destruct e; cbn [fine err_in] in H; try contradiction; eauto;
    left; eexists; reflexivity.
Qed.
Lemma load_wording names z o v b e m : load z o v b = Fail (Err e) -> message names e = Some m -> wording names e m.
Proof.
  intros L M. apply message_wording; [eapply load_placed; exact L| |exact M].
  intros ->. destruct (load_fine _ _ _ _ _ L) as (d & _ & H). now apply H.
Qed.

(** ** Saves *)
(** The errors of loads and of saves. *)
Definition reported (e : error) : Prop :=
  (exists z o v b, load z o v b = Fail (Err e)) \/ exists z g d d', save z g d = (Fail (Err e), d').
Lemma save_refused z g d e d' : save z g d = (Fail (Err e), d') ->
  let f := (g_header g, g_props g) in
  (exists x, e = ESerialize (SLwc x) /\ In (LFixed x) (file_leaves f) /\ precision_ok (has_lwc (h_versions (g_header g))) x = false)
  \/ e = ESerialize SStructHeader /\ In LBare (file_leaves f).
Proof.
  intros E f. unfold save in E. fold f in E. pose proof (saved_iff f) as J.
  destruct (save_plain f) as [b|k]; [destruct (g_version g); discriminate E|]. injection E as -> _.
  apply first_objection in J as [(x & X & I & P)|[[X _]|[X I]]]; [injection X as ->; left; eauto|discriminate X|injection X as ->; auto].
Qed.
Lemma reported_placed e : reported e -> placed e.
Proof.
  intros [(z & o & v & b & L)|(z & g & d & d' & S)]; [eapply load_placed; exact L|].
  apply save_refused in S as [(x & -> & _)|[-> _]]; exact I.
Qed.
Lemma reported_tells names e e' m : plain_names names -> reported e -> reported e' ->
  message names e = Some m -> message names e' = Some m -> e = e'.
Proof. intros K R R'. apply message_inj; auto using reported_placed. Qed.
(** What a refused save says: either a bare struct is in the file, or a struct of the
    named kind is, and none of the kind advised would be refused. *)
Definition explains (vs : list (guid * Z)) (ls : list leaf) (m : str) : Prop :=
  In LBare ls /\ m = s2z "Invalid value StructPropertyValue can not be serialized with a header"
  \/ exists k xf xd, In (k, xf, xd) precisions
     /\ (In (LFixed xf) ls /\ at_least ue5_guid 28 vs
           /\ m = s2z "Invalid value " ++ k ++ s2z "F not supported when LWC is enabled, use " ++ k ++ s2z "D"
           /\ (forall e, ~ complaint vs (LFixed xd) e)
         \/ In (LFixed xd) ls /\ ~ at_least ue5_guid 28 vs
           /\ m = s2z "Invalid value " ++ k ++ s2z "D not supported when LWC is disabled, use " ++ k ++ s2z "F"
           /\ (forall e, ~ complaint vs (LFixed xf) e)).
Lemma save_explains names z g d e d' : distinct guid_eqb (h_versions (g_header g)) = true -> save z g d = (Fail (Err e), d') ->
  exists m, message names e = Some m /\ explains (h_versions (g_header g)) (file_leaves (g_header g, g_props g)) m.
Proof.
  intros D E. apply save_refused in E as [(x & -> & I & P)|[-> I]].
  - set (vs := h_versions (g_header g)) in *. set (ls := file_leaves _) in *.
    pose proof (supports_iff vs ue5_guid v_lwc D ltac:(reflexivity)) as S1. fold (has_lwc vs) in S1. change v_lwc with 28 in S1.
    assert (C : forall y, precision_ok (has_lwc vs) y = true -> forall e, ~ complaint vs (LFixed y) e).
    { intros y O e Q. apply complaint_iff in Q; [|exact D]. cbn [objection] in Q. rewrite O in Q. exact Q. }
    assert (L : has_lwc vs = true /\ at_least ue5_guid 28 vs \/ has_lwc vs = false /\ ~ at_least ue5_guid 28 vs).
    { destruct (has_lwc vs); [left; split; [reflexivity|now apply S1]|right; split; [reflexivity|]]. intros A. now apply S1 in A. }
    assert (N : forall k xf xd, In (k, xf, xd) precisions -> x = xf \/ x = xd ->
      lwc_reason xf = Some (k ++ s2z "F not supported when LWC is enabled, use " ++ k ++ s2z "D") ->
      lwc_reason xd = Some (k ++ s2z "D not supported when LWC is disabled, use " ++ k ++ s2z "F") ->
      precision_ok true xf = false -> precision_ok true xd = true -> precision_ok false xf = true -> precision_ok false xd = false ->
      exists m, message names (ESerialize (SLwc x)) = Some m /\ explains vs ls m).
    { intros k xf xd K X R1 R2 P1 P2 P3 P4. destruct X as [->| ->].
      - destruct L as [[L A]|[L A]]; rewrite L in P; [|congruence]. eexists. split; [cbn [message refusal]; rewrite R1; reflexivity|].
        right. exists k, xf, xd. split; [exact K|]. left. split; [exact I|]. split; [exact A|]. split; [reflexivity|]. apply C. now rewrite L.
      - destruct L as [[L A]|[L A]]; rewrite L in P; [congruence|]. eexists. split; [cbn [message refusal]; rewrite R2; reflexivity|].
        right. exists k, xf, xd. split; [exact K|]. right. split; [exact I|]. split; [exact A|]. split; [reflexivity|]. apply C. now rewrite L. }
    destruct x; try discriminate P;
      first [eapply (N (s2z "Vector2") XVector2F XVector2D); [cbn; tauto|first [left; reflexivity|right; reflexivity]|reflexivity..]
            |eapply (N (s2z "Vector") XVectorF XVectorD); [cbn; tauto|first [left; reflexivity|right; reflexivity]|reflexivity..]
            |eapply (N (s2z "Rotator") XRotatorF XRotatorD); [cbn; tauto|first [left; reflexivity|right; reflexivity]|reflexivity..]
            |eapply (N (s2z "Quat") XQuatF XQuatD); [cbn; tauto|first [left; reflexivity|right; reflexivity]|reflexivity..]].
  - eexists. split; [reflexivity|]. left. split; [exact I|reflexivity].
Qed.
