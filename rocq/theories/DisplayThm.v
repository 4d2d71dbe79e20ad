(** Facts about the texts of structs and numbers. *)
From Coq Require Import ZArith List Bool String Lia ZifyBool ZifyNat.
From Verif Require Import Base Types Spec Json Numeral Message MessageThm UniqThm Display.
Import ListNotations.
Open Scope string_scope.
Open Scope list_scope.
Open Scope Z_scope.

(** ** Specification *)
Definition is_float (k : num) : Prop := k = F32 \/ k = F64.
Definition is_nan (k : num) (z : Z) : Prop := k = F32 /\ nan32 z \/ k = F64 /\ nan64 z.
(** Two numbers of a kind are the same, or both are not a number. *)
Definition alike (k : num) (a b : Z) : Prop := a = b \/ is_nan k a /\ is_nan k b.
Fixpoint all_alike (ks : list num) (l l' : list Z) : Prop :=
  match ks, l, l' with
  | [], [], [] => True
  | k :: ks', a :: r, b :: r' => alike k a b /\ all_alike ks' r r'
  | _, _, _ => False
  end.
(** What is asked of the printer of floats: no spaces, and floats that print alike are
    alike. *)
Definition faithful (floats : num -> Z -> str) : Prop :=
  (forall k z, ~ In 32 (floats k z))
  /\ forall k a b, is_float k -> num_ok k a = true -> num_ok k b = true -> floats k a = floats k b -> alike k a b.
(** The text of a number. *)
Definition num_text (floats : num -> Z -> str) (k : num) (z : Z) (t : str) : Prop :=
  is_float k /\ t = floats k z \/ ~ is_float k /\ number t z.
(** The text of a struct: its fields, with their names, each followed by a space. *)
Fixpoint entries (floats : num -> Z -> str) (names : list string) (ks : list num) (l : list Z) (s : str) : Prop :=
  match names, ks, l with
  | [], [], [] => s = []
  | n :: names', k :: ks', z :: l' =>
      exists t r, num_text floats k z t /\ entries floats names' ks' l' r /\ s = s2z n ++ s2z ": " ++ t ++ s2z " " ++ r
  | _, _, _ => False
  end.
Definition labels (x : fixed) : list string :=
  match x with
  | XVector2F | XVector2D | XIntPoint => ["x"; "y"]
  | XVectorF | XVectorD => ["x"; "y"; "z"]
  | XRotatorF | XRotatorD => ["pitch"; "yaw"; "roll"]
  | XQuatF | XQuatD => ["x"; "y"; "z"; "w"]
  | XDateTime | XTimespan => ["ticks"]
  | XLinearColor => ["r"; "g"; "b"; "a"]
  end.

(** ** Proofs *)
Lemma float_dec k : is_float k \/ ~ is_float k.
Proof. unfold is_float. destruct k; auto; right; intros [E|E]; discriminate. Qed.
Lemma printed_float floats k z : is_float k -> printed floats k z = floats k z.
Proof. intros [-> | ->]; reflexivity. Qed.
Lemma printed_int floats k z : ~ is_float k -> printed floats k z = signed z.
Proof. unfold is_float. destruct k; try reflexivity; intros N; exfalso; apply N; auto. Qed.
Lemma printed_ok floats k z : num_text floats k z (printed floats k z).
Proof.
  destruct (float_dec k) as [F|F].
  - left. split; [exact F|now apply printed_float].
  - right. split; [exact F|]. rewrite printed_int by exact F. apply signed_ok.
Qed.
Lemma printed_unique floats k z t : num_text floats k z t -> t = printed floats k z.
Proof.
  intros [[F ->]|[F N]]; [now rewrite printed_float|]. rewrite printed_int by exact F.
  unfold signed. destruct N as [[P N]|[P (u & -> & N)]].
  - replace (z <? 0) with false by lia. now apply numeral_unique.
  - replace (z <? 0) with true by lia. rewrite (numeral_unique _ _ N). reflexivity.
Qed.
Lemma printed_space floats k z : faithful floats -> Forall (fun c => c <> 32) (printed floats k z).
Proof.
  intros [S _]. apply Forall_forall. intros c I ->. destruct (float_dec k) as [F|F].
  - rewrite printed_float in I by exact F. exact (S k z I).
  - rewrite printed_int in I by exact F. pose proof (number_digits _ _ (signed_ok z)) as D.
    rewrite Forall_forall in D. specialize (D 32 I). unfold sdigit, digit in D. lia.
Qed.
Lemma printed_alike floats k a b : faithful floats -> num_ok k a = true -> num_ok k b = true ->
  printed floats k a = printed floats k b -> alike k a b.
Proof.
  intros [_ H] A B E. destruct (float_dec k) as [F|F].
  - rewrite !printed_float in E by exact F. now apply H.
  - rewrite !printed_int in E by exact F. left. now apply signed_inj.
Qed.
Lemma fields_iff floats names ks l s : List.length names = List.length ks -> List.length l = List.length ks ->
  show_fields floats (map s2z names) ks l = s <-> entries floats names ks l s.
Proof.
  revert ks l s. induction names as [|n names IH]; intros [|k ks] [|z l] s; try discriminate; cbn [map show_fields entries].
  - intros _ _. split; congruence.
  - intros H H'. injection H as H. injection H' as H'. split.
    + intros <-. eexists _, _. split; [apply printed_ok|]. split; [apply (IH ks l); auto|reflexivity].
    + intros (t & r & T & R & ->). apply printed_unique in T. apply (IH ks l) in R; auto. now subst.
Qed.
Lemma labels_names x : field_names x = map s2z (labels x).
Proof. destruct x; reflexivity. Qed.
Lemma labels_length x : List.length (labels x) = List.length (layout x).
Proof. destruct x; reflexivity. Qed.
Lemma show_iff floats x l s : List.length l = List.length (layout x) ->
  show_fixed floats x l = s <-> entries floats (labels x) (layout x) l s.
Proof. intros L. unfold show_fixed. rewrite labels_names. apply fields_iff; [apply labels_length|exact L]. Qed.

Lemma nums_length ks l : nums_ok ks l = true -> List.length l = List.length ks.
Proof.
  revert l. induction ks as [|k ks IH]; intros [|z l]; try discriminate; [reflexivity|].
  cbn [nums_ok List.length]. intros H. apply andb_true_iff in H as [_ H]. f_equal. now apply IH.
Qed.
Lemma fields_tell floats names : faithful floats -> forall ks l l',
  List.length names = List.length ks -> nums_ok ks l = true -> nums_ok ks l' = true ->
  show_fields floats names ks l = show_fields floats names ks l' -> all_alike ks l l'.
Proof.
  intros F. induction names as [|n names IH]; intros [|k ks] l l' H O O'; try discriminate H.
  - destruct l, l'; try discriminate. exact (fun _ => I).
  - destruct l as [|a l], l' as [|b l']; try discriminate. cbn [nums_ok] in O, O'.
    apply andb_true_iff in O as [Oa O], O' as [Ob O']. cbn [show_fields all_alike]. intros E.
    apply app_inv_head in E. apply app_inv_head in E. change (s2z " ") with [32] in E. cbn [app] in E.
    apply (split_left (fun c => c <> 32)) in E as [E1 E2]; [|now apply printed_space..|lia].
    split; [eapply printed_alike; eauto|]. apply IH; auto.
Qed.
Lemma show_tells floats x l l' : faithful floats -> nums_ok (layout x) l = true -> nums_ok (layout x) l' = true ->
  show_fixed floats x l = show_fixed floats x l' -> all_alike (layout x) l l'.
Proof.
  intros F O O'. apply fields_tell; auto. rewrite labels_names, map_length. apply labels_length.
Qed.

(** The labels can be read off, so the text tells the kind as far as they do. *)
Lemma fields_labels floats : faithful floats -> forall names names' ks ks' l l',
  Forall (Forall (fun c => c <> 58)) names -> Forall (Forall (fun c => c <> 58)) names' ->
  List.length names = List.length ks -> List.length l = List.length ks ->
  List.length names' = List.length ks' -> List.length l' = List.length ks' ->
  show_fields floats names ks l = show_fields floats names' ks' l' -> names = names'.
Proof.
  intros F. induction names as [|n names IH]; intros [|n' names'] ks ks' l l' P P' H1 H2 H3 H4;
    destruct ks as [|k ks], ks' as [|k' ks'], l as [|a l], l' as [|b l']; try discriminate; cbn [show_fields].
  - reflexivity.
  - intros E. exfalso. destruct n'; discriminate E.
  - intros E. exfalso. destruct n; discriminate E.
  - inversion P as [|? ? Pn Pr]; subst. inversion P' as [|? ? Pn' Pr']; subst.
    change (s2z ": ") with [58; 32]. change (s2z " ") with [32]. cbn [app]. intros E.
    apply (split_left (fun c => c <> 58)) in E as [-> E]; [|assumption..|lia]. injection E as E.
    apply (split_left (fun c => c <> 32)) in E as [_ E]; [|now apply printed_space..|lia].
    f_equal. eapply IH; [exact Pr|exact Pr'| | | | |exact E]; cbn [List.length] in *; lia.
Qed.
Lemma labels_plain x : Forall (Forall (fun c => c <> 58)) (field_names x).
Proof.
  rewrite labels_names. destruct x; cbn [labels map];
    repeat (apply Forall_cons; [repeat (apply Forall_cons; [vm_compute; discriminate|]); apply Forall_nil|]); apply Forall_nil.
Qed.
Lemma labels_inj x y : field_names x = field_names y -> labels x = labels y.
Proof. destruct x, y; intros E; try reflexivity; vm_compute in E; discriminate E. Qed.
Lemma show_kind floats x y l l' : faithful floats -> nums_ok (layout x) l = true -> nums_ok (layout y) l' = true ->
  show_fixed floats x l = show_fixed floats y l' -> labels x = labels y.
Proof.
  intros F O O' E. apply labels_inj. apply nums_length in O, O'.
  assert (N : forall z, List.length (field_names z) = List.length (layout z)) by (intros z; rewrite labels_names, map_length; apply labels_length).
  eapply (fields_labels floats F _ _ (layout x) (layout y) l l'); auto using labels_plain.
Qed.

(** Numbers with their type: the end of the text is the type. *)
Lemma last_two {A} (s s' : list A) a b c d : s ++ [a; b] = s' ++ [c; d] -> s = s' /\ a = c /\ b = d.
Proof.
  intros E. change [a; b] with ([a] ++ [b]) in E. change [c; d] with ([c] ++ [d]) in E. rewrite !app_assoc in E.
  apply app_inj_tail in E as [E ->]. apply app_inj_tail in E as [E ->]. auto.
Qed.
Lemma last_three {A} (s s' : list A) a b c d e f : s ++ [a; b; c] = s' ++ [d; e; f] -> s = s' /\ a = d /\ b = e /\ c = f.
Proof.
  intros E. change [a; b; c] with ([a] ++ [b; c]) in E. change [d; e; f] with ([d] ++ [e; f]) in E. rewrite !app_assoc in E.
  apply last_two in E as (E & -> & ->). apply app_inj_tail in E as [E ->]. auto.
Qed.
Lemma suffix_tells s s' k k' : s ++ type_suffix k = s' ++ type_suffix k' -> s = s' /\ k = k'.
Proof.
  intros E. destruct k, k'; unfold type_suffix in E; spell E;
    first [apply last_two in E as (E & A & B); split; [exact E|reflexivity]
          |apply last_three in E as (E & A & B & C); first [discriminate A|discriminate B|discriminate C|split; [exact E|reflexivity]]
          |exfalso].
  all: match type of E with
       | ?u ++ [?a; ?b] = ?v ++ [?c; ?d; ?e] => change [c; d; e] with ([c] ++ [d; e]) in E
       | ?v ++ [?c; ?d; ?e] = ?u ++ [?a; ?b] => change [c; d; e] with ([c] ++ [d; e]) in E
       end; rewrite app_assoc in E; apply last_two in E as (_ & A & _); discriminate A.
Qed.
Lemma debug_tells floats k k' a b : faithful floats -> num_ok k a = true -> num_ok k' b = true ->
  debug_num floats k a = debug_num floats k' b -> k = k' /\ alike k a b.
Proof.
  intros F A B E. apply suffix_tells in E as [E <-]. split; [reflexivity|]. eapply printed_alike; eauto.
Qed.
Lemma debug_bool_num floats k z b : debug_num floats k z <> debug_bool b.
Proof.
  intros E. unfold debug_num, debug_bool in E. apply (f_equal (fun s => last s 0)) in E.
  assert (L : forall s t, t <> [] -> last (s ++ t) 0 = last t 0).
  { intros s t. induction s as [|c s IH]; intros N; [reflexivity|]. cbn [app]. rewrite <- (IH N). destruct (s ++ t) eqn:X; [|reflexivity].
    apply app_eq_nil in X as [_ ->]. contradiction. }
  rewrite L in E by (destruct k; discriminate). destruct k, b; vm_compute in E; discriminate E.
Qed.
