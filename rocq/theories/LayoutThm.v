(** Texts on several lines (C76). *)
From Coq Require Import ZArith List Bool String Lia ZifyBool ZifyNat QArith.
From Verif Require Import Base Str Types Spec Json JsonSpec JsonBack JsonSyntax Numeral Nearest JsonGrammar JsonPrint DirectTree LayoutSpec.
Import ListNotations.
Open Scope Z_scope.

(** ** JSON *)
(** Characters of numbers and of words. *)
Definition ordinary (c : Z) : Prop := ~ In c [32; 9; 10; 13; 34; 44; 58; 91; 93; 123; 125].
Definition ordinaries (s : str) : Prop := s <> [] /\ Forall ordinary s.
Lemma ord_step c : ordinary c -> closing c = false /\ opening c = false /\ (c =? 34) = false /\ (c =? 44) = false /\ (c =? 58) = false.
Proof. unfold ordinary, closing, opening. cbn [In]. lia. Qed.
Definition lead (p : place) (d : nat) : str := match p with Opened => new_line 2 d | _ => [] end.
Definition outside (p : place) : Prop := match p with Opened | Elsewhere => True | _ => False end.
Lemma lines_plain d s : forall r, Forall ordinary s -> json_lines d Elsewhere (s ++ r) = s ++ json_lines d Elsewhere r.
Proof.
  induction s as [|c s IH]; intros r F; [reflexivity|]. inversion F as [|? ? O F']; subst. cbn [app json_lines].
  destruct (ord_step c O) as (-> & -> & -> & -> & ->). cbn [app]. now rewrite IH.
Qed.
Lemma lines_ord d p s r : outside p -> ordinaries s -> json_lines d p (s ++ r) = lead p d ++ s ++ json_lines d Elsewhere r.
Proof.
  intros P [N F]. destruct s as [|c s]; [contradiction|]. inversion F as [|? ? O F']; subst. cbn [app json_lines].
  destruct (ord_step c O) as (-> & -> & -> & -> & ->). rewrite lines_plain by exact F'. destruct p; try destruct P; reflexivity.
Qed.
Lemma in_string d c t : json_lines d InString (c :: t) = c :: json_lines d (if c =? 92 then Escaped else if c =? 34 then Elsewhere else InString) t.
Proof. reflexivity. Qed.
Lemma escaped d c t : json_lines d Escaped (c :: t) = c :: json_lines d InString t.
Proof. reflexivity. Qed.
Lemma opened d p c t : outside p -> c = 91 \/ c = 123 -> json_lines d p (c :: t) = lead p d ++ c :: json_lines (S d) Opened t.
Proof. intros P [-> | ->]; destruct p; try destruct P; reflexivity. Qed.
Lemma lines_escape d c t : 0 <= c -> json_lines d InString (escape c ++ t) = escape c ++ json_lines d InString t.
Proof.
  intros C. unfold escape. destruct (c =? 34) eqn:E34; [reflexivity|]. destruct (c =? 92) eqn:E92; [reflexivity|].
  destruct (c =? 8); [reflexivity|]. destruct (c =? 9); [reflexivity|]. destruct (c =? 10); [reflexivity|].
  destruct (c =? 12); [reflexivity|]. destruct (c =? 13); [reflexivity|]. destruct (c <? 32) eqn:E32.
  - assert (H : forall h, 0 <= h < 16 -> (hex_lower h =? 92) = false /\ (hex_lower h =? 34) = false) by (intros h X; unfold hex_lower; destruct (h <? 10) eqn:?; lia).
    assert (A : 0 <= c / 16 < 16) by (Z.to_euclidean_division_equations; lia). assert (B : 0 <= c mod 16 < 16) by (apply Z.mod_pos_bound; lia).
    change (s2z "\u00") with [92; 117; 48; 48]. cbn [app]. destruct (H _ A) as [A1 A2], (H _ B) as [B1 B2].
    rewrite in_string. change (92 =? 92) with true. cbv iota. rewrite escaped, in_string. change (48 =? 92) with false. change (48 =? 34) with false. cbv iota.
    rewrite in_string. change (48 =? 92) with false. change (48 =? 34) with false. cbv iota. rewrite in_string, A1, A2, in_string, B1, B2. reflexivity.
  - cbn [app]. now rewrite in_string, E34, E92.
Qed.
Lemma lines_string d s t : is_str s = true -> json_lines d InString (flat_map escape s ++ t) = flat_map escape s ++ json_lines d InString t.
Proof.
  intros S. assert (F : Forall (fun c => 0 <= c) s).
  { apply Forall_forall. intros c I. unfold is_str in S. rewrite forallb_forall in S. specialize (S c I). unfold scalar, in_range in S. lia. }
  clear S. induction F as [|c s C F IH]; [reflexivity|]. cbn [flat_map]. rewrite <- !app_assoc, lines_escape by exact C. now rewrite IH.
Qed.
Lemma lines_quote d p s r : outside p -> is_str s = true -> json_lines d p (quote s ++ r) = lead p d ++ quote s ++ json_lines d Elsewhere r.
Proof.
  intros P S. unfold quote.
  assert (E : json_lines d InString (flat_map escape s ++ [34] ++ r) = flat_map escape s ++ [34] ++ json_lines d Elsewhere r) by (now rewrite lines_string).
  cbn [app] in *. cbn [json_lines]. replace (closing 34) with false by reflexivity. replace (opening 34) with false by reflexivity. rewrite <- app_assoc. cbn [app].
  rewrite E. rewrite <- !app_assoc. destruct p; try destruct P; reflexivity.
Qed.
Lemma indent_line n : indent n = new_line 2 n. Proof. reflexivity. Qed.
Lemma lines_items {A} (f g : A -> str) d l c r : closing c = true -> l <> [] ->
  (forall x, In x l -> forall p r, outside p -> json_lines (S d) p (f x ++ r) = lead p (S d) ++ g x ++ json_lines (S d) Elsewhere r) ->
  json_lines (S d) Opened (commas (map f l) ++ c :: r) = commas (map (fun x => indent (S d) ++ g x) l) ++ indent d ++ c :: json_lines d Elsewhere r.
Proof.
  intros C N H. destruct l as [|x l]; [contradiction|]. clear N.
  assert (G : forall l x, (forall y, In y (x :: l) -> forall p r, outside p -> json_lines (S d) p (f y ++ r) = lead p (S d) ++ g y ++ json_lines (S d) Elsewhere r) ->
    forall p, outside p -> json_lines (S d) p (commas (map f (x :: l)) ++ c :: r)
      = lead p (S d) ++ match l with [] => g x | _ => g x ++ [44] ++ commas (map (fun x => indent (S d) ++ g x) l) end ++ indent d ++ c :: json_lines d Elsewhere r).
  { clear x l H. induction l as [|y l IH]; intros x H p P.
    - cbn [map commas]. rewrite (H x ltac:(now left) p _ P). f_equal. f_equal. cbn [json_lines]. rewrite C. reflexivity.
    - change (commas (map f (x :: y :: l))) with (f x ++ [44] ++ commas (map f (y :: l))). rewrite <- !app_assoc.
      rewrite (H x ltac:(now left) p _ P). f_equal. f_equal.
      change (([44] ++ commas (map f (y :: l)) ++ c :: r)) with (44 :: (commas (map f (y :: l)) ++ c :: r)). cbn [json_lines].
      change (closing 44) with false. change (opening 44) with false. cbn [Z.eqb Pos.eqb app].
      rewrite (IH y ltac:(intros z I; apply H; now right) Elsewhere I). cbn [lead app]. f_equal.
      destruct l as [|z l]; [cbn [map commas]; rewrite <- ?app_assoc; reflexivity|].
      change (commas (map (fun x => indent (S d) ++ g x) (y :: z :: l))) with ((indent (S d) ++ g y) ++ [44] ++ commas (map (fun x => indent (S d) ++ g x) (z :: l))).
      rewrite <- ?app_assoc. reflexivity. }
  rewrite (G l x H Opened I). cbn [lead]. change (new_line 2 (S d)) with (indent (S d)).
  destruct l as [|y l]; [cbn [map commas]; now rewrite <- !app_assoc|].
  change (commas (map (fun x => indent (S d) ++ g x) (x :: y :: l))) with ((indent (S d) ++ g x) ++ [44] ++ commas (map (fun x => indent (S d) ++ g x) (y :: l))).
  now rewrite <- !app_assoc.
Qed.
Lemma digit_ord c : digit c -> ordinary c. Proof. unfold digit, ordinary. cbn [In]. lia. Qed.
Lemma digits_ord s : Forall digit s -> Forall ordinary s. Proof. intros F. eapply Forall_impl; [|exact F]. exact digit_ord. Qed.
Lemma ord_b s : forallb (fun c => negb (existsb (Z.eqb c) [32; 9; 10; 13; 34; 44; 58; 91; 93; 123; 125])) s = true -> Forall ordinary s.
Proof. intros H. apply Forall_forall. intros c I. rewrite forallb_forall in H. specialize (H c I). unfold ordinary. cbn [existsb In] in *. lia. Qed.
Lemma num_ord j s : num_text j s -> ordinaries s.
Proof.
  intros T. destruct T as [i (N & F & _) _|i (N & F & _) _|neg i f x e y b (N & F & _) X Y _ _ _].
  - split; [exact N|now apply digits_ord].
  - split; [discriminate|]. constructor; [unfold ordinary; cbn; lia|now apply digits_ord].
  - split; [destruct neg; [discriminate|destruct i; [contradiction|discriminate]]|].
    assert (FX : Forall ordinary x) by (destruct X as [|f' _ D]; [constructor|constructor; [unfold ordinary; cbn; lia|now apply digits_ord]]).
    assert (FY : Forall ordinary y).
    { destruct Y as [|c sg y C S _ D]; [constructor|]. constructor; [unfold ordinary; cbn in *; lia|]. apply Forall_app. split; [|now apply digits_ord].
      cbn in S. destruct S as [<-|[<-|[<-|[]]]]; apply ord_b; reflexivity. }
    rewrite !Forall_app. repeat split; auto using digits_ord. destruct neg; apply ord_b; reflexivity.
Qed.
Section Print.
Context (float : Z -> str) (f : Z -> Z) (FL : forall z, j_ok (JFloat (f z)) = true -> ordinaries (float z)).
Lemma int_ord z : ordinaries (show_int z).
Proof.
  unfold show_int. destruct (z <? 0) eqn:E.
  - destruct (decimal_numeral (- z) ltac:(lia)) as (N & F & _). split; [discriminate|]. constructor; [unfold ordinary; cbn; lia|now apply digits_ord].
  - destruct (decimal_numeral z ltac:(lia)) as (N & F & _). split; [exact N|now apply digits_ord].
Qed.
Lemma lines_json j : j_ok (jmap f j) = true -> forall d p r, outside p ->
  json_lines d p (print float j ++ r) = lead p d ++ pretty float d j ++ json_lines d Elsewhere r.
Proof.
  remember (S (jsize j)) as k eqn:E. assert (L : (jsize j < k)%nat) by lia. clear E. revert j L.
  induction k as [|k IH]; intros j L J d p r P; [lia|].
  destruct j as [| b | z | z | s | l | l]; cbn [print pretty].
  - apply lines_ord; [exact P|]. split; [discriminate|apply ord_b; reflexivity].
  - apply lines_ord; [exact P|]. destruct b; (split; [discriminate|apply ord_b; reflexivity]).
  - apply lines_ord; [exact P|apply int_ord].
  - apply lines_ord; [exact P|]. apply FL. exact J.
  - apply lines_quote; [exact P|exact J].
  - cbn [jmap j_ok] in J. rewrite forallb_forall in J.
    change (([91] ++ commas (map (print float) l) ++ [93]) ++ r) with (91 :: (commas (map (print float) l) ++ [93]) ++ r). rewrite <- app_assoc. cbn [app].
    rewrite opened by auto. f_equal. cbn [app]. f_equal.
    destruct l as [|x l]; [reflexivity|].
    rewrite (lines_items (print float) (pretty float (S d)) d (x :: l) 93 r eq_refl ltac:(discriminate)).
    + unfold block. cbn [map]. rewrite map_map, <- !app_assoc. reflexivity.
    + intros y I q t Q. pose proof (arr_smaller y (x :: l) I). apply IH; [lia| |exact Q]. apply J. apply in_map. exact I.
  - cbn [jmap j_ok] in J. apply andb_true_iff in J as [_ J]. rewrite forallb_forall in J.
    set (h := fun '(k, v) => quote k ++ [58] ++ print float v). set (g := fun '(k, v) => quote k ++ s2z ": " ++ pretty float (S d) v).
    change (([123] ++ commas (map h l) ++ [125]) ++ r) with (123 :: (commas (map h l) ++ [125]) ++ r). rewrite <- app_assoc. cbn [app].
    rewrite opened by auto. f_equal. cbn [app]. f_equal.
    destruct l as [|x l]; [reflexivity|].
    etransitivity; [apply (lines_items h g d (x :: l) 125 r eq_refl ltac:(discriminate))|].
    + intros [q v] I t u Q. pose proof (obj_smaller q v (x :: l) I).
      assert (X : is_str q = true /\ j_ok (jmap f v) = true).
      { specialize (J (q, jmap f v)). apply andb_true_iff, J. exact (in_map (fun '(k, v) => (k, jmap f v)) _ _ I). }
      unfold h, g. rewrite <- !app_assoc, lines_quote; [|exact Q|apply X]. f_equal. f_equal. cbn [app json_lines].
      change (closing 58) with false. change (opening 58) with false. cbn [Z.eqb Pos.eqb]. change (s2z ": ") with [58; 32]. cbn [app]. f_equal. f_equal.
      rewrite IH; [reflexivity|lia|apply X|exact Logic.I].
    + unfold block. cbn [map]. rewrite map_map, <- !app_assoc. reflexivity.
Qed.
(** ** Compact texts *)
Lemma tight_out p r : outside p -> tight Elsewhere r -> tight p r.
Proof. destruct p; intros P; try destruct P; destruct r; auto. Qed.
Lemma tight_plain s : forall r, Forall ordinary s -> tight Elsewhere r -> tight Elsewhere (s ++ r).
Proof.
  induction s as [|c s IH]; intros r F T; [exact T|]. inversion F as [|? ? O F']; subst. cbn [app tight].
  destruct (ord_step c O) as (_ & _ & -> & _). split; [unfold ordinary in O; cbn [In] in *; tauto|now apply IH].
Qed.
Lemma tight_char c r : ~ In c [32; 9; 10; 13; 34] -> tight Elsewhere r -> tight Elsewhere (c :: r).
Proof. intros N T. cbn [tight]. replace (c =? 34) with false by (cbn [In] in N; lia). split; [cbn [In] in *; tauto|exact T]. Qed.
Lemma tight_escape c t : 0 <= c -> tight InString t -> tight InString (escape c ++ t).
Proof.
  intros C T. unfold escape. destruct (c =? 34) eqn:E34; [exact T|]. destruct (c =? 92) eqn:E92; [exact T|].
  destruct (c =? 8); [exact T|]. destruct (c =? 9); [exact T|]. destruct (c =? 10); [exact T|].
  destruct (c =? 12); [exact T|]. destruct (c =? 13); [exact T|]. destruct (c <? 32) eqn:E32.
  - assert (H : forall h, 0 <= h < 16 -> (hex_lower h =? 92) = false /\ (hex_lower h =? 34) = false) by (intros h X; unfold hex_lower; destruct (h <? 10) eqn:?; lia).
    assert (A : 0 <= c / 16 < 16) by (Z.to_euclidean_division_equations; lia). assert (B : 0 <= c mod 16 < 16) by (apply Z.mod_pos_bound; lia).
    change (s2z "\u00") with [92; 117; 48; 48]. destruct (H _ A) as [A1 A2], (H _ B) as [B1 B2].
    change (tight InString ([hex_lower (c / 16); hex_lower (c mod 16)] ++ t)). cbn [app tight]. rewrite A1, A2, B1, B2. exact T.
  - cbn [app tight]. now rewrite E34, E92.
Qed.
Lemma tight_quote s r : is_str s = true -> tight Elsewhere r -> tight Elsewhere (quote s ++ r).
Proof.
  intros S T. assert (F : Forall (fun c => 0 <= c) s).
  { apply Forall_forall. intros c I. unfold is_str in S. rewrite forallb_forall in S. specialize (S c I). unfold scalar, in_range in S. lia. }
  unfold quote. cbn [app tight]. split; [cbn; lia|]. cbn [Z.eqb Pos.eqb]. rewrite <- app_assoc. clear S.
  induction F as [|c s C F IH]; [exact T|]. cbn [flat_map]. rewrite <- app_assoc. now apply tight_escape.
Qed.
Lemma tight_items {A} (g : A -> str) l : (forall x, In x l -> forall r, tight Elsewhere r -> tight Elsewhere (g x ++ r)) ->
  forall r, tight Elsewhere r -> tight Elsewhere (commas (map g l) ++ r).
Proof.
  induction l as [|x [|y l] IH]; intros H r T; [exact T|apply H; [now left|exact T]|].
  change (commas (map g (x :: y :: l))) with (g x ++ [44] ++ commas (map g (y :: l))). rewrite <- !app_assoc. apply H; [now left|].
  apply tight_char; [cbn; lia|]. apply IH; [intros z I; apply H; now right|exact T].
Qed.
Lemma tight_json j : j_ok (jmap f j) = true -> forall r, tight Elsewhere r -> tight Elsewhere (print float j ++ r).
Proof.
  remember (S (jsize j)) as k eqn:E. assert (L : (jsize j < k)%nat) by lia. clear E. revert j L.
  induction k as [|k IH]; intros j L J r T; [lia|].
  destruct j as [| b | z | z | s | l | l]; cbn [print].
  - apply tight_plain; [apply ord_b; reflexivity|exact T].
  - apply tight_plain; [destruct b; apply ord_b; reflexivity|exact T].
  - apply tight_plain; [apply int_ord|exact T].
  - apply tight_plain; [apply FL; exact J|exact T].
  - apply tight_quote; [exact J|exact T].
  - cbn [jmap j_ok] in J. rewrite forallb_forall in J. rewrite <- !app_assoc. apply tight_char; [cbn; lia|].
    apply tight_items; [|apply tight_char; [cbn; lia|exact T]]. intros y I t Q. pose proof (arr_smaller y l I). apply IH; [lia| |exact Q]. apply J. apply in_map. exact I.
  - cbn [jmap j_ok] in J. apply andb_true_iff in J as [_ J]. rewrite forallb_forall in J. rewrite <- !app_assoc. apply tight_char; [cbn; lia|].
    apply tight_items; [|apply tight_char; [cbn; lia|exact T]]. intros [q v] I t Q. pose proof (obj_smaller q v l I).
    assert (X : is_str q = true /\ j_ok (jmap f v) = true).
    { specialize (J (q, jmap f v)). apply andb_true_iff, J. exact (in_map (fun '(k, v) => (k, jmap f v)) _ _ I). }
    rewrite <- !app_assoc. apply tight_quote; [apply X|]. apply tight_char; [cbn; lia|]. apply IH; [lia|apply X|exact Q].
Qed.
Lemma json_layout j : j_ok (jmap f j) = true -> pretty float 0 j = json_lines 0 Elsewhere (print float j) /\ tight Elsewhere (print float j).
Proof.
  intros J. split.
  - pose proof (lines_json j J 0 Elsewhere [] I) as H. cbn [lead app] in H. rewrite !app_nil_r in H. now rewrite H.
  - pose proof (tight_json j J [] I) as H. now rewrite app_nil_r in H.
Qed.
End Print.
Lemma jmap_id j : jmap (fun z => z) j = j.
Proof.
  remember (S (jsize j)) as k eqn:E. assert (L : (jsize j < k)%nat) by lia. clear E. revert j L.
  induction k as [|k IH]; intros j L; [lia|]. destruct j as [| b | z | z | s | l | l]; try reflexivity; cbn [jmap]; f_equal.
  - etransitivity; [|apply map_id]. apply map_ext_in. intros x I. pose proof (arr_smaller x l I). apply IH. lia.
  - etransitivity; [|apply map_id]. apply map_ext_in. intros [q v] I. pose proof (obj_smaller q v l I). f_equal. apply IH. lia.
Qed.
Lemma value_layout float j : prints_floats float -> j_ok j = true ->
  pretty float 0 j = json_lines 0 Elsewhere (print float j) /\ tight Elsewhere (print float j).
Proof.
  intros FL J. apply (json_layout float (fun z => z)); [|now rewrite jmap_id].
  intros z Z. cbn [j_ok] in Z. apply andb_true_iff in Z as [U F]. eapply num_ord. now apply FL.
Qed.
