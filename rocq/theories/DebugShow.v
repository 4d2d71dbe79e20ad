(** What is printed for a tree determines the tree (C70). *)
From Coq Require Import ZArith List Bool String Lia ZifyBool ZifyNat.
From Verif Require Import Base Str Types Message Numeral MessageThm Debug DebugSpec.
Import ListNotations.
Open Scope Z_scope.

(** ** Trees as they occur *)
Definition guidc (c : Z) : Prop := 48 <= c <= 57 \/ 65 <= c <= 70 \/ c = 45.
Definition starts_guid (l : list dtree) : Prop := match l with DGuid _ :: _ => True | _ => False end.
Fixpoint shaped (d : dtree) : Prop :=
  match d with
  | DWord s => word s
  | DStr s => Forall (fun c => 0 <= c) s
  | DGuid s => s <> [] /\ Forall guidc s
  | DStruct n l => word n /\ l <> [] /\ (fix all l := match l with [] => True | e :: l' => word (fst e) /\ shaped (snd e) /\ all l' end) l
  | DTuple n l => word n /\ l <> [] /\ (n = s2z "Guid" -> starts_guid l) /\ (fix all l := match l with [] => True | e :: l' => shaped e /\ all l' end) l
  | DList l => (fix all l := match l with [] => True | e :: l' => shaped e /\ all l' end) l
  | DMap l => (fix all l := match l with [] => True | e :: l' => shaped (fst e) /\ shaped (snd e) /\ all l' end) l
  end.
Lemma shaped_all l : (fix all l := match l with [] => True | e :: l' => shaped e /\ all l' end) l <-> Forall shaped l.
Proof. induction l as [|e l IH]; [split; auto|]. split; [intros [A B]; constructor; tauto|intros H; inversion H; tauto]. Qed.
Lemma shaped_struct n l : shaped (DStruct n l) <-> word n /\ l <> [] /\ Forall (fun e => word (fst e) /\ shaped (snd e)) l.
Proof.
  cbn [shaped]. apply and_iff_compat_l, and_iff_compat_l.
  induction l as [|e l IH]; [split; auto|]. split; [intros (A & B & C); constructor; tauto|intros H; inversion H; tauto].
Qed.
Lemma shaped_tuple n l : shaped (DTuple n l) <-> word n /\ l <> [] /\ (n = s2z "Guid" -> starts_guid l) /\ Forall shaped l.
Proof. cbn [shaped]. now rewrite shaped_all. Qed.
Lemma shaped_list l : shaped (DList l) <-> Forall shaped l.
Proof. cbn [shaped]. apply shaped_all. Qed.
Lemma shaped_map l : shaped (DMap l) <-> Forall (fun e => shaped (fst e) /\ shaped (snd e)) l.
Proof.
  cbn [shaped]. induction l as [|e l IH]; [split; auto|]. split; [intros (A & B & C); constructor; tauto|intros H; inversion H; tauto].
Qed.

(** ** Induction *)
Section Ind.
Variable P : dtree -> Prop.
Hypotheses (HW : forall s, P (DWord s)) (HS : forall s, P (DStr s)) (HG : forall s, P (DGuid s))
  (HT : forall n l, Forall (fun e => P (snd e)) l -> P (DStruct n l)) (HU : forall n l, Forall P l -> P (DTuple n l))
  (HL : forall l, Forall P l -> P (DList l)) (HM : forall l, Forall (fun e => P (fst e) /\ P (snd e)) l -> P (DMap l)).
Fixpoint tree_all (d : dtree) : P d :=
  match d with
  | DWord s => HW s
  | DStr s => HS s
  | DGuid s => HG s
  | DStruct n l => HT n l ((fix go l : Forall (fun e => P (snd e)) l :=
      match l with [] => Forall_nil _ | e :: r => Forall_cons e (tree_all (snd e)) (go r) end) l)
  | DTuple n l => HU n l ((fix go l : Forall P l := match l with [] => Forall_nil _ | e :: r => Forall_cons e (tree_all e) (go r) end) l)
  | DList l => HL l ((fix go l : Forall P l := match l with [] => Forall_nil _ | e :: r => Forall_cons e (tree_all e) (go r) end) l)
  | DMap l => HM l ((fix go l : Forall (fun e => P (fst e) /\ P (snd e)) l :=
      match l with [] => Forall_nil _ | e :: r => Forall_cons e (conj (tree_all (fst e)) (tree_all (snd e))) (go r) end) l)
  end.
End Ind.

(** ** Pieces of text *)
(** What can follow a value. *)
Definition ends (r : str) : Prop :=
  match r with
  | [] => True
  | c :: t => c = 44 \/ c = 41 \/ c = 93 \/ c = 125 \/ c = 58 \/ c = 10 \/ c = 32 /\ exists t', t = 125 :: t'
  end.
Definition stops (r : str) : Prop := match r with [] => True | c :: _ => ~ wordc c end.
Lemma ends_stops r : ends r -> stops r.
Proof. destruct r as [|c r]; cbn [ends stops]; [auto|]. unfold wordc. intros [H|[H|[H|[H|[H|[H|[H _]]]]]]]; lia. Qed.
Lemma word_split s1 : forall s2 r1 r2, Forall wordc s1 -> Forall wordc s2 -> stops r1 -> stops r2 -> s1 ++ r1 = s2 ++ r2 -> s1 = s2 /\ r1 = r2.
Proof.
  induction s1 as [|c s1 IH]; intros [|c' s2] r1 r2 F1 F2 S1 S2 E; cbn [app] in E.
  - auto.
  - subst r1. inversion F2; subst. cbn [stops] in S1. contradiction.
  - subst r2. inversion F1; subst. cbn [stops] in S2. contradiction.
  - injection E as -> E. inversion F1; subst. inversion F2; subst. destruct (IH s2 r1 r2) as [-> ->]; auto.
Qed.
(** Splitting at the first character outside of a class. *)
Lemma class_split (P : Z -> Prop) c s1 : forall s2 r1 r2, ~ P c -> Forall P s1 -> Forall P s2 -> s1 ++ c :: r1 = s2 ++ c :: r2 -> s1 = s2 /\ r1 = r2.
Proof.
  induction s1 as [|a s1 IH]; intros [|b s2] r1 r2 N F1 F2 E; cbn [app] in E.
  - injection E as ->. auto.
  - injection E as -> _. inversion F2; contradiction.
  - injection E as -> _. inversion F1; contradiction.
  - injection E as -> E. inversion F1; subst. inversion F2; subst. destruct (IH s2 r1 r2) as [-> ->]; auto.
Qed.
Lemma hex_text c : 0 <= c -> hex_numeral (hex_digits (S (Z.to_nat (Z.log2 c))) c) c.
Proof.
  intros H. apply hex_digits_numeral. split; [exact H|]. destruct (Z.eq_dec c 0) as [->|N]; [vm_compute; reflexivity|].
  destruct (Z.log2_spec c ltac:(lia)) as [_ L]. eapply Z.lt_le_trans; [exact L|].
  pose proof (Z.log2_nonneg c). replace (Z.of_nat (S (Z.to_nat (Z.log2 c)))) with (Z.succ (Z.log2 c)) by lia.
  apply Z.pow_le_mono_l. lia.
Qed.
(** The character a short escape stands for. *)
Definition short (k : Z) : Z := if k =? 48 then 0 else if k =? 116 then 9 else if k =? 114 then 13 else if k =? 110 then 10 else k.
Lemma esc_cases plain c : 0 <= c ->
  (exists k, esc plain c = [92; k] /\ c = short k /\ k <> 117) \/ (esc plain c = [c] /\ c <> 92 /\ c <> 34) \/
  (exists h, esc plain c = 92 :: 117 :: 123 :: h ++ [125] /\ hex_numeral h c).
Proof.
  intros P. unfold esc.
  destruct (c =? 0) eqn:E0; [left; exists 48; split; [reflexivity|cbn; lia]|].
  destruct (c =? 9) eqn:E1; [left; exists 116; split; [reflexivity|cbn; lia]|].
  destruct (c =? 13) eqn:E2; [left; exists 114; split; [reflexivity|cbn; lia]|].
  destruct (c =? 10) eqn:E3; [left; exists 110; split; [reflexivity|cbn; lia]|].
  destruct (c =? 92) eqn:E4; [left; exists 92; split; [reflexivity|cbn; lia]|].
  destruct (c =? 34) eqn:E5; [left; exists 34; split; [reflexivity|cbn; lia]|].
  destruct (plain c); [right; left; split; [reflexivity|lia]|].
  right. right. eexists. split; [reflexivity|]. now apply hex_text.
Qed.
Lemma esc_split plain c1 c2 t1 t2 : 0 <= c1 -> 0 <= c2 -> esc plain c1 ++ t1 = esc plain c2 ++ t2 -> c1 = c2 /\ t1 = t2.
Proof.
  intros P1 P2 E.
  destruct (esc_cases plain c1 P1) as [(k1 & E1 & S1 & N1)|[(E1 & N1 & _)|(h1 & E1 & X1)]];
  destruct (esc_cases plain c2 P2) as [(k2 & E2 & S2 & N2)|[(E2 & N2 & _)|(h2 & E2 & X2)]];
  rewrite E1, E2 in E; cbn [app] in E.
  - injection E as -> ->. split; congruence.
  - injection E as E _. lia.
  - injection E as E _. lia.
  - injection E as E _. lia.
  - injection E as -> ->. auto.
  - injection E as E _. lia.
  - injection E as E _. lia.
  - injection E as E _. lia.
  - injection E as E. rewrite <- !app_assoc in E. cbn [app] in E.
    apply (class_split hex_digit 125) in E; [|unfold hex_digit; lia|apply X1|apply X2]. destruct E as [-> ->]. split; [|reflexivity].
    destruct X1 as (_ & _ & <- & _), X2 as (_ & _ & <- & _). reflexivity.
Qed.
Lemma esc_not_quote plain c t r : 0 <= c -> esc plain c ++ t = 34 :: r -> False.
Proof.
  intros P E. destruct (esc_cases plain c P) as [(k1 & E1 & S1 & N1)|[(E1 & N1 & N)|(h1 & E1 & X1)]]; rewrite E1 in E; cbn [app] in E;
    injection E; intros; lia.
Qed.
Lemma quote_split plain s1 : forall s2 r1 r2, Forall (fun c => 0 <= c) s1 -> Forall (fun c => 0 <= c) s2 ->
  flat_map (esc plain) s1 ++ 34 :: r1 = flat_map (esc plain) s2 ++ 34 :: r2 -> s1 = s2 /\ r1 = r2.
Proof.
  induction s1 as [|c1 s1 IH]; intros [|c2 s2] r1 r2 F1 F2 E; cbn [flat_map app] in E; rewrite <- ?app_assoc in E.
  - injection E as ->. auto.
  - symmetry in E. apply esc_not_quote in E; [destruct E|inversion F2; assumption].
  - apply esc_not_quote in E; [destruct E|inversion F1; assumption].
  - inversion F1; subst. inversion F2; subst. apply esc_split in E; try assumption. destruct E as [-> E].
    destruct (IH s2 r1 r2) as [-> ->]; auto.
Qed.

(** ** Items between brackets *)
Definition pre (i : option nat) (pad : str) : str := match i with None => pad | Some k => line (S k) end.
Definition sep (i : option nat) : str := match i with None => s2z ", " | Some k => 44 :: line (S k) end.
Definition stop (i : option nat) (pad close : str) : str := match i with None => pad ++ close | Some k => 44 :: line k ++ close end.
Fixpoint rest (i : option nat) (pad close : str) (l : list str) : str :=
  match l with [] => stop i pad close | a :: l' => sep i ++ a ++ rest i pad close l' end.
Lemma inside_cons i pad close l : forall a, inside i pad close (a :: l) = pre i pad ++ a ++ rest i pad close l.
Proof.
  destruct i as [k|]; cbn [inside pre].
  - induction l as [|b l IH]; intros a.
    + cbn [flat_map rest stop]. change (s2z ",") with [44]. rewrite <- !app_assoc. reflexivity.
    + cbn [flat_map rest]. specialize (IH b). cbn [flat_map] in IH. rewrite <- !app_assoc in *. rewrite IH. reflexivity.
  - intros a. f_equal. revert a. induction l as [|b l IH]; intros a; [reflexivity|].
    cbn [rest]. change (join (a :: b :: l)) with (a ++ s2z ", " ++ join (b :: l)). rewrite <- !app_assoc. rewrite IH. reflexivity.
Qed.
(** Brackets that close. *)
Definition closes (pad close : str) : Prop :=
  exists c, close = [c] /\ (pad = [] /\ (c = 41 \/ c = 93 \/ c = 125) \/ pad = [32] /\ c = 125).
Lemma ends_stop i pad close r : closes pad close -> ends (stop i pad close ++ r).
Proof.
  intros (c & -> & [[-> H]|[-> H]]); destruct i; cbn [stop app ends]; try (left; reflexivity); [destruct H as [H|[H|H]]; auto|].
  subst c. right. right. right. right. right. right. eauto.
Qed.
Lemma ends_sep i r : ends (sep i ++ r).
Proof. destruct i; cbn; auto. Qed.
Lemma stop_not_sep i pad close r t : closes pad close -> stop i pad close ++ r = sep i ++ t -> False.
Proof.
  intros (c & -> & H) E. destruct i as [k|]; cbn [stop sep] in E.
  - unfold line in E. replace (4 * S k)%nat with (4 * k + 4)%nat in E by lia. rewrite repeat_app in E. rewrite <- !app_comm_cons, <- !app_assoc in E.
    injection E as E. apply app_inv_head in E. cbn [app repeat] in E. injection E as E _. destruct H as [[_ H]|[_ H]]; lia.
  - change (s2z ", ") with [44; 32] in E. destruct H as [[-> H]|[-> H]]; cbn [app] in E; injection E as E _; lia.
Qed.
Section Items.
Context {A : Type} (el : A -> str) (i : option nat) (pad close : str).
Hypothesis (C : closes pad close).
Definition tells (x : A) (ys : list A) : Prop :=
  forall y, In y ys -> forall r1 r2, ends r1 -> ends r2 -> el x ++ r1 = el y ++ r2 -> x = y /\ r1 = r2.
Lemma rest_split l1 : forall l2 r1 r2, (forall x, In x l1 -> tells x l2) ->
  rest i pad close (map el l1) ++ r1 = rest i pad close (map el l2) ++ r2 -> l1 = l2 /\ r1 = r2.
Proof.
  induction l1 as [|x l1 IH]; intros [|y l2] r1 r2 T E; cbn [map rest] in E; rewrite <- ?app_assoc in E.
  - apply app_inv_head in E. auto.
  - exfalso. eapply stop_not_sep; eauto.
  - exfalso. symmetry in E. eapply stop_not_sep; eauto.
  - apply app_inv_head in E.
    assert (X : x = y /\ rest i pad close (map el l1) ++ r1 = rest i pad close (map el l2) ++ r2).
    { eapply (T x ltac:(now left) y ltac:(now left)); [| |exact E].
      - destruct l1; cbn [map rest]; [now apply ends_stop|]. rewrite <- app_assoc. apply ends_sep.
      - destruct l2; cbn [map rest]; [now apply ends_stop|]. rewrite <- app_assoc. apply ends_sep. }
    destruct X as [-> X]. apply IH in X; [destruct X as [-> ->]; auto|].
    intros z I z' I'. apply (T z ltac:(now right) z' ltac:(now right)).
Qed.
Lemma inside_split l1 l2 r1 r2 : l1 <> [] -> l2 <> [] -> (forall x, In x l1 -> tells x l2) ->
  inside i pad close (map el l1) ++ r1 = inside i pad close (map el l2) ++ r2 -> l1 = l2 /\ r1 = r2.
Proof.
  intros N1 N2 T E. destruct l1 as [|x l1]; [contradiction|]. destruct l2 as [|y l2]; [contradiction|].
  cbn [map] in E. rewrite !inside_cons, <- !app_assoc in E. apply app_inv_head in E.
  apply (rest_split (x :: l1) (y :: l2) r1 r2 T). cbn [map rest]. rewrite <- !app_assoc. now rewrite E.
Qed.
End Items.

(** ** Trees *)
Lemma closes_struct : closes (s2z " ") (s2z "}"). Proof. exists 125. split; [reflexivity|]. tauto. Qed.
Lemma closes_tuple : closes [] (s2z ")"). Proof. exists 41. auto. Qed.
Lemma closes_list : closes [] (s2z "]"). Proof. exists 93. split; [reflexivity|]. tauto. Qed.
Lemma closes_map : closes [] (s2z "}"). Proof. exists 125. split; [reflexivity|]. tauto. Qed.
Section Show.
Context (plain : Z -> bool).
(** Words, guids, structs and tuples start with a word and go on with something else. *)
Definition lead (i : option nat) (d : dtree) : option (str * str) :=
  match d with
  | DWord s => Some (s, [])
  | DGuid s => Some (s2z "Guid", 40 :: s ++ [41])
  | DStruct n l => Some (n, 32 :: 123 :: inside i (s2z " ") (s2z "}") (map (fun e => fst e ++ s2z ": " ++ show plain (deeper i) (snd e)) l))
  | DTuple n l => Some (n, 40 :: inside i [] (s2z ")") (map (show plain (deeper i)) l))
  | _ => None
  end.
Lemma lead_show i d n t : shaped d -> lead i d = Some (n, t) -> show plain i d = n ++ t /\ word n.
Proof.
  intros S E. destruct d; cbn [lead] in E; try discriminate E; injection E as <- <-; cbn [show].
  - rewrite app_nil_r. auto.
  - split; [reflexivity|]. split; [discriminate|]. unfold wordc. change (s2z "Guid") with [71; 117; 105; 100]. repeat (apply Forall_cons; [lia|]). apply Forall_nil.
  - apply shaped_struct in S as (W & N & _). destruct fields; [contradiction|]. split; [reflexivity|exact W].
  - apply shaped_tuple in S as (W & _). auto.
Qed.
Lemma lead_stops i d n t r : lead i d = Some (n, t) -> ends r -> stops (t ++ r).
Proof.
  intros E R. destruct d; cbn [lead] in E; try discriminate E; injection E as <- <-; cbn [app stops]; try (unfold wordc; lia).
  now apply ends_stops.
Qed.
(** How a value can start. *)
Definition opens (c : Z) : Prop := wordc c \/ c = 34 \/ c = 91 \/ c = 123.
Lemma show_opens i d : shaped d -> exists c t, show plain i d = c :: t /\ opens c.
Proof.
  intros S. destruct (lead i d) as [[n t]|] eqn:E.
  - destruct (lead_show i d n t S E) as [-> [N F]]. destruct n as [|c n]; [contradiction|]. exists c, (n ++ t). split; [reflexivity|].
    left. now inversion F.
  - unfold opens. destruct d; cbn [lead] in E; try discriminate E; cbn [show]; eexists; eexists; (split; [reflexivity|]); cbn; auto.
Qed.
Lemma show_lead i d1 d2 r1 r2 : shaped d1 -> shaped d2 -> ends r1 -> ends r2 -> show plain i d1 ++ r1 = show plain i d2 ++ r2 ->
  match lead i d1, lead i d2 with
  | Some (n1, t1), Some (n2, t2) => n1 = n2 /\ t1 ++ r1 = t2 ++ r2
  | None, None => True
  | _, _ => False
  end.
Proof.
  intros S1 S2 R1 R2 E. destruct (lead i d1) as [[n1 t1]|] eqn:L1; destruct (lead i d2) as [[n2 t2]|] eqn:L2.
  - destruct (lead_show _ _ _ _ S1 L1) as [E1 [_ W1]], (lead_show _ _ _ _ S2 L2) as [E2 [_ W2]]. rewrite E1, E2, <- !app_assoc in E.
    apply word_split; auto; eapply lead_stops; eauto.
  - destruct (lead_show _ _ _ _ S1 L1) as [E1 [N W1]]. rewrite E1 in E. destruct n1 as [|c n1]; [contradiction|]. inversion W1; subst.
    destruct d2; cbn [lead] in L2; try discriminate L2; cbn in E; injection E; intros; subst; unfold wordc in *; lia.
  - destruct (lead_show _ _ _ _ S2 L2) as [E2 [N W2]]. rewrite E2 in E. destruct n2 as [|c n2]; [contradiction|]. inversion W2; subst.
    destruct d1; cbn [lead] in L1; try discriminate L1; cbn in E; injection E; intros; subst; unfold wordc in *; lia.
  - exact I.
Qed.
Lemma guid_not_tuple i s n l r1 r2 : shaped (DGuid s) -> shaped (DTuple n l) -> n = s2z "Guid" ->
  s ++ 41 :: r1 = inside i [] (s2z ")") (map (show plain (deeper i)) l) ++ r2 -> False.
Proof.
  intros [N F] S G E. apply shaped_tuple in S as (_ & _ & X & _). specialize (X G). destruct l as [|e l]; [destruct X|].
  destruct e; try destruct X. cbn [map] in E. rewrite inside_cons in E. destruct s as [|c s]; [contradiction|]. inversion F; subst.
  destruct i as [k|]; cbn in E; injection E; intros; subst; unfold guidc in *; lia.
Qed.
Theorem show_split : forall d1, shaped d1 -> forall i d2 r1 r2, shaped d2 -> ends r1 -> ends r2 ->
  show plain i d1 ++ r1 = show plain i d2 ++ r2 -> d1 = d2 /\ r1 = r2.
Proof.
  apply (tree_all (fun d1 => shaped d1 -> forall i d2 r1 r2, shaped d2 -> ends r1 -> ends r2 ->
    show plain i d1 ++ r1 = show plain i d2 ++ r2 -> d1 = d2 /\ r1 = r2)).
  - intros s S1 i d2 r1 r2 S2 R1 R2 E. pose proof (show_lead _ _ _ _ _ S1 S2 R1 R2 E) as L. destruct d2; cbn [lead] in L; try contradiction;
      destruct L as [G L]; cbn [app] in L; [subst; auto|exfalso..]; rewrite L in R1; cbn [ends] in R1.
    + lia.
    + destruct R1 as [H|[H|[H|[H|[H|[H|[H [t' T]]]]]]]]; try discriminate. 
    + lia.
  - intros s S1 i d2 r1 r2 S2 R1 R2 E. pose proof (show_lead _ _ _ _ _ S1 S2 R1 R2 E) as L. destruct d2; cbn [lead] in L; try contradiction; cbn [show] in E; try (cbn in E; discriminate E).
    unfold quote in E. cbn [app] in E. injection E as E. rewrite <- !app_assoc in E. cbn [app] in E. apply quote_split in E; try assumption. destruct E as [-> ->]. auto.
  - intros s S1 i d2 r1 r2 S2 R1 R2 E. pose proof (show_lead _ _ _ _ _ S1 S2 R1 R2 E) as L. destruct d2; cbn [lead] in L; try contradiction; destruct L as [G L].
    + exfalso. cbn [app] in L. subst r2. cbn [ends] in R2. lia.
    + cbn [app] in L. injection L as L. rewrite <- !app_assoc in L. cbn [app] in L.
      apply (class_split guidc 41) in L; [destruct L as [-> ->]; auto|unfold guidc; lia|apply S1|apply S2].
    + cbn [app] in L. discriminate L.
    + exfalso. cbn [app] in L. injection L as L. rewrite <- app_assoc in L. cbn [app] in L. eapply guid_not_tuple; eauto.
  - intros n l IH S1 i d2 r1 r2 S2 R1 R2 E. pose proof (show_lead _ _ _ _ _ S1 S2 R1 R2 E) as L. destruct d2; cbn [lead] in L; try contradiction; destruct L as [G L].
    + exfalso. cbn [app] in L. subst r2. cbn [ends] in R2. destruct R2 as [H|[H|[H|[H|[H|[H|[H [t' T]]]]]]]]; try discriminate.
    + cbn [app] in L. discriminate L.
    + subst name. apply shaped_struct in S1 as (_ & N1 & F1). apply shaped_struct in S2 as (_ & N2 & F2). cbn [app] in L. injection L as L.
      apply inside_split in L; [destruct L as [-> ->]; auto|apply closes_struct|assumption|assumption|].
      intros [k v] I [k' v'] I' a b A B X. cbn [fst snd] in X. rewrite Forall_forall in IH, F1, F2.
      specialize (IH _ I). destruct (F1 _ I) as [W V], (F2 _ I') as [W' V']. cbn [fst snd] in *. rewrite <- !app_assoc in X.
      apply word_split in X; [|apply W|apply W'|cbn; unfold wordc; lia|cbn; unfold wordc; lia]. destruct X as [-> X].
      cbn [s2z app] in X. injection X as X. apply IH in X; auto. destruct X as [-> ->]. auto.
    + cbn [app] in L. discriminate L.
  - intros n l IH S1 i d2 r1 r2 S2 R1 R2 E. pose proof (show_lead _ _ _ _ _ S1 S2 R1 R2 E) as L. destruct d2; cbn [lead] in L; try contradiction; destruct L as [G L].
    + exfalso. cbn [app] in L. subst r2. cbn [ends] in R2. lia.
    + exfalso. cbn [app] in L. injection L as L. rewrite <- app_assoc in L. cbn [app] in L. symmetry in L. eapply guid_not_tuple; eauto.
    + cbn [app] in L. discriminate L.
    + subst name. apply shaped_tuple in S1 as (_ & N1 & _ & F1). apply shaped_tuple in S2 as (_ & N2 & _ & F2). cbn [app] in L. injection L as L.
      apply inside_split in L; [destruct L as [-> ->]; auto|apply closes_tuple|assumption|assumption|].
      intros x I y I' a b A B X. rewrite Forall_forall in IH, F1, F2. eapply IH in X; eauto.
  - intros l IH S1 i d2 r1 r2 S2 R1 R2 E. pose proof (show_lead _ _ _ _ _ S1 S2 R1 R2 E) as L. destruct d2; cbn [lead] in L; try contradiction; cbn [show] in E; try (cbn in E; discriminate E).
    rewrite <- !app_assoc in E. apply app_inv_head in E. apply (proj1 (shaped_list _)) in S1. apply (proj1 (shaped_list _)) in S2.
    destruct l as [|x l], l0 as [|y l0].
    + cbn in E. injection E as ->. auto.
    + exfalso. cbn [map] in E. rewrite inside_cons in E. destruct (show_opens (deeper i) y ltac:(now inversion S2)) as (c & t & X & O). rewrite X in E.
      destruct i; cbn in E; injection E; intros; try discriminate; unfold opens, wordc in *; lia.
    + exfalso. cbn [map] in E. rewrite inside_cons in E. destruct (show_opens (deeper i) x ltac:(now inversion S1)) as (c & t & X & O). rewrite X in E.
      destruct i; cbn in E; injection E; intros; try discriminate; unfold opens, wordc in *; lia.
    + apply inside_split in E; [destruct E as [E ->]; rewrite E; auto|apply closes_list|discriminate|discriminate|].
      intros x' I y' I' a b A B X. rewrite Forall_forall in IH, S1, S2. eapply IH in X; eauto.
  - intros l IH S1 i d2 r1 r2 S2 R1 R2 E. pose proof (show_lead _ _ _ _ _ S1 S2 R1 R2 E) as L. destruct d2; cbn [lead] in L; try contradiction; cbn [show] in E; try (cbn in E; discriminate E).
    rewrite <- !app_assoc in E. apply app_inv_head in E. apply (proj1 (shaped_map _)) in S1. apply (proj1 (shaped_map _)) in S2.
    destruct l as [|x l], l0 as [|y l0].
    + cbn in E. injection E as ->. auto.
    + exfalso. cbn [map] in E. rewrite inside_cons in E. destruct (show_opens (deeper i) (fst y) ltac:(inversion S2; tauto)) as (c & t & X & O). rewrite X in E.
      destruct i; cbn in E; injection E; intros; try discriminate; unfold opens, wordc in *; lia.
    + exfalso. cbn [map] in E. rewrite inside_cons in E. destruct (show_opens (deeper i) (fst x) ltac:(inversion S1; tauto)) as (c & t & X & O). rewrite X in E.
      destruct i; cbn in E; injection E; intros; try discriminate; unfold opens, wordc in *; lia.
    + apply inside_split in E; [destruct E as [E ->]; rewrite E; auto|apply closes_map|discriminate|discriminate|].
      intros [k v] I [k' v'] I' a b A B X. rewrite Forall_forall in IH, S1, S2. destruct (IH _ I) as [IK IV], (S1 _ I), (S2 _ I'). cbn [fst snd] in *.
      rewrite <- !app_assoc in X. apply IK in X; [|assumption|assumption|cbn; tauto|cbn; tauto]. destruct X as [-> X].
      cbn [s2z app] in X. injection X as X. apply IV in X; auto. destruct X as [-> ->]. auto.
Qed.
Lemma show_inj i d1 d2 : shaped d1 -> shaped d2 -> show plain i d1 = show plain i d2 -> d1 = d2.
Proof.
  intros S1 S2 E. apply (show_split d1 S1 i d2 [] [] S2 I I). now rewrite !app_nil_r.
Qed.
End Show.
