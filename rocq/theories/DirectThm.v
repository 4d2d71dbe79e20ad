(** Files through JSON text that is written and read directly. *)
From Coq Require Import ZArith List Bool String Lia ZifyBool ZifyNat.
From Verif Require Import Base Str Types Versions Text Props File Spec Samples BaseFacts Decode Device Induct Numeral Nearest MapFacts AcceptFile
  Json JsonFile JsonWell JsonBack JsonThm JsonFloat JsonSyntax JsonGrammar JsonRead JsonComplete JsonPrint JsonDepth JsonWhole
  JsonDirect Singles DirectTree DirectBack SinglesThm JsonSpec.
Import ListNotations.
Open Scope Z_scope.

(** ** When nothing is replaced *)
Section Fixed.
Context (r : Z -> Z) (ins : list (property * property) -> list (property * property)) (sep : property -> property -> bool).
Hypothesis (keeps : forall l, distinct sep l = true -> ins l = l) (short : forall l l', ins l = l' -> List.length l = List.length l' -> l = l').
Definition fixes (l : list Z) : Prop := forall z, In z l -> r z = z.
Lemma fixes_app a b : fixes (a ++ b) <-> fixes a /\ fixes b.
Proof.
  unfold fixes. split; [intros H; split; intros z I; apply H, in_or_app; auto|]. intros [A B] z I. apply in_app_or in I as [I|I]; auto.
Qed.
Lemma fixes_one z : fixes [z] <-> r z = z.
Proof. unfold fixes. split; [intros H; apply H; now left|]. intros H x [<-|[]]. exact H. Qed.
Lemma fixes_nil : fixes [] <-> True.
Proof. split; [auto|]. intros _ z []. Qed.
Lemma fixes_flat {A} (f : A -> list Z) l : fixes (flat_map f l) <-> forall x, In x l -> fixes (f x).
Proof.
  unfold fixes. split.
  - intros H x I z J. apply H, in_flat_map. eauto.
  - intros H z I. apply in_flat_map in I as (x & I & J). eauto.
Qed.
Lemma map_fixed {A} (f : A -> A) l : map f l = l <-> forall x, In x l -> f x = x.
Proof.
  split.
  - induction l as [|a l IH]; [easy|]. cbn [map]. intros E. injection E as E1 E2. intros x [<-|I]; auto.
  - intros H. rewrite <- (map_id l) at 2. now apply map_ext_in.
Qed.
Lemma map_iff {A} (f : A -> A) (s : A -> list Z) l : (forall x, In x l -> (f x = x <-> fixes (s x))) ->
  (map f l = l <-> fixes (flat_map s l)).
Proof. intros H. rewrite map_fixed, fixes_flat. split; intros G x I; apply H; auto. Qed.
Lemma entries_iff {A} (f : A -> A) (s : A -> list Z) (l : list (str * A)) : (forall e, In e l -> (f (snd e) = snd e <-> fixes (s (snd e)))) ->
  (map (fun '(k, v) => (k, f v)) l = l <-> fixes (flat_map (fun '(_, v) => s v) l)).
Proof.
  intros H. apply (map_iff (fun '(k, v) => (k, f v)) (fun '(_, v) => s v)). intros [k v] I. specialize (H _ I). cbn [snd] in H.
  rewrite <- H. split; [|intros E; now rewrite E]. intros E. now injection E.
Qed.
Ltac refold := fold (r_text r) (r_hist r) (r_arg r).
Ltac repropt := fold (r_prop r ins) (r_sval r ins) (r_array r ins) (r_map r ins).
Lemma text_fixed : (forall t, r_text r t = t <-> fixes (t_singles t)) /\ (forall h, r_hist r h = h <-> fixes (h_singles h))
  /\ (forall a, r_arg r a = a <-> fixes (a_singles a)).
Proof.
  apply text_all.
  - intros f h H. cbn [r_text t_singles]; refold; fold h_singles. rewrite <- H. split; congruence.
  - cbn. now rewrite fixes_nil.
  - intros s. cbn. now rewrite fixes_nil.
  - intros x y z. cbn. now rewrite fixes_nil.
  - intros t l Ht Hl. cbn [r_hist h_singles]; refold; fold t_singles a_singles.
    rewrite fixes_app, <- Ht. rewrite Forall_forall in Hl. rewrite <- (entries_iff (r_arg r) a_singles l Hl). split; [|intros [-> ->]; reflexivity].
    intros E. injection E as E1 E2. auto.
  - intros t l Ht Hl. cbn [r_hist h_singles]; refold; fold t_singles a_singles.
    rewrite fixes_app, <- Ht. rewrite Forall_forall in Hl. rewrite <- (map_iff (r_arg r) a_singles l Hl). split; [|intros [-> ->]; reflexivity].
    intros E. injection E as E1 E2. auto.
  - intros t l Ht Hl. cbn [r_hist h_singles]; refold; fold t_singles a_singles.
    rewrite fixes_app, <- Ht. rewrite Forall_forall in Hl. rewrite <- (entries_iff (r_arg r) a_singles l Hl). split; [|intros [-> ->]; reflexivity].
    intros E. injection E as E1 E2. auto.
  - intros v o c H. cbn [r_hist h_singles]; refold; fold a_singles. rewrite <- H. split; congruence.
  - intros v o c H. cbn [r_hist h_singles]; refold; fold a_singles. rewrite <- H. split; congruence.
  - intros d v o c H. cbn [r_hist h_singles]; refold; fold a_singles. rewrite <- H. split; congruence.
  - intros t s c. cbn. now rewrite fixes_nil.
  - intros t s z c. cbn. now rewrite fixes_nil.
  - intros t s u z c. cbn. now rewrite fixes_nil.
  - intros t x H. cbn [r_hist h_singles]; refold; fold t_singles. rewrite <- H. split; congruence.
  - intros s1 s2. cbn. now rewrite fixes_nil.
  - intros z. cbn. now rewrite fixes_nil.
  - intros z. cbn. now rewrite fixes_nil.
  - intros z. cbn [r_arg a_singles]. rewrite fixes_one. split; congruence.
  - intros z. cbn. now rewrite fixes_nil.
  - intros t H. cbn [r_arg a_singles]; refold; fold t_singles. rewrite <- H. split; congruence.
  - intros z. cbn. now rewrite fixes_nil.
  - intros z. cbn. now rewrite fixes_nil.
Qed.
Lemma nums_fixed ks : forall l, nums_ok ks l = true -> (r_nums r ks l = l <-> fixes (n_singles ks l)).
Proof.
  induction ks as [|k ks IH]; intros [|z l] H; try discriminate; cbn [r_nums n_singles].
  - now rewrite fixes_nil.
  - cbn [nums_ok] in H. andbs. rewrite fixes_app, <- IH by assumption.
    assert (K : r_num r k z = z <-> fixes (match k with F32 => [z] | _ => [] end)) by (destruct k; cbn; rewrite ?fixes_one, ?fixes_nil; easy).
    rewrite <- K. split; [|intros [-> ->]; reflexivity]. intros E. injection E as E1 E2. auto.
Qed.
Lemma prop_fixed :
  (forall p, t_prop sep p = true -> (r_prop r ins p = p <-> fixes (p_singles p)))
  /\ (forall v, t_sval sep v = true -> (r_sval r ins v = v <-> fixes (v_singles v)))
  /\ (forall a, t_array sep a = true -> (r_array r ins a = a <-> fixes (y_singles a)))
  /\ (forall m, t_map sep m = true -> (r_map r ins m = m <-> fixes (m_singles m))).
Proof.
  assert (N : forall X (x : X), x = x <-> fixes []) by (intros; now rewrite fixes_nil).
  apply prop_all.
  - intros k z _. cbn [r_prop p_singles]. destruct k; cbn [r_num]; try apply N. rewrite fixes_one. split; congruence.
  - intros b _. apply N.
  - intros n v _. apply N.
  - intros t v _. apply N.
  - intros v _. apply N.
  - intros t _. cbn [r_prop p_singles]. rewrite <- (proj1 text_fixed). split; congruence.
  - intros i v _. apply N.
  - intros v _. apply N.
  - intros a b _. apply N.
  - intros i l _. apply N.
  - intros l s _. apply N.
  - intros n l _. apply N.
  - intros a IH H. cbn [r_prop p_singles t_prop] in *; repropt; fold y_singles. rewrite <- IH by exact H. split; congruence.
  - intros t f l Hl H. cbn [r_prop p_singles t_prop] in *; repropt; fold p_singles. andbs. rewrite Forall_forall in Hl.
    match goal with F : forallb _ l = true |- _ => rewrite forallb_forall in F end.
    rewrite <- (map_iff (r_prop r ins) p_singles l) by auto. split; congruence.
  - intros m IH H. cbn [r_prop p_singles t_prop] in *; repropt; fold m_singles. rewrite <- IH by exact H. split; congruence.
  - intros g t v IH H. cbn [r_prop p_singles t_prop] in *; repropt; fold v_singles. andbs. rewrite <- IH by assumption. split; congruence.
  - intros v IH H. cbn [r_prop p_singles t_prop] in *; repropt; fold v_singles. rewrite <- IH by exact H. split; congruence.
  - intros x l H. cbn [r_sval v_singles t_sval] in *. rewrite <- nums_fixed by exact H. split; [|congruence]. intros E. now injection E.
  - intros g _. apply N.
  - intros l _. apply N.
  - intros l Hl H. cbn [r_sval v_singles t_sval] in *; repropt; fold p_singles. andbs.
    rewrite <- (entries_iff (map (r_prop r ins)) (flat_map p_singles) l); [split; congruence|].
    intros [k ps] I. cbn [snd]. rewrite Forall_forall in Hl. specialize (Hl _ I). cbn [snd] in Hl. rewrite Forall_forall in Hl.
    match goal with F : forallb _ l = true |- _ => rewrite forallb_forall in F; specialize (F _ I); cbn in F; apply andb_true_iff in F as [_ F]; rewrite forallb_forall in F end.
    apply map_iff. auto.
  - intros l _. apply N.
  - intros l _. apply N.
  - intros l _. apply N.
  - intros l _. cbn [r_array y_singles]. assert (X : map r l = l <-> fixes l) by apply map_fixed. rewrite <- X. split; congruence.
  - intros l _. apply N.
  - intros l _. apply N.
  - intros l _. apply N.
  - intros n t g l Hl H. cbn [r_array y_singles t_array] in *; repropt; fold v_singles. andbs. rewrite Forall_forall in Hl.
    match goal with F : forallb _ l = true |- _ => rewrite forallb_forall in F end.
    rewrite <- (map_iff (r_sval r ins) v_singles l) by auto. split; congruence.
  - intros t l Hl H. cbn [r_array y_singles t_array] in *; repropt; fold p_singles. andbs. rewrite Forall_forall in Hl.
    match goal with F : forallb _ l = true |- _ => rewrite forallb_forall in F end.
    rewrite <- (map_iff (r_prop r ins) p_singles l) by auto. split; congruence.
  - intros k l _. apply N.
  - intros k l _. apply N.
  - intros k vt l Hl H. cbn [r_map m_singles t_map] in *; repropt; fold p_singles. andbs.
    rewrite <- (entries_iff (r_prop r ins) p_singles l); [split; congruence|].
    intros [s p] I. cbn [snd]. rewrite Forall_forall in Hl. specialize (Hl _ I). cbn [snd] in Hl.
    match goal with F : forallb _ l = true |- _ => rewrite forallb_forall in F; specialize (F _ I); cbn in F; apply andb_true_iff in F as [_ F] end. auto.
  - intros l _. apply N.
  - intros kt vt f l Hl H. cbn [r_map m_singles t_map] in *; repropt; fold p_singles. andbs.
    assert (M : map (fun '(k, v) => (r_prop r ins k, r_prop r ins v)) l = l <-> fixes (flat_map (fun '(k, v) => p_singles k ++ p_singles v) l)).
    { apply (map_iff (fun '(k, v) => (r_prop r ins k, r_prop r ins v)) (fun '(k, v) => p_singles k ++ p_singles v)). intros [k v] I.
      rewrite Forall_forall in Hl. destruct (Hl _ I) as [HK HV]. cbn [fst snd] in *.
      match goal with F : forallb _ l = true |- _ => rewrite forallb_forall in F; specialize (F _ I); cbn in F; apply andb_true_iff in F as [F1 F2] end.
      rewrite fixes_app, <- HK, <- HV by assumption. split; [|intros [-> ->]; reflexivity]. intros E. injection E as E1 E2. auto. }
    rewrite <- M. split.
    + intros E. injection E as E. apply short in E; [exact E|]. apply map_length.
    + intros ->. now rewrite keeps.
Qed.
Lemma file_fixed g : t_file sep g = true -> (r_file r ins g = g <-> forall z, In z (singles g) -> r z = z).
Proof.
  unfold t_file. intros H. andbs. change (forall z, In z (singles g) -> r z = z) with (fixes (singles g)). unfold singles, r_file.
  rewrite <- (entries_iff (r_prop r ins) p_singles (g_props g)).
  - destruct g as [v h l]. cbn [g_version g_header g_props]. split; congruence.
  - intros [k p] I. cbn [snd]. apply (proj1 prop_fixed).
    match goal with F : forallb _ (g_props g) = true |- _ => rewrite forallb_forall in F; specialize (F _ I); cbn in F; now apply andb_true_iff in F as [_ F] end.
Qed.
End Fixed.

(** ** The singles of a typed file whose floats are finite *)
Section Known.
Context (sep : property -> property -> bool).
Definition known (l : list Z) : Prop := forall z, In z l -> u_ok 4 z = true /\ finite32 z = true.
Lemma known_nil : known [].
Proof. intros z []. Qed.
Lemma known_app a b : known a -> known b -> known (a ++ b).
Proof. intros A B z I. apply in_app_or in I as [I|I]; auto. Qed.
Lemma known_flat {A} (s : A -> list Z) (T F : A -> bool) l : forallb T l = true -> forallb F l = true ->
  Forall (fun x => T x = true -> F x = true -> known (s x)) l -> known (flat_map s l).
Proof.
  rewrite !forallb_forall, Forall_forall. intros H G K z I. apply in_flat_map in I as (x & I & J). exact (K x I (H x I) (G x I) z J).
Qed.
Lemma known_entries {A} (s : A -> list Z) (T F : A -> bool) (U : str -> bool) (l : list (str * A)) :
  forallb (fun '(k, x) => U k && T x) l = true -> forallb (fun '(_, x) => F x) l = true ->
  Forall (fun x => T (snd x) = true -> F (snd x) = true -> known (s (snd x))) l -> known (flat_map (fun '(_, x) => s x) l).
Proof.
  intros H G K. apply (known_flat _ (fun '(k, x) => U k && T x) (fun '(_, x) => F x)); auto. rewrite Forall_forall in *.
  intros [k x] I. specialize (K _ I). cbn [snd] in K. intros X. apply andb_true_iff in X as [_ X]. auto.
Qed.
Lemma known_text : (forall t, t_text t = true -> fin_text t = true -> known (t_singles t))
  /\ (forall h, t_hist h = true -> fin_hist h = true -> known (h_singles h))
  /\ (forall a, t_arg a = true -> fin_arg a = true -> known (a_singles a)).
Proof.
  apply text_all; try (intros; apply known_nil).
  - intros f h IH H G. cbn [t_text fin_text t_singles] in *. andbs. now apply IH.
  - intros t l Ht Hl H G. cbn [t_hist fin_hist h_singles] in *. andbs. apply known_app; [auto|]. eapply (known_entries a_singles t_arg fin_arg is_str); eauto.
  - intros t l Ht Hl H G. cbn [t_hist fin_hist h_singles] in *. andbs. apply known_app; [auto|]. eapply (known_flat a_singles t_arg fin_arg); eauto.
  - intros t l Ht Hl H G. cbn [t_hist fin_hist h_singles] in *. andbs. apply known_app; [auto|]. eapply (known_entries a_singles t_arg fin_arg is_str); eauto.
  - intros v o c IH H G. cbn [t_hist fin_hist h_singles] in *. andbs. auto.
  - intros v o c IH H G. cbn [t_hist fin_hist h_singles] in *. andbs. auto.
  - intros d v o c IH H G. cbn [t_hist fin_hist h_singles] in *. andbs. auto.
  - intros t x IH H G. cbn [t_hist fin_hist h_singles] in *. andbs. auto.
  - intros z H G x [<-|[]]. auto.
  - intros t IH H G. cbn [t_arg fin_arg a_singles] in *. auto.
Qed.
Lemma known_nums ks : forall l, nums_ok ks l = true -> finite_nums ks l = true -> known (n_singles ks l).
Proof.
  induction ks as [|k ks IH]; intros [|z l] H G; try discriminate; cbn [n_singles]; [apply known_nil|].
  cbn [nums_ok finite_nums] in *. andbs. apply known_app; [|auto].
  destruct k; try apply known_nil. intros x [<-|[]]. auto.
Qed.
Lemma known_prop :
  (forall p, t_prop sep p = true -> fin_prop p = true -> known (p_singles p))
  /\ (forall v, t_sval sep v = true -> fin_sval v = true -> known (v_singles v))
  /\ (forall a, t_array sep a = true -> fin_array a = true -> known (y_singles a))
  /\ (forall m, t_map sep m = true -> fin_map m = true -> known (m_singles m)).
Proof.
  apply prop_all; try (intros; apply known_nil).
  - intros k z H G. cbn [t_prop fin_prop p_singles] in *. destruct k; try apply known_nil. intros x [<-|[]]. auto.
  - intros t H G. now apply known_text.
  - intros a IH H G. cbn [t_prop fin_prop p_singles] in *. auto.
  - intros t f l Hl H G. cbn [t_prop fin_prop p_singles] in *. andbs. eapply (known_flat p_singles (t_prop sep) fin_prop); eauto.
  - intros m IH H G. cbn [t_prop fin_prop p_singles] in *. auto.
  - intros g t v IH H G. cbn [t_prop fin_prop p_singles] in *. andbs. auto.
  - intros v IH H G. cbn [t_prop fin_prop p_singles] in *. auto.
  - intros x l H G. now apply known_nums.
  - intros l Hl H G. cbn [t_sval fin_sval v_singles] in *. andbs.
    eapply (known_entries (flat_map p_singles) (forallb (t_prop sep)) (forallb fin_prop) is_str); eauto. rewrite Forall_forall in *.
    intros [k ps] I. cbn [snd]. intros X Y. eapply (known_flat p_singles (t_prop sep) fin_prop); eauto. exact (Hl _ I).
  - intros l H G z I. cbn [t_array fin_array y_singles] in *. rewrite !forallb_forall in *. auto.
  - intros n t g l Hl H G. cbn [t_array fin_array y_singles] in *. andbs. eapply (known_flat v_singles (t_sval sep) fin_sval); eauto.
  - intros t l Hl H G. cbn [t_array fin_array y_singles] in *. andbs. eapply (known_flat p_singles (t_prop sep) fin_prop); eauto.
  - intros k vt l Hl H G. cbn [t_map fin_map m_singles] in *. andbs. eapply (known_entries p_singles (t_prop sep) fin_prop is_str); eauto.
  - intros kt vt f l Hl H G. cbn [t_map fin_map m_singles] in *. andbs.
    apply (known_flat (fun '(k, v) => p_singles k ++ p_singles v) (fun '(k, v) => t_prop sep k && t_prop sep v) (fun '(k, v) => fin_prop k && fin_prop v)); auto.
    rewrite Forall_forall in *. intros [k v] I X Y. destruct (Hl _ I) as [HK HV]. cbn [fst snd] in *.
    apply andb_true_iff in X as [X1 X2]. apply andb_true_iff in Y as [Y1 Y2]. apply known_app; auto.
Qed.
Lemma known_file g : t_file sep g = true -> fin_file g = true -> known (singles g).
Proof.
  unfold t_file, fin_file, singles. intros H G. andbs. apply (known_entries p_singles (t_prop sep) fin_prop is_str); auto.
  apply Forall_forall. intros e _. apply (proj1 known_prop).
Qed.
End Known.

(** ** Insertion of as many entries as come out *)
Lemma ins_longer {K V} (eqb : K -> K -> bool) (l : list (K * V)) k v :
  ins eqb l k v = l ++ [(k, v)] \/ List.length (ins eqb l k v) = List.length l.
Proof.
  induction l as [|[k' v'] l IH]; [now left|]. cbn [ins]. destruct (eqb k k'); [now right|]. cbn [List.length app].
  destruct IH as [->|IH]; [now left|right; lia].
Qed.
Lemma mins_longer pr l k v : mins pr l k v = l ++ [(k, v)] \/ List.length (mins pr l k v) = List.length l.
Proof.
  unfold mins. destruct (hit pr k l 0) as [i|]; [right|apply ins_longer].
  clear. revert i. induction l as [|[a b] l IH]; intros [|i]; cbn [set_at List.length]; auto.
Qed.
Lemma insert_longer hp l : forall acc,
  let m := fold_left (fun acc e => mins (hp acc (fst e)) acc (fst e) (snd e)) l acc in
  m = acc ++ l \/ (List.length m < List.length acc + List.length l)%nat.
Proof.
  induction l as [|[k v] l IH]; intros acc; cbn [fold_left fst snd]; cbv zeta; [left; now rewrite app_nil_r|].
  destruct (mins_longer (hp acc k) acc k v) as [E|E]; destruct (IH (mins (hp acc k) acc k v)) as [H|H]; cbv zeta in H.
  - left. rewrite H, E, <- app_assoc. reflexivity.
  - right. revert H. rewrite E, app_length. cbn [List.length]. lia.
  - right. rewrite H, app_length, E. cbn [List.length]. lia.
  - right. revert H. rewrite E. cbn [List.length]. lia.
Qed.
Lemma insert_short hp l l' : m_insert hp l = l' -> List.length l = List.length l' -> l = l'.
Proof.
  intros E L. unfold m_insert in E. destruct (insert_longer hp l []) as [H|H]; cbv zeta in H; rewrite E in H; cbn [app List.length] in H; [now symmetry|lia].
Qed.

(** ** Text *)
Section Direct.
Context (float32 float : Z -> str) (F32s : prints_singles float32) (F64s : prints_floats float).
Definition code32 (x : Z) : Z := match from_text (float32 x) with POk (JFloat c) => c | _ => 0 end.
(** The floats that are read, and those of the same value. *)
Definition read_float (z : Z) : Z := if z <? tag32 then z else code32 (z - tag32).
Definition same_float (z : Z) : Z :=
  if z <? tag32 then z else if u_ok 4 (z - tag32) && finite32 (z - tag32) then f_cast fmt32 fmt64 (z - tag32) else -1.
Lemma code32_text x c : num_text (JFloat c) (float32 x) -> code32 x = c.
Proof. intros N. unfold code32. now rewrite (from_text_deep 0 (JFloat c) _ (num_document _ _ N)). Qed.
Lemma denoted z : j_ok (JFloat (same_float z)) = true -> num_text (JFloat (read_float z)) (w_float float32 float z).
Proof.
  unfold same_float, read_float, w_float. destruct (z <? tag32).
  - intros J. cbn [j_ok] in J. apply andb_true_iff in J as [U F]. now apply F64s.
  - destruct (u_ok 4 (z - tag32) && finite32 (z - tag32)) eqn:E; [|discriminate]. apply andb_true_iff in E as [U F]. intros _.
    destruct (single_reread float32 F32s _ U F) as (c & x & T & _). now rewrite (code32_text _ c).
Qed.
Definition read_single (x : Z) : json := if f_finite fmt32 x then JFloat (code32 x) else JNull.
Lemma tag32_big x : u_ok 4 x = true -> (tag32 + x <? tag32) = false /\ tag32 + x - tag32 = x.
Proof. unfold u_ok, in_range. lia. Qed.
Lemma double_kept (f : Z -> Z) z : (forall x, x < tag32 -> f x = x) -> u_ok 8 z = true -> jmap f (e_f64 z) = e_f64 z.
Proof.
  intros K U. unfold e_f64. destruct (f_finite fmt64 z); [|reflexivity]. cbn [jmap]. rewrite K; [reflexivity|].
  unfold u_ok, in_range in U. change (2 ^ (8 * 8) - 1) with 18446744073709551615 in U. unfold tag32. lia.
Qed.
Lemma same_small x : x < tag32 -> same_float x = x.
Proof. intros H. unfold same_float. now replace (x <? tag32) with true by lia. Qed.
Lemma read_small x : x < tag32 -> read_float x = x.
Proof. intros H. unfold read_float. now replace (x <? tag32) with true by lia. Qed.
Lemma same_tree sep g : t_file sep g = true -> jmap same_float (to_tree w_single e_f64 g) = to_json g.
Proof.
  intros T. rewrite <- tree_json. apply (tree_natural sep); [| |exact T].
  - intros x U. unfold w_single, e_f32. destruct (f_finite fmt32 x) eqn:F; [|reflexivity]. cbn [jmap]. unfold same_float.
    destruct (tag32_big x U) as [-> ->]. rewrite finite32_eq in F by exact U. now rewrite U, F.
  - intros x U. apply double_kept; [apply same_small|exact U].
Qed.
Lemma read_tree sep g : t_file sep g = true -> jmap read_float (to_tree w_single e_f64 g) = to_tree read_single e_f64 g.
Proof.
  intros T. apply (tree_natural sep); [| |exact T].
  - intros x U. unfold w_single, read_single. destruct (f_finite fmt32 x) eqn:F; [|reflexivity]. cbn [jmap]. unfold read_float.
    now destruct (tag32_big x U) as [-> ->].
  - intros x U. apply double_kept; [apply read_small|exact U].
Qed.
Lemma tree_brackets sep g : t_file sep g = true -> brackets (to_tree w_single e_f64 g) = brackets (to_json g).
Proof. intros T. rewrite <- (same_tree sep g T). now rewrite brackets_jmap. Qed.
Lemma direct_text_as (merge : list (str * json) -> list (str * json) -> Prop) sep g : (forall l, distinct str_eqb l = true -> merge l l) -> t_file sep g = true ->
  text_as merge num_text chars (brackets (to_json g)) (to_tree read_single e_f64 g) (direct_text float32 float g).
Proof.
  intros M T. rewrite <- (tree_brackets sep g T), <- (read_tree sep g T).
  apply (print_mapped _ same_float _ denoted merge M). rewrite (same_tree sep g T). eapply file_well; eassumption.
Qed.
Lemma direct_pretty_as (merge : list (str * json) -> list (str * json) -> Prop) sep g : (forall l, distinct str_eqb l = true -> merge l l) -> t_file sep g = true ->
  text_as merge num_text chars (brackets (to_json g)) (to_tree read_single e_f64 g) (direct_pretty float32 float g).
Proof.
  intros M T. rewrite <- (tree_brackets sep g T), <- (read_tree sep g T).
  apply (pretty_mapped _ same_float _ denoted merge M). rewrite (same_tree sep g T). eapply file_well; eassumption.
Qed.
Lemma direct_document sep g : t_file sep g = true ->
  document (brackets (to_json g)) (to_tree read_single e_f64 g) (direct_text float32 float g).
Proof. intros T. apply text_document. apply (direct_text_as _ sep); [apply distinct_collapsed|exact T]. Qed.
Lemma pretty_document sep g : t_file sep g = true ->
  document (brackets (to_json g)) (to_tree read_single e_f64 g) (direct_pretty float32 float g).
Proof. intros T. apply text_document. apply (direct_pretty_as _ sep); [apply distinct_collapsed|exact T]. Qed.

Context (r : Z -> Z) (RR : forall b, u_ok 4 b = true -> finite32 b = true -> reread float32 b (r b)).
Lemma single_back z : u_ok 4 z = true -> d_f32 (read_single z) = if finite32 z then JOk (r z) else JErr.
Proof.
  intros U. unfold read_single. rewrite finite32_eq by exact U. destruct (finite32 z) eqn:F; [|reflexivity].
  destruct (single_reread float32 F32s z U F) as (c & x & T & D & R). rewrite (code32_text z c T), D. f_equal.
  exact (reread_unique float32 z x (r z) R (RR z U F)).
Qed.
Lemma document_file hp sep s g : t_file sep g = true -> document (brackets (to_json g)) (to_tree read_single e_f64 g) s ->
  text_file hp s = if fin_file g && (brackets (to_json g) <=? 127)%nat then JOk (r_file r (m_insert hp) g) else JErr.
Proof.
  intros T D. unfold text_file. rewrite (from_text_deep _ _ _ D). change depth_limit with 127%nat.
  destruct (brackets (to_json g) <=? 127)%nat; [|now rewrite andb_false_r]. rewrite andb_true_r.
  apply (file_rounded read_single e_f64 r (m_insert hp) single_back f64_back hp sep); auto.
Qed.
Lemma direct_file hp sep g : t_file sep g = true ->
  text_file hp (direct_text float32 float g) = if fin_file g && (brackets (to_json g) <=? 127)%nat then JOk (r_file r (m_insert hp) g) else JErr.
Proof. intros T. apply (document_file hp sep); [exact T|]. now apply (direct_document sep). Qed.
Lemma pretty_file hp sep g : t_file sep g = true ->
  text_file hp (direct_pretty float32 float g) = if fin_file g && (brackets (to_json g) <=? 127)%nat then JOk (r_file r (m_insert hp) g) else JErr.
Proof. intros T. apply (document_file hp sep); [exact T|]. now apply (pretty_document sep). Qed.
(** It comes back exactly if every single of it does. *)
Lemma direct_fixed hp g : calm hp -> t_file same g = true ->
  text_file hp (direct_text float32 float g) = JOk g
  <-> fin_file g = true /\ (brackets (to_json g) <= 127)%nat /\ forall z, In z (singles g) -> r z = z.
Proof.
  intros C T. rewrite (direct_file hp same g T).
  rewrite <- (file_fixed r (m_insert hp) same (fun l => insert_calm hp l C) (insert_short hp) g T).
  destruct (fin_file g); [|split; [discriminate|intros [X _]; discriminate]].
  destruct (brackets (to_json g) <=? 127)%nat eqn:B; cbn [andb].
  - split; [intros E; injection E as E; repeat split; [lia|exact E]|]. now intros (_ & _ & ->).
  - split; [discriminate|]. intros (_ & X & _). lia.
Qed.
End Direct.

(** What singles become, computed. *)
Definition read_back (float32 : Z -> str) (z : Z) : Z := match d_f32 (JFloat (code32 float32 z)) with JOk c => c | _ => 0 end.
Lemma read_back_reread float32 : prints_singles float32 ->
  forall b, u_ok 4 b = true -> finite32 b = true -> reread float32 b (read_back float32 b).
Proof.
  intros FL b U F. destruct (single_reread float32 FL b U F) as (c & x & T & D & R). unfold read_back. now rewrite (code32_text _ b c T), D.
Qed.
Lemma reread_function float32 : prints_singles float32 ->
  exists r, forall b, u_ok 4 b = true -> finite32 b = true -> forall c, reread float32 b c <-> c = r b.
Proof.
  intros FL. exists (read_back float32). intros b U F c. split; [|intros ->; now apply read_back_reread].
  intros R. exact (reread_unique float32 b c _ R (read_back_reread float32 FL b U F)).
Qed.
Lemma direct_back float32 float hp g : prints_singles float32 -> prints_floats float -> calm hp -> t_file same g = true ->
  text_file hp (direct_text float32 float g) = JOk g
  <-> fin_file g = true /\ (brackets (to_json g) <= 127)%nat /\ forall z, In z (singles g) -> reread float32 z z.
Proof.
  intros FL FD C T. pose proof (read_back_reread float32 FL) as RR.
  rewrite (direct_fixed float32 float FL FD (read_back float32) RR hp g C T).
  split; intros (F & B & S); (split; [exact F|]); (split; [exact B|]); intros z I;
    destruct (known_file same g T F z I) as [U X]; specialize (S z I).
  - rewrite <- S at 2. now apply RR.
  - exact (reread_unique float32 z _ z (RR z U X) S).
Qed.
(** Files that are loaded. *)
Lemma loaded_direct float32 float r : prints_singles float32 -> prints_floats float ->
  (forall b, u_ok 4 b = true -> finite32 b = true -> reread float32 b (r b)) ->
  forall hp z o v b g, load z o v b = Ok g ->
  text_file hp (direct_text float32 float g) = (if fin_file g && (brackets (to_json g) <=? 127)%nat then JOk (r_file r (m_insert hp) g) else JErr)
  /\ text_file hp (direct_pretty float32 float g) = if fin_file g && (brackets (to_json g) <=? 127)%nat then JOk (r_file r (m_insert hp) g) else JErr.
Proof.
  intros FL FD RR hp z o v b g H. apply loaded_typed in H.
  split; [apply (direct_file float32 float FL FD r RR hp same g H)|apply (pretty_file float32 float FL FD r RR hp same g H)].
Qed.
Lemma loaded_direct_back float32 float hp z o v b g : prints_singles float32 -> prints_floats float -> calm hp -> load z o v b = Ok g ->
  text_file hp (direct_text float32 float g) = JOk g
  <-> fin_file g = true /\ (brackets (to_json g) <= 127)%nat /\ forall z, In z (singles g) -> reread float32 z z.
Proof. intros FL FD C H. apply direct_back; auto. eapply loaded_typed; eauto. Qed.
Lemma loaded_even float32 float hp z o v b g : prints_singles float32 -> prints_floats float -> calm hp -> load z o v b = Ok g ->
  fin_file g = true -> (brackets (to_json g) <= 127)%nat -> (forall z, In z (singles g) -> Z.even z = true) ->
  text_file hp (direct_text float32 float g) = JOk g.
Proof.
  intros FL FD C H F B E. apply (loaded_direct_back float32 float hp z o v b g FL FD C H). split; [exact F|]. split; [exact B|].
  intros x I. destruct (known_file same g (loaded_typed _ _ _ _ _ H) F x I) as [U X].
  destruct (reread_exists float32 FL x U X) as [c R]. destruct (reread_near float32 FL x c U X R) as [->|[O _]]; [exact R|].
  specialize (E x I). rewrite <- Z.negb_even, E in O. discriminate.
Qed.

(** ** A file that does not come back *)
Definition unlucky_file (x : Z) : gfile := GFile DDefault hdr5 [(s2z "f", PNum F32 x)].
Lemma unlucky_loads : load no_zlib o_plain GDefault (image (unlucky_file unlucky)) = Ok (unlucky_file unlucky)
  /\ fin_file (unlucky_file unlucky) = true /\ (brackets (to_json (unlucky_file unlucky)) <=? 127)%nat = true.
Proof. vm_compute. repeat split. Qed.
Lemma unlucky_changes float32 float hp : prints_singles float32 -> shortest float32 unlucky -> prints_floats float ->
  text_file hp (direct_text float32 float (unlucky_file unlucky)) = JOk (unlucky_file (unlucky + 1)).
Proof.
  intros FL S FD. destruct unlucky_loads as (L & F & B).
  rewrite (proj1 (loaded_direct float32 float _ FL FD (read_back_reread float32 FL) hp _ _ _ _ _ L)), F, B. cbn [andb].
  unfold r_file, unlucky_file. cbn [g_version g_header g_props map r_prop r_num]. do 5 f_equal.
  exact (reread_unique float32 unlucky _ _ (read_back_reread float32 FL unlucky eq_refl eq_refl) (unlucky_lost float32 S)).
Qed.
Lemma direct_refuted : exists z o b g g', load z o GDefault b = Ok g /\ fin_file g = true /\ g' <> g
  /\ (exists float32, prints_singles float32 /\ forall x, In x (singles g) -> shortest float32 x)
  /\ forall float32 float hp, prints_singles float32 -> (forall x, In x (singles g) -> shortest float32 x) -> prints_floats float ->
     text_file hp (direct_text float32 float g) = JOk g' /\ (calm hp -> text_file hp (file_text float g) = JOk g).
Proof.
  destruct unlucky_loads as (L & F & B).
  exists no_zlib, o_plain, (image (unlucky_file unlucky)), (unlucky_file unlucky), (unlucky_file (unlucky + 1)).
  split; [exact L|]. split; [exact F|]. split; [discriminate|]. split.
  - exists shortest32. split; [exact shortest32_prints|]. intros x [<-|[]]. exact shortest32_shortest.
  - intros float32 float hp FL S FD. split; [apply unlucky_changes; auto; apply S; now left|].
    intros C. rewrite (loaded_text hp float _ _ _ _ _ FD C L), F, B. reflexivity.
Qed.
