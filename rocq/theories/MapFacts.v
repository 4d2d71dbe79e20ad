(** Insertion-ordered maps: what repeated insertion leaves (C20, C21, C25, C38). *)
From Coq Require Import ZArith List Bool String Lia ZifyBool ZifyNat.
From Verif Require Import Base Str Types Props Spec BaseFacts Decode DecodeProp.
Import ListNotations.
Open Scope Z_scope.

(** ** Specification: which keys, in which order, with which values *)
Section Spec.
Context {K V : Type} (eqb : K -> K -> bool).
(** The first occurrence of every key, in order. *)
Fixpoint firsts (seen l : list K) : list K :=
  match l with
  | [] => []
  | k :: r => if existsb (eqb k) seen then firsts seen r else k :: firsts (k :: seen) r
  end.
(** The value of the last entry for a key. *)
Fixpoint last_of (k : K) (l : list (K * V)) : option V :=
  match l with
  | [] => None
  | (k', v) :: r =>
    match last_of k r with
    | Some w => Some w
    | None => if eqb k k' then Some v else None
    end
  end.
(** All values for a key, in order. *)
Fixpoint all_of (k : K) (l : list (K * V)) : list V :=
  match l with
  | [] => []
  | (k', v) :: r => if eqb k k' then v :: all_of k r else all_of k r
  end.
End Spec.

(** One entry per key: first position, last value. *)
Definition collapsed {K V} (eqb : K -> K -> bool) (l : list (K * V)) (m : list (K * V)) : Prop :=
  map (fun e => (fst e, Some (snd e))) m
  = map (fun k => (k, last_of eqb k l)) (firsts eqb [] (map fst l)).
(** One entry per key: first position, all values. *)
Definition grouped (l : list (str * property)) : list (str * list property) :=
  map (fun k => (k, all_of str_eqb k l)) (firsts str_eqb [] (map fst l)).

(** ** Proofs *)
Section Facts.
Context {K V : Type} (eqb : K -> K -> bool).
Hypothesis Rf : forall a, eqb a a = true.
Hypothesis Sy : forall a b, eqb a b = true -> eqb b a = true.
Hypothesis Tr : forall a b c, eqb a b = true -> eqb b c = true -> eqb a c = true.

Lemma ex_iff k l : existsb (eqb k) l = true <-> exists a, In a l /\ eqb k a = true.
Proof. apply existsb_exists. Qed.
Lemma firsts_snoc l : forall seen k,
  firsts eqb seen (l ++ [k]) = firsts eqb seen l ++ (if existsb (eqb k) (l ++ seen) then [] else [k]).
Proof.
  induction l as [|a l IH]; intros seen k; cbn [app firsts].
  - destruct (existsb (eqb k) seen); reflexivity.
  - destruct (existsb (eqb a) seen) eqn:E; rewrite IH.
    + f_equal. cbn [existsb]. destruct (existsb (eqb k) (l ++ seen)) eqn:E2; [now rewrite orb_true_r|].
      rewrite orb_false_r. destruct (eqb k a) eqn:E3; [|reflexivity]. exfalso.
      apply ex_iff in E as (s & Hs & Es).
      assert (existsb (eqb k) (l ++ seen) = true) by (apply ex_iff; exists s; split; [apply in_or_app; auto|eauto]).
      congruence.
    + cbn [app]. f_equal. f_equal. rewrite !existsb_app. cbn [existsb]. rewrite existsb_app.
      destruct (eqb k a), (existsb (eqb k) l); reflexivity.
Qed.
Lemma firsts_has l : forall seen k,
  existsb (eqb k) (firsts eqb seen l ++ seen) = existsb (eqb k) (l ++ seen).
Proof.
  induction l as [|a l IH]; intros seen k; cbn [firsts app]; [reflexivity|].
  destruct (existsb (eqb a) seen) eqn:E.
  - rewrite IH. cbn [existsb]. destruct (eqb k a) eqn:E2; [|reflexivity]. cbn [orb].
    apply ex_iff in E as (s & Hs & Es). apply ex_iff. exists s. split; [apply in_or_app; auto|eauto].
  - cbn [app existsb]. rewrite existsb_app. rewrite (existsb_app _ l). specialize (IH (a :: seen) k).
    rewrite !existsb_app in IH. cbn [existsb] in IH.
    destruct (eqb k a); cbn [orb] in *; [reflexivity|exact IH].
Qed.
Lemma firsts_in l seen k : In k (firsts eqb seen l) -> In k l.
Proof.
  revert seen. induction l as [|a l IH]; intros seen H; cbn [firsts] in H; [destruct H|].
  destruct (existsb (eqb a) seen).
  - right. eapply IH. exact H.
  - destruct H as [<-|H]; [now left|right; eapply IH; exact H].
Qed.
(** Keys are pairwise different. *)
Inductive apart_keys : list K -> Prop :=
| ak_nil : apart_keys []
| ak_cons k l : existsb (eqb k) l = false -> apart_keys l -> apart_keys (k :: l).
Lemma apart_snoc l k : apart_keys l -> existsb (eqb k) l = false -> apart_keys (l ++ [k]).
Proof.
  induction 1 as [|a l H H1 IH]; intros E; cbn [app existsb] in *.
  - constructor; [reflexivity|constructor].
  - apply orb_false_iff in E as [E1 E2]. constructor; [|auto]. rewrite existsb_app, H. cbn [existsb orb].
    rewrite orb_false_r. destruct (eqb a k) eqn:X; [|reflexivity]. apply Sy in X. congruence.
Qed.
Lemma firsts_apart l : apart_keys (firsts eqb [] l).
Proof.
  induction l as [|k l IH] using rev_ind; [constructor|]. rewrite firsts_snoc, app_nil_r.
  destruct (existsb (eqb k) l) eqn:E; [now rewrite app_nil_r|]. apply apart_snoc; [assumption|].
  pose proof (firsts_has l [] k) as H. rewrite !app_nil_r in H. congruence.
Qed.
Lemma last_snoc l k k' v :
  last_of eqb k (l ++ [(k', v)] : list (K * V)) = if eqb k k' then Some v else last_of eqb k l.
Proof.
  induction l as [|[a w] l IH]; cbn [app last_of]; [reflexivity|]. rewrite IH.
  destruct (eqb k k'); [reflexivity|]. reflexivity.
Qed.
Lemma all_snoc l k k' v :
  all_of eqb k (l ++ [(k', v)] : list (K * V)) = all_of eqb k l ++ (if eqb k k' then [v] else []).
Proof.
  induction l as [|[a w] l IH]; cbn [app all_of]; [reflexivity|]. rewrite IH.
  destruct (eqb k a); reflexivity.
Qed.
(** Inserting under a known key replaces the value in place. *)
Lemma ins_old (m : list (K * V)) k v : apart_keys (map fst m) -> existsb (eqb k) (map fst m) = true ->
  ins eqb m k v = map (fun e => if eqb k (fst e) then (fst e, v) else e) m.
Proof.
  induction m as [|[a w] m IH]; cbn [map fst existsb ins]; [discriminate|]. intros H E.
  inversion H as [|? ? H1 H2]; subst. destruct (eqb k a) eqn:X.
  - f_equal. rewrite <- (map_id m) at 1. apply map_ext_in. intros [b u] Hin. cbn [fst].
    destruct (eqb k b) eqn:Y; [|reflexivity]. exfalso.
    assert (existsb (eqb a) (map fst m) = true); [|congruence].
    apply ex_iff. exists b. split; [apply in_map_iff; exists (b, u); auto|]. apply Sy in X. eauto.
  - f_equal. now apply IH.
Qed.
Lemma ins_all_snoc (l : list (K * V)) k v : ins_all eqb (l ++ [(k, v)]) = ins eqb (ins_all eqb l) k v.
Proof. unfold ins_all. now rewrite fold_left_app. Qed.
Lemma collapsed_keys (l m : list (K * V)) : collapsed eqb l m -> map fst m = firsts eqb [] (map fst l).
Proof.
  intros H. apply (f_equal (map fst)) in H. rewrite !map_map in H. cbn [fst] in H. rewrite map_id in H. exact H.
Qed.
Lemma ins_collapsed (l m : list (K * V)) k v : collapsed eqb l m -> collapsed eqb (l ++ [(k, v)]) (ins eqb m k v).
Proof.
  intros H. pose proof (collapsed_keys l m H) as HK. unfold collapsed in *.
  rewrite map_app. cbn [map fst]. rewrite firsts_snoc, app_nil_r.
  pose proof (firsts_has (map fst l) [] k) as HH. rewrite !app_nil_r in HH.
  destruct (existsb (eqb k) (map fst l)) eqn:E.
  - rewrite app_nil_r. rewrite ins_old; [|rewrite HK; apply firsts_apart|rewrite HK; exact HH].
    rewrite map_map.
    assert (M : map (fun x : K * V => (fst (if eqb k (fst x) then (fst x, v) else x),
                                       Some (snd (if eqb k (fst x) then (fst x, v) else x)))) m
            = map (fun e => (fst e, if eqb k (fst e) then Some v else snd e))
                  (map (fun e : K * V => (fst e, Some (snd e))) m)).
    { rewrite map_map. apply map_ext. intros [a w]. cbn [fst snd]. destruct (eqb k a); reflexivity. }
    rewrite M, H, map_map. apply map_ext. intros a. cbn [fst snd]. rewrite last_snoc.
    destruct (eqb k a) eqn:X.
    + apply Sy in X. now rewrite X.
    + destruct (eqb a k) eqn:Y; [apply Sy in Y; congruence|reflexivity].
  - rewrite ins_new.
    2:{ rewrite <- HK in HH. apply forallb_forall. intros e He. destruct (eqb k (fst e)) eqn:X; [|reflexivity].
        assert (existsb (eqb k) (map fst m) = true) by (apply ex_iff; exists (fst e); split; [now apply in_map|auto]).
        congruence. }
    rewrite !map_app. cbn [map fst snd]. f_equal.
    + rewrite H. apply map_ext_in. intros a Ha. rewrite last_snoc. destruct (eqb a k) eqn:X; [|reflexivity].
      exfalso. assert (existsb (eqb k) (map fst l) = true); [|congruence].
      apply ex_iff. exists a. split; [eapply firsts_in; exact Ha|now apply Sy].
    + rewrite last_snoc, Rf. reflexivity.
Qed.
Lemma ins_all_collapsed (l : list (K * V)) : collapsed eqb l (ins_all eqb l).
Proof.
  induction l as [|[k v] l IH] using rev_ind; [reflexivity|]. rewrite ins_all_snoc. now apply ins_collapsed.
Qed.
Lemma collapsed_unique (l m m' : list (K * V)) : collapsed eqb l m -> collapsed eqb l m' -> m = m'.
Proof.
  unfold collapsed. intros H H'. rewrite <- H' in H. clear H'. revert m' H.
  induction m as [|[a v] m IH]; intros [|[b w] m'] H; try discriminate; [reflexivity|].
  cbn [map fst snd] in H. injection H as -> -> H. f_equal. now apply IH.
Qed.
Lemma last_none k (l : list (K * V)) : last_of eqb k l = None <-> existsb (eqb k) (map fst l) = false.
Proof.
  induction l as [|[a v] l IH]; cbn [last_of map fst existsb]; [tauto|].
  rewrite orb_false_iff. destruct (last_of eqb k l) as [w|].
  - split; [discriminate|]. intros [_ H]. apply IH in H. discriminate.
  - assert (existsb (eqb k) (map fst l) = false) by now apply IH. destruct (eqb k a); split; auto; [discriminate|intros [? _]; discriminate].
Qed.
Lemma collapsed_lookup (l m : list (K * V)) k : collapsed eqb l m -> lookup eqb k m = last_of eqb k l.
Proof.
  intros H. pose proof (collapsed_keys l m H) as HK.
  destruct (last_of eqb k l) as [v|] eqn:E.
  - pose proof (firsts_has (map fst l) [] k) as HH. rewrite !app_nil_r in HH.
    assert (X : existsb (eqb k) (map fst l) = true).
    { destruct (existsb (eqb k) (map fst l)) eqn:Y; [reflexivity|]. apply last_none in Y. congruence. }
    rewrite X, <- HK in HH. clear X.
    assert (HL : forall e, In e m -> last_of eqb (fst e) l = Some (snd e)).
    { intros e He. apply (in_map (fun e => (fst e, Some (snd e)))) in He. rewrite H in He.
      apply in_map_iff in He as (a & Ea & _). injection Ea as -> ->. auto. }
    assert (LE : forall a b, eqb a b = true -> last_of eqb a l = last_of eqb b l).
    { clear -Sy Tr. intros a b X. induction l as [|[c w] l IH]; cbn [last_of]; [reflexivity|]. rewrite IH.
      destruct (last_of eqb b l); [reflexivity|].
      destruct (eqb a c) eqn:Y, (eqb b c) eqn:Z0; try reflexivity.
      - assert (eqb b c = true) by eauto. congruence.
      - assert (eqb a c = true) by eauto. congruence. }
    clear H HK. induction m as [|[a w] m IH]; cbn [map existsb fst lookup] in *; [discriminate|].
    destruct (eqb k a) eqn:Y.
    + specialize (HL (a, w) (or_introl eq_refl)). cbn [fst snd] in HL. rewrite (LE _ _ Y) in E. congruence.
    + apply IH; [exact HH|]. intros e He. apply HL. now right.
  - apply last_none in E. pose proof (firsts_has (map fst l) [] k) as HH. rewrite !app_nil_r in HH.
    rewrite E, <- HK in HH. clear -HH. induction m as [|[a w] m IH]; cbn [map existsb fst lookup] in *; [reflexivity|].
    apply orb_false_iff in HH as [-> HH]. auto.
Qed.
End Facts.

Lemma str_rf a : str_eqb a a = true. Proof. apply str_eqb_refl. Qed.
Lemma str_sy a b : str_eqb a b = true -> str_eqb b a = true. Proof. rewrite str_eqb_sym. auto. Qed.
Lemma str_tr a b c : str_eqb a b = true -> str_eqb b c = true -> str_eqb a c = true.
Proof. rewrite !str_eqb_eq. congruence. Qed.
Lemma guid_sy a b : guid_eqb a b = true -> guid_eqb b a = true. Proof. rewrite !guid_eqb_eq. auto. Qed.
Lemma guid_tr a b c : guid_eqb a b = true -> guid_eqb b c = true -> guid_eqb a c = true.
Proof. rewrite !guid_eqb_eq. congruence. Qed.

(** Repeated fields are gathered. *)
Lemma all_new (l : list (str * property)) k : existsb (str_eqb k) (map fst l) = false -> all_of str_eqb k l = [].
Proof.
  induction l as [|[a v] l IH]; cbn [map fst existsb all_of]; [reflexivity|].
  rewrite orb_false_iff. intros [-> H]. auto.
Qed.
Lemma lookup_all (l : list (str * property)) F k : In k F ->
  lookup str_eqb k (map (fun k => (k, all_of str_eqb k l)) F) = Some (all_of str_eqb k l).
Proof.
  induction F as [|a F IH]; intros H; [destruct H|]. cbn [map lookup].
  destruct (str_eqb k a) eqn:E; [apply str_eqb_eq in E; now subst|].
  destruct H as [->|H]; [rewrite str_eqb_refl in E; discriminate|auto].
Qed.
Lemma regroup_grouped fl : regroup [] fl = grouped fl.
Proof.
  induction fl as [|[k p] fl IH] using rev_ind; [reflexivity|].
  unfold regroup in *. rewrite fold_left_app. cbn [fold_left fst snd]. rewrite IH.
  unfold grouped, group_add, group. rewrite map_app. cbn [map fst].
  rewrite (firsts_snoc _ str_sy str_tr), app_nil_r.
  pose proof (firsts_has _ str_sy str_tr (map fst fl) [] k) as HH. rewrite !app_nil_r in HH.
  set (F := firsts str_eqb [] (map fst fl)) in *.
  assert (KF : map fst (map (fun k => (k, all_of str_eqb k fl)) F) = F) by (rewrite map_map; apply map_id).
  destruct (existsb (str_eqb k) (map fst fl)) eqn:E.
  - rewrite app_nil_r. assert (In k F) as HI.
    { apply existsb_exists in HH as (a & Ha & Ea). apply str_eqb_eq in Ea. now subst. }
    rewrite lookup_all by assumption.
    rewrite (ins_old _ str_sy str_tr); [|rewrite KF; apply (firsts_apart _ str_sy str_tr)|rewrite KF; exact HH].
    rewrite map_map. apply map_ext. intros a. cbn [fst]. rewrite all_snoc.
    destruct (str_eqb k a) eqn:X.
    + apply str_eqb_eq in X. subst. now rewrite str_eqb_refl.
    + rewrite str_eqb_sym, X. now rewrite app_nil_r.
  - assert (HA : forallb (fun e : str * list property => negb (str_eqb k (fst e))) (map (fun k => (k, all_of str_eqb k fl)) F) = true).
    { apply forallb_forall. intros [a g] Hin. apply in_map_iff in Hin as (b & Eb & Hb). injection Eb as -> <-.
      cbn [fst]. destruct (str_eqb k a) eqn:X; [|reflexivity].
      assert (existsb (str_eqb k) F = true) by (apply existsb_exists; exists a; auto). congruence. }
    rewrite lookup_absent by exact HA. rewrite ins_new by exact HA. rewrite map_app. cbn [map].
    f_equal.
    + apply map_ext_in. intros a Ha. rewrite all_snoc. destruct (str_eqb a k) eqn:X; [|now rewrite app_nil_r].
      apply str_eqb_eq in X. subst. assert (existsb (str_eqb k) F = true); [|congruence].
      apply existsb_exists. exists k. split; [assumption|apply str_eqb_refl].
    + rewrite all_snoc, str_eqb_refl, all_new by exact E. reflexivity.
Qed.
(** The index every field must carry in a debug build. *)
Definition indexed (fl : list (str * property)) : Prop :=
  forall l1 k p l2, fl = l1 ++ (k, p) :: l2 ->
    field_index p = len (all_of str_eqb k l1) mod 4294967296.
Lemma group_grouped fl k : group (grouped fl) k = all_of str_eqb k fl.
Proof.
  unfold group, grouped. pose proof (firsts_has _ str_sy str_tr (map fst fl) [] k) as HH. rewrite !app_nil_r in HH.
  destruct (existsb (str_eqb k) (map fst fl)) eqn:E.
  - apply existsb_exists in HH as (a & Ha & Ea). apply str_eqb_eq in Ea. subst a. now rewrite lookup_all.
  - rewrite all_new by exact E. rewrite lookup_absent; [reflexivity|].
    apply forallb_forall. intros [a g] Hin. apply in_map_iff in Hin as (b & Eb & Hb). injection Eb as -> <-.
    cbn [fst]. destruct (str_eqb k a) eqn:X; [|reflexivity].
    assert (existsb (str_eqb k) (firsts str_eqb [] (map fst fl)) = true) by (apply existsb_exists; exists a; auto).
    congruence.
Qed.
Lemma chain_indexed fl : forall pre, chain (grouped pre) fl = true <->
  (forall l1 k p l2, fl = l1 ++ (k, p) :: l2 -> field_index p = len (all_of str_eqb k (pre ++ l1)) mod 4294967296).
Proof.
  induction fl as [|[k p] fl IH]; intros pre; cbn [chain].
  - split; [|reflexivity]. intros _ l1 k p l2 E. destruct l1; discriminate.
  - assert (G : group_add (grouped pre) k p = grouped (pre ++ [(k, p)])).
    { rewrite <- !regroup_grouped, regroup_app. reflexivity. }
    rewrite G, andb_true_iff, IH. unfold index_ok. rewrite group_grouped, Z.eqb_eq. split.
    + intros [H1 H2] l1 k' p' l2 E. destruct l1 as [|e l1]; cbn [app] in E.
      * injection E as <- <- <-. rewrite app_nil_r. symmetry. exact H1.
      * injection E as <- ->. rewrite (H2 l1 k' p' l2 eq_refl). now rewrite <- app_assoc.
    + intros H. split.
      * specialize (H [] k p fl eq_refl). rewrite app_nil_r in H. symmetry. exact H.
      * intros l1 k' p' l2 ->. rewrite <- app_assoc. apply (H ((k, p) :: l1) k' p' l2). reflexivity.
Qed.
