(** If no two keys of a map are equal, the hash function decides nothing at all (C78). *)
From Coq Require Import ZArith List Bool String Lia ZifyBool ZifyNat.
From Verif Require Import Base Str Types Versions Text Props File Spec BaseFacts Decode DecodeMain Induct EqFacts EqSym CtorThm AcceptAll
  DecodeProp HashFree AcceptFile MoveThm.
Import ListNotations.
Open Scope Z_scope.

(** ** Values that are the same have unique keys alike *)
Lemma entries_pairs {K V} (keq : K -> K -> bool) (veq : V -> V -> bool) l : forall l',
  map_eqb keq veq true l l' = true -> Forall2 (fun e e' => keq (fst e) (fst e') = true /\ veq (snd e) (snd e') = true) l l'.
Proof.
  unfold map_eqb. induction l as [|[k v] l IH]; intros [|[k' v'] l']; cbn [entries_eqb]; try discriminate; constructor; andbs; auto.
Qed.
Lemma pairs_keys {K V} (keq : K -> K -> bool) (veq : V -> V -> bool) l l' :
  Forall2 (fun e e' => keq (fst e) (fst e') = true /\ veq (snd e) (snd e') = true) l l' -> Forall2 (fun e e' => keq (fst e) (fst e') = true) l l'.
Proof. induction 1; constructor; tauto. Qed.
Lemma distinct_back {K V} (keq weq : K -> K -> bool) (l l' : list (K * V)) :
  (forall a a' b b', keq a a' = true -> keq b b' = true -> weq a b = true -> weq a' b' = true) ->
  Forall2 (fun e e' => keq (fst e) (fst e') = true) l l' -> distinct weq l' = true -> distinct weq l = true.
Proof.
  intros T F. induction F as [|[k v] [k' v'] l l' A F IH]; cbn [distinct fst] in *; [auto|]. intros D. andbs. sub2; [|auto].
  match goal with H : forallb _ l' = true |- _ => revert H end. clear - T A F. induction F as [|e e' l l' B F IH]; cbn [forallb]; [auto|].
  intros D. andbs. sub2; [|auto]. destruct (weq (fst e) k) eqn:E; [|reflexivity]. rewrite (T _ _ _ _ B A E) in *. discriminate.
Qed.
Lemma list_uniq {A} (f : A -> A -> bool) (u : A -> bool) l : Forall (fun a => forall b, f a b = true -> u b = true -> u a = true) l ->
  forall l', list_eqb f l l' = true -> forallb u l' = true -> forallb u l = true.
Proof.
  induction 1 as [|a l H _ IH]; intros [|b l']; cbn [list_eqb forallb]; try discriminate; auto. intros; andbs. sub2; eauto.
Qed.
Lemma vals_uniq {K V} (keq : K -> K -> bool) (f : V -> V -> bool) (u : V -> bool) (l : list (K * V)) :
  Forall (fun e => forall b, f (snd e) b = true -> u b = true -> u (snd e) = true) l ->
  forall l', map_eqb keq f true l l' = true -> forallb (fun e => u (snd e)) l' = true -> forallb (fun e => u (snd e)) l = true.
Proof.
  unfold map_eqb. induction 1 as [|[k a] l H _ IH]; intros [|[k' b] l']; cbn [entries_eqb forallb fst snd] in *; try discriminate; auto.
  intros; andbs. sub2; eauto.
Qed.
Lemma keys_uniq {V} (f : V -> V -> bool) (l l' : list (str * V)) : map_eqb str_eqb f true l l' = true ->
  distinct str_eqb l' = true -> distinct str_eqb l = true.
Proof.
  intros M. apply (distinct_back str_eqb).
  - intros a a' b b'. rewrite !str_eqb_eq. congruence.
  - apply entries_pairs in M. induction M; constructor; tauto.
Qed.
Lemma text_uniq_same :
  (forall a b, text_eqb true a b = true -> uniq_text b = true -> uniq_text a = true)
  /\ (forall a b, hist_eqb true a b = true -> uniq_hist b = true -> uniq_hist a = true)
  /\ (forall a b, arg_eqb true a b = true -> uniq_arg b = true -> uniq_arg a = true).
Proof.
  apply text_all; intros; match goal with H : _ true _ ?b = true |- _ => is_var b; destruct b; try discriminate H end;
    try reflexivity; match goal with H : _ true _ _ = true |- _ => qrw H end;
    rewrite ?u_named, ?u_argument, ?u_ordered in *; cbn [uniq_text uniq_hist uniq_arg] in *; andbs; sub2; eauto using keys_uniq.
  - eapply (vals_uniq str_eqb); eassumption.
  - eapply list_uniq; eassumption.
  - eapply (vals_uniq str_eqb); eassumption.
Qed.
Lemma same_sym a b : same a b = true -> same b a = true.
Proof. apply (proj1 (prop_sym true)). reflexivity. Qed.
Lemma same_eqv a b : same a b = true -> eqv a b = true. Proof. apply (proj1 prop_mono). Qed.
Lemma eqv_trans a b c : eqv a b = true -> eqv b c = true -> eqv a c = true. Proof. apply (proj1 (prop_trans false)). Qed.
Lemma prop_uniq_same :
  (forall a b, prop_eqb true a b = true -> uniq b = true -> uniq a = true)
  /\ (forall a b, sval_eqb true a b = true -> uniq_sval b = true -> uniq_sval a = true)
  /\ (forall a b, array_eqb true a b = true -> uniq_array b = true -> uniq_array a = true)
  /\ (forall a b, mapp_eqb true a b = true -> uniq_map b = true -> uniq_map a = true).
Proof.
  pose proof (proj1 text_uniq_same) as TU.
  apply prop_all; intros; match goal with H : _ true _ ?b = true |- _ => is_var b; destruct b; try discriminate H end;
    try reflexivity; match goal with H : _ true _ _ = true |- _ => qrw H end;
    rewrite ?u_pset, ?u_scustom, ?u_astructs, ?u_aprops, ?u_mprop, ?u_mgen in *; cbn [uniq uniq_sval uniq_array uniq_map] in *; andbs; sub2;
    eauto using keys_uniq; try (eapply list_uniq; eassumption).
  - eapply (vals_uniq str_eqb (list_eqb (prop_eqb true)) (forallb uniq)); [|eassumption|eassumption].
    eapply Forall_impl; [|eassumption]. cbv beta. intros e He b. now apply list_uniq.
  - eapply (vals_uniq str_eqb); eassumption.
  - eapply (distinct_back same eqv); [|eapply pairs_keys, entries_pairs; eassumption|eassumption].
    intros a a' b b' A B E. eapply eqv_trans; [apply same_eqv, same_sym, A|]. eapply eqv_trans; [exact E|]. now apply same_eqv.
  - match goal with M : map_eqb _ _ _ l ?l' = true, G : forallb _ ?l' = true |- _ => apply entries_pairs in M; revert G; rename M into X end.
    clear - H X. revert H. induction X as [|e e' l l' [A B] _ IH]; intros F; cbn [forallb]; [auto|]. inversion F as [|? ? [Hk Hv] F']; subst.
    intros G. andbs. sub2; eauto.
Qed.
Lemma same_uniq a b : same a b = true -> uniq b = true -> uniq a = true. Proof. apply (proj1 prop_uniq_same). Qed.

(** ** Maps *)
Definition near (p p' : property) : Prop := alike p p' /\ (uniq p = true -> p' = p).
Lemma near_refl p : near p p. Proof. split; [apply alike_refl|auto]. Qed.
Definition pair_near (e e' : property * property) : Prop := fst e' = fst e /\ near (snd e) (snd e').

Lemma hit_none pr k l : forall i, (forall e, In e l -> eqv k (fst e) = false) -> hit pr k l i = None.
Proof.
  induction l as [|[k' v'] l IH]; intros i H; cbn [hit]; [reflexivity|].
  pose proof (H (k', v') (or_introl eq_refl)) as E. cbn [fst] in E. rewrite E. cbn [andb]. apply IH. intros e I. apply H. now right.
Qed.
Lemma hit_calm pr k l : (forall i, pr i = false) -> forall i, hit pr k l i = None.
Proof.
  intros Q. induction l as [|[k' v'] l IH]; intros i; cbn [hit]; [reflexivity|]. rewrite Q, andb_false_r. apply IH.
Qed.
(** Where equal keys are the same key, a collision changes nothing. *)
Lemma mins_ins pr l k v : distinct eqv l = true -> (forall e, In e l -> uniq (fst e) = true) ->
  (forall e, In e l -> eqv k (fst e) = true -> same k (fst e) = true) -> mins pr l k v = ins same l k v.
Proof.
  intros D U S. unfold mins.
  assert (G : forall i, match hit pr k l i with Some j => exists j', j = (i + j')%nat /\ set_at l j' v = ins same l k v | None => True end).
  { revert D U S. induction l as [|[k' v'] l IH]; intros D U S i; cbn [hit]; [exact I|]. cbn [distinct] in D. andbs.
    destruct (eqv k k') eqn:E; cbn [andb].
    - pose proof (S (k', v') (or_introl eq_refl) E) as Sm. cbn [fst] in Sm.
      destruct (pr i).
      + exists 0%nat. split; [lia|]. cbn [set_at ins]. now rewrite Sm.
      + rewrite hit_none; [exact I|]. intros e Ie. destruct (eqv k (fst e)) eqn:E'; [|reflexivity]. exfalso.
        match goal with H : forallb _ l = true |- _ => rewrite forallb_forall in H; specialize (H e Ie) end.
        rewrite (eqv_trans (fst e) k k') in *; try discriminate; [|exact E].
        apply same_eqv, same_sym. apply S; [now right|exact E'].
    - specialize (IH ltac:(assumption) (fun e Ie => U e (or_intror Ie)) (fun e Ie => S e (or_intror Ie)) (Datatypes.S i)).
      destruct (hit pr k l (Datatypes.S i)) as [j|]; [|exact I]. destruct IH as (j' & -> & IH). exists (Datatypes.S j'). split; [lia|].
      cbn [set_at ins]. destruct (same k k') eqn:Sm; [apply same_eqv in Sm; congruence|]. now rewrite IH. }
  specialize (G 0%nat). destruct (hit pr k l 0) as [j|]; [|reflexivity]. destruct G as (j' & -> & G). exact G.
Qed.
Lemma ins_near l l' k v v' : Forall2 pair_near l l' -> near v v' -> Forall2 pair_near (ins same l k v) (ins same l' k v').
Proof.
  intros F N. induction F as [|[a w] [a' w'] l l' [A B] F IH]; cbn [ins]; [constructor; [now split|constructor]|].
  cbn [fst] in A. subst a'. destruct (same k a); constructor; auto; split; auto.
Qed.
Lemma near_keys l l' : Forall2 pair_near l l' -> map fst l' = map fst l.
Proof. induction 1 as [|e e' l l' [A _] _ IH]; cbn [map]; congruence. Qed.
Lemma fold_keys l : forall acc : list (property * property), exists t,
  map fst (fold_left (fun acc (e : property * property * Z) => ins same acc (fst (fst e)) (snd (fst e))) l acc) = map fst acc ++ t.
Proof.
  induction l as [|e l IH]; intros acc; cbn [fold_left]; [exists []; now rewrite app_nil_r|].
  destruct (IH (ins same acc (fst (fst e)) (snd (fst e)))) as (t & E). rewrite E, ins_keys, <- app_assoc. eexists. reflexivity.
Qed.
Definition apart_keys (ks : list property) : Prop := ForallOrdPairs (fun a b => eqv b a = false) ks.
Lemma distinct_keys {V} (l : list (property * V)) : distinct eqv l = true <-> apart_keys (map fst l).
Proof.
  induction l as [|[k v] l IH]; cbn [distinct map fst].
  - split; [constructor|reflexivity].
  - rewrite andb_true_iff, IH, forallb_forall. split.
    + intros [A B]. constructor; [|exact B]. apply Forall_forall. intros x I. apply in_map_iff in I as (e & <- & I).
      specialize (A e I). now apply negb_true_iff in A.
    + intros H. inversion H as [|? ? A B]; subst. split; [|exact B]. intros e I. rewrite Forall_forall in A.
      rewrite (A (fst e)); [reflexivity|]. now apply in_map.
Qed.
Lemma apart_app a b : apart_keys (a ++ b) -> apart_keys a.
Proof.
  induction a as [|x a IH]; cbn [app]; intros H; [constructor|]. inversion H as [|? ? A B]; subst. constructor; [|now apply IH].
  apply Forall_app in A. apply A.
Qed.
Lemma apart_two ks a b : apart_keys ks -> (forall k, In k ks -> uniq k = true) -> In a ks -> In b ks -> eqv a b = true -> a = b.
Proof.
  intros D U. induction D as [|k ks A D IH]; intros Ia Ib E; [destruct Ia|]. rewrite Forall_forall in A.
  destruct Ia as [<-|Ia], Ib as [<-|Ib]; auto.
  - exfalso. apply (proj1 (prop_sym false)) in E; [|apply U; now left]. unfold eqv in A. rewrite A in E; [discriminate|exact Ib].
  - exfalso. unfold eqv in *. rewrite A in E; [discriminate|exact Ia].
  - apply IH; auto. intros x I. apply U. now right.
Qed.
Lemma ins_has (l : list (property * property)) k v : exists km, In km (map fst (ins same l k v)) /\ same k km = true.
Proof.
  induction l as [|[k' v'] l (km & I & S)]; cbn [ins].
  - exists k. split; [now left|]. apply (proj1 (prop_refl true)).
  - destruct (same k k') eqn:E; [exists k'; split; [now left|exact E]|]. exists km. split; [now right|exact S].
Qed.

Definition entry_near (e e' : property * property * Z) : Prop :=
  near (fst (fst e)) (fst (fst e')) /\ near (snd (fst e)) (snd (fst e')).
Lemma fold_near (pr : list (property * property) -> property * property * Z -> nat -> bool) l : forall l' (acc acc' : list (property * property)),
  Forall2 entry_near l l' -> Forall2 pair_near acc acc' ->
  let m := fold_left (fun acc (e : property * property * Z) => ins same acc (fst (fst e)) (snd (fst e))) l acc in
  apart_keys (map fst m) -> (forall k, In k (map fst m) -> uniq k = true) ->
  Forall2 pair_near m (fold_left (fun acc (e : property * property * Z) => mins (pr acc e) acc (fst (fst e)) (snd (fst e))) l' acc').
Proof.
  induction l as [|e l IH]; intros l' acc acc' F A; inversion F as [|? e' ? l1 [Nk Nv] F']; subst; cbn [fold_left]; cbv zeta; [auto|].
  intros D U. destruct e as [[k v] p], e' as [[k' v'] p']. cbn [fst snd] in *.
  destruct (fold_keys l (ins same acc k v)) as (t & E).
  assert (D1 : apart_keys (map fst (ins same acc k v))) by (apply (apart_app _ t); now rewrite <- E).
  assert (U1 : forall x, In x (map fst (ins same acc k v)) -> uniq x = true).
  { intros x I. apply U. rewrite E. apply in_or_app. now left. }
  destruct (ins_has acc k v) as (km & Im & Sm).
  assert (Uk : uniq k = true) by (apply (same_uniq k km Sm), U1, Im).
  rewrite (proj2 Nk Uk). apply IH; [exact F'| |exact D|exact U].
  assert (I1 : forall x, In x (map fst acc) -> In x (map fst (ins same acc k v))).
  { intros x I. rewrite ins_keys. apply in_or_app. now left. }
  rewrite mins_ins.
  - now apply ins_near.
  - apply distinct_keys. rewrite (near_keys _ _ A). rewrite ins_keys in D1. now apply apart_app in D1.
  - intros e I. apply U1, I1. rewrite <- (near_keys _ _ A). now apply in_map.
  - intros e I Ee. assert (Ie : In (fst e) (map fst (ins same acc k v))).
    { apply I1. rewrite <- (near_keys _ _ A). now apply in_map. }
    rewrite <- (apart_two _ km (fst e) D1 U1 Im Ie); [exact Sm|]. eapply eqv_trans; [apply same_eqv, same_sym, Sm|exact Ee].
Qed.
Lemma fold_calm pr l : (forall p i, pr p i = false) -> forall acc,
  fold_left (fun acc (e : property * property * Z) => mins (pr (snd e)) acc (fst (fst e)) (snd (fst e))) l acc
  = fold_left (fun acc (e : property * property * Z) => ins same acc (fst (fst e)) (snd (fst e))) l acc.
Proof.
  intros Q. induction l as [|e l IH]; intros acc; cbn [fold_left]; [reflexivity|]. rewrite IH. f_equal.
  unfold mins. now rewrite hit_calm.
Qed.
Lemma pairs_eq l l' : Forall2 pair_near l l' -> (forall e, In e l -> uniq (snd e) = true) -> l' = l.
Proof.
  induction 1 as [|[k v] [k' v'] l l' [A [_ B]] _ IH]; intros U; [reflexivity|]. cbn [fst snd] in *.
  rewrite IH by (intros e I; apply U; now right). rewrite B by (apply (U (k, v)); now left). now subst.
Qed.
Lemma eqv_key kk a b : eqv (key_prop kk a) (key_prop kk b) = str_eqb a b.
Proof. destruct kk; reflexivity. Qed.
Lemma distinct_key {V} kk (f : V -> property) l :
  distinct eqv (map (fun e => (key_prop kk (fst e), f (snd e))) l) = distinct str_eqb l.
Proof.
  induction l as [|[k v] l IH]; cbn [map distinct fst snd]; [reflexivity|]. rewrite IH. f_equal. clear.
  induction l as [|e l IH]; cbn [map forallb fst]; [reflexivity|]. now rewrite IH, eqv_key.
Qed.
Lemma key_uniq kk s : uniq (key_prop kk s) = true. Proof. now destruct kk. Qed.
Lemma uniq_entries m : uniq_map m = true -> distinct eqv (mentries m) = true
  /\ (forall k, In k (map fst (mentries m)) -> uniq k = true) /\ (forall e, In e (mentries m) -> uniq (snd e) = true).
Proof.
  destruct m as [k l|k l|k t l|l|kt vt f l]; rewrite ?u_mprop, ?u_mgen; cbn [uniq_map mentries]; intros H; andbs.
  1: rewrite (distinct_key k PBool). 2: rewrite (distinct_key k (PNum I32)). 3: rewrite (distinct_key k (fun v => v)).
  1,2,3: split; [assumption|]; split;
    [intros x I; apply in_map_iff in I as (y & <- & I); apply in_map_iff in I as (z & <- & _); apply key_uniq|].
  1,2: intros e I; apply in_map_iff in I as (z & <- & _); reflexivity.
  - intros e I. apply in_map_iff in I as (z & <- & I). rewrite forallb_forall in *.
    match goal with X : forall _, _ |- _ => now apply X end.
  - change (map (fun e : str * option str => (PStr (Some (fst e)), PStr (snd e))) l)
      with (map (fun e : str * option str => (key_prop KkStr (fst e), PStr (snd e))) l).
    rewrite (distinct_key KkStr PStr). split; [assumption|]. split.
    + intros x I. apply in_map_iff in I as (y & <- & I). apply in_map_iff in I as (z & <- & _). reflexivity.
    + intros e I. apply in_map_iff in I as (z & <- & _). reflexivity.
  - rewrite forallb_forall in *. split; [assumption|]. split.
    + intros x I. apply in_map_iff in I as (y & <- & I). match goal with X : forall _, In _ l -> _ |- _ => specialize (X y I) end. now andbs.
    + intros x I. match goal with X : forall _, In _ l -> _ |- _ => specialize (X x I) end. now andbs.
Qed.
Lemma map_near o o' kt vt flags l l' : (forall p i, probe o p i = false) -> Forall2 entry_near l l' ->
  uniq_map (map_new kt vt flags (mins_all o l)) = true -> mins_all o' l' = mins_all o l.
Proof.
  intros Q F U. apply uniq_entries in U. rewrite (proj2 (proj2 (proj2 (map_new_ok kt vt flags _ (mins_all_fresh o l))))) in U.
  destruct U as (D & Uk & Uv). unfold mins_all in *. rewrite (fold_calm (probe o) l Q) in *.
  apply pairs_eq; [|exact Uv]. apply (fold_near (fun _ e => probe o' (snd e))); [exact F|constructor|now apply distinct_keys|exact Uk].
Qed.

(** ** Readers *)
Definition near_sval (v v' : svalue) : Prop := uniq_sval v = true -> v' = v.
Lemma near_list l l' : Forall2 near l l' -> forallb uniq l = true -> l' = l.
Proof. induction 1 as [|p p' l l' [_ N] _ IH]; cbn [forallb]; [auto|]. intros U. andbs. rewrite N, IH; auto. Qed.
Lemma leaf_uniq {A} (f : property -> option A) l v : (forall p a, f p = Some a -> uniq p = true) -> opt_map f l = Some v ->
  forallb uniq l = true.
Proof.
  intros H. revert v. induction l as [|p l IH]; intros v; cbn [opt_map forallb]; [auto|].
  destruct (f p) as [a|] eqn:E; [|discriminate]. destruct (opt_map f l) as [r|]; [|discriminate]. intros _. sub2; [eapply H, E|eauto].
Qed.
Lemma array_uniq ty l a : array_new ty None l = Ok a -> uniq_array a = true -> forallb uniq l = true.
Proof.
  unfold array_new. intros E U. injection E as <-.
  assert (G : uniq_array (AProps ty l) = true -> forallb uniq l = true) by (rewrite u_aprops; auto).
  destruct (kind_of ty) as [[]| | | | | | | | | | | | | | |]; try exact (G U);
    match type of U with uniq_array (or_else ?x _ _) = true => destruct x as [r|] eqn:E; [|exact (G U)] end;
    (eapply leaf_uniq; [|exact E]); intros [] ? X; try discriminate X; reflexivity.
Qed.
Definition fields_near (e e' : str * list property) : Prop := fst e' = fst e /\ Forall2 near (snd e) (snd e').
Lemma group_near acc acc' k : Forall2 fields_near acc acc' -> Forall2 near (group acc k) (group acc' k).
Proof.
  unfold group. induction 1 as [|[a l] [a' l'] acc acc' [A B] _ IH]; cbn [lookup]; [constructor|].
  cbn [fst snd] in *. subst a'. destruct (str_eqb k a); [exact B|exact IH].
Qed.
Lemma group_add_near acc acc' k p p' : Forall2 fields_near acc acc' -> near p p' ->
  Forall2 fields_near (group_add acc k p) (group_add acc' k p').
Proof.
  intros F N. unfold group_add. pose proof (group_near acc acc' k F) as G. revert G. generalize (group acc k) (group acc' k). intros g g' G.
  assert (X : Forall2 near (g ++ [p]) (g' ++ [p'])) by (apply Forall2_app; [exact G|constructor; [exact N|constructor]]).
  induction F as [|[a l] [a' l'] acc acc' [A B] F IH]; cbn [ins]; [constructor; [now split|constructor]|].
  cbn [fst snd] in *. subst a'. destruct (str_eqb k a); constructor; auto; split; auto.
Qed.
Lemma fields_eq l l' : Forall2 fields_near l l' -> forallb (fun e => forallb uniq (snd e)) l = true -> l' = l.
Proof.
  induction 1 as [|[k v] [k' v'] l l' [A B] _ IH]; cbn [forallb fst snd] in *; [auto|]. intros U. andbs.
  rewrite IH by assumption. rewrite (near_list v v' B) by assumption. now subst.
Qed.
Lemma f2_length {A B} (P : A -> B -> Prop) l l' : Forall2 P l l' -> len l = len l'.
Proof. induction 1; rewrite ?len_cons; [reflexivity|lia]. Qed.

Section Two.
Context (o o' : opts).
Hypothesis Hd : dbg o' = dbg o.
Hypothesis Hh : forall path, hints o' path = hints o path.
Hypothesis Hp : forall p i, probe o p i = false.
Section Nested.
Context (n : nat) (vs : list (guid * Z)) (rp rp' : preader).
Hypothesis Hrp : forall ty hdr s, twin near (rp ty hdr s) (rp' ty hdr s).

Lemma ne_custom m : forall acc acc', Forall2 fields_near acc acc' -> twin (Forall2 fields_near) (r_custom m o rp acc) (r_custom m o' rp' acc').
Proof.
  induction m as [|m IH]; intros acc acc' C; cbn [r_custom]; [apply tw_fail|].
  apply tw_then. intros name. destruct (str_eqb name s_none); [now apply tw_ret|]. apply tw_then. intros ty.
  apply tw_bind with (V := near); [apply tw_scoped, Hrp|]. intros p p' N. pose proof (proj1 (proj1 N)) as I.
  unfold index_ok. rewrite Hd, <- I, <- (f2_length _ _ _ (group_near acc acc' name C)). destruct (_ && _); [apply tw_fail|].
  apply IH. now apply group_add_near.
Qed.
Lemma ne_sval ty : twin near_sval (r_sval n o vs rp ty) (r_sval n o' vs rp' ty).
Proof.
  unfold r_sval. destruct (fixed_of vs (skind_of ty)); [apply tw_same; now intros a _|].
  assert (C : twin near_sval (l <- r_custom n o rp [] ;; ret (SCustom l)) (l <- r_custom n o' rp' [] ;; ret (SCustom l))).
  { apply tw_bind with (V := Forall2 fields_near); [apply ne_custom; constructor|]. intros l l' F. apply tw_ret.
    intros U. rewrite u_scustom in U. andbs. f_equal. now apply fields_eq. }
  destruct (skind_of ty); try exact C; apply tw_same; now intros a _.
Qed.
Lemma ne_struct_array count : twin (fun x x' => fst x = fst x' /\ exists v v', snd x = map PSValue v /\ snd x' = map PSValue v' /\ Forall2 near_sval v v')
  (r_struct_array n o vs rp count) (r_struct_array n o' vs rp' count).
Proof.
  unfold r_struct_array. apply tw_then. intros f. apply tw_then. intros ty. destruct (negb _); [apply tw_fail|].
  apply tw_then. intros size. apply tw_then. intros t. apply tw_then. intros g. apply tw_then. intros _. apply tw_then. intros p.
  apply tw_bind with (V := Forall2 (fun a a' => exists v v', a = PSValue v /\ a' = PSValue v' /\ near_sval v v')).
  - apply tw_rep. apply tw_bind with (V := near_sval); [apply ne_sval|]. intros v v' N. apply tw_ret. eauto.
  - intros l l' Hl. apply tw_then. intros q.
    assert (F : exists v v', l = map PSValue v /\ l' = map PSValue v' /\ Forall2 near_sval v v').
    { clear - Hl. induction Hl as [|a a' l l' (v & v' & -> & -> & N) _ (w & w' & -> & -> & F)]; [exists [], []; repeat split; constructor|].
      exists (v :: w), (v' :: w'). repeat split. now constructor. }
    destruct (_ =? _); [|apply tw_fail]. apply tw_ret. now split.
Qed.
Lemma svals_map v : opt_map as_sval (map PSValue v) = Some v.
Proof. induction v as [|a v IH]; cbn; [reflexivity|]. now rewrite IH. Qed.
Lemma svals_eq v v' : Forall2 near_sval v v' -> forallb uniq_sval v = true -> v' = v.
Proof. induction 1 as [|a a' v v' N _ IH]; cbn [forallb]; [auto|]. intros U. andbs. rewrite N, IH; auto. Qed.
Lemma ne_array length ty : twin near (r_array n o vs rp length ty) (r_array n o' vs rp' length ty).
Proof.
  unfold r_array. apply tw_then. intros count.
  assert (G : forall sug, twin near (l <- rep count (rp ty false sug) ;; a <- of_outcome (array_new ty None l) ;; ret (PArray a))
                                (l <- rep count (rp' ty false sug) ;; a <- of_outcome (array_new ty None l) ;; ret (PArray a))).
  { intros sug. apply tw_bind with (V := Forall2 near); [apply tw_rep, Hrp|]. intros l l' N.
    destruct (array_new ty None l) as [a|] eqn:E; [|discriminate E]. destruct (array_new ty None l') as [a'|] eqn:E'; [|discriminate E'].
    cbn [of_outcome]. intros c. split; [reflexivity|]. split; [split; [reflexivity|cbn; tauto]|]. intros U.
    rewrite (near_list l l' N (array_uniq ty l a E U)) in E'. congruence. }
  destruct (kind_of ty) eqn:K; cbv zeta; try apply G.
  eapply tw_bind; [apply ne_struct_array|]. intros [i l] [i' l'] (E & v & v' & A & B & N). cbn [fst snd] in *. subst i' l l'.
  destruct i as [[f t] g]. unfold array_new. rewrite K, !svals_map. cbn [of_outcome].
  intros c. split; [reflexivity|]. split; [split; [reflexivity|cbn; tauto]|]. intros U. cbn [uniq] in U. rewrite u_astructs in U.
  now rewrite (svals_eq v v' N U).
Qed.
Lemma ne_set length ty : twin near (r_set o rp length ty) (r_set o' rp' length ty).
Proof.
  unfold r_set. apply tw_then. intros flags. apply tw_then. intros count.
  destruct (0 <? count); [|apply tw_same, near_refl]. rewrite Hd. destruct (_ && _); [apply tw_fail|].
  apply tw_bind with (V := Forall2 near); [apply tw_rep, Hrp|]. intros l l' N. apply tw_ret. split; [split; [reflexivity|cbn; tauto]|].
  rewrite u_pset. intros U. now rewrite (near_list l l' N U).
Qed.
Lemma ne_map kt vt : twin near (r_map o rp kt vt) (r_map o' rp' kt vt).
Proof.
  unfold r_map. apply tw_then. intros flags. apply tw_then. intros count.
  apply tw_bind with (V := Forall2 entry_near).
  - apply tw_rep. unfold r_entry. apply tw_bind with (V := near); [apply tw_scoped, Hrp|]. intros k k' Nk.
    apply tw_bind with (V := near); [apply tw_scoped, Hrp|]. intros v v' Nv. apply tw_then. intros p. now apply tw_ret.
  - intros l l' N. apply tw_ret. split; [split; [reflexivity|cbn; tauto]|]. cbn [uniq]. intros U.
    now rewrite (map_near o o' kt vt flags l l' Hp N U).
Qed.
Lemma ne_body ty hdr size : twin near (r_body n o vs rp ty hdr size) (r_body n o' vs rp' ty hdr size).
Proof.
  unfold r_body. destruct (kind_of ty); try (apply tw_same, near_refl).
  - apply tw_eq; [apply near_refl|]. intros c. now rewrite (pbyte_dbg o o' hdr size Hd).
  - destruct hdr.
    + unfold r_pstruct. apply tw_headed. intros _ v. apply tw_bind with (V := near_sval); [apply ne_sval|]. intros a a' N.
      apply tw_ret. split; [split; [reflexivity|cbn; tauto]|]. cbn [uniq]. intros U. now rewrite (N U).
    + unfold r_hinted. apply tw_then. intros st. apply tw_then. intros p. rewrite Hh.
      destruct (hints o (join_path st)); [|apply tw_fail]. apply tw_bind with (V := near_sval); [apply ne_sval|]. intros a a' N.
      apply tw_ret. split; [split; [reflexivity|cbn; split; discriminate]|]. cbn [uniq]. intros U. now rewrite (N U).
  - destruct hdr; [|apply tw_same, near_refl]. apply tw_headed. intros. apply ne_array.
  - destruct hdr; [|apply tw_same, near_refl]. apply tw_headed. intros. apply ne_set.
  - destruct hdr; [|apply tw_same, near_refl]. apply tw_headed. intros. apply ne_map.
Qed.
End Nested.
Lemma ne_prop vs n : forall ty hdr s, twin near (r_prop n o vs ty hdr s) (r_prop n o' vs ty hdr s).
Proof. induction n as [|n IH]; intros; cbn [r_prop]; [apply tw_fail|]. now apply tw_scoped, ne_body. Qed.
Definition named_near (e e' : str * property) : Prop := fst e' = fst e /\ near (snd e) (snd e').
Lemma ne_entries vs n m : twin (Forall2 named_near) (r_entries n m o vs) (r_entries n m o' vs).
Proof.
  induction n as [|n IH]; cbn [r_entries]; [apply tw_fail|]. apply tw_then. intros name.
  destruct (str_eqb name s_none); [apply tw_ret; constructor|]. apply tw_then. intros ty.
  apply tw_bind with (V := near); [apply tw_scoped, ne_prop|]. intros p p' N.
  apply tw_bind with (V := Forall2 named_near); [exact IH|]. intros l l' F. apply tw_ret. constructor; [now split|exact F].
Qed.
Lemma ins_all_near l l' : Forall2 named_near l l' -> Forall2 named_near (ins_all str_eqb l) (ins_all str_eqb l').
Proof.
  unfold ins_all. assert (G : forall acc acc' : list (str * property), Forall2 named_near acc acc' -> Forall2 named_near l l' ->
    Forall2 named_near (fold_left (fun acc kv => ins str_eqb acc (fst kv) (snd kv)) l acc)
      (fold_left (fun acc kv => ins str_eqb acc (fst kv) (snd kv)) l' acc')).
  { intros acc acc' A F. revert acc acc' A. induction F as [|[k v] [k' v'] l l' [E N] _ IH]; intros acc acc' A; cbn [fold_left]; [exact A|].
    cbn [fst snd] in *. subst k'. apply IH. clear - A N.
    induction A as [|[a w] [a' w'] acc acc' [E B] A IH]; cbn [ins]; [constructor; [now split|constructor]|].
    cbn [fst snd] in *. subst a'. destruct (str_eqb k a); constructor; auto; split; auto. }
  intros F. apply G; [constructor|exact F].
Qed.
Lemma named_eq l l' : Forall2 named_near l l' -> forallb (fun e => uniq (snd e)) l = true -> l' = l.
Proof.
  induction 1 as [|[k v] [k' v'] l l' [A [_ B]] _ IH]; cbn [forallb fst snd] in *; [auto|]. intros U. andbs.
  rewrite IH by assumption. rewrite B by assumption. now subst.
Qed.
Lemma ne_file n : twin (fun f f' => forallb (fun e => uniq (snd e)) (snd f) = true -> f' = f) (r_file n o) (r_file n o').
Proof.
  unfold r_file. apply tw_then. intros h. apply tw_bind with (V := Forall2 named_near); [apply ne_entries|]. intros l l' F. apply tw_ret.
  cbn [snd]. intros U. now rewrite (named_eq _ _ (ins_all_near _ _ F) U).
Qed.
Lemma parse_near b h ps c : parse o b = Ok (h, ps, c) -> forallb (fun e => uniq (snd e)) ps = true -> parse o' b = Ok (h, ps, c).
Proof.
  intros E U. pose proof (ne_file (S (List.length b)) (Cur 0 b [])) as H. unfold parse in *. rewrite E in H.
  destruct (r_file _ o' _) as [[f c']|]; [|contradiction]. destruct H as [<- H]. now rewrite (H U).
Qed.
Lemma load_near z v b f : load z o v b = Ok f -> forallb (fun e => uniq (snd e)) (g_props f) = true -> load z o' v b = Ok f.
Proof.
  assert (P : forall d h ps, load_plain o d = Ok (h, ps) -> forallb (fun e => uniq (snd e)) ps = true -> load_plain o' d = Ok (h, ps)).
  { intros d h ps. unfold load_plain. destruct (parse o d) as [[[h' ps'] c]|] eqn:E; [|discriminate]. intros X. injection X as -> ->.
    intros U. now rewrite (parse_near d h ps c E U). }
  destruct v; cbn [load].
  - destruct (load_plain o b) as [[h ps]|] eqn:E; [|discriminate]. intros X U. injection X as <-. now rewrite (P _ _ _ E U).
  - destruct (r_palworld z (Cur 0 b [])) as [[[c d] c0]|]; [|discriminate].
    destruct (load_plain o d) as [[h ps]|] eqn:E; [|discriminate]. intros X U. injection X as <-. now rewrite (P _ _ _ E U).
Qed.
End Two.

(** ** If every two equal keys hit each other, no map keeps two equal keys *)
Lemma hit_all (pr : nat -> bool) k l : (forall i, pr i = true) -> forall i, hit pr k l i = None -> forall e, In e l -> eqv k (fst e) = false.
Proof.
  intros P. induction l as [|[a w] l IH]; intros i; cbn [hit In]; [tauto|]. rewrite P, andb_true_r. destruct (eqv k a) eqn:E; [discriminate|].
  intros H e [<-|I]; [exact E|exact (IH _ H e I)].
Qed.
Lemma apart_snoc l k : apart_keys l -> (forall e, In e l -> eqv k e = false) -> apart_keys (l ++ [k]).
Proof.
  unfold apart_keys. induction 1 as [|a l F _ IH]; intros H; cbn [app]; [repeat constructor|]. constructor.
  - apply Forall_app. split; [exact F|]. constructor; [|constructor]. apply H. now left.
  - apply IH. intros e I. apply H. now right.
Qed.
Lemma mins_loud (pr : nat -> bool) l k v : (forall i, pr i = true) -> apart_keys (map fst l) -> apart_keys (map fst (mins pr l k v)).
Proof.
  intros P A. destruct (hit pr k l 0) as [i|] eqn:E.
  - unfold mins. rewrite E, set_at_keys. exact A.
  - pose proof (hit_all _ k l P _ E) as N. rewrite mins_new.
    + rewrite map_app. apply apart_snoc; [exact A|]. intros e I. apply in_map_iff in I as (x & <- & I). now apply N.
    + intros e I. pose proof (N e I) as X. split; [|now left]. destruct (same k (fst e)) eqn:S; [|reflexivity].
      rewrite (same_eqv _ _ S) in X. discriminate.
Qed.
Lemma mins_all_apart o l : (forall p i, probe o p i = true) -> distinct eqv (mins_all o l) = true.
Proof.
  intros P. unfold mins_all.
  assert (G : forall acc, apart_keys (map fst acc) ->
    apart_keys (map fst (fold_left (fun acc e => mins (probe o (snd e)) acc (fst (fst e)) (snd (fst e))) l acc))).
  { induction l as [|[[k v] z] l IH]; intros acc A; cbn [fold_left fst snd]; [exact A|]. apply IH. now apply mins_loud. }
  apply distinct_keys, G. constructor.
Qed.
Lemma loud_uniq o b h ps c : (forall p i, probe o p i = true) -> parse o b = Ok (h, ps, c) -> forallb (fun e => uniq (snd e)) ps = true.
Proof.
  intros P E. unfold parse in E. apply (a_file o eqv _ (fun l => mins_all_apart o l P)) in E; [|reflexivity].
  apply (proj1 (file_eqv_iff o (h, ps))). apply E.
Qed.
Lemma hash_decides o : (forall p i, probe o p i = false) -> forall b h ps c, parse o b = Ok (h, ps, c) ->
  (forallb (fun e => uniq (snd e)) ps = true
   <-> forall o', dbg o' = dbg o -> (forall path, hints o' path = hints o path) -> parse o' b = Ok (h, ps, c)).
Proof.
  intros P b h ps c E. split.
  - intros U o' D H. now apply (parse_near o o' D H P b h ps c E).
  - intros H. apply (loud_uniq (Opts (dbg o) (hints o) (fun _ _ => true)) b h ps c); [reflexivity|]. now apply H.
Qed.
