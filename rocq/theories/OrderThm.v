(** Order and repetition: top-level names, map keys, struct fields (C20, C21, C38). *)
From Coq Require Import ZArith List Bool String Lia ZifyBool ZifyNat.
From Verif Require Import Base Str Types Versions Text Props File Spec BaseFacts StrFacts Decode KindFacts
  DecodeProp DecodeMain EqFacts EqSym MapFacts CtorThm.
Import ListNotations.
Open Scope Z_scope.

(** ** Specification of the sequences found in the input *)

(** [runs r c l c']: reading again and again with [r] from [c] gives the values
    [l] and ends at [c']. *)
Inductive runs {A} (r : reader A) : cur -> list A -> cur -> Prop :=
| run_end c : runs r c [] c
| run_step c a c1 l c2 : r c = Ok (a, c1) -> runs r c1 l c2 -> runs r c (a :: l) c2.

(** [named rp c l c']: the input at [c] is a sequence of named, typed properties
    [l], then the name "None", and [c'] is what follows. *)
Inductive named (rp : preader) : cur -> list (str * property) -> cur -> Prop :=
| named_end c c' : r_string c = Ok (s_none, c') -> named rp c [] c'
| named_step c name c1 ty c2 p c3 l c' :
    r_string c = Ok (name, c1) -> name <> s_none -> r_string c1 = Ok (ty, c2) ->
    scoped name (rp ty true None) c2 = Ok (p, c3) ->
    named rp c3 l c' -> named rp c ((name, p) :: l) c'.

(** ** Proofs *)
Lemma runs_repn {A} (r : reader A) n : forall c l c', repn n r c = Ok (l, c') <-> runs r c l c' /\ List.length l = n.
Proof.
  induction n as [|n IH]; intros c l c'; cbn [repn]; unfold bind, ret.
  - split.
    + intros H. injection H as <- <-. split; [constructor|reflexivity].
    + intros [H L]. destruct H; [reflexivity|discriminate].
  - split.
    + destruct (r c) as [[a c1]|] eqn:E; [|discriminate].
      destruct (repn n r c1) as [[l1 c2]|] eqn:E2; [|discriminate]. intros X. injection X as <- <-.
      apply IH in E2 as [E2 E3]. split; [econstructor; eassumption|cbn; congruence].
    + intros [H L]. destruct H as [|c a c1 l c2 Ha H]; [discriminate|]. rewrite Ha.
      assert (X : repn n r c1 = Ok (l, c2)) by (apply IH; split; [exact H|cbn in L; congruence]).
      rewrite X. reflexivity.
Qed.
Lemma runs_rep {A} (r : reader A) n c l c' : 0 <= n -> (rep n r c = Ok (l, c') <-> runs r c l c' /\ len l = n).
Proof.
  intros Hn. rewrite rep_repn, runs_repn. unfold len. split; intros [H L]; (split; [exact H|]); lia.
Qed.
Lemma name_cases name : str_eqb name s_none = true /\ name = s_none \/ str_eqb name s_none = false /\ name <> s_none.
Proof.
  destruct (str_eqb name s_none) eqn:E; [left|right]; split; auto.
  - now apply str_eqb_eq. - now apply str_eqb_neq.
Qed.
(** Top level. *)
Lemma entries_named n m o vs : forall c l c',
  r_entries n m o vs c = Ok (l, c') -> named (r_prop m o vs) c l c'.
Proof.
  induction n as [|n IH]; intros c l c'; cbn [r_entries]; unfold bind, ret, fail; [discriminate|].
  destruct (r_string c) as [[name c1]|] eqn:E1; [|discriminate].
  destruct (name_cases name) as [[-> Hn]|[-> Hn]].
  - intros X. injection X as <- <-. constructor. now subst.
  - destruct (r_string c1) as [[ty c2]|] eqn:E2; [|discriminate].
    destruct (scoped name (r_prop m o vs ty true None) c2) as [[p c3]|] eqn:E3; [|discriminate].
    destruct (r_entries n m o vs c3) as [[l' c4]|] eqn:E4; [|discriminate].
    intros X. injection X as <- <-. econstructor; eauto.
Qed.
Lemma named_entries m o vs c l c' : named (r_prop m o vs) c l c' ->
  forall n, (List.length l < n)%nat -> r_entries n m o vs c = Ok (l, c').
Proof.
  induction 1 as [c c' H|c name c1 ty c2 p c3 l c' H1 Hn H2 H3 H IH]; intros n Hl.
  - destruct n as [|n]; [lia|]. cbn [r_entries]. unfold bind, ret. rewrite H, str_eqb_refl. reflexivity.
  - destruct n as [|n]; [cbn in Hl; lia|]. cbn [r_entries]. unfold bind, ret. rewrite H1.
    destruct (name_cases name) as [[_ X]|[-> _]]; [contradiction|]. rewrite H2, H3, IH; [reflexivity|].
    cbn in Hl. lia.
Qed.
(** Struct fields. *)
Lemma custom_run o rp c l c' : named rp c l c' -> forall m pre, (List.length l < m)%nat ->
  r_custom m o rp (grouped pre) c
  = if dbg o && negb (chain (grouped pre) l) then Fail (Panic PStructIndex) else Ok (grouped (pre ++ l), c').
Proof.
  induction 1 as [c c' H|c name c1 ty c2 p c3 l c' H1 Hn H2 H3 H IH]; intros m pre Hl.
  - destruct m as [|m]; [lia|]. cbn [r_custom chain]. unfold bind, ret. rewrite H, str_eqb_refl, app_nil_r.
    cbn [negb]. rewrite andb_false_r. reflexivity.
  - destruct m as [|m]; [cbn in Hl; lia|]. cbn [r_custom chain]. unfold bind, ret, fail. rewrite H1.
    destruct (name_cases name) as [[_ X]|[-> _]]; [contradiction|]. rewrite H2, H3.
    assert (G : group_add (grouped pre) name p = grouped (pre ++ [(name, p)])).
    { rewrite <- !regroup_grouped, regroup_app. reflexivity. }
    destruct (dbg o) eqn:D; cbn [andb].
    + destruct (index_ok (grouped pre) name p); cbn [negb andb]; [|reflexivity].
      rewrite G, IH by (cbn in Hl; lia). rewrite <- app_assoc. reflexivity.
    + rewrite G, IH by (cbn in Hl; lia). rewrite <- app_assoc. reflexivity.
Qed.
Lemma custom_named o rp m : forall c pre g c',
  r_custom m o rp (grouped pre) c = Ok (g, c') ->
  exists l, named rp c l c' /\ (List.length l < m)%nat.
Proof.
  induction m as [|m IH]; intros c pre g c'; cbn [r_custom]; unfold bind, ret, fail; [discriminate|].
  destruct (r_string c) as [[name c1]|] eqn:E1; [|discriminate].
  destruct (name_cases name) as [[-> Hn]|[-> Hn]].
  - intros X. injection X as _ <-. exists []. split; [constructor; now subst|cbn; lia].
  - destruct (r_string c1) as [[ty c2]|] eqn:E2; [|discriminate].
    destruct (scoped name (rp ty true None) c2) as [[p c3]|] eqn:E3; [|discriminate].
    destruct (dbg o && negb (index_ok (grouped pre) name p)); [discriminate|].
    assert (G : group_add (grouped pre) name p = grouped (pre ++ [(name, p)])).
    { rewrite <- !regroup_grouped, regroup_app. reflexivity. }
    rewrite G. intros X. apply IH in X as (l & H & L). exists ((name, p) :: l).
    split; [econstructor; eauto|cbn; lia].
Qed.
Lemma indexed_chain l : indexed l <-> chain (grouped []) l = true.
Proof. unfold indexed. rewrite chain_indexed. cbn [app]. tauto. Qed.
Lemma custom_iff m o rp c g c' :
  r_custom m o rp [] c = Ok (g, c') <->
  exists l, named rp c l c' /\ (List.length l < m)%nat /\ (dbg o = true -> indexed l) /\ g = grouped l.
Proof.
  change [] with (grouped []). split.
  - intros E. destruct (custom_named _ _ _ _ _ _ _ E) as (l & H & L). exists l.
    rewrite (custom_run o rp c l c' H m [] L) in E. cbn [app] in E. split; [exact H|]. split; [exact L|].
    destruct (dbg o) eqn:D; cbn [andb] in E.
    + destruct (chain (grouped []) l) eqn:C; cbn [negb] in E; [|discriminate]. injection E as <-.
      split; [|reflexivity]. intros _. now apply indexed_chain.
    + injection E as <-. split; [discriminate|reflexivity].
  - intros (l & H & L & I & ->). rewrite (custom_run o rp c l c' H m [] L). cbn [app].
    destruct (dbg o) eqn:D; cbn [andb]; [|reflexivity].
    assert (chain (grouped []) l = true) as -> by (apply indexed_chain; auto). reflexivity.
Qed.
Lemma custom_panics m o rp c l c' : named rp c l c' -> (List.length l < m)%nat -> dbg o = true -> ~ indexed l ->
  r_custom m o rp [] c = Fail (Panic PStructIndex).
Proof.
  intros H L D N. change [] with (grouped []). rewrite (custom_run o rp c l c' H m [] L), D. cbn [andb].
  destruct (chain (grouped []) l) eqn:C; [exfalso; apply N; now apply indexed_chain|reflexivity].
Qed.

(** ** Maps *)
Lemma same_rf a : same a a = true. Proof. apply prop_refl. Qed.
Lemma same_sy a b : same a b = true -> same b a = true. Proof. apply prop_sym. reflexivity. Qed.
Lemma same_tr a b c : same a b = true -> same b c = true -> same a c = true. Proof. apply prop_trans. Qed.

(** No accidental hash collision, or no two keys that are equal only up to the
    order of struct fields. *)
Definition tame (o : opts) (keys : list property) : Prop :=
  (forall p i, probe o p i = false)
  \/ (forall k k', In k keys -> In k' keys -> eqv k k' = true -> same k k' = true).

Lemma hit_ge pr k l : forall i j, hit pr k l i = Some j -> (i <= j)%nat.
Proof.
  induction l as [|[a w] l IH]; intros i j; cbn [hit]; [discriminate|].
  destruct (eqv k a && pr i); [intros X; injection X as <-; lia|]. intros H. apply IH in H. lia.
Qed.
Lemma mins_ins_from pr l k v : forall i,
  apart_keys same (map fst l) -> (forall e, In e l -> eqv k (fst e) = true -> same k (fst e) = true) ->
  match hit pr k l i with Some j => set_at l (j - i) v | None => ins same l k v end = ins same l k v.
Proof.
  induction l as [|[a w] l IH]; intros i HA HE; cbn [hit]; [reflexivity|].
  inversion HA as [|? ? HA1 HA2]; subst.
  destruct (eqv k a && pr i) eqn:E.
  - apply andb_true_iff in E as [E _]. rewrite Nat.sub_diag. cbn [set_at ins].
    pose proof (HE (a, w) (or_introl eq_refl) E) as X. cbn [fst] in X. now rewrite X.
  - cbn [ins]. destruct (same k a) eqn:X.
    + rewrite hit_none; [reflexivity|]. intros e He. left. destruct (eqv k (fst e)) eqn:Y; [|reflexivity].
      exfalso. assert (existsb (same a) (map fst l) = true); [|cbn [fst] in *; congruence].
      apply existsb_exists. exists (fst e). split; [now apply in_map|]. eapply same_tr; [apply same_sy; exact X|].
      apply HE; [now right|exact Y].
    + specialize (IH (S i) HA2 (fun e He => HE e (or_intror He))).
      destruct (hit pr k l (S i)) as [j|] eqn:H; [|reflexivity].
      pose proof (hit_ge _ _ _ _ _ H). replace (j - i)%nat with (S (j - S i)) by lia. cbn [set_at]. now rewrite IH.
Qed.
Lemma mins_ins pr l k v : apart_keys same (map fst l) ->
  (forall i, pr i = false) \/ (forall e, In e l -> eqv k (fst e) = true -> same k (fst e) = true) ->
  mins pr l k v = ins same l k v.
Proof.
  intros HA [H|H]; unfold mins.
  - rewrite hit_none; [reflexivity|]. intros e He. now right.
  - pose proof (mins_ins_from pr l k v 0 HA H) as E. destruct (hit pr k l 0) as [j|]; [|reflexivity].
    now rewrite Nat.sub_0_r in E.
Qed.
Lemma mins_all_collapsed o l : tame o (map fst (map fst l)) -> collapsed same (map fst l) (mins_all o l).
Proof.
  intros T. assert (E : mins_all o l = ins_all same (map fst l)).
  2:{ rewrite E. apply ins_all_collapsed; [exact same_rf|exact same_sy|exact same_tr]. }
  induction l as [|[[k v] z] l IH] using rev_ind; [reflexivity|].
  rewrite !map_app in *. cbn [map fst] in *.
  assert (T' : tame o (map fst (map fst l))).
  { destruct T as [T|T]; [now left|]. right. intros a b Ha Hb. apply T; apply in_or_app; now left. }
  specialize (IH T'). rewrite ins_all_snoc. unfold mins_all. rewrite fold_left_app. cbn [fold_left fst snd].
  change (fold_left _ l []) with (mins_all o l). rewrite IH.
  pose proof (ins_all_collapsed same same_rf same_sy same_tr (map fst l)) as C.
  pose proof (collapsed_keys _ _ _ C) as CK.
  apply mins_ins; [rewrite CK; apply (firsts_apart _ same_sy same_tr)|].
  destruct T as [T|T]; [left; intros i; apply T|]. right. intros e He X.
  apply T; [apply in_or_app; right; now left| |exact X].
  apply in_or_app. left. apply (firsts_in same _ []). rewrite <- CK. now apply in_map.
Qed.
Lemma apart_distinct {V} (l : list (property * V)) : apart_keys same (map fst l) -> distinct same l = true.
Proof.
  induction l as [|[a v] l IH]; cbn [map fst distinct]; [reflexivity|]. intros H.
  inversion H as [|? ? H1 H2]; subst. rewrite IH by exact H2. rewrite andb_true_r.
  apply forallb_forall. intros e He.
  assert (X : same a (fst e) = false).
  { destruct (same a (fst e)) eqn:E; [|reflexivity].
    assert (existsb (same a) (map fst l) = true) by (apply existsb_exists; exists (fst e); split; [now apply in_map|exact E]).
    congruence. }
  destruct (same (fst e) a) eqn:Y; [apply same_sy in Y; congruence|reflexivity].
Qed.
Lemma distinct_apart {V} (l : list (property * V)) : distinct same l = true -> apart_keys same (map fst l).
Proof.
  induction l as [|[a v] l IH]; cbn [map fst distinct]; [constructor|]. rewrite andb_true_iff. intros [H1 H2].
  constructor; [|auto]. destruct (existsb (same a) (map fst l)) eqn:E; [|reflexivity].
  apply existsb_exists in E as (b & Hb & Eb). apply in_map_iff in Hb as (e & <- & He).
  rewrite forallb_forall in H1. specialize (H1 e He). destruct e as [b w]; cbn [fst] in *.
  apply same_sy in Eb. rewrite Eb in H1. discriminate.
Qed.
Lemma map_read o rp kt vt c p c' : r_map o rp kt vt c = Ok (p, c') ->
  exists flags count c1 c2 l m,
    r_u32 c = Ok (flags, c1) /\ r_u32 c1 = Ok (count, c2)
    /\ runs (r_entry rp kt vt) c2 l c' /\ len l = count
    /\ p = PMap m
    /\ (tame o (map fst (map fst l)) ->
        map_key_type m = kt /\ map_value_type m = vt /\ mflags m = flags
        /\ collapsed same (map fst l) (mentries m)).
Proof.
  unfold r_map, bind, ret. destruct (r_u32 c) as [[flags c1]|] eqn:E1; [|discriminate].
  destruct (r_u32 c1) as [[count c2]|] eqn:E2; [|discriminate].
  destruct (rep count (r_entry rp kt vt) c2) as [[l c3]|] eqn:E3; [|discriminate].
  intros X. injection X as <- <-. exists flags, count, c1, c2, l, (map_new kt vt flags (mins_all o l)).
  assert (Hc : 0 <= count).
  { apply (uint_inv 4) in E2 as (_ & H & _). exact (proj1 H). }
  apply runs_rep in E3 as [E3 L]; [|exact Hc].
  repeat (split; [first [reflexivity|assumption]|]). intros T.
  pose proof (mins_all_collapsed o l T) as C.
  assert (D : distinct same (mins_all o l) = true).
  { apply apart_distinct. rewrite (collapsed_keys _ _ _ C). apply (firsts_apart _ same_sy same_tr). }
  destruct (map_new_ok kt vt flags _ D) as (A1 & A2 & A3 & A4). rewrite A4. repeat split; assumption.
Qed.
(** Without repetition nothing changes. *)
Lemma firsts_id {K} (eqb : K -> K -> bool) l : forall seen,
  (forall a b, eqb a b = true -> eqb b a = true) ->
  apart_keys eqb l -> (forall a, In a l -> existsb (eqb a) seen = false) -> firsts eqb seen l = l.
Proof.
  induction l as [|a l IH]; intros seen Sy HA HS; cbn [firsts]; [reflexivity|].
  inversion HA as [|? ? H1 H2]; subst. rewrite (HS a (or_introl eq_refl)). f_equal. apply IH; auto.
  intros b Hb. cbn [existsb]. rewrite (HS b (or_intror Hb)), orb_false_r.
  destruct (eqb b a) eqn:E; [|reflexivity]. apply Sy in E.
  assert (existsb (eqb a) l = true) by (apply existsb_exists; eauto). congruence.
Qed.
Lemma collapsed_distinct {K V} (eqb : K -> K -> bool) (l m : list (K * V)) :
  (forall a, eqb a a = true) ->
  (forall a b, eqb a b = true -> eqb b a = true) -> (forall a b c, eqb a b = true -> eqb b c = true -> eqb a c = true) ->
  apart_keys eqb (map fst l) -> collapsed eqb l m -> m = l.
Proof.
  intros Rf Sy Tr HA C. eapply (collapsed_unique eqb); [exact C|]. clear C m.
  unfold collapsed. rewrite firsts_id by auto. rewrite map_map.
  assert (G : forall pre, apart_keys eqb (map fst (pre ++ l)) ->
     map (fun e : K * V => (fst e, Some (snd e))) l = map (fun x => (fst x, last_of eqb (fst x) (pre ++ l))) l).
  2:{ exact (G [] HA). }
  clear HA. induction l as [|[k v] l IH]; intros pre HA; cbn [map fst snd]; [reflexivity|]. f_equal.
  - f_equal. clear IH.
    assert (N : existsb (eqb k) (map fst l) = false).
    { induction pre as [|x pre IHp]; cbn [app map] in HA; inversion HA; subst; auto. }
    induction pre as [|[a w] pre IHp]; cbn [app last_of map fst] in *.
    + apply (last_none eqb) in N. now rewrite N, Rf.
    + inversion HA; subst. now rewrite <- IHp.
  - specialize (IH (pre ++ [(k, v)])). rewrite <- app_assoc in IH. exact (IH HA).
Qed.
