(** Equality with the lookups of [IndexMap] lies between [same] and [eqv] (C32). *)
From Coq Require Import ZArith List Bool String Lia ZifyBool ZifyNat Permutation.
From Verif Require Import Base Str Types Versions BaseFacts Spec Decode Induct EqFacts EqSym Hash HashFacts UniqThm EqSpec EqLevel EqMove MapEq.
Import ListNotations.
Open Scope Z_scope.

(** ** Lookups *)
Lemma look_iff {K V} hit (keq : K -> K -> bool) (veq : V -> V -> bool) l1 l2 : look_all hit keq veq l1 l2 = true <->
  forall e, In e l1 -> exists e', find (fun y => hit l2 (fst e) (fst y) && keq (fst e) (fst y)) l2 = Some e' /\ veq (snd e) (snd e') = true.
Proof.
  induction l1 as [|[k v] r IH]; cbn [look_all].
  - split; [intros _ e []|auto].
  - rewrite andb_true_iff, IH. split.
    + intros [A B] e [<-|I]; [|auto]. cbn [fst snd]. destruct (find _ l2) as [e'|]; [eauto|discriminate].
    + intros H. split; [|intros e I; apply H; now right].
      destruct (H (k, v) (or_introl eq_refl)) as (e' & A & B). cbn [fst snd] in *. now rewrite A.
Qed.
Lemma look_up {K V} hit (keq keq' : K -> K -> bool) (veq veq' : V -> V -> bool) l1 :
  Forall (fun e => (forall y, keq (fst e) y = true -> keq' (fst e) y = true)
    /\ (forall y, veq (snd e) y = true -> veq' (snd e) y = true)) l1 ->
  forall l2, look_eqb hit keq veq l1 l2 = true -> map_eqb keq' veq' false l1 l2 = true.
Proof.
  intros F l2 H. unfold look_eqb, map_eqb in *. andbs. sub2; [assumption|]. apply submap_iff. intros e I.
  rewrite look_iff in *. rewrite Forall_forall in F. destruct (F e I) as [F1 F2].
  match goal with X : forall _, _ |- _ => destruct (X e I) as (e' & A & B) end. apply find_some in A as [J A]. apply andb_true_iff in A as [_ A]. exists e'. auto.
Qed.
Lemma one_match {A B} (R W : A -> B -> Prop) l l'' : Forall2 R l l'' -> (forall x y, R x y -> W x y) ->
  excl (fun x x' => exists y, W x y /\ W x' y) l -> forall e, In e l -> forall y, In y l'' -> W e y -> R e y.
Proof.
  intros F I. induction F as [|x z l l'' H F IH]; intros D e He y Hy HW; [destruct He|]. destruct D as [D D'].
  assert (X : forall y, In y l'' -> exists x', In x' l /\ R x' y).
  { clear - F. induction F as [|a b l m H _ IH]; intros y []; [subst; exists a; split; [now left|exact H]|].
    destruct (IH y) as (x' & P & Q); [assumption|]. exists x'. split; [now right|exact Q]. }
  destruct He as [<-|He], Hy as [<-|Hy]; auto.
  - exfalso. destruct (X y Hy) as (x' & P & Q). apply (D x' P). eauto.
  - exfalso. apply (D e He). eauto.
Qed.
Lemma look_down {K V} hit (keq weq : K -> K -> bool) (veq : V -> V -> bool) l l'' l2 :
  (forall x y, keq x y = true -> weq x y = true) ->
  (forall x y z, weq x y = true -> weq y z = true -> weq x z = true) ->
  Forall (fun e => forall y, weq (fst e) y = true -> weq y (fst e) = true) l -> distinct weq l = true ->
  Forall2 (fun e e' => (hit l2 (fst e) (fst e') = true /\ keq (fst e) (fst e') = true) /\ veq (snd e) (snd e') = true) l l'' ->
  Permutation l'' l2 -> look_eqb hit keq veq l l2 = true.
Proof.
  intros I T S D F P. unfold look_eqb. sub2.
  - pose proof (forall2_length _ _ _ F). apply Permutation_length in P. unfold len. lia.
  - apply look_iff. intros e He.
    assert (X : exists y, In y l'' /\ (hit l2 (fst e) (fst y) = true /\ keq (fst e) (fst y) = true)).
    { clear - F He. induction F as [|a b l m H _ IH]; [destruct He|]. destruct He as [->|He].
      - exists b. split; [now left|apply H].
      - destruct (IH He) as (c & X & Y). exists c. split; [now right|exact Y]. }
    destruct X as (y & Iy & Hh & Hk).
    destruct (find (fun z => hit l2 (fst e) (fst z) && keq (fst e) (fst z)) l2) as [z|] eqn:E.
    + exists z. split; [reflexivity|]. apply find_some in E as [J E]. andbs.
      refine (proj2 (one_match _ (fun x z => weq (fst x) (fst z) = true) l l'' F _ _ e He z _ _)).
      * intros x z' [[_ A] _]. auto.
      * pose proof (apart weq (fun _ _ : V => true) l T S D) as Q. clear - Q.
        induction l as [|a l IH]; cbn [excl] in *; [exact Q|]. destruct Q as [Q Q']. split; [|auto].
        intros x Hx (w & A & B). apply (Q x Hx). exists w. auto.
      * eapply Permutation_in; [symmetry; exact P|exact J].
      * auto.
    + exfalso. pose proof (find_none _ _ E y (Permutation_in _ P Iy)) as N. cbv beta in N. rewrite Hh, Hk in N. discriminate N.
Qed.

(** ** Unfolding *)
Section Hit.
Context (hit : list (property * property) -> property -> property -> bool).
Notation R := (real hit). Notation RS := (real_sval hit). Notation RA := (real_array hit). Notation RM := (real_map hit).
Lemma e_array a b : R (PArray a) (PArray b) = RA a b. Proof. reflexivity. Qed.
Lemma e_set t f l t' f' l' : R (PSet t f l) (PSet t' f' l') = str_eqb t t' && (f =? f') && list_eqb R l l'. Proof. reflexivity. Qed.
Lemma e_map a b : R (PMap a) (PMap b) = RM a b. Proof. reflexivity. Qed.
Lemma e_struct g t v g' t' v' : R (PStruct g t v) (PStruct g' t' v') = guid_eqb g g' && str_eqb t t' && RS v v'. Proof. reflexivity. Qed.
Lemma e_svalue a b : R (PSValue a) (PSValue b) = RS a b. Proof. reflexivity. Qed.
Lemma e_custom l l' : RS (SCustom l) (SCustom l') = map_eqb str_eqb (list_eqb R) false l l'. Proof. reflexivity. Qed.
Lemma e_structs f t g l f' t' g' l' : RA (AStructs f t g l) (AStructs f' t' g' l')
  = str_eqb f f' && str_eqb t t' && guid_eqb g g' && list_eqb RS l l'. Proof. reflexivity. Qed.
Lemma e_props t l t' l' : RA (AProps t l) (AProps t' l') = str_eqb t t' && list_eqb R l l'. Proof. reflexivity. Qed.
Lemma e_named k t l k' t' l' : RM (MProp k t l) (MProp k' t' l') = keyk_same k k' && str_eqb t t' && map_eqb str_eqb R false l l'.
Proof. reflexivity. Qed.
Lemma e_general kt vt f l kt' vt' f' l' : RM (MGen kt vt f l) (MGen kt' vt' f' l')
  = str_eqb kt kt' && str_eqb vt vt' && (f =? f') && look_eqb hit R R l l'.
Proof. reflexivity. Qed.
Ltac erw H := rewrite ?e_array, ?e_set, ?e_map, ?e_struct, ?e_svalue, ?e_custom, ?e_structs, ?e_props, ?e_named, ?e_general in H.
Ltac erwg := rewrite ?e_array, ?e_set, ?e_map, ?e_struct, ?e_svalue, ?e_custom, ?e_structs, ?e_props, ?e_named, ?e_general.

Lemma map_up {K V} (keq : K -> K -> bool) (veq veq' : V -> V -> bool) l1 :
  Forall (fun e => forall y, veq (snd e) y = true -> veq' (snd e) y = true) l1 ->
  forall l2, map_eqb keq veq false l1 l2 = true -> map_eqb keq veq' false l1 l2 = true.
Proof.
  intros F l2 H. unfold map_eqb in *. andbs. sub2; [assumption|]. rewrite @submap_iff in *. rewrite Forall_forall in F.
  intros e I. match goal with X : forall _, _ |- _ => destruct (X e I) as (e' & J & A & B) end. exists e'. auto.
Qed.
Lemma real_eqv :
  (forall a b, R a b = true -> prop_eqb false a b = true) /\ (forall a b, RS a b = true -> sval_eqb false a b = true)
  /\ (forall a b, RA a b = true -> array_eqb false a b = true) /\ (forall a b, RM a b = true -> mapp_eqb false a b = true).
Proof.
  apply prop_all; intros; match goal with H : _ _ _ ?b = true |- _ => is_var b; destruct b end;
    try match goal with H : _ = true |- _ => discriminate H end; try assumption;
    match goal with H : _ = true |- _ => erw H end; qrwg; andbs; sub2; auto; try (eapply list_mono; eassumption).
  - eapply map_up; [|eassumption]. eapply Forall_impl; [|eassumption]. cbv beta. intros e He y. now apply list_mono.
  - eapply map_up; eassumption.
  - eapply look_up; eassumption.
Qed.

(** Keys with the same hash are come across. *)
Hypothesis found : forall m k k', h_prop k = h_prop k' -> hit m k k' = true.
Lemma entries_f {K V} (keq : K -> K -> bool) (veq : V -> V -> bool) l : forall l',
  map_eqb keq veq true l l' = true -> Forall2 (fun e e' => keq (fst e) (fst e') = true /\ veq (snd e) (snd e') = true) l l'.
Proof.
  unfold map_eqb. induction l as [|[k v] l IH]; intros [|[k' v'] l']; cbn [entries_eqb]; try discriminate; constructor; andbs; auto.
Qed.
Lemma forall2_up {A B} (P Q : A -> B -> Prop) l l' : Forall (fun a => forall b, P a b -> Q a b) l -> Forall2 P l l' -> Forall2 Q l l'.
Proof. intros F H. induction H; constructor; inversion F; auto. Qed.
Lemma same_real :
  (forall a, uniq a = true -> forall b, prop_eqb true a b = true -> R a b = true)
  /\ (forall a, uniq_sval a = true -> forall b, sval_eqb true a b = true -> RS a b = true)
  /\ (forall a, uniq_array a = true -> forall b, array_eqb true a b = true -> RA a b = true)
  /\ (forall a, uniq_map a = true -> forall b, mapp_eqb true a b = true -> RM a b = true).
Proof.
  apply prop_all; intros; match goal with H : _ true _ ?b = true |- _ => is_var b; destruct b; try discriminate H end;
    try (match goal with H : _ true _ _ = true |- _ =>
      first [exact (proj1 prop_mono _ _ H)|exact (proj1 (proj2 prop_mono) _ _ H)|exact (proj1 (proj2 (proj2 prop_mono)) _ _ H)
            |exact (proj2 (proj2 (proj2 prop_mono)) _ _ H)] end; fail);
    match goal with H : _ true _ _ = true |- _ => qrw H end;
    rewrite ?u_pset, ?u_scustom, ?u_astructs, ?u_aprops, ?u_mprop, ?u_mgen in *; cbn [uniq uniq_sval uniq_array uniq_map] in *; andbs; erwg; sub2; auto;
    try (eapply list_mono; [|eassumption]; eapply Forall_impb; eassumption).
  - eapply map_mono; [|eassumption].
    match goal with U : forallb _ l = true |- _ => apply (Forall_impb _ (fun e => forallb uniq (snd e)) l); [|exact U] end.
    eapply Forall_impl; [|eassumption]. cbv beta. intros e He Ue. split; [auto|]. intros y. apply list_mono. eapply Forall_impb; eassumption.
  - eapply map_mono; [|eassumption].
    match goal with U : forallb _ l = true |- _ => apply (Forall_impb _ (fun e => uniq (snd e)) l); [|exact U] end.
    eapply Forall_impl; [|eassumption]. cbv beta. intros e He Ue. split; auto.
  - match goal with U : forallb _ l = true |- _ => pose proof U as UU end.
    eapply (look_down hit R eqv R l l0 l0); [exact (proj1 real_eqv)|exact (proj1 (prop_trans false))| |assumption| |reflexivity].
    + apply (Forall_impb _ (fun e => uniq (fst e) && uniq (snd e))); [|exact UU]. apply Forall_any. intros e Ue y. andbs.
      now apply (proj1 (prop_sym false)).
    + eapply forall2_up; [|apply entries_f; eassumption].
      apply (Forall_impb _ (fun e => uniq (fst e) && uniq (snd e))); [|exact UU]. eapply Forall_impl; [|exact H]. cbv beta.
      intros e [He Hf] Ue b [A B]. andbs. repeat split; auto. apply found. now apply (proj1 prop_hash).
Qed.

(** With stiff keys no lookup misses. *)
Lemma all_forall {A} (P : A -> Prop) l : all_of P l -> Forall P l.
Proof. induction l as [|a l IH]; cbn; [constructor|]. intros []. constructor; auto. Qed.
Lemma k_set t f l : stiff_keys (PSet t f l) = all_of stiff_keys l. Proof. reflexivity. Qed.
Lemma k_custom l : stiff_sval (SCustom l) = all_of (fun e => all_of stiff_keys (snd e)) l. Proof. reflexivity. Qed.
Lemma k_structs f t g l : stiff_array (AStructs f t g l) = all_of stiff_sval l. Proof. reflexivity. Qed.
Lemma k_props t l : stiff_array (AProps t l) = all_of stiff_keys l. Proof. reflexivity. Qed.
Lemma k_named k t l : stiff_map (MProp k t l) = all_of (fun e => stiff_keys (snd e)) l. Proof. reflexivity. Qed.
Lemma k_general k t f l : stiff_map (MGen k t f l) = all_of (fun e => stiff (fst e) /\ stiff_keys (fst e) /\ stiff_keys (snd e)) l.
Proof. reflexivity. Qed.
Lemma forall_and {A} (P Q : A -> Prop) l : Forall (fun a => P a -> Q a) l -> Forall P l -> Forall Q l.
Proof. rewrite !Forall_forall. auto. Qed.
Lemma stiff_eq k k' : stiff k -> uniq k = true -> eqv k k' = true -> h_prop k = h_prop k'.
Proof.
  intros S U E. destruct (proj1 (eqv_moved k k' U) E) as (c & M & L). apply S in M. subst c.
  apply (proj1 prop_hash). now apply same_level.
Qed.
Lemma eqv_real :
  (forall a, uniq a = true -> stiff_keys a -> forall b, prop_eqb false a b = true -> R a b = true)
  /\ (forall a, uniq_sval a = true -> stiff_sval a -> forall b, sval_eqb false a b = true -> RS a b = true)
  /\ (forall a, uniq_array a = true -> stiff_array a -> forall b, array_eqb false a b = true -> RA a b = true)
  /\ (forall a, uniq_map a = true -> stiff_map a -> forall b, mapp_eqb false a b = true -> RM a b = true).
Proof.
  assert (LI : forall l : list property, Forall (fun a => uniq a = true -> stiff_keys a -> forall b, prop_eqb false a b = true -> R a b = true) l ->
    forallb uniq l = true -> all_of stiff_keys l -> Forall (fun a => forall b, prop_eqb false a b = true -> R a b = true) l).
  { intros l F U S. eapply forall_and; [|apply all_forall; exact S]. eapply Forall_impb; [|exact U]. exact F. }
  apply prop_all; intros; match goal with H : _ false _ ?b = true |- _ => is_var b; destruct b; try discriminate H end;
    try assumption;
    match goal with H : _ false _ _ = true |- _ => qrw H end;
    rewrite ?u_pset, ?u_scustom, ?u_astructs, ?u_aprops, ?u_mprop, ?u_mgen, ?k_set, ?k_custom, ?k_structs, ?k_props, ?k_named, ?k_general in *;
    cbn [uniq uniq_sval uniq_array uniq_map stiff_keys stiff_sval stiff_array stiff_map] in *; andbs; erwg; sub2; auto;
    try (eapply list_mono; [|eassumption]; apply LI; assumption).
  - eapply map_up; [|eassumption]. eapply forall_and; [|apply all_forall; eassumption].
    match goal with U : forallb _ l = true |- _ => apply (Forall_impb _ (fun e => forallb uniq (snd e)) l); [|exact U] end.
    eapply Forall_impl; [|eassumption]. cbv beta. intros e He Ue Se y. apply list_mono, LI; assumption.
  - eapply list_mono; [|eassumption]. eapply forall_and; [|apply all_forall; eassumption]. eapply Forall_impb; eassumption.
  - eapply map_up; [|eassumption]. eapply forall_and; [|apply all_forall; eassumption].
    match goal with U : forallb _ l = true |- _ => apply (Forall_impb _ (fun e => uniq (snd e)) l); [|exact U] end. assumption.
  - match goal with U : forallb _ l = true |- _ => pose proof U as UU end.
    match goal with U : all_of _ l |- _ => pose proof U as SS end.
    assert (SY : Forall (fun e : property * property => forall y, eqv (fst e) y = true -> eqv y (fst e) = true) l).
    { apply (Forall_impb _ (fun e => uniq (fst e) && uniq (snd e))); [|exact UU]. apply Forall_any. intros e Ue y. andbs.
      now apply (proj1 (prop_sym false)). }
    match goal with U : map_eqb _ _ _ l l0 = true |- _ => unfold map_eqb in U; apply andb_true_iff in U as [Ln Sb] end.
    rewrite submap_iff in Sb.
    match goal with D : distinct _ l = true |- _ =>
      destruct (matching _ l l0 (apart (prop_eqb false) (prop_eqb false) l (proj1 (prop_trans false)) SY D) ltac:(unfold len in Ln; lia) Sb) as (l'' & P & G) end.
    eapply (look_down hit R eqv R l l'' l0); [exact (proj1 real_eqv)|exact (proj1 (prop_trans false))|exact SY|assumption| |exact P].
    eapply forall2_up; [|exact G]. eapply forall_and; [|apply all_forall; exact SS].
    apply (Forall_impb _ (fun e => uniq (fst e) && uniq (snd e))); [|exact UU]. eapply Forall_impl; [|exact H]. cbv beta.
    intros e [He Hf] Ue (St & Sk & Sv) b [A B]. andbs. repeat split; auto. apply found. now apply stiff_eq.
Qed.
End Hit.
