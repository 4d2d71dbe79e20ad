(** The hash function decides no failure: with other collisions a load ends at the same place or
    fails with the same error. *)
From Coq Require Import ZArith List Bool String Lia ZifyBool ZifyNat.
From Verif Require Import Base Str Types Versions Text Props File BaseFacts EqFacts.
Import ListNotations.
Open Scope Z_scope.

Definition twin {A} (V : A -> A -> Prop) (r r' : reader A) : Prop := forall c,
  match r c, r' c with
  | Ok (a, c1), Ok (a', c2) => c1 = c2 /\ V a a'
  | Fail f, Fail f' => f = f'
  | _, _ => False
  end.
Definition any {A} (_ _ : A) : Prop := True.

Lemma tw_same {A} (V : A -> A -> Prop) r : (forall a, V a a) -> twin V r r.
Proof. intros H c. destruct (r c) as [[a c1]|f]; auto. Qed.
Lemma tw_eq {A} (V : A -> A -> Prop) (r r' : reader A) : (forall a, V a a) -> (forall c, r c = r' c) -> twin V r r'.
Proof. intros H E c. rewrite <- E. destruct (r c) as [[a c1]|f]; auto. Qed.
Lemma tw_weaken {A} (V W : A -> A -> Prop) r r' : twin V r r' -> (forall a a', V a a' -> W a a') -> twin W r r'.
Proof. intros H K c. specialize (H c). destruct (r c) as [[]|], (r' c) as [[]|]; auto. destruct H; auto. Qed.
Lemma tw_bind {A B} (V : A -> A -> Prop) (W : B -> B -> Prop) r r' k k' :
  twin V r r' -> (forall a a', V a a' -> twin W (k a) (k' a')) -> twin W (bind r k) (bind r' k').
Proof.
  intros H K c. unfold bind. specialize (H c). destruct (r c) as [[a c1]|], (r' c) as [[a' c2]|]; try contradiction; [|exact H].
  destruct H as [<- H]. apply (K _ _ H).
Qed.
Lemma tw_then {A B} (W : B -> B -> Prop) (r : reader A) k k' :
  (forall a, twin W (k a) (k' a)) -> twin W (bind r k) (bind r k').
Proof. intros K. apply tw_bind with (V := eq); [now apply tw_same|]. intros a ? <-. apply K. Qed.
Lemma tw_ret {A} (V : A -> A -> Prop) a a' : V a a' -> twin V (ret a) (ret a').
Proof. intros H c. split; auto. Qed.
Lemma tw_fail {A} (V : A -> A -> Prop) f : twin V (fail f) (fail f).
Proof. intros c. reflexivity. Qed.
Lemma tw_scoped {A} (V : A -> A -> Prop) s r r' : twin V r r' -> twin V (scoped s r) (scoped s r').
Proof.
  intros H. unfold scoped. apply tw_then. intros _. apply tw_bind with (V := V); [exact H|]. intros a a' Ha.
  apply tw_then. intros _. now apply tw_ret.
Qed.
Lemma tw_repn {A} (V : A -> A -> Prop) n r r' : twin V r r' -> twin (Forall2 V) (repn n r) (repn n r').
Proof.
  intros H. induction n as [|n IH]; cbn [repn]; [apply tw_ret; constructor|].
  apply tw_bind with (V := V); [exact H|]. intros a a' Ha. apply tw_bind with (V := Forall2 V); [exact IH|].
  intros l l' Hl. apply tw_ret. now constructor.
Qed.
Lemma tw_rep {A} (V : A -> A -> Prop) n r r' : twin V r r' -> twin (Forall2 V) (rep n r) (rep n r').
Proof. intros H c. rewrite !rep_repn. now apply tw_repn. Qed.
Lemma tw_headed {V A} (W : A -> A -> Prop) (vars : reader V) (body body' : Z -> V -> reader A) :
  (forall n v, twin W (body n v) (body' n v)) -> twin W (headed vars body) (headed vars body').
Proof.
  intros H. unfold headed, sized. apply tw_then. intros n. apply tw_then. intros _. apply tw_then. intros v. apply tw_then. intros _.
  apply tw_then. intros p. apply tw_bind with (V := W); [apply H|]. intros a a' Ha. apply tw_then. intros q.
  destruct (_ =? _); [now apply tw_ret|apply tw_fail].
Qed.

(** What decides how reading goes on: the index of a name, and whether it is a struct without header. *)
Definition alike (p p' : property) : Prop :=
  prop_index p = prop_index p' /\ (as_sval p = None <-> as_sval p' = None).
Lemma alike_refl p : alike p p. Proof. split; [reflexivity|tauto]. Qed.

Lemma svals_all l : Forall (fun p => exists v, p = PSValue v) l -> exists vs, opt_map as_sval l = Some vs.
Proof. induction 1 as [|p l [v ->] _ [vs E]]; [now exists []|]. exists (v :: vs). cbn. now rewrite E. Qed.
Definition counts (acc acc' : list (str * list property)) : Prop := forall k, len (group acc k) = len (group acc' k).
Lemma group_after acc k p k' : len (group (group_add acc k p) k') = len (group acc k') + (if str_eqb k' k then 1 else 0).
Proof.
  unfold group at 1, group_add. 
  assert (L : forall (l : list (str * list property)) v, lookup str_eqb k' (ins str_eqb l k v)
    = if str_eqb k' k then Some v else lookup str_eqb k' l).
  { intros l v. induction l as [|[a w] l IH]; cbn [ins lookup].
    - reflexivity.
    - destruct (str_eqb k a) eqn:E; cbn [lookup].
      + apply str_eqb_eq in E. subst a. destruct (str_eqb k' k); reflexivity.
      + rewrite IH. destruct (str_eqb k' a) eqn:E1, (str_eqb k' k) eqn:E2; try reflexivity.
        apply str_eqb_eq in E1. apply str_eqb_eq in E2. subst. rewrite str_eqb_refl in E. discriminate. }
  rewrite L. destruct (str_eqb k' k) eqn:E.
  - apply str_eqb_eq in E. subst. rewrite len_app. reflexivity.
  - unfold group. lia.
Qed.

Lemma pbyte_dbg o o' hdr s : dbg o' = dbg o -> r_pbyte o hdr s = r_pbyte o' hdr s.
Proof. destruct o as [d h q], o' as [d' h' q']. cbn [dbg]. intros ->. reflexivity. Qed.

Section Two.
Context (o o' : opts).
Hypothesis Hd : dbg o' = dbg o.
Hypothesis Hh : forall path, hints o' path = hints o path.
Section Nested.
Context (n : nat) (vs : list (guid * Z)) (rp rp' : preader).
Hypothesis Hrp : forall ty hdr s, twin alike (rp ty hdr s) (rp' ty hdr s).

Lemma tw_custom m : forall acc acc', counts acc acc' -> twin any (r_custom m o rp acc) (r_custom m o' rp' acc').
Proof.
  induction m as [|m IH]; intros acc acc' C; cbn [r_custom]; [apply tw_fail|].
  apply tw_then. intros name. destruct (str_eqb name s_none); [now apply tw_ret|]. apply tw_then. intros ty.
  apply tw_bind with (V := alike); [apply tw_scoped, Hrp|]. intros p p' [I _].
  unfold index_ok. rewrite Hd, <- I, <- (C name). destruct (_ && _); [apply tw_fail|].
  apply IH. intros k. now rewrite !group_after, C.
Qed.
Lemma tw_sval ty : twin any (r_sval n o vs rp ty) (r_sval n o' vs rp' ty).
Proof.
  unfold r_sval. destruct (fixed_of vs (skind_of ty)); [now apply tw_same|].
  assert (C : twin any (l <- r_custom n o rp [] ;; ret (SCustom l)) (l <- r_custom n o' rp' [] ;; ret (SCustom l))).
  { apply tw_bind with (V := any); [apply tw_custom; intros k; reflexivity|]. intros. now apply tw_ret. }
  destruct (skind_of ty); try exact C; now apply tw_same.
Qed.
Lemma tw_struct_array count : twin (fun x x' => fst x = fst x' /\ Forall (fun p => exists v, p = PSValue v) (snd x) /\ Forall (fun p => exists v, p = PSValue v) (snd x'))
  (r_struct_array n o vs rp count) (r_struct_array n o' vs rp' count).
Proof.
  unfold r_struct_array. apply tw_then. intros f. apply tw_then. intros ty. destruct (negb _); [apply tw_fail|].
  apply tw_then. intros size. apply tw_then. intros t. apply tw_then. intros g. apply tw_then. intros _. apply tw_then. intros p.
  apply tw_bind with (V := Forall2 (fun a a' => (exists v, a = PSValue v) /\ (exists v, a' = PSValue v))).
  - apply tw_rep. apply tw_bind with (V := any); [apply tw_sval|]. intros v v' _. apply tw_ret. eauto.
  - intros l l' Hl. apply tw_then. intros q. 
    assert (F : Forall (fun p => exists v, p = PSValue v) l /\ Forall (fun p => exists v, p = PSValue v) l').
    { clear - Hl. induction Hl as [|a a' l l' [A A'] _ [IH IH']]; [split; constructor|]. split; now constructor. }
    destruct (_ =? _); [|apply tw_fail]. apply tw_ret. now split.
Qed.
Lemma tw_array length ty : twin alike (r_array n o vs rp length ty) (r_array n o' vs rp' length ty).
Proof.
  unfold r_array. apply tw_then. intros count.
  assert (G : forall sug, twin alike (l <- rep count (rp ty false sug) ;; a <- of_outcome (array_new ty None l) ;; ret (PArray a))
                                (l <- rep count (rp' ty false sug) ;; a <- of_outcome (array_new ty None l) ;; ret (PArray a))).
  { intros sug. apply tw_bind with (V := Forall2 alike); [apply tw_rep, Hrp|]. intros l l' _. cbn [array_new of_outcome].
    intros c. split; [reflexivity|]. split; [reflexivity|cbn; tauto]. }
  destruct (kind_of ty) eqn:K; cbv zeta; try apply G.
  eapply tw_bind; [apply tw_struct_array|]. intros [i l] [i' l'] (E & F & F'). cbn [fst snd] in *. subst i'.
  destruct i as [[f t] g]. unfold array_new. rewrite K.
  destruct (svals_all l F) as [v ->], (svals_all l' F') as [v' ->]. cbn [of_outcome].
  intros c. split; [reflexivity|]. split; [reflexivity|cbn; tauto].
Qed.
Lemma tw_set length ty : twin alike (r_set o rp length ty) (r_set o' rp' length ty).
Proof.
  unfold r_set. apply tw_then. intros flags. apply tw_then. intros count.
  destruct (0 <? count); [|apply tw_same, alike_refl]. rewrite Hd. destruct (_ && _); [apply tw_fail|].
  apply tw_bind with (V := Forall2 alike); [apply tw_rep, Hrp|]. intros l l' _. apply tw_ret. split; [reflexivity|cbn; tauto].
Qed.
Lemma tw_map kt vt : twin alike (r_map o rp kt vt) (r_map o' rp' kt vt).
Proof.
  unfold r_map. apply tw_then. intros flags. apply tw_then. intros count.
  apply tw_bind with (V := Forall2 any).
  - apply tw_rep. unfold r_entry. apply tw_bind with (V := alike); [apply tw_scoped, Hrp|]. intros k k' _.
    apply tw_bind with (V := alike); [apply tw_scoped, Hrp|]. intros v v' _. apply tw_then. intros p. now apply tw_ret.
  - intros l l' _. apply tw_ret. split; [reflexivity|cbn; tauto].
Qed.
Lemma tw_body ty hdr size : twin alike (r_body n o vs rp ty hdr size) (r_body n o' vs rp' ty hdr size).
Proof.
  unfold r_body. destruct (kind_of ty); try (apply tw_same, alike_refl).
  - apply tw_eq; [apply alike_refl|]. intros c. now rewrite (pbyte_dbg o o' hdr size Hd).
  - destruct hdr.
    + unfold r_pstruct. apply tw_headed. intros _ v. apply tw_bind with (V := any); [apply tw_sval|]. intros a a' _.
      apply tw_ret. split; [reflexivity|cbn; tauto].
    + unfold r_hinted. apply tw_then. intros st. apply tw_then. intros p. rewrite Hh.
      destruct (hints o (join_path st)); [|apply tw_fail]. apply tw_bind with (V := any); [apply tw_sval|]. intros a a' _.
      apply tw_ret. split; [reflexivity|cbn; split; discriminate].
  - destruct hdr; [|apply tw_same, alike_refl]. apply tw_headed. intros. apply tw_array.
  - destruct hdr; [|apply tw_same, alike_refl]. apply tw_headed. intros. apply tw_set.
  - destruct hdr; [|apply tw_same, alike_refl]. apply tw_headed. intros. apply tw_map.
Qed.
End Nested.
Lemma tw_prop vs n : forall ty hdr s, twin alike (r_prop n o vs ty hdr s) (r_prop n o' vs ty hdr s).
Proof. induction n as [|n IH]; intros; cbn [r_prop]; [apply tw_fail|]. now apply tw_scoped, tw_body. Qed.
Lemma tw_entries vs n m : twin any (r_entries n m o vs) (r_entries n m o' vs).
Proof.
  induction n as [|n IH]; cbn [r_entries]; [apply tw_fail|]. apply tw_then. intros name.
  destruct (str_eqb name s_none); [now apply tw_ret|]. apply tw_then. intros ty.
  apply tw_bind with (V := alike); [apply tw_scoped, tw_prop|]. intros p p' _.
  apply tw_bind with (V := any); [exact IH|]. intros. now apply tw_ret.
Qed.
Lemma tw_file n : twin (fun f f' => fst f = fst f') (r_file n o) (r_file n o').
Proof.
  unfold r_file. apply tw_then. intros h. apply tw_bind with (V := any); [apply tw_entries|]. intros. now apply tw_ret.
Qed.
Theorem hash_parse b :
  match parse o b, parse o' b with
  | Ok (h, _, c), Ok (h', _, c') => h = h' /\ c = c'
  | Fail f, Fail f' => f = f'
  | _, _ => False
  end.
Proof.
  pose proof (tw_file (S (List.length b)) (Cur 0 b [])) as H. unfold parse.
  destruct (r_file _ o _) as [[[h ps] c]|], (r_file _ o' _) as [[[h' ps'] c']|]; auto. destruct H as [-> H]. auto.
Qed.
Theorem hash_load z v b f : load z o v b = Fail f <-> load z o' v b = Fail f.
Proof.
  assert (P : forall d, match load_plain o d, load_plain o' d with Ok _, Ok _ => True | Fail g, Fail g' => g = g' | _, _ => False end).
  { intros d. pose proof (hash_parse d) as H. unfold load_plain. destruct (parse o d) as [[[h ps] c]|], (parse o' d) as [[[h' ps'] c']|]; auto. }
  destruct v; cbn [load].
  - specialize (P b). destruct (load_plain o b) as [[]|], (load_plain o' b) as [[]|]; try contradiction; [split; discriminate|subst; tauto].
  - destruct (r_palworld z (Cur 0 b [])) as [[[c d] c0]|]; [|tauto]. specialize (P d).
    destruct (load_plain o d) as [[]|], (load_plain o' d) as [[]|]; try contradiction; [split; discriminate|subst; tauto].
Qed.
End Two.
