(** Reading JSON: the hash function decides no failure, and values only where keys repeat (C79). *)
From Coq Require Import ZArith List Bool String Lia ZifyBool ZifyNat.
From Verif Require Import Base Str Types Versions Text Props File Spec BaseFacts Decode DecodeMain Induct EqFacts EqSym CtorThm AcceptAll
  HashFree HashSame Json JsonBack JsonSyntax JsonWhole JsonFrom.
Import ListNotations.
Open Scope Z_scope.

Definition jt {A} (V : A -> A -> Prop) (r r' : jres A) : Prop :=
  match r, r' with
  | JOk a, JOk a' => V a a'
  | JErr, JErr | JPanic, JPanic => True
  | _, _ => False
  end.
Definition jo {A} (V : A -> A -> Prop) (r r' : option (jres A)) : Prop :=
  match r, r' with Some x, Some x' => jt V x x' | None, None => True | _, _ => False end.
Lemma jt_same {A} (V : A -> A -> Prop) r : (forall a, V a a) -> jt V r r.
Proof. destruct r; cbn; auto. Qed.
Lemma jo_same {A} (V : A -> A -> Prop) r : (forall a, V a a) -> jo V r r.
Proof. destruct r; cbn; auto using jt_same. Qed.
Lemma jt_bind {A B} (V : A -> A -> Prop) (W : B -> B -> Prop) r r' k k' :
  jt V r r' -> (forall a a', V a a' -> jt W (k a) (k' a')) -> jt W (jbind r k) (jbind r' k').
Proof. destruct r, r'; cbn; auto; contradiction. Qed.
Lemma jt_then {A B} (W : B -> B -> Prop) (r : jres A) k k' : (forall a, jt W (k a) (k' a)) -> jt W (jbind r k) (jbind r k').
Proof. destruct r; cbn; auto. Qed.
Lemma jt_once {A} (V : A -> A -> Prop) names o r r' : jt V r r' -> jt V (d_once names o r) (d_once names o r').
Proof. unfold d_once. destruct (unrepeated names o); cbn; auto. Qed.
Lemma jt_first {A} (V : A -> A -> Prop) l l' : Forall2 (jt V) l l' -> jt V (first_of l) (first_of l').
Proof. induction 1 as [|[a| |] [a'| |] l l' H _ IH]; cbn in *; auto; contradiction. Qed.
(** Decoders that agree on documents smaller than [n], and objects of such documents. *)
Definition jd {A} (n : nat) (V : A -> A -> Prop) (d d' : json -> jres A) : Prop := forall j, (jsize j < n)%nat -> jt V (d j) (d' j).
Definition small (n : nat) (o : list (str * json)) : Prop := forall k j, In (k, j) o -> (jsize j < n)%nat.
Lemma small_tl n e o : small n (e :: o) -> small n o.
Proof. intros H k j I. apply (H k j). now right. Qed.
Lemma jt_need {A} n (V : A -> A -> Prop) d d' k o : jd n V d d' -> small n o -> jt V (need d k o) (need d' k o).
Proof.
  intros D. unfold need. induction o as [|[k' j] o IH]; intros O; cbn [get]; [exact I|].
  destruct (str_eqb k k'); [|exact (IH (small_tl _ _ _ O))]. apply D, (O k' j). now left.
Qed.
Lemma jt_flat {A} n (V : A -> A -> Prop) f f' o : (forall k j, (jsize j < n)%nat -> jo V (f k j) (f' k j)) -> small n o ->
  jt V (flat f o) (flat f' o).
Proof.
  intros D. induction o as [|[k j] o IH]; intros O; cbn [flat]; [exact I|]. specialize (IH (small_tl _ _ _ O)).
  pose proof (D k j (O k j (or_introl eq_refl))) as X. destruct (f k j), (f' k j); cbn in X; auto; contradiction.
Qed.
Lemma jt_single {A} (V : A -> A -> Prop) l l' : Forall2 (jo V) l l' -> jt V (single l) (single l').
Proof.
  intros F. destruct F as [|[x|] [x'|] l l' H [|? ? ? ? ? ?]]; cbn in *; auto; contradiction.
Qed.
Lemma jt_besides {A} n (V : A -> A -> Prop) f f' t o : (forall k j, (jsize j < n)%nat -> jo V (f k j) (f' k j)) -> small n o ->
  Forall2 (jo V) (besides f t o) (besides f' t o).
Proof.
  intros D. induction o as [|[k j] o IH]; intros O; cbn [besides]; [constructor|]. specialize (IH (small_tl _ _ _ O)).
  destruct (str_eqb k t); [exact IH|]. constructor; [|exact IH]. apply D, (O k j). now left.
Qed.
Lemma jt_all {A} n (V : A -> A -> Prop) d d' l : jd n V d d' -> (forall j, In j l -> (jsize j < n)%nat) ->
  jt (Forall2 V) (d_all d l) (d_all d' l).
Proof.
  intros D. induction l as [|j l IH]; intros L; cbn [d_all]; [constructor|].
  apply jt_bind with (V := V); [apply D, L; now left|]. intros a a' Ha.
  apply jt_bind with (V := Forall2 V); [apply IH; intros; apply L; now right|]. intros q q' Hq. now constructor.
Qed.
Definition sided {A} (V : A -> A -> Prop) (e e' : str * A) : Prop := fst e' = fst e /\ V (snd e) (snd e').
Lemma jt_entries {A} n (V : A -> A -> Prop) d d' o : jd n V d d' -> small n o -> jt (Forall2 (sided V)) (d_entries d o) (d_entries d' o).
Proof.
  intros D. induction o as [|[k j] o IH]; intros O; cbn [d_entries]; [constructor|].
  apply jt_bind with (V := V); [apply D, (O k j); now left|]. intros a a' Ha.
  apply jt_bind with (V := Forall2 (sided V)); [apply IH, (small_tl _ _ _ O)|]. intros q q' Hq. constructor; [now split|exact Hq].
Qed.
Lemma ins_sided {A} (V : A -> A -> Prop) l l' k v v' : Forall2 (sided V) l l' -> V v v' ->
  Forall2 (sided V) (ins str_eqb l k v) (ins str_eqb l' k v').
Proof.
  intros F N. induction F as [|[a w] [a' w'] l l' [E B] F IH]; cbn [ins]; [constructor; [now split|constructor]|].
  cbn [fst snd] in *. subst a'. destruct (str_eqb k a); constructor; auto; split; auto.
Qed.
Lemma ins_all_sided {A} (V : A -> A -> Prop) l l' : Forall2 (sided V) l l' -> Forall2 (sided V) (ins_all str_eqb l) (ins_all str_eqb l').
Proof.
  unfold ins_all. intros F. assert (G : Forall2 (sided V) [] []) by constructor. revert G.
  generalize (@nil (str * A)) at 1 3. intros acc. generalize (@nil (str * A)). revert acc.
  induction F as [|[k v] [k' v'] l l' [E N] _ IH]; intros acc acc' H; cbn [fold_left]; [exact H|].
  cbn [fst snd] in *. subst k'. apply IH. now apply ins_sided.
Qed.
Lemma small_obj n o : (jsize (JObj o) < n)%nat -> small n o.
Proof. intros S k j I. pose proof (obj_smaller k j o I). lia. Qed.
Lemma jd_list {A} n (V : A -> A -> Prop) d d' : jd n V d d' -> jd n (Forall2 V) (d_list d) (d_list d').
Proof. intros D j S. destruct j; cbn [d_list]; try exact I. apply (jt_all n); auto. intros j I. pose proof (arr_smaller j _ I). lia. Qed.
Lemma jd_map {A} n (V : A -> A -> Prop) d d' : jd n V d d' -> jd n (Forall2 (sided V)) (d_map d) (d_map d').
Proof.
  intros D j S. destruct j; cbn [d_map]; try exact I. eapply jt_bind; [eapply jt_entries; [exact D|now apply small_obj]|].
  intros q q' H. now apply ins_all_sided.
Qed.

Ltac alone := match goal with |- jt _ ?x ?y => constr_eq x y; apply jt_same; first [exact near_refl|now intros a _] end.

(** ** Values *)
Section Two.
Context (hp hp' : hashing).
Hypothesis Hc : forall l k i, hp l k i = false.
Section Nested.
Context (n : nat) (dp dp' : json -> jres property).
Hypothesis D : jd n near dp dp'.
Lemma jn_variant k j : (jsize j < n)%nat -> jo near_sval (d_svariant dp k j) (d_svariant dp' k j).
Proof.
  intros S. unfold d_svariant. destruct (find _ fixeds); [apply jo_same; now intros a _|].
  repeat (destruct (str_eqb k _); [try (apply jo_same; now intros a _)|]); try exact I.
  cbn [jo]. eapply jt_bind; [apply (jd_map n _ _ _ (jd_list n _ _ _ D) j S)|]. intros l l' F. cbn. intros U.
  rewrite u_scustom in U. andbs. f_equal. apply fields_eq; [|assumption].
  clear - F. induction F as [|e e' l l' [A B] _ IH]; constructor; auto. now split.
Qed.
Lemma jn_sval : jd n near_sval (d_sval dp) (d_sval dp').
Proof.
  intros j S. destruct j as [| | | | | |o]; cbn [d_sval]; try exact I. apply jt_single.
  destruct o as [|[k v] [|]]; try constructor; [|constructor]. apply jn_variant. pose proof (obj_smaller k v [(k, v)] (or_introl eq_refl)). lia.
Qed.
Lemma jn_pair : jd n (fun e e' => near (fst e) (fst e') /\ near (snd e) (snd e')) (d_pair dp) (d_pair dp').
Proof.
  intros j S. destruct j as [| | | | |l|]; cbn [d_pair]; try exact I. destruct l as [|a [|b [|]]]; try exact I.
  pose proof (arr_smaller a [a; b] ltac:(cbn; auto)). pose proof (arr_smaller b [a; b] ltac:(cbn; auto)).
  eapply jt_bind; [apply D; lia|]. intros k k' K. eapply jt_bind; [apply D; lia|]. intros v v' W. now split.
Qed.
Lemma jn_array o : small n o -> jt (fun a a' => uniq_array a = true -> a' = a) (d_array dp o) (d_array dp' o).
Proof.
  intros O. unfold d_array. apply jt_first.
  repeat (constructor; [first [alone|apply jt_once]|]); [| |constructor].
  - do 3 (apply jt_then; intros ?). eapply jt_bind; [eapply jt_need; [apply jd_list, jn_sval|exact O]|]. intros l l' F. cbn [jt].
    rewrite u_astructs. intros U. now rewrite (svals_eq l l' F U).
  - apply jt_then; intros ?. eapply jt_bind; [eapply jt_need; [apply jd_list, D|exact O]|]. intros l l' F. cbn [jt].
    rewrite u_aprops. intros U. now rewrite (near_list l l' F U).
Qed.
Definition insert_all (pr : list (property * property) -> property * property * Z -> nat -> bool) l :=
  fold_left (fun acc (e : property * property * Z) => mins (pr acc e) acc (fst (fst e)) (snd (fst e))) l [].
Lemma m_insert_all h l : m_insert h l = insert_all (fun acc e => h acc (fst (fst e))) (map (fun e => (e, 0)) l).
Proof.
  unfold m_insert, insert_all. generalize (@nil (property * property)). induction l as [|e l IH]; intros acc; cbn [map fold_left fst snd]; auto.
Qed.
Lemma insert_near l l' : Forall2 (fun e e' => near (fst e) (fst e') /\ near (snd e) (snd e')) l l' ->
  distinct eqv (m_insert hp l) = true -> (forall e, In e (m_insert hp l) -> uniq (fst e) = true /\ uniq (snd e) = true) ->
  m_insert hp' l' = m_insert hp l.
Proof.
  intros F X U.
  assert (C : m_insert hp l = fold_left (fun acc (e : property * property * Z) => ins same acc (fst (fst e)) (snd (fst e))) (map (fun e => (e, 0)) l) []).
  { clear - Hc. unfold m_insert. generalize (@nil (property * property)). induction l as [|e l IH]; intros acc; cbn [map fold_left fst snd]; auto.
    rewrite IH. f_equal. unfold mins. now rewrite hit_calm. }
  apply pairs_eq; [|intros e I; now apply U]. rewrite C in *. rewrite (m_insert_all hp').
  apply (fold_near (fun acc e => hp' acc (fst (fst e)))).
  - clear - F. induction F as [|e e' l l' H _ IH]; cbn [map]; constructor; auto.
  - constructor.
  - now apply distinct_keys.
  - intros k I. apply in_map_iff in I as (e & <- & I). now apply U.
Qed.
Lemma jn_mapp o : small n o -> jt (fun a a' => uniq_map a = true -> a' = a) (d_mapp hp dp o) (d_mapp hp' dp' o).
Proof.
  intros O. unfold d_mapp. apply jt_first.
  assert (P : forall k, jt (fun a a' => uniq_map a = true -> a' = a) (d_mprop dp k o) (d_mprop dp' k o)).
  { intros k. unfold d_mprop. apply jt_once, jt_then. intros t. eapply jt_bind; [eapply jt_need; [apply jd_map, D|exact O]|].
    intros l l' F. cbn [jt]. rewrite u_mprop. intros U. andbs. f_equal. apply named_eq; assumption. }
  repeat (constructor; [first [alone|apply P|apply jt_once]|]); [|constructor].
  do 3 (apply jt_then; intros ?). eapply jt_bind; [eapply jt_need; [apply jd_list, jn_pair|exact O]|]. intros l l' F. cbn [jt].
  rewrite u_mgen. intros U. andbs. f_equal. apply insert_near; [exact F|assumption|]. intros e I.
  match goal with H : forallb _ _ = true |- _ => rewrite forallb_forall in H; specialize (H e I); now apply andb_true_iff in H end.
Qed.
End Nested.
Lemma near_of p p' : alike p p' -> (uniq p = true -> p' = p) -> near p p'. Proof. now split. Qed.
Lemma jn_prop n : jd n near (d_prop hp) (d_prop hp').
Proof.
  induction n as [|n D]; intros j S; [lia|]. destruct j as [| | | | |l|o]; try exact I.
  - destruct l as [|x l]; [exact I|]. cbn [d_prop]. apply jt_then. intros ty.
    assert (L : forall y, In y l -> (jsize y < n)%nat) by (intros y Iy; pose proof (arr_smaller y (x :: l) (or_intror Iy)); lia).
    destruct ty; try alone.
    destruct l as [|a [|b [|c [|]]]]; try alone.
    do 2 (apply jt_then; intros ?). eapply jt_bind; [apply (jd_list n _ _ _ D); apply L; cbn; auto|]. intros q q' F.
    cbn [jt]. apply near_of; [split; [reflexivity|cbn; tauto]|]. rewrite u_pset. intros U. now rewrite (near_list q q' F U).
  - assert (O : small n o) by (intros k j I; pose proof (obj_smaller k j o I); lia).
    cbn [d_prop]. apply jt_once, jt_then. intros ty. apply jt_once. destruct ty; try alone.
    + eapply jt_bind; [apply (jn_array n _ _ D o O)|]. intros a a' H. apply near_of; [split; [reflexivity|cbn; tauto]|].
      cbn [uniq]. intros U. now rewrite (H U).
    + do 2 (apply jt_then; intros ?). eapply jt_bind; [eapply jt_need; [apply jd_list, D|exact O]|]. intros q q' F.
      cbn [jt]. apply near_of; [split; [reflexivity|cbn; tauto]|]. rewrite u_pset. intros U. now rewrite (near_list q q' F U).
    + eapply jt_bind; [apply (jn_mapp n _ _ D o O)|]. intros a a' H. apply near_of; [split; [reflexivity|cbn; tauto]|].
      cbn [uniq]. intros U. now rewrite (H U).
    + do 2 (apply jt_then; intros ?). eapply jt_bind; [eapply jt_flat; [intros k j; apply (jn_variant n _ _ D)|exact O]|]. intros v v' H.
      cbn [jt]. apply near_of; [split; [reflexivity|cbn; tauto]|]. cbn [uniq]. intros U. now rewrite (H U).
    + eapply jt_bind; [apply jt_single; eapply jt_besides; [intros k j; apply (jn_variant n _ _ D)|exact O]|]. intros v v' H.
      cbn [jt]. apply near_of; [split; [reflexivity|cbn; split; discriminate]|]. cbn [uniq]. intros U. now rewrite (H U).
Qed.
Lemma jn_file j : jt (fun f f' => g_version f' = g_version f /\ g_header f' = g_header f /\ map fst (g_props f') = map fst (g_props f)
    /\ (forallb (fun e => uniq (snd e)) (g_props f) = true -> f' = f))
  (from_json hp j) (from_json hp' j).
Proof.
  unfold from_json.
  assert (B : forall o, jt (fun f f' => g_version f' = g_version f /\ g_header f' = g_header f /\ map fst (g_props f') = map fst (g_props f)
    /\ (forallb (fun e => uniq (snd e)) (g_props f) = true -> f' = f))
    (v <~ dflt d_dversion DDefault (s2z "deserialized_game_version") o ;; h <~ need d_header (s2z "header") o ;;
     l <~ need (d_map (d_property hp)) (s2z "properties") o ;; JOk (GFile v h l))
    (v <~ dflt d_dversion DDefault (s2z "deserialized_game_version") o ;; h <~ need d_header (s2z "header") o ;;
     l <~ need (d_map (d_property hp')) (s2z "properties") o ;; JOk (GFile v h l))).
  { intros o. do 2 (apply jt_then; intros ?). eapply jt_bind; [eapply (jt_need (jsize (JObj o))); [apply jd_map|]|].
    - intros x S. unfold d_property. destruct (tag_number x); [exact I|]. now apply (jn_prop (jsize (JObj o))).
    - intros k x I. now apply (obj_smaller k).
    - intros l l' F. cbn [jt g_version g_header g_props]. repeat split; auto.
      + clear - F. induction F as [|e e' l l' [A _] _ IH]; cbn [map]; congruence.
      + intros U. f_equal. now apply named_eq. }
  destruct j; cbn [d_struct]; try exact I; [unfold listed; destruct (_ =? _)%nat; [|exact I]; apply B|apply jt_once, B].
Qed.
End Two.

(** ** If every two equal keys hit each other, no map keeps two equal keys *)
Definition on {A} (u : A -> bool) (a _ : A) : Prop := u a = true.
Lemma jt_on {A} (u : A -> bool) r : (forall a, r = JOk a -> u a = true) -> jt (on u) r r.
Proof. destruct r; cbn; auto. unfold on. auto. Qed.
Lemma all_on {A} (u : A -> bool) l l' : Forall2 (on u) l l' -> forallb u l = true.
Proof. induction 1 as [|a a' l l' H _ IH]; cbn [forallb]; [reflexivity|]. now sub2. Qed.
Definition named_on {A} (u : A -> bool) (l : list (str * A)) : bool := distinct str_eqb l && forallb (fun e => u (snd e)) l.
Lemma map_on {A} n (u : A -> bool) d : jd n (on u) d d -> jd n (on (named_on u)) (d_map d) (d_map d).
Proof.
  intros D j S. destruct j; cbn [d_map]; try exact I. eapply jt_bind; [eapply jt_entries; [exact D|now apply small_obj]|].
  intros q q' H. cbn [jt]. unfold on, named_on. rewrite distinct_fresh, fresh_ins_all. cbn [andb].
  apply ins_all_sided in H. clear - H. induction H as [|e e' l l' [_ B] _ IH]; cbn [forallb]; [reflexivity|]. now sub2.
Qed.
Lemma list_on {A} n (u : A -> bool) d : jd n (on u) d d -> jd n (on (forallb u)) (d_list d) (d_list d).
Proof.
  intros D j S. pose proof (jd_list n _ _ _ D j S) as X. destruct (d_list d j); auto. exact (all_on u _ _ X).
Qed.
Lemma text_on n : jd n (on uniq_text) d_text d_text /\ jd n (on uniq_arg) d_arg d_arg.
Proof.
  induction n as [|n [DT DA]]; [split; intros j S; lia|]. split; intros j S; destruct j as [| | | | | |o]; try exact I.
  - assert (O : small n o) by (intros k j Ij; pose proof (obj_smaller k j o Ij); lia).
    cbn [d_text]. apply jt_once, jt_then. intros f. apply jt_bind with (V := on uniq_hist); [|now intros h h' H].
    unfold d_hist. apply jt_once, jt_then. intros ty. apply jt_once.
    destruct ty; repeat lazymatch goal with
      | |- jt _ (jbind (need d_text _ _) _) _ => eapply jt_bind; [eapply jt_need; [exact DT|exact O]|intros ? ? ?]
      | |- jt _ (jbind (need d_arg _ _) _) _ => eapply jt_bind; [eapply jt_need; [exact DA|exact O]|intros ? ? ?]
      | |- jt _ (jbind (need (d_map d_arg) _ _) _) _ => eapply jt_bind; [eapply jt_need; [exact (map_on n _ _ DA)|exact O]|intros ? ? ?]
      | |- jt _ (jbind (need (d_list d_arg) _ _) _) _ => eapply jt_bind; [eapply jt_need; [exact (list_on n _ _ DA)|exact O]|intros ? ? ?]
      | |- jt _ (jbind _ _) _ => apply jt_then; intros ?
      end; cbn [jt]; unfold on, named_on in *; rewrite ?u_named, ?u_argument, ?u_ordered; andbs; try (now cbn [uniq_hist]); repeat (sub2; try assumption).
  - cbn [d_arg]. apply jt_single. destruct o as [|[k v] [|]]; try constructor; [|constructor].
    pose proof (obj_smaller k v [(k, v)] (or_introl eq_refl)) as L. unfold d_argv.
    repeat (destruct (str_eqb k _); [cbn [jo]; lazymatch goal with
      | |- jt _ (jbind (d_text _) _) _ => eapply jt_bind; [apply DT; lia|now intros ? ? ?]
      | _ => apply jt_then; reflexivity end|]). exact I.
Qed.
Section Loud.
Context (hp : hashing).
Hypothesis Hl : forall l k i, hp l k i = true.
Lemma loud_apart l : distinct eqv (m_insert hp l) = true.
Proof.
  unfold m_insert.
  assert (G : forall acc, apart_keys (map fst acc) -> apart_keys (map fst (fold_left (fun acc e => mins (hp acc (fst e)) acc (fst e) (snd e)) l acc))).
  { induction l as [|[k v] l IH]; intros acc A; cbn [fold_left fst snd]; [exact A|]. apply IH. now apply mins_loud. }
  apply distinct_keys, G. constructor.
Qed.
Lemma loud_in (u : property -> bool) l : forallb (fun e => u (fst e) && u (snd e)) l = true ->
  forallb (fun e => u (fst e) && u (snd e)) (m_insert hp l) = true.
Proof.
  intros H. unfold m_insert. assert (F : Forall (fun e => u (fst e) = true /\ u (snd e) = true) (@nil (property * property))) by constructor.
  assert (X : Forall (fun e => u (fst e) = true /\ u (snd e) = true) l).
  { apply Forall_forall. intros e I. rewrite forallb_forall in H. now apply andb_true_iff, (H e). }
  cut (Forall (fun e => u (fst e) = true /\ u (snd e) = true) (fold_left (fun acc e => mins (hp acc (fst e)) acc (fst e) (snd e)) l [])).
  { intros Y. apply forallb_forall. intros e I. rewrite Forall_forall in Y. now apply andb_true_iff, Y. }
  clear H. revert F. generalize (@nil (property * property)). induction X as [|e l [A B] _ IH]; intros acc F; cbn [fold_left]; [exact F|].
  apply IH. now apply (mins_in (fun p => u p = true) (fun p => u p = true)).
Qed.
Section Nested.
Context (n : nat) (dp : json -> jres property).
Hypothesis D : jd n (on uniq) dp dp.
Lemma lo_variant k j : (jsize j < n)%nat -> jo (on uniq_sval) (d_svariant dp k j) (d_svariant dp k j).
Proof.
  intros S. unfold d_svariant. destruct (find _ fixeds) as [x|].
  { cbn [jo]. apply jt_on. intros a. unfold d_fixed, d_struct. destruct j; try discriminate; unfold listed; [destruct (_ =? _)%nat; [|discriminate]|];
      intros X; inv; reflexivity. }
  repeat (destruct (str_eqb k _); [cbn [jo]; lazymatch goal with
    | |- jt _ (jbind (d_map _ _) _) _ => eapply jt_bind; [apply (map_on n _ _ (list_on n _ _ D) j S)|intros l l' H; unfold on in *]
    | _ => apply jt_then; reflexivity end|]); [|exact I].
  cbn [jt]. now rewrite u_scustom.
Qed.
Lemma lo_sval : jd n (on uniq_sval) (d_sval dp) (d_sval dp).
Proof.
  intros j S. destruct j as [| | | | | |o]; cbn [d_sval]; try exact I. apply jt_single.
  destruct o as [|[k v] [|]]; try constructor; [|constructor]. apply lo_variant. pose proof (obj_smaller k v [(k, v)] (or_introl eq_refl)). lia.
Qed.
Lemma lo_pair : jd n (on (fun e => uniq (fst e) && uniq (snd e))) (d_pair dp) (d_pair dp).
Proof.
  intros j S. destruct j as [| | | | |l|]; cbn [d_pair]; try exact I. destruct l as [|a [|b [|]]]; try exact I.
  pose proof (arr_smaller a [a; b] ltac:(cbn; auto)). pose proof (arr_smaller b [a; b] ltac:(cbn; auto)).
  eapply jt_bind; [apply D; lia|]. intros k k' K. eapply jt_bind; [apply D; lia|]. intros v v' W. unfold on in *. cbn [jt fst snd]. now sub2.
Qed.
Lemma lo_array o : small n o -> jt (on uniq_array) (d_array dp o) (d_array dp o).
Proof.
  intros O. unfold d_array. apply jt_first.
  repeat (constructor; [apply jt_once|]); [| | | | | | | | |constructor]; try (apply jt_then; reflexivity).
  - do 3 (apply jt_then; intros ?). eapply jt_bind; [eapply jt_need; [exact (list_on n _ _ lo_sval)|exact O]|]. intros l l' F. cbn [jt].
    unfold on in *. now rewrite u_astructs.
  - apply jt_then; intros ?. eapply jt_bind; [eapply jt_need; [exact (list_on n _ _ D)|exact O]|]. intros l l' F. cbn [jt].
    unfold on in *. now rewrite u_aprops.
Qed.
Lemma any_on {A} (d : json -> jres A) : jd n (on (fun _ => true)) d d.
Proof. intros j _. now apply jt_same. Qed.
Lemma plain_on {A} (l : list (str * A)) : named_on (fun _ => true) l = true -> distinct str_eqb l = true.
Proof. unfold named_on. intros H. now andbs. Qed.
Lemma lo_mapp o : small n o -> jt (on uniq_map) (d_mapp hp dp o) (d_mapp hp dp o).
Proof.
  intros O. unfold d_mapp. apply jt_first.
  assert (P : forall k, jt (on uniq_map) (d_mprop dp k o) (d_mprop dp k o)).
  { intros k. unfold d_mprop. apply jt_once, jt_then. intros t. eapply jt_bind; [eapply jt_need; [exact (map_on n _ _ D)|exact O]|].
    intros l l' F. cbn [jt]. unfold on in *. now rewrite u_mprop. }
  assert (B : forall k, jt (on uniq_map) (d_mbool k o) (d_mbool k o)).
  { intros k. unfold d_mbool. apply jt_once. eapply jt_bind; [eapply jt_need; [exact (map_on n _ _ (any_on d_bool))|exact O]|].
    intros l l' F. cbn [jt]. exact (plain_on l F). }
  assert (Z' : forall k, jt (on uniq_map) (d_mint k o) (d_mint k o)).
  { intros k. unfold d_mint. apply jt_once. eapply jt_bind; [eapply jt_need; [exact (map_on n _ _ (any_on d_i32))|exact O]|].
    intros l l' F. cbn [jt]. exact (plain_on l F). }
  repeat (constructor; [lazymatch goal with
    | |- jt _ (d_mprop _ _ _) _ => apply P | |- jt _ (d_mbool _ _) _ => apply B | |- jt _ (d_mint _ _) _ => apply Z'
    | _ => apply jt_once end|]); [| |constructor].
  - do 3 (apply jt_then; intros ?). eapply jt_bind; [eapply jt_need; [exact (list_on n _ _ lo_pair)|exact O]|]. intros l l' F. cbn [jt].
    unfold on in *. rewrite u_mgen. sub2; [apply loud_apart|now apply loud_in].
  - eapply jt_bind; [eapply jt_need; [exact (map_on n _ _ (any_on d_ostr))|exact O]|]. intros l l' F. cbn [jt]. exact (plain_on l F).
Qed.
End Nested.
Lemma simple_uniq ty o p : d_simple ty o = JOk p -> uniq p = true.
Proof. destruct ty; cbn [d_simple]; intros X; try discriminate; inv; reflexivity. Qed.
Lemma lo_prop n : jd n (on uniq) (d_prop hp) (d_prop hp).
Proof.
  induction n as [|n D]; intros j S; [lia|]. destruct j as [| | | | |l|o]; try exact I.
  - destruct l as [|x l]; [exact I|]. cbn [d_prop]. apply jt_then. intros ty.
    assert (L : forall y, In y l -> (jsize y < n)%nat) by (intros y Iy; pose proof (arr_smaller y (x :: l) (or_intror Iy)); lia).
    assert (G : jt (on uniq) (listed (prop_fields ty) (d_simple ty) l) (listed (prop_fields ty) (d_simple ty) l)).
    { apply jt_on. intros p. unfold listed. destruct (_ =? _)%nat; [|discriminate]. apply simple_uniq. }
    destruct ty; try exact G. destruct l as [|a [|b [|c [|]]]]; try exact G.
    do 2 (apply jt_then; intros ?). eapply jt_bind; [apply (list_on n _ _ D); apply L; cbn; auto|]. intros q q' F.
    cbn [jt]. unfold on in *. now rewrite u_pset.
  - assert (O : small n o) by (intros k j I; pose proof (obj_smaller k j o I); lia).
    assert (G : forall ty, jt (on uniq) (d_simple ty o) (d_simple ty o)) by (intros ty; apply jt_on, simple_uniq).
    cbn [d_prop]. apply jt_once, jt_then. intros ty. apply jt_once. destruct ty; try exact (G _).
    + do 2 (apply jt_then; intros ?). reflexivity.
    + eapply jt_bind; [apply (proj1 (text_on (Datatypes.S n)) (JObj o) S)|now intros a a' H].
    + eapply jt_bind; [apply (lo_array n _ D o O)|now intros a a' H].
    + do 2 (apply jt_then; intros ?). eapply jt_bind; [eapply jt_need; [exact (list_on n _ _ D)|exact O]|]. intros q q' F.
      cbn [jt]. unfold on in *. now rewrite u_pset.
    + eapply jt_bind; [apply (lo_mapp n _ D o O)|now intros a a' H].
    + do 2 (apply jt_then; intros ?). eapply jt_bind; [eapply jt_flat; [intros k j; apply (lo_variant n _ D)|exact O]|now intros v v' H].
    + eapply jt_bind; [apply jt_single; eapply jt_besides; [intros k j; apply (lo_variant n _ D)|exact O]|now intros v v' H].
Qed.
Lemma lo_file j f : from_json hp j = JOk f -> forallb (fun e => uniq (snd e)) (g_props f) = true.
Proof.
  assert (B : forall o, v <~ dflt d_dversion DDefault (s2z "deserialized_game_version") o ;; h <~ need d_header (s2z "header") o ;;
     l <~ need (d_map (d_property hp)) (s2z "properties") o ;; JOk (GFile v h l) = JOk f -> forallb (fun e => uniq (snd e)) (g_props f) = true).
  { intros o X. inv. cbn [g_props].
    assert (M : jd (jsize (JObj o)) (on uniq) (d_property hp) (d_property hp)).
    { intros x S. unfold d_property. destruct (tag_number x); [exact I|]. now apply (lo_prop (jsize (JObj o))). }
    pose proof (jt_need _ _ _ _ (s2z "properties") o (map_on _ _ _ M) (fun k x I => obj_smaller k x o I)) as Y.
    match goal with E : need (d_map _) _ _ = JOk _ |- _ => rewrite E in Y end. cbn [jt] in Y. unfold on, named_on in Y. now andbs. }
  unfold from_json. destruct j; cbn [d_struct]; try discriminate.
  - unfold listed. destruct (_ =? _)%nat; [apply B|discriminate].
  - intros X. apply d_once_ok in X as [_ X]. now apply (B l).
Qed.
End Loud.

(** ** Any two hash functions *)
Theorem json_fails hp hp' j : (from_json hp j = JErr <-> from_json hp' j = JErr) /\ (from_json hp j = JPanic <-> from_json hp' j = JPanic).
Proof.
  pose proof (jn_file (fun _ _ _ => false) hp ltac:(reflexivity) j) as A. pose proof (jn_file (fun _ _ _ => false) hp' ltac:(reflexivity) j) as B.
  destruct (from_json (fun _ _ _ => false) j), (from_json hp j), (from_json hp' j); cbn [jt] in *; try contradiction;
    split; split; intros; try discriminate; reflexivity.
Qed.
Theorem json_shape hp hp' j f : from_json hp j = JOk f -> exists f', from_json hp' j = JOk f'
  /\ g_version f' = g_version f /\ g_header f' = g_header f /\ map fst (g_props f') = map fst (g_props f).
Proof.
  intros E. pose proof (jn_file (fun _ _ _ => false) hp ltac:(reflexivity) j) as A. pose proof (jn_file (fun _ _ _ => false) hp' ltac:(reflexivity) j) as B.
  rewrite E in A. destruct (from_json (fun _ _ _ => false) j); cbn [jt] in A; try contradiction.
  destruct (from_json hp' j) as [f'| |]; cbn [jt] in B; try contradiction. exists f'.
  destruct A as (A1 & A2 & A3 & _), B as (B1 & B2 & B3 & _). repeat split; congruence.
Qed.
Theorem json_decides hp j f : (forall l k i, hp l k i = false) -> from_json hp j = JOk f ->
  (forallb (fun e => uniq (snd e)) (g_props f) = true <-> forall hp', from_json hp' j = JOk f).
Proof.
  intros Hc E. split.
  - intros U hp'. pose proof (jn_file hp hp' Hc j) as X. rewrite E in X. destruct (from_json hp' j) as [f'| |]; cbn [jt] in X; try contradiction.
    destruct X as (_ & _ & _ & X). now rewrite (X U).
  - intros H. apply (lo_file (fun _ _ _ => true) ltac:(reflexivity) j). apply H.
Qed.
Theorem text_fails hp hp' s :
  (text_file hp s = JErr <-> text_file hp' s = JErr) /\ (text_file hp s = JPanic <-> text_file hp' s = JPanic)
  /\ (read_direct hp s = JErr <-> read_direct hp' s = JErr) /\ (read_direct hp s = JPanic <-> read_direct hp' s = JPanic).
Proof.
  unfold text_file, read_direct.
  split; [|split; [|split]]; [destruct (from_text s)|destruct (from_text s)|destruct (from_top s)|destruct (from_top s)];
    try apply json_fails; split; auto; discriminate.
Qed.
