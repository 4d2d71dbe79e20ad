(** Reading JSON panics only through a string that panics as a guid. *)
From Coq Require Import ZArith List Bool String Lia ZifyBool ZifyNat.
From Verif Require Import Base Str Types Versions Text Props File Spec BaseFacts
  Guid Json JsonSpec JsonText JsonProp JsonBack.
Import ListNotations.
Open Scope Z_scope.

(** [s] is a string or a key of [j]. *)
Inductive occurs (s : str) : json -> Prop :=
| Occ_str : occurs s (JStr s)
| Occ_key l v : In (s, v) l -> occurs s (JObj l)
| Occ_val l k v : In (k, v) l -> occurs s v -> occurs s (JObj l)
| Occ_elem l v : In v l -> occurs s v -> occurs s (JArr l).

Definition mild (j : json) : Prop := forall s, occurs s j -> guid_parse s <> Panicked.
Definition safe {A} (n : nat) (d : json -> jres A) : Prop :=
  forall j, (jsize j < n)%nat -> mild j -> d j <> JPanic.
Definition sobj (n : nat) (o : list (str * json)) : Prop :=
  forall k j, In (k, j) o -> (jsize j < n)%nat /\ mild j /\ guid_parse k <> Panicked.
Lemma sobj_from n o : (jsize (JObj o) < S n)%nat -> mild (JObj o) -> sobj n o.
Proof.
  intros S M k j I. pose proof (obj_smaller k j o I). repeat split; [lia| |].
  - intros s H'. apply M. eapply Occ_val; eauto.
  - apply M. eapply Occ_key; eauto.
Qed.
Lemma sobj_less n o : (jsize (JObj o) < n)%nat -> mild (JObj o) -> sobj n o.
Proof. intros. apply sobj_from; auto. Qed.
Lemma jbind_safe {A B} (r : jres A) (k : A -> jres B) : r <> JPanic -> (forall a, k a <> JPanic) ->
  jbind r k <> JPanic.
Proof. destruct r; cbn [jbind]; auto. discriminate. Qed.
Lemma d_once_safe {A} names o (r : jres A) : r <> JPanic -> d_once names o r <> JPanic.
Proof. unfold d_once. destruct (unrepeated names o); [auto|discriminate]. Qed.
(** Names that are no trouble when they are read as guids. *)
Definition tame (names : list str) : bool :=
  forallb (fun k => match guid_parse k with Panicked => false | _ => true end) names.
Lemma arr_mild n l : (jsize (JArr l) < S n)%nat -> mild (JArr l) ->
  forall j, In j l -> (jsize j < n)%nat /\ mild j.
Proof.
  intros S M j I. pose proof (arr_smaller _ _ I). split; [lia|]. intros s H'. apply M. eapply Occ_elem; eauto.
Qed.
Lemma listed_safe {A} n names (f : list (str * json) -> jres A) l : tame names = true ->
  (forall j, In j l -> (jsize j < n)%nat /\ mild j) -> (forall o, sobj n o -> f o <> JPanic) ->
  listed names f l <> JPanic.
Proof.
  intros T L F. unfold listed. destruct (_ =? _)%nat; [|discriminate]. apply F. intros k j I.
  destruct (L j (in_combine_r _ _ _ _ I)) as [A1 A2]. repeat split; auto.
  apply in_combine_l in I. unfold tame in T. rewrite forallb_forall in T. specialize (T _ I).
  destruct (guid_parse k); [discriminate|discriminate|easy].
Qed.
Lemma struct_safe {A} n names (f : list (str * json) -> jres A) : tame names = true ->
  (forall o, sobj n o -> f o <> JPanic) -> safe n (d_struct names f).
Proof.
  intros T F j S M. destruct j as [| | | | |l|o]; try discriminate; cbn [d_struct].
  - apply (listed_safe n); auto. apply arr_mild; auto.
  - apply d_once_safe, F. now apply sobj_less.
Qed.
Lemma ok_safe {A} (a : A) : JOk a <> JPanic.
Proof. discriminate. Qed.
Lemma err_safe {A} : @JErr A <> JPanic.
Proof. discriminate. Qed.
#[local] Hint Resolve jbind_safe ok_safe err_safe : safe.
Lemma need_safe {A} n (d : json -> jres A) k o : safe n d -> sobj n o -> need d k o <> JPanic.
Proof.
  intros G O. unfold need. destruct (get d k o) as [r|] eqn:E; [|discriminate].
  apply get_in in E as (j & I & <-). destruct (O _ _ I) as (S & J & _). auto.
Qed.
Lemma dflt_safe {A} n (d : json -> jres A) v k o : safe n d -> sobj n o -> dflt d v k o <> JPanic.
Proof.
  intros G O. unfold dflt. destruct (get d k o) as [r|] eqn:E; [|discriminate].
  apply get_in in E as (j & I & <-). destruct (O _ _ I) as (S & J & _). auto.
Qed.
Lemma option_safe {A} n (d : json -> jres A) : safe n d -> safe n (d_option d).
Proof. intros G j S M. unfold d_option. destruct j; try discriminate; apply jbind_safe; auto with safe. Qed.
Lemma opt_safe {A} n (d : json -> jres A) k o : safe n d -> sobj n o -> opt d k o <> JPanic.
Proof. intros G O. eapply dflt_safe; eauto. now apply option_safe. Qed.
Lemma list_safe {A} n (d : json -> jres A) : safe n d -> safe n (d_list d).
Proof.
  intros G j S M. destruct j as [| | | | |l|]; try discriminate. cbn [d_list].
  assert (L : forall j, In j l -> (jsize j < n)%nat /\ mild j).
  { intros j I. pose proof (arr_smaller _ _ I). split; [lia|]. intros s H'. apply M. eapply Occ_elem; eauto. }
  clear S M. induction l as [|j l IH]; cbn [d_all]; [discriminate|].
  destruct (L j (or_introl eq_refl)). apply jbind_safe; auto. intros a. apply jbind_safe; auto with safe.
  apply IH. intros j' I. apply L. now right.
Qed.
Lemma entries_safe {A} n (d : json -> jres A) o : safe n d -> sobj n o -> d_entries d o <> JPanic.
Proof.
  intros G. induction o as [|[k j] o IH]; intros O; cbn [d_entries]; [discriminate|].
  destruct (O k j (or_introl eq_refl)) as (S & M & _). apply jbind_safe; auto.
  intros a. apply jbind_safe; auto with safe. apply IH. intros k' j' I. apply (O k' j'). now right.
Qed.
Lemma map_safe {A} n (d : json -> jres A) : safe n d -> safe n (d_map d).
Proof.
  intros G j S M. destruct j; try discriminate. cbn [d_map]. apply jbind_safe; auto with safe.
  eapply entries_safe; eauto. now apply sobj_less.
Qed.
Lemma bool_safe n : safe n d_bool.
Proof. intros [] _ _; discriminate. Qed.
Lemma str_safe n : safe n d_str.
Proof. intros [] _ _; discriminate. Qed.
Lemma ostr_safe n : safe n d_ostr.
Proof. apply option_safe, str_safe. Qed.
Lemma int_safe n a b : safe n (d_int a b).
Proof. intros [] _ _; try discriminate. cbn [d_int]. destruct (inr _ _ _); discriminate. Qed.
Lemma f32_safe n : safe n d_f32.
Proof. intros [] _ _; discriminate. Qed.
Lemma num_safe n k : safe n (d_num k).
Proof. destruct k; first [apply int_safe | intros [] _ _; discriminate]. Qed.
Lemma hex_safe n : safe n d_hex.
Proof.
  intros [] _ _; try discriminate. cbn [d_hex].
  assert (H : forall m s, (List.length s <= m)%nat -> hex_bytes s <> JPanic).
  { induction m as [|m IH]; intros [|a [|b r]] L; cbn [hex_bytes List.length] in *; try discriminate; try lia.
    destruct (hex_val a), (hex_val b); try discriminate. apply jbind_safe; auto with safe. apply IH. lia. }
  eapply H. reflexivity.
Qed.
Lemma name_safe n l : safe n (d_name l).
Proof.
  intros [| | | |s| |] _ _; try discriminate. cbn [d_name]. generalize 0 as i.
  induction l as [|a l IH]; intros i; cbn [index_of]; [discriminate|]. destruct (str_eqb s a); [discriminate|auto].
Qed.
Lemma index_safe s l i : index_of s l i <> JPanic.
Proof. revert i. induction l as [|a l IH]; intros i; cbn [index_of]; [discriminate|]. destruct (str_eqb s a); [discriminate|auto]. Qed.
Lemma tag_safe n l : safe n (d_tag l).
Proof.
  intros [| |z| | | |] S M; try exact (name_safe n l _ S M). cbn [d_tag]. destruct (inr _ _ _); discriminate.
Qed.
Lemma unit_safe n b l : safe n (d_unit b l).
Proof.
  intros [| | | | | |[|[k v] [|e o]]] S M; try exact (name_safe n l _ S M).
  - cbn [d_unit]. destruct v as [| | | | | |[|e o]]; try discriminate; [|destruct b]; try discriminate; apply index_safe.
  - cbn [d_unit]. destruct v as [| | | | | |[|e' o']]; discriminate.
Qed.
Lemma guid_safe n : safe n d_guid.
Proof.
  intros j _ M. destruct j; try discriminate. cbn [d_guid]. unfold d_guidstr.
  specialize (M s (Occ_str s)). destruct (guid_parse s); [discriminate|discriminate|easy].
Qed.
Lemma u8byte_safe n : safe n d_u8byte.
Proof. intros j S M. unfold d_u8byte. apply jbind_safe; auto with safe. eapply int_safe; eauto. Qed.
#[local] Hint Resolve bool_safe str_safe ostr_safe int_safe f32_safe num_safe hex_safe name_safe tag_safe unit_safe guid_safe
  u8byte_safe list_safe map_safe need_safe dflt_safe opt_safe : safe.
Ltac go n O := repeat match goal with
  | |- jbind _ _ <> JPanic => apply jbind_safe; [|intros ?]
  | |- d_once _ _ _ <> JPanic => apply d_once_safe
  | |- JOk _ <> JPanic => discriminate
  | |- JErr <> JPanic => discriminate
  | |- need _ _ _ <> JPanic => apply need_safe with (n := n); [|exact O]
  | |- dflt _ _ _ _ <> JPanic => apply dflt_safe with (n := n); [|exact O]
  | |- opt _ _ _ <> JPanic => apply opt_safe with (n := n); [|exact O]
  end; auto with safe.
Lemma numfmt_safe n : safe n d_numfmt.
Proof.
  intros j S M. destruct j; try discriminate. cbn [d_numfmt]. pose proof (sobj_less _ _ S M) as O.
  go n O; apply int_safe.
Qed.
Lemma ticks_safe n : safe n d_ticks.
Proof.
  apply struct_safe; [reflexivity|]. intros o O. go n O; apply int_safe.
Qed.
Lemma hname_safe n : safe n d_hname.
Proof. intros [] _ _; try discriminate; cbn [d_hname]; [destruct (inr _ _ _)|destruct (find _ _)]; discriminate. Qed.
Lemma pname_safe n : safe n d_pname.
Proof. intros [] _ _; try discriminate; cbn [d_pname]; [destruct (inr _ _ _)|destruct (find _ _)]; discriminate. Qed.
#[local] Hint Resolve numfmt_safe ticks_safe hname_safe pname_safe : safe.
Lemma hist_safe n dt da o : safe n dt -> safe n da -> sobj n o -> d_hist dt da o <> JPanic.
Proof.
  intros GT GA O. unfold d_hist. apply d_once_safe, jbind_safe; [go n O|]. intros h. apply d_once_safe.
  destruct h; go n O; apply unit_safe.
Qed.
Lemma argv_safe n dt k j : safe n dt -> (jsize j < n)%nat -> mild j -> d_argv dt k j <> Some JPanic.
Proof.
  intros GT S M. unfold d_argv.
  repeat (destruct (str_eqb k _); [intros X; injection X as X; revert X; apply jbind_safe; auto with safe;
    first [eapply GT; eassumption | eapply int_safe; eassumption | eapply (num_safe n F32); eassumption
          |eapply (num_safe n F64); eassumption]|]). discriminate.
Qed.
Lemma text_safe n : safe n d_text /\ safe n d_arg.
Proof.
  induction n as [|n [GT GA]]; [split; intros j S; lia|]. split; intros j S M.
  - destruct j; try discriminate. rewrite d_text_eq. pose proof (sobj_from _ _ S M) as O.
    apply d_once_safe, jbind_safe; [go n O; apply int_safe|]. intros f. apply jbind_safe; auto with safe.
    eapply hist_safe; eauto.
  - destruct j; try discriminate. destruct l as [|[k v] [|? ?]]; try discriminate. rewrite d_arg_eq.
    pose proof (sobj_from _ _ S M) as O. destruct (O k v (or_introl eq_refl)) as (S' & M' & _).
    pose proof (argv_safe n d_text k v GT S' M'). cbn [single].
    destruct (d_argv d_text k v); congruence.
Qed.
Lemma fields_safe n o names : forall ks, sobj n o -> d_fields names ks o <> JPanic.
Proof.
  induction names as [|m names IH]; intros [|k ks] O; cbn [d_fields]; try discriminate. go n O.
Qed.
Section PropSafe.
Context (hp : hashing).
Lemma svariant_safe n dp k j : safe n dp -> (jsize j < n)%nat -> mild j -> d_svariant dp k j <> Some JPanic.
Proof.
  intros G S M. unfold d_svariant. destruct (find _ fixeds) as [x|].
  - intros X. injection X as X. revert X. apply (struct_safe n); auto; [now destruct x|].
    intros o O. apply jbind_safe; auto with safe. eapply fields_safe; eauto.
  - repeat (destruct (str_eqb k _); [intros X; injection X as X; revert X; apply jbind_safe; auto with safe|]); try discriminate.
    + eapply guid_safe; eauto.
    + eapply list_safe; eauto using str_safe.
    + eapply map_safe; [apply list_safe, G| |]; eauto.
Qed.
Lemma flat_safe {A} (f : str -> json -> option (jres A)) o : (forall k v, In (k, v) o -> f k v <> Some JPanic) ->
  flat f o <> JPanic.
Proof.
  induction o as [|[k v] o IH]; cbn [flat]; [discriminate|]. intros H.
  pose proof (H k v (or_introl eq_refl)). destruct (f k v) as [r|]; [congruence|].
  apply IH. intros k' v' I. apply H. now right.
Qed.
Lemma besides_safe {A} (f : str -> json -> option (jres A)) t o :
  (forall k v, In (k, v) o -> f k v <> Some JPanic) -> single (besides f t o) <> JPanic.
Proof.
  intros H. assert (F : Forall (fun r => r <> Some JPanic) (besides f t o)).
  { induction o as [|[k v] o IH]; cbn [besides]; [constructor|].
    assert (Forall (fun r => r <> Some JPanic) (besides f t o)) by (apply IH; intros; apply H; now right).
    destruct (str_eqb k t); auto. constructor; auto. apply H. now left. }
  destruct (besides f t o) as [|[r|] [|? ?]]; cbn [single]; try discriminate.
  inversion F; subst. congruence.
Qed.
Lemma sval_safe n dp : safe n dp -> safe n (d_sval dp).
Proof.
  intros G j S M. destruct j; try discriminate. cbn [d_sval]. pose proof (sobj_less _ _ S M) as O.
  destruct l as [|[k j] [|? ?]]; try discriminate. cbn [single].
  destruct (O k j (or_introl eq_refl)) as (S' & J' & _).
  pose proof (svariant_safe n dp k j G S' J'). destruct (d_svariant dp k j); congruence.
Qed.
Lemma pair_safe {A} n (dp : json -> jres A) : safe n dp -> safe n (d_pair dp).
Proof.
  intros G j S M. destruct j as [| | | | |l|]; try discriminate. cbn [d_pair].
  destruct l as [|a [|b [|? ?]]]; try discriminate.
  pose proof (arr_smaller a [a; b] (or_introl eq_refl)).
  pose proof (arr_smaller b [a; b] (or_intror (or_introl eq_refl))).
  apply jbind_safe; [|intros x; apply jbind_safe; [|discriminate]]; apply G; try lia; intros s H'; apply M.
  - apply Occ_elem with (v := a); [now left|auto].
  - apply Occ_elem with (v := b); [right; now left|auto].
Qed.
Lemma delegate_safe n : safe n d_delegate.
Proof.
  apply struct_safe; [reflexivity|]. intros o O. go n O.
Qed.
Lemma delegates_safe n : safe n d_delegates.
Proof.
  apply struct_safe; [reflexivity|]. intros o O. go n O.
  apply list_safe, delegate_safe.
Qed.
Lemma path_safe n : safe n d_path.
Proof.
  apply struct_safe; [reflexivity|]. intros o O. go n O.
Qed.
Lemma first_safe {A} (l : list (jres A)) : Forall (fun r => r <> JPanic) l -> first_of l <> JPanic.
Proof. induction 1 as [|[x| |] l H _ IH]; cbn [first_of]; try discriminate; auto. Qed.
#[local] Hint Resolve sval_safe pair_safe delegate_safe delegates_safe path_safe : safe.
Lemma array_safe n dp o : safe n dp -> sobj n o -> d_array dp o <> JPanic.
Proof.
  intros G O. apply first_safe. repeat apply Forall_cons; try apply Forall_nil; go n O; apply list_safe; auto with safe.
  apply int_safe.
Qed.
Lemma mapp_safe n dp o : safe n dp -> sobj n o -> d_mapp hp dp o <> JPanic.
Proof.
  intros G O. apply first_safe. unfold d_mbool, d_mint, d_mprop.
  repeat apply Forall_cons; try apply Forall_nil; go n O; try apply map_safe; try apply int_safe.
Qed.
Lemma simple_safe n ty o : sobj n o -> d_simple ty o <> JPanic.
Proof. intros O. destruct ty; cbn [d_simple]; go n O; apply int_safe. Qed.
Lemma prop_safe n : safe n (d_prop hp).
Proof.
  induction n as [|n G]; [intros j S; lia|]. intros j S M. destruct j as [| | | | |l|o]; try discriminate.
  - pose proof (arr_mild _ _ S M) as L. destruct l as [|x l]; [discriminate|]. cbn [d_prop].
    assert (B : forall ty, listed (prop_fields ty) (d_simple ty) l <> JPanic).
    { intros ty. apply (listed_safe n); [now destruct ty|intros j I; apply L; now right|].
      intros o O. eapply simple_safe; eauto. }
    apply jbind_safe; [eapply pname_safe; now apply L; left|]. intros ty.
    pose proof (B ty) as Bt. destruct ty; try exact Bt.
    destruct l as [|a [|b [|c [|d l]]]]; try exact Bt.
    destruct (L a) as [Sa Ma]; [cbn; auto|]. destruct (L b) as [Sb Mb]; [cbn; auto|].
    destruct (L c) as [Sc Mc]; [cbn; auto|].
    apply jbind_safe; [now apply (str_safe n)|]. intros ?. apply jbind_safe; [now apply (int_safe n)|]. intros ?.
    apply jbind_safe; [now apply (list_safe n)|]. discriminate.
  - pose proof (sobj_from _ _ S M) as O. cbn [d_prop]. apply d_once_safe. apply jbind_safe; [go n O|]. intros ty.
    apply d_once_safe. destruct ty; try (eapply simple_safe; exact O); go n O; try apply int_safe.
    + apply flat_safe. intros k v I. unfold d_bytev. destruct (O _ _ I) as (S' & M' & _).
      repeat (destruct (str_eqb k _); [intros X; injection X as X; revert X; apply jbind_safe; auto with safe;
        first [eapply u8byte_safe | eapply str_safe]; eassumption|]). discriminate.
    + eapply (proj1 (text_safe (Datatypes.S n))); eauto.
    + eapply array_safe; eauto.
    + eapply mapp_safe; eauto.
    + apply flat_safe. intros k v I. destruct (O _ _ I) as (S' & M' & _). eapply svariant_safe; eauto.
    + apply besides_safe. intros k v I. destruct (O _ _ I) as (S' & M' & _). eapply svariant_safe; eauto.
Qed.
Lemma property_safe n : safe n (d_property hp).
Proof. intros j S M. unfold d_property. destruct (tag_number j); [discriminate|]. now apply (prop_safe n). Qed.
Lemma engine_safe n : safe n d_engine.
Proof.
  apply struct_safe; [reflexivity|]. intros o O. go n O; apply int_safe.
Qed.
Lemma guidkeys_safe (l : list (str * Z)) : Forall (fun e => guid_parse (fst e) <> Panicked) l ->
  d_guidkeys l <> JPanic.
Proof.
  induction 1 as [|[k v] l H _ IH]; cbn [d_guidkeys fst] in *; [discriminate|].
  apply jbind_safe.
  - unfold d_guidstr. destruct (guid_parse k); [discriminate|discriminate|easy].
  - intros g. apply jbind_safe; auto with safe.
Qed.
Lemma entries_keys {A} (d : json -> jres A) o l : d_entries d o = JOk l -> map fst l = map fst o.
Proof.
  revert l. induction o as [|[k j] o IH]; intros l; cbn [d_entries]; intros X.
  - injection X as <-. reflexivity.
  - apply jbind_ok in X as (a & _ & X). apply jbind_ok in X as (q & Q & X). injection X as <-.
    cbn [map fst]. now rewrite (IH q).
Qed.
Lemma versions_safe n : safe n d_versions.
Proof.
  intros j S M. destruct j as [| | | | | |o]; try discriminate. cbn [d_versions].
  pose proof (sobj_less _ _ S M) as O.
  destruct (d_entries d_u32 o) as [l| |] eqn:E; cbn [jbind]; [|discriminate|].
  - apply jbind_safe; auto with safe. apply guidkeys_safe. apply entries_keys in E.
    apply Forall_forall. intros e I. assert (K : In (fst e) (map fst o)) by (rewrite <- E; now apply in_map).
    apply in_map_iff in K as ([k v] & K & I'). cbn [fst] in K. rewrite <- K. now apply (O k v).
  - exfalso. revert E. eapply entries_safe; eauto. apply int_safe.
Qed.
Lemma header_safe n : safe n d_header.
Proof.
  assert (V : forall t o, sobj n o -> d_version t o <> JPanic).
  { intros t o O. unfold d_version. go n O; try apply int_safe; try apply engine_safe; try apply versions_safe.
    destruct (_ =? 0); go n O. apply int_safe. }
  intros j S M. destruct j as [| | | | |l|o]; try discriminate; cbn [d_header]; cbv zeta.
  - destruct l as [|x l]; [discriminate|].
    assert (L : forall j, In j (x :: l) -> (jsize j < n)%nat /\ mild j) by (apply arr_mild; auto).
    apply jbind_safe; [eapply name_safe; now apply L; left|]. intros t.
    apply (listed_safe n); auto; [unfold header_fields; now destruct (t =? 0)|].
    intros j I. apply L. now right.
  - pose proof (sobj_less _ _ S M) as O. go n O.
Qed.
Lemma dversion_safe n : safe n d_dversion.
Proof.
  intros j S M.
  assert (U : (_z <~ d_name [s2z "Default"] j ;; JOk DDefault) <> JPanic)
    by (apply jbind_safe; auto with safe; eapply name_safe; eauto).
  destruct j as [| | | |s| |[|[k v] [|? ?]]]; try exact U. cbn [d_dversion].
  destruct (str_eqb k _).
  - apply jbind_safe; auto with safe. unfold d_ctype. apply jbind_safe; auto with safe.
    eapply (unit_safe (jsize v + 1)); [lia|]. intros x H'. apply M. eapply Occ_val; eauto. now left.
  - apply jbind_safe; auto with safe. eapply unit_safe; eauto.
Qed.
Lemma file_safe j : from_json hp j = JPanic -> exists s, occurs s j /\ guid_parse s = Panicked.
Proof.
  intros X.
  assert (D : forall s, {guid_parse s = Panicked} + {guid_parse s <> Panicked}).
  { intros s. destruct (guid_parse s); [right|right|left]; congruence. }
  (* the strings of a value form a list *)
  assert (L : exists l, forall s, occurs s j <-> In s l).
  { clear - j. assert (W : forall n j, (jsize j < n)%nat -> exists l, forall s, occurs s j <-> In s l).
    { induction n as [|n IH]; [lia|]. clear j. intros j S. destruct j as [|b|z|z|s|l|o].
      1-4: exists []; intros s; split; [intros H; inversion H|easy].
      - exists [s]. intros t. split; [intros H; inversion H; now left|]. intros [<-|[]]. constructor.
      - assert (A : forall l, (forall j, In j l -> (jsize j < n)%nat) -> exists r, forall s, occurs s (JArr l) <-> In s r).
        { clear l S. induction l as [|j l IHl]; intros B.
          - exists []. intros s. split; [intros H; inversion H; easy|easy].
          - destruct (IH j (B j (or_introl eq_refl))) as [r1 R1].
            destruct IHl as [r2 R2]; [intros; apply B; now right|]. exists (r1 ++ r2). intros s.
            rewrite in_app_iff, <- R1, <- R2. split.
            + intros H. inversion H as [|? ? ?|? ? ? ?|? v I Hv]; subst. destruct I as [->|I]; [now left|right].
              eapply Occ_elem; eauto.
            + intros [H|H]; [apply Occ_elem with (v := j); [now left|auto]|].
              inversion H as [|? ? ?|? ? ? ?|? v I Hv]; subst. apply Occ_elem with (v := v); [now right|auto]. }
        apply A. intros j I. pose proof (arr_smaller _ _ I). lia.
      - assert (A : forall o, (forall k j, In (k, j) o -> (jsize j < n)%nat) -> exists r, forall s, occurs s (JObj o) <-> In s r).
        { clear o S. induction o as [|[k j] o IHo]; intros B.
          - exists []. intros s. split; [intros H; inversion H; easy|easy].
          - destruct (IH j (B k j (or_introl eq_refl))) as [r1 R1].
            destruct IHo as [r2 R2]; [intros; eapply B; right; eauto|]. exists (k :: r1 ++ r2). intros s.
            cbn [In]. rewrite in_app_iff, <- R1, <- R2. split.
            + intros H. inversion H as [|? v I|? k' v I Hv|? ? ?]; subst.
              * destruct I as [E|I]; [injection E as -> ->; now left|right; right; eapply Occ_key; eauto].
              * destruct I as [E|I]; [injection E as -> ->; auto|right; right; eapply Occ_val; eauto].
            + intros [<-|[H|H]]; [apply Occ_key with (v := j); now left|apply Occ_val with (k := k) (v := j); [now left|auto]|].
              inversion H as [|? v I|? k' v I Hv|? ? ?]; subst.
              * apply Occ_key with (v := v). now right.
              * apply Occ_val with (k := k') (v := v); [now right|auto]. }
        apply A. intros k j I. pose proof (obj_smaller _ _ _ I). lia. }
    apply (W (Datatypes.S (jsize j))). lia. }
  destruct L as [l L].
  destruct (Exists_dec (fun s => guid_parse s = Panicked) l D) as [E|E].
  - apply Exists_exists in E as (s & I & P). exists s. split; [now apply L|exact P].
  - revert X. enough (from_json hp j <> JPanic) by congruence. assert (M : mild j).
    { intros s H P. apply E. apply Exists_exists. exists s. split; [now apply L|exact P]. }
    apply (struct_safe (Datatypes.S (jsize j))); auto. intros o O.
    revert O. generalize (Datatypes.S (jsize j)) as n. intros n O.
    go n O; first [apply dversion_safe|apply header_safe|apply map_safe, property_safe].
Qed.
End PropSafe.
