(** Files moved to other custom versions (C69). *)
From Coq Require Import ZArith List Bool String Lia ZifyBool ZifyNat.
From Verif Require Import Base Str Types Versions VersionTables Text Props File Spec BaseFacts ReaderFacts StrFacts
  Decode KindFacts DecodeProp DecodeFile Induct RoundTrip GateThm AcceptFile WholeSave EqFacts.
Import ListNotations.
Open Scope Z_scope.

(** ** Specification *)

(** [n] is what the table says about [g]; a table that says nothing says 0. *)
Definition says (vs : list (guid * Z)) (g : guid) (n : Z) : Prop :=
  In (g, n) vs \/ n = 0 /\ forall m, ~ In (g, m) vs.
(** What the place asks of the number given for FUE5ReleaseStreamObjectVersion. *)
Definition wants (n : Z) (l : leaf) : Prop :=
  match l with
  | LFixed x => (In x singles -> n < 28) /\ (In x doubles -> 28 <= n)
  | LArg false => n < 12
  | LArg true => 12 <= n
  | LBare => False
  end.

(** ** Tables *)
Lemma says_get vs g n : distinct guid_eqb vs = true -> says vs g n -> get_version vs g = n.
Proof.
  intros D [I|[-> N]]; unfold get_version.
  - now rewrite (lookup_in _ _ _ D I).
  - destruct (lookup guid_eqb g vs) as [m|] eqn:E; [|reflexivity]. apply in_lookup in E. destruct (N m E).
Qed.
Lemma says_some vs g : exists n, says vs g n.
Proof.
  destruct (lookup guid_eqb g vs) as [n|] eqn:E; [exists n; left; now apply in_lookup|]. exists 0. right. split; [reflexivity|].
  induction vs as [|[g' v] vs IH]; intros m I; [destruct I|]. cbn [lookup] in E. destruct (guid_eqb g g') eqn:X; [discriminate|].
  destruct I as [I|I]; [injection I as -> ->; now rewrite guid_eqb_refl in X|]. exact (IH E m I).
Qed.
Lemma wants_iff vs n ls : distinct guid_eqb vs = true -> says vs ue5_guid n ->
  (forall l, In l ls -> wants n l) <->
  (forall x, In (LFixed x) ls -> precision_ok (has_lwc vs) x = true) /\ ~ In (LArg (negb (has_arg64 vs))) ls /\ ~ In LBare ls.
Proof.
  intros D S. pose proof (says_get _ _ _ D S) as G.
  assert (HL : has_lwc vs = (28 <=? n)) by (unfold has_lwc, supports; now rewrite G).
  assert (HA : has_arg64 vs = (12 <=? n)) by (unfold has_arg64, supports; now rewrite G).
  rewrite HL, HA. split.
  - intros H. split; [|split].
    + intros x I. pose proof (H _ I) as [A B]. destruct (28 <=? n) eqn:E; destruct x; cbn [precision_ok negb]; try reflexivity; exfalso.
      all: first [pose proof (A ltac:(cbn; tauto))|pose proof (B ltac:(cbn; tauto))]; lia.
    + intros I. pose proof (H _ I) as A. destruct (12 <=? n) eqn:E; cbn [negb wants] in A; lia.
    + intros I. exact (H _ I).
  - intros (A & B & C) l I. destruct l as [x|[]|]; cbn [wants].
    + pose proof (A x I) as P. destruct (28 <=? n) eqn:E; destruct x; cbn [precision_ok negb] in P; try discriminate P;
        split; intros J; cbn [singles doubles In] in J; try lia; exfalso; intuition congruence.
    + destruct (12 <=? n) eqn:E; [lia|]. contradiction.
    + destruct (12 <=? n) eqn:E; [contradiction|lia].
    + contradiction.
Qed.
Lemma saves_iff h ps n : distinct guid_eqb (h_versions h) = true -> says (h_versions h) ue5_guid n ->
  (exists b, save_plain (h, ps) = Ok b) <-> (forall l, In l (file_leaves (h, ps)) -> wants n l).
Proof. intros D S. rewrite (wants_iff _ _ _ D S). apply (save_ok_iff (h, ps)). Qed.

(** Which contents can be saved under some table at all. *)
Definition mixed (ls : list leaf) : Prop :=
  In LBare ls
  \/ (exists x y, In (LFixed x) ls /\ In x singles /\ In (LFixed y) ls /\ In y doubles)
  \/ In (LArg false) ls /\ In (LArg true) ls
  \/ In (LArg false) ls /\ (exists y, In (LFixed y) ls /\ In y doubles).
Lemma wants_some ls : (exists n, 0 <= n < 4294967296 /\ forall l, In l ls -> wants n l) <-> ~ mixed ls.
Proof.
  split.
  - intros (n & R & H) [I|[(x & y & I & S & J & T)|[[I J]|[I (y & J & T)]]]].
    + exact (H _ I).
    + pose proof (proj1 (H _ I) S). pose proof (proj2 (H _ J) T). lia.
    + pose proof (H _ I). pose proof (H _ J). cbn [wants] in *. lia.
    + pose proof (H _ I). pose proof (proj2 (H _ J) T). cbn [wants] in *. lia.
  - intros N.
    assert (DB : ~ In LBare ls) by (intros I; apply N; left; exact I).
    assert (dec : forall L : list fixed, (exists x, In (LFixed x) ls /\ In x L) \/ forall x, In (LFixed x) ls -> ~ In x L).
    { intros L. assert (EQ : forall a b : fixed, {a = b} + {a <> b}) by decide equality.
      clear. induction ls as [|l ls IH]; [right; intros x []|]. destruct IH as [(x & I & J)|IH]; [left; exists x; split; [now right|exact J]|].
      assert (EQ : forall a b : fixed, {a = b} + {a <> b}) by decide equality.
      destruct l as [x|w|]; [|right; intros y [X|I]; [discriminate|auto]..].
      destruct (in_dec EQ x L) as [I|I]; [left; exists x; split; [now left|exact I]|].
      right. intros y [X|J]; [injection X as <-; exact I|auto]. }
    assert (decl : forall w, In (LArg w) ls \/ ~ In (LArg w) ls).
    { intros w. assert (EQ : forall a b : leaf, {a = b} + {a <> b}) by (decide equality; decide equality).
      destruct (in_dec EQ (LArg w) ls); auto. }
    assert (ok : forall n, (forall x, In (LFixed x) ls -> (In x singles -> n < 28) /\ (In x doubles -> 28 <= n)) ->
                 (In (LArg false) ls -> n < 12) -> (In (LArg true) ls -> 12 <= n) -> forall l, In l ls -> wants n l).
    { intros n A B C l I. destruct l as [x|[]|]; cbn [wants]; auto. }
    destruct (dec doubles) as [(y & J & T)|ND].
    + exists 28. split; [lia|]. apply ok.
      * intros x I. split; [|lia]. intros S. exfalso. apply N. right. left. exists x, y. auto.
      * intros I. exfalso. apply N. right. right. right. split; [exact I|]. exists y. auto.
      * lia.
    + destruct (decl true) as [I|I].
      * exists 12. split; [lia|]. apply ok; try lia.
        -- intros x J. split; [lia|]. intros T. destruct (ND x J T).
        -- intros J. exfalso. apply N. right. right. left. auto.
      * exists 0. split; [lia|]. apply ok; try lia; [|contradiction].
        intros x J. split; [lia|]. intros T. destruct (ND x J T).
Qed.

(** ** Contents stay representable *)
Ltac use := repeat match goal with H : ?b = true |- context [?b] => rewrite H end; cbn [andb negb]; try reflexivity.
Section Move.
Context (o : opts) (vs vs' : list (guid * Z)).
Notation cu := (has_culture vs').
Definition suits (ls : list leaf) : Prop :=
  (forall x, In (LFixed x) ls -> precision_ok (has_lwc vs') x = true) /\ (forall w, In (LArg w) ls -> has_arg64 vs' = w).
Lemma suits_app a b : suits (a ++ b) -> suits a /\ suits b.
Proof. intros [A B]. split; split; intros; auto using in_or_app. Qed.
Lemma suits_in {A} (f : A -> list leaf) l a : suits (flat_map f l) -> In a l -> suits (f a).
Proof. intros [P Q] I. split; intros; [apply P|apply Q]; apply in_flat_map; eauto. Qed.

Lemma text_fits_all : (forall t, text_ok vs t = true -> text_fits t = true) /\ (forall h, hist_ok vs h = true -> hist_fits h = true)
  /\ (forall a, arg_ok vs a = true -> arg_fits a = true).
Proof.
  apply text_all; cbn [text_ok hist_ok arg_ok text_fits hist_fits arg_fits]; intros; andbs;
    repeat match goal with H : ?b = true -> _ = true |- _ => specialize (H ltac:(assumption)) end;
    repeat match goal with H : ?b = true |- context [?b] => rewrite H end; try reflexivity.
  all: cbn [andb]; apply forallb_forall; intros e I;
    match goal with F : Forall _ ?l, P : forallb _ ?l = true |- _ => rewrite Forall_forall in F; specialize (F e I); rewrite forallb_forall in P; specialize (P e I) end.
  all: try (destruct e as [k v]; cbn [snd] in *; andbs; rewrite H by assumption; now match goal with X : str_ok k = true |- _ => rewrite X end).
  all: auto.
  all: destruct e as [k v]; cbn [snd] in *; andbs; match goal with X : str_ok k = true |- _ => rewrite X end; auto.
Qed.
Lemma text_moves t : text_ok vs t = true -> suits (text_leaves t) -> text_ok vs' (strip_text cu t) = true.
Proof. intros H [_ W]. apply (proj1 (fits_ok_all vs')); [now apply (proj1 text_fits_all)|exact W]. Qed.

(** Stripping changes texts only. *)
Lemma strip_type p : type_of (strip cu p) = type_of p.
Proof. apply (proj1 (strip_types vs')). Qed.
Lemma strip_selfsized p : self_sized (strip cu p) = self_sized p. Proof. now destruct p. Qed.
Lemma strip_nullkey p : null_key (strip cu p) = null_key p. Proof. now destruct p. Qed.
Lemma strip_index p : field_index (strip cu p) = field_index p. Proof. now destruct p. Qed.
Lemma strip_isbyte p : is_byte (strip cu p) = is_byte p. Proof. now destruct p. Qed.
Lemma strip_isnamed p : is_named (strip cu p) = is_named p. Proof. now destruct p. Qed.
Lemma strip_israw n p : is_raw n (strip cu p) = is_raw n p. Proof. now destruct p. Qed.
Lemma forallb_strip (f : property -> bool) l : (forall p, f (strip cu p) = f p) -> forallb f (map (strip cu) l) = forallb f l.
Proof. intros H. induction l; cbn [map forallb]; [reflexivity|]. now rewrite H, IHl. Qed.
Lemma existsb_strip (f : property -> bool) l : (forall p, f (strip cu p) = f p) -> existsb f (map (strip cu) l) = existsb f l.
Proof. intros H. induction l; cbn [map existsb]; [reflexivity|]. now rewrite H, IHl. Qed.
Lemma strip_uniform l : uniform (map (strip cu) l) = uniform l.
Proof.
  destruct l as [|p l]; [reflexivity|].
  destruct p; try reflexivity.
  - destruct v; cbn [map strip uniform]; cbn [forallb is_byte is_named]; f_equal; apply forallb_strip; auto using strip_isbyte, strip_isnamed.
  - cbn [map strip uniform]. cbn [forallb]. f_equal. apply forallb_strip. intros. apply strip_israw.
Qed.
Lemma strip_indices l : forall i, indices_ok i (map (strip cu) l) = indices_ok i l.
Proof. induction l; intros i; cbn [map indices_ok]; [reflexivity|]. now rewrite strip_index, IHl. Qed.

(** Keys that stay apart. *)
Definition apart (p : property) : Prop := strip cu p = p \/ uniq (strip cu p) = true.
Definition apart_s (v : svalue) : Prop := strip_sval cu v = v \/ uniq_sval (strip_sval cu v) = true.
Definition apart_a (a : arrayp) : Prop := strip_array cu a = a \/ uniq_array (strip_array cu a) = true.
Definition apart_m (m : mapp) : Prop := strip_map cu m = m \/ uniq_map (strip_map cu m) = true.
Lemma map_fix {A} (g : A -> A) l : map g l = l -> forall a, In a l -> g a = a.
Proof. induction l as [|b l IH]; cbn [map]; intros E a I; [destruct I|]. injection E as E1 E2. destruct I as [<-|I]; auto. Qed.
Lemma forallb_all {A} (f : A -> bool) l : forallb f l = true -> forall a, In a l -> f a = true.
Proof. apply forallb_forall. Qed.
Lemma distinct_eqv l : distinct eqv l = true -> distinct same (l : list (property * property)) = true.
Proof.
  induction l as [|[k v] l IH]; cbn [distinct]; [reflexivity|]. intros H. andbs. rewrite IH by assumption. rewrite andb_true_r.
  apply forallb_forall. intros e I. match goal with F : forallb _ l = true |- _ => pose proof (forallb_all _ _ F e I) as X end.
  cbv beta in X. destruct (same (fst e) k) eqn:E; [|reflexivity]. apply same_eqv in E. rewrite E in X. discriminate.
Qed.

Ltac all_in := apply forallb_forall; intros ? I0; apply in_map_iff in I0 as (? & <- & I0);
  match goal with F : Forall _ ?l, I : In _ ?l |- _ => rewrite Forall_forall in F; specialize (F _ I) end.

Lemma moves_all :
  (forall p hdr path, wf_prop o vs same hdr path p = true -> suits (leaves hdr p) -> apart p -> wf_prop o vs' same hdr path (strip cu p) = true)
  /\ (forall v path ty, wf_sval o vs same path ty v = true -> suits (sval_leaves v) -> apart_s v -> wf_sval o vs' same path ty (strip_sval cu v) = true)
  /\ (forall a path, wf_array o vs same path a = true -> suits (array_leaves a) -> apart_a a -> wf_array o vs' same path (strip_array cu a) = true)
  /\ (forall m path, wf_map o vs same path m = true -> suits (map_leaves m) -> apart_m m -> wf_map o vs' same path (strip_map cu m) = true).
Proof.
  apply prop_all; intros; cbn [wf_prop wf_sval wf_array wf_map strip strip_sval strip_array strip_map leaves sval_leaves array_leaves map_leaves] in *;
    try assumption; andbs; unfold count32, count31 in *; rewrite ?len_map, ?strip_uniform, ?distinct_map; use.
  - now apply text_moves.
  - apply H; auto. destruct H2 as [E|E]; cbn [strip uniq] in E; [left; congruence|right; exact E].
  - all_in. match goal with F : forallb _ l = true |- _ => pose proof (forallb_all _ _ F _ I0) as X end. cbv beta in X. andbs.
    rewrite strip_type. use. apply H; [assumption|eapply suits_in in H1; eauto|].
    destruct H2 as [E|E]; cbn [strip uniq] in E; [left; injection E as E; exact (map_fix _ _ E _ I0)|right; apply (forallb_all _ _ E), in_map, I0].
  - apply H; auto. destruct H2 as [E|E]; cbn [strip uniq] in E; [left; congruence|right; exact E].
  - apply H; auto. destruct H2 as [E|E]; cbn [strip uniq] in E; [left; congruence|right; exact E].
  - destruct (hints o _) as [ty|]; [|discriminate]. apply suits_app in H1 as [_ H1].
    apply H; auto. destruct H2 as [E|E]; cbn [strip uniq] in E; [left; congruence|right; exact E].
  - rewrite (proj1 H0 x (or_introl eq_refl)). reflexivity.
  - apply forallb_forall. intros e I0. apply in_map_iff in I0 as ([k ps] & <- & I0). rewrite Forall_forall in H. specialize (H _ I0). cbn [snd] in H.
    match goal with F : forallb _ l = true |- _ => pose proof (forallb_all _ _ F _ I0) as X end. cbv beta iota in X. andbs.
    rewrite len_map, strip_indices. use. apply forallb_forall. intros q J. apply in_map_iff in J as (p & <- & J).
    rewrite Forall_forall in H. specialize (H _ J). apply H.
    + match goal with F : forallb _ ps = true |- _ => exact (forallb_all _ _ F _ J) end.
    + eapply suits_in in H1; [|exact I0]. cbn [snd] in H1. eapply suits_in in H1; eauto.
    + destruct H2 as [E|E]; cbn [strip_sval uniq_sval] in E.
      * left. injection E as E. pose proof (map_fix _ _ E _ I0) as X. cbv beta iota in X. injection X as X. exact (map_fix _ _ X _ J).
      * right. andbs. match goal with F : forallb _ (map _ l) = true |- _ => pose proof (forallb_all _ _ F _ (in_map _ _ _ I0)) as X end.
        cbn [snd] in X. apply (forallb_all _ _ X), in_map, J.
  - all_in. match goal with F : forallb _ l = true |- _ => pose proof (forallb_all _ _ F _ I0) as X end. apply H; [exact X|eapply suits_in in H1; eauto|].
    destruct H2 as [E|E]; cbn [strip_array uniq_array] in E; [left; injection E as E; exact (map_fix _ _ E _ I0)|right; apply (forallb_all _ _ E), in_map, I0].
  - rewrite existsb_strip by (intros; apply strip_isnamed). use. all_in. match goal with F : forallb _ l = true |- _ => pose proof (forallb_all _ _ F _ I0) as X end. cbv beta in X. andbs.
    rewrite strip_type. use. apply H; [assumption|eapply suits_in in H1; eauto|].
    destruct H2 as [E|E]; cbn [strip_array uniq_array] in E; [left; injection E as E; exact (map_fix _ _ E _ I0)|right; apply (forallb_all _ _ E), in_map, I0].
  - apply forallb_forall. intros e I0. apply in_map_iff in I0 as ([k' v] & <- & I0). rewrite Forall_forall in H. specialize (H _ I0). cbn [snd] in H.
    match goal with F : forallb _ l = true |- _ => pose proof (forallb_all _ _ F _ I0) as X end. cbv beta iota in X. andbs.
    rewrite strip_type, strip_selfsized. use. apply H; [assumption|eapply suits_in in H1; [|exact I0]; exact H1|].
    destruct H2 as [E|E]; cbn [strip_map uniq_map] in E.
    + left. injection E as E. pose proof (map_fix _ _ E _ I0) as X. cbv beta iota in X. congruence.
    + right. andbs. match goal with F : forallb _ (map _ l) = true |- _ => exact (forallb_all _ _ F _ (in_map _ _ _ I0)) end.
  - assert (DS : distinct same (map (fun '(k, v) => (strip cu k, strip cu v)) l) = true).
    { destruct H2 as [E|E]; cbn [strip_map uniq_map] in E; [injection E as E; now rewrite E|]. andbs. now apply distinct_eqv. }
    assert (GN : map_generic kt f (map (fun '(k, v) => (strip cu k, strip cu v)) l) = map_generic kt f l).
    { unfold map_generic. f_equal. clear. induction l as [|[k v] l IH]; cbn [map existsb fst]; [reflexivity|]. now rewrite strip_nullkey, IH. }
    rewrite DS, GN. use. apply forallb_forall. intros e I0. apply in_map_iff in I0 as ([k' v] & <- & I0). rewrite Forall_forall in H. specialize (H _ I0). cbn [fst snd] in H. destruct H as [HK HV].
    match goal with F : forallb _ l = true |- _ => pose proof (forallb_all _ _ F _ I0) as X end. cbv beta iota in X. andbs.
    rewrite !strip_type, !strip_selfsized. use. eapply suits_in in H1; [|exact I0]. cbn [fst snd] in H1. apply suits_app in H1 as [SK SV].
    assert (AP : apart k' /\ apart v).
    { destruct H2 as [E|E]; cbn [strip_map uniq_map] in E.
      - injection E as E. pose proof (map_fix _ _ E _ I0) as X. cbv beta iota in X. injection X as X1 X2. split; left; assumption.
      - andbs. match goal with F : forallb _ (map _ l) = true |- _ => pose proof (forallb_all _ _ F _ (in_map _ _ _ I0)) as X end. cbn [fst snd] in X. andbs. split; right; assumption. }
    rewrite HK, HV by tauto. reflexivity.
Qed.
End Move.

(** ** Keys that no hashing can merge *)
Section Apart.
Context (o : opts) (vs : list (guid * Z)).
Ltac in_all := apply forallb_forall; intros e0 I0;
  repeat match goal with
  | F : Forall _ ?l, I : In ?e ?l |- _ => rewrite Forall_forall in F; specialize (F e I)
  | F : forallb _ ?l = true, I : In ?e ?l |- _ => pose proof (forallb_all _ _ F e I); clear F
  end; try (destruct e0 as [? ?]; cbv beta iota in * ); cbn [fst snd] in *; andbs.
Lemma eqv_of_same :
  (forall p hdr path, wf_prop o vs same hdr path p = true -> uniq p = true -> wf_prop o vs eqv hdr path p = true)
  /\ (forall v path ty, wf_sval o vs same path ty v = true -> uniq_sval v = true -> wf_sval o vs eqv path ty v = true)
  /\ (forall a path, wf_array o vs same path a = true -> uniq_array a = true -> wf_array o vs eqv path a = true)
  /\ (forall m path, wf_map o vs same path m = true -> uniq_map m = true -> wf_map o vs eqv path m = true).
Proof.
  apply prop_all; intros; cbn [wf_prop wf_sval wf_array wf_map uniq uniq_sval uniq_array uniq_map] in *;
    try assumption; andbs; use.
  - auto.
  - in_all. use. apply H; assumption.
  - auto.
  - auto.
  - destruct (hints o _) as [ty|]; [auto|discriminate].
  - in_all. use. apply forallb_forall. intros q J. rewrite Forall_forall in H.
    repeat match goal with F : forallb _ ?l = true, I : In ?e ?l |- _ => pose proof (forallb_all _ _ F e I); clear F end. auto.
  - in_all. auto.
  - in_all. use. auto.
  - in_all. use. auto.
  - in_all. destruct H as [HK HV]. use. rewrite HK, HV by assumption. reflexivity.
Qed.
Lemma text_uniq : (forall t, text_ok vs t = true -> uniq_text t = true) /\ (forall h, hist_ok vs h = true -> uniq_hist h = true)
  /\ (forall a, arg_ok vs a = true -> uniq_arg a = true).
Proof.
  apply text_all; cbn [text_ok hist_ok arg_ok uniq_text uniq_hist uniq_arg]; intros; andbs; auto.
  all: match goal with H : ?b = true -> uniq_text _ = true |- _ => rewrite H by assumption end; use; in_all; auto.
Qed.
Lemma same_of_eqv :
  (forall p hdr path, wf_prop o vs eqv hdr path p = true -> wf_prop o vs same hdr path p = true /\ uniq p = true)
  /\ (forall v path ty, wf_sval o vs eqv path ty v = true -> wf_sval o vs same path ty v = true /\ uniq_sval v = true)
  /\ (forall a path, wf_array o vs eqv path a = true -> wf_array o vs same path a = true /\ uniq_array a = true)
  /\ (forall m path, wf_map o vs eqv path m = true -> wf_map o vs same path m = true /\ uniq_map m = true).
Proof.
  apply prop_all; intros; cbn [wf_prop wf_sval wf_array wf_map uniq uniq_sval uniq_array uniq_map] in *;
    try (split; [assumption|reflexivity]); try (split; [assumption|andbs; assumption]); andbs; use.
  - split; [reflexivity|]. now apply (proj1 text_uniq).
  - eauto.
  - split; in_all; (edestruct H as [HA HB]; [eassumption|]); use; assumption.
  - eauto.
  - eauto.
  - destruct (hints o _) as [ty|]; [eauto|discriminate].
  - split; in_all; use; apply forallb_forall; intros q J; rewrite Forall_forall in H;
      repeat match goal with F : forallb _ ?l = true, I : In ?e ?l |- _ => pose proof (forallb_all _ _ F e I); clear F end; eapply H; eassumption.
  - split; in_all; eapply H; eassumption.
  - split; in_all; (edestruct H as [HA HB]; [eassumption|]); use; assumption.
  - split; in_all; (edestruct H as [HA HB]; [eassumption|]); use; assumption.
  - rewrite distinct_eqv by assumption. use. split; in_all; destruct H as [HK HV]; (edestruct HK as [KA KB]; [eassumption|]); (edestruct HV as [VA VB]; [eassumption|]);
      use; rewrite ?andb_true_r; try assumption; apply andb_true_intro; split; assumption.
Qed.
End Apart.
Lemma file_eqv_iff o f : file_ok o eqv f = true <-> file_ok o same f = true /\ forallb (fun e => uniq (snd e)) (snd f) = true.
Proof.
  unfold file_ok, props_ok. split.
  - intros H. andbs. use. split; apply forallb_forall; intros [k p] I;
      match goal with F : forallb _ (snd f) = true |- _ => pose proof (forallb_all _ _ F _ I) as X end; cbv beta iota in X; andbs;
      match goal with W : wf_prop _ _ _ _ _ _ = true |- _ => destruct (proj1 (same_of_eqv _ _) _ _ _ W) end; use; assumption.
  - intros [H U]. andbs. use. apply forallb_forall. intros [k p] I. pose proof (forallb_all _ _ U _ I) as V. clear U.
    match goal with F : forallb _ (snd f) = true |- _ => pose proof (forallb_all _ _ F _ I) as X end. cbv beta iota in X. cbn [snd] in V. andbs. use.
    apply (proj1 (eqv_of_same _ _)); assumption.
Qed.

Lemma moves o h ps h' b' : file_ok o same (h, ps) = true -> header_ok h' = true -> save_plain (h', ps) = Ok b' ->
  strip_file (h', ps) = (h', ps) \/ forallb (fun e => uniq (snd e)) (snd (strip_file (h', ps))) = true ->
  file_ok o same (strip_file (h', ps)) = true.
Proof.
  intros F H E K. unfold file_ok in *. cbn [fst snd strip_file] in *. andbs. rewrite H. cbn [andb]. unfold props_ok in *. andbs.
  rewrite distinct_map. repeat match goal with H : ?b = true |- context [?b] => rewrite H end. cbn [andb].
  assert (S : suits (h_versions h') (file_leaves (h', ps))).
  { pose proof (proj1 (save_ok_iff (h', ps)) (ex_intro _ b' E)) as (A & B & _). cbn [fst] in *. split; [exact A|].
    intros w I. destruct (has_arg64 (h_versions h')), w; try reflexivity; contradiction. }
  apply forallb_forall. intros e I. apply in_map_iff in I as ([k p] & <- & I).
  match goal with F : forallb _ ps = true |- _ => pose proof (forallb_all _ _ F _ I) as X end. cbv beta iota in X. andbs.
  repeat match goal with H : ?b = true |- context [?b] => rewrite H end. cbn [andb].
  apply (proj1 (moves_all o (h_versions h) (h_versions h'))); [assumption|unfold file_leaves in S; eapply suits_in in S; [|exact I]; exact S|].
  destruct K as [K|K].
  - left. injection K as K. pose proof (map_fix _ _ K _ I) as Y. cbv beta iota in Y. congruence.
  - right. exact (forallb_all _ _ K _ (in_map _ _ _ I)).
Qed.

(** Keys that stay keys, whatever the hashing, or under hashing by equality. *)
Definition keys_stay (o : opts) (f : header * list (str * property)) : Prop :=
  (forall p i, probe o p i = false) /\ strip_file f = f \/ forallb (fun e => uniq (snd e)) (snd (strip_file f)) = true.
Lemma moved o h ps b h' b' : load_plain o b = Ok (h, ps) -> header_ok h' = true ->
  save_plain (h', ps) = Ok b' -> len b' < 4294967296 -> keys_stay o (h', ps) ->
  load_plain o b' = Ok (strip_file (h', ps)).
Proof.
  intros L H E N K. apply load_ok in L.
  assert (M : file_ok o same (strip_file (h', ps)) = true) by (eapply moves; eauto; destruct K as [[_ K]|K]; auto).
  assert (E' : save_plain (strip_file (h', ps)) = Ok b') by (now rewrite strip_saved).
  destruct K as [[P K]|K].
  - exact (proj2 (save_load_iff o _ b' P E' N) M).
  - apply (proj1 (save_load_any o _ b' E' N)). apply file_eqv_iff. auto.
Qed.
Lemma moved_up o h ps b h' b' : load_plain o b = Ok (h, ps) ->
  header_ok h' = true -> at_least editor_guid 32 (h_versions h') -> save_plain (h', ps) = Ok b' -> len b' < 4294967296 ->
  (forall p i, probe o p i = false) \/ forallb (fun e => uniq (snd e)) ps = true ->
  load_plain o b' = Ok (h', ps).
Proof.
  intros L H A E N K.
  assert (D : distinct guid_eqb (h_versions h') = true) by (unfold header_ok in H; andbs; assumption).
  pose proof (strip_file_id (h', ps) (proj2 (supports_iff _ editor_guid 32 D eq_refl) A)) as I.
  assert (S : keys_stay o (h', ps)) by (unfold keys_stay; rewrite I; tauto).
  pose proof (moved o h ps b h' b' L H E N S) as M. now rewrite I in M.
Qed.

(** Stripped contents have nothing left to lose. *)
Lemma strip_twice_text c : (forall t, strip_text c (strip_text false t) = strip_text false t)
  /\ (forall h, strip_hist c (strip_hist false h) = strip_hist false h) /\ (forall a, strip_arg c (strip_arg false a) = strip_arg false a).
Proof.
  apply text_all; cbn [strip_text strip_hist strip_arg]; intros; try reflexivity; try congruence;
    rewrite map_map, ?H; f_equal; apply map_ext_in; intros e I; match goal with F : Forall _ ?L, I : In e ?L |- _ => rewrite Forall_forall in F; specialize (F e I) end;
    try (destruct e; cbn [snd] in *); congruence.
Qed.
Lemma strip_twice_all c : (forall p, strip c (strip false p) = strip false p) /\ (forall v, strip_sval c (strip_sval false v) = strip_sval false v)
  /\ (forall a, strip_array c (strip_array false a) = strip_array false a) /\ (forall m, strip_map c (strip_map false m) = strip_map false m).
Proof.
  apply prop_all; cbn [strip strip_sval strip_array strip_map]; intros; try reflexivity; try congruence.
  1: now rewrite (proj1 (strip_twice_text c)).
  all: rewrite map_map; f_equal; apply map_ext_in; intros e I; match goal with F : Forall _ ?L, I : In e ?L |- _ => rewrite Forall_forall in F; specialize (F e I) end;
    try (destruct e; cbn [fst snd] in *); try congruence.
  - f_equal. rewrite map_map. apply map_ext_in. intros q J. rewrite Forall_forall in H. auto.
  - destruct H; congruence.
Qed.

(** ** Moving as one operation *)
Definition move (o : opts) (h' : header) (b : list byte) : outcome (list byte) :=
  match load_plain o b with Ok (_, ps) => save_plain (h', ps) | Fail e => Fail e end.
Lemma there_and_back o h ps b h' b' :
  load_plain o b = Ok (h, ps) -> save_plain (h, ps) = Ok b -> len b < 4294967296 ->
  header_ok h' = true -> move o h' b = Ok b' -> len b' < 4294967296 -> keys_stay o (h', ps) ->
  (move o h b' = Ok b <-> strip_file (h', ps) = (h', ps)).
Proof.
  intros L S N H M N' K. unfold move in M. rewrite L in M.
  pose proof (moved o h ps b h' b' L H M N' K) as R. pose proof (load_ok _ _ _ L) as F. pose proof (load_ok _ _ _ R) as F'.
  unfold move. rewrite R. cbn [strip_file fst snd] in F' |- *. split.
  - intros E. destruct (has_culture (h_versions h')) eqn:C; [exact (strip_file_id (h', ps) C)|].
    set (ps' := map (fun '(k, p) => (k, strip false p)) ps) in *.
    assert (ST : strip_file (h', ps) = (h', ps')) by (unfold strip_file, ps'; cbn [fst snd]; now rewrite C). rewrite ST in F' |- *.
    assert (Z : strip_file (h, ps') = (h, ps')).
    { unfold strip_file, ps'. cbn [fst snd]. f_equal. rewrite map_map. apply map_ext. intros [k p]. now rewrite (proj1 (strip_twice_all _)). }
    assert (HO : header_ok h = true) by (unfold file_ok in F; andbs; assumption).
    pose proof (moves o h' ps' h b F' HO E (or_introl Z)) as G. rewrite Z in G.
    pose proof (save_injective o _ _ b G F E S N) as X. congruence.
  - intros E. unfold strip_file in E. cbn [fst snd] in E. injection E as E. rewrite E. exact S.
Qed.

(** ** Which contents can be moved at all *)
Definition with_versions (h : header) (vs : list (guid * Z)) : header :=
  Header (h_package h) (h_ue5 h) (h_engine h) (h_format h) vs (h_class h).
Lemma can_be_moved h ps : (exists vs b, header_ok (with_versions h vs) = true /\ save_plain (with_versions h vs, ps) = Ok b)
  <-> (exists vs, header_ok (with_versions h vs) = true) /\ ~ mixed (file_leaves (h, ps)).
Proof.
  split.
  - intros (vs & b & H & E). split; [eauto|]. apply wants_some.
    assert (D : distinct guid_eqb vs = true) by (unfold header_ok, with_versions in H; cbn [h_versions] in H; andbs; assumption).
    assert (U : forallb (fun '(g, v) => guid_ok g && u_ok 4 v) vs = true) by (unfold header_ok, with_versions in H; cbn [h_versions] in H; andbs; assumption).
    destruct (says_some vs ue5_guid) as [n S]. exists n. split.
    + destruct S as [I|[-> _]]; [|lia]. pose proof (forallb_all _ _ U _ I) as X. cbv beta iota in X. andbs.
      match goal with X : u_ok 4 n = true |- _ => unfold u_ok, in_range in X; change (2 ^ (8 * 4)) with 4294967296 in X; andbs; lia end.
    + exact (proj1 (saves_iff (with_versions h vs) ps n D S) (ex_intro _ b E)).
  - intros [[vs0 H] M]. apply wants_some in M as (n & R & W). exists [(ue5_guid, n)].
    assert (S : says [(ue5_guid, n)] ue5_guid n) by (left; now left).
    destruct (proj2 (saves_iff (with_versions h [(ue5_guid, n)]) ps n eq_refl S) W) as [b E]. exists b. split; [|exact E].
    unfold header_ok, with_versions in H |- *. cbn [h_package h_ue5 h_engine h_format h_versions h_class] in H |- *. andbs.
    repeat match goal with H : ?b = true |- context [?b] => rewrite H end. cbn [andb forallb distinct count32 len length].
    assert (U : u_ok 4 n = true) by (unfold u_ok, in_range; change (2 ^ (8 * 4)) with 4294967296; lia). rewrite U. reflexivity.
Qed.
