(** Whatever is read from JSON is a value of the Rust types. *)
From Coq Require Import ZArith List Bool String Lia ZifyBool ZifyNat.
From Verif Require Import Base Str Types Versions Text Props File Spec BaseFacts Decode Induct
  DecodeProp EqFacts Guid GuidThm Accept AcceptAll Json JsonSpec JsonFloat JsonText JsonProp JsonFile
  JsonTyped JsonWell.
Import ListNotations.
Open Scope Z_scope.

Lemma jbind_ok {A B} (r : jres A) (k : A -> jres B) b : jbind r k = JOk b ->
  exists a, r = JOk a /\ k a = JOk b.
Proof. destruct r; try discriminate. eauto. Qed.
Lemma d_once_ok {A} names o (r : jres A) a : d_once names o r = JOk a -> unrepeated names o = true /\ r = JOk a.
Proof. unfold d_once. destruct (unrepeated names o); [auto|discriminate]. Qed.
Fixpoint jsize (j : json) : nat :=
  match j with
  | JArr l => S (fold_right (fun x n => (jsize x + n)%nat) O l)
  | JObj l => S (fold_right (fun x n => (jsize (snd x) + n)%nat) O l)
  | _ => 1
  end.
Lemma arr_smaller j l : In j l -> (jsize j < jsize (JArr l))%nat.
Proof.
  cbn [jsize]. induction l as [|x l IH]; [easy|]. cbn [fold_right]. intros [->|I]; [lia|]. specialize (IH I). lia.
Qed.
Lemma obj_smaller k j l : In (k, j) l -> (jsize j < jsize (JObj l))%nat.
Proof.
  cbn [jsize]. induction l as [|x l IH]; [easy|]. cbn [fold_right]. intros [->|I]; [cbn [snd]; lia|]. specialize (IH I). lia.
Qed.

(** A tree without repeated keys is a tree. *)
Lemma ok_fit j : j_ok j = true -> j_fit j = true.
Proof.
  remember (S (jsize j)) as n eqn:E. assert (L : (jsize j < n)%nat) by lia. clear E. revert j L.
  induction n as [|n IH]; intros j L J; [lia|]. destruct j as [| | | | |l|l]; try exact J; cbn [j_ok j_fit] in *.
  - rewrite forallb_forall in *. intros j I. pose proof (arr_smaller j l I). apply IH; [lia|auto].
  - apply andb_true_iff in J as [_ J]. rewrite forallb_forall in *. intros [k j] I. pose proof (obj_smaller k j l I).
    specialize (J _ I). cbv beta iota in J. apply andb_true_iff in J as [-> J]. apply IH; [lia|auto].
Qed.
(** [d] gives values satisfying [T] on JSON smaller than [n]. *)
Definition good {A} (n : nat) (d : json -> jres A) (T : A -> bool) : Prop :=
  forall j, (jsize j < n)%nat -> j_fit j = true -> forall a, d j = JOk a -> T a = true.
(** An object all of whose values are smaller than [n]. *)
Definition obj (n : nat) (o : list (str * json)) : Prop :=
  forall k j, In (k, j) o -> (jsize j < n)%nat /\ j_fit j = true /\ is_str k = true.
Lemma obj_from n o : (jsize (JObj o) < S n)%nat -> j_fit (JObj o) = true -> obj n o.
Proof.
  intros S J k j I. pose proof (obj_smaller k j o I). cbn [j_fit] in J. andbs. rewrite forallb_forall in *.
  match goal with F : forall x, In x o -> _ |- _ => specialize (F _ I) end. cbn in *. andbs. repeat split; auto. lia.
Qed.
Lemma obj_less n o : (jsize (JObj o) < n)%nat -> j_fit (JObj o) = true -> obj n o.
Proof. intros. apply obj_from; auto. Qed.
Lemma obj_listed n names l : forallb is_str names = true ->
  (forall j, In j l -> (jsize j < n)%nat /\ j_fit j = true) -> obj n (combine names l).
Proof.
  intros N L k j I. destruct (L j (in_combine_r _ _ _ _ I)) as [A B]. repeat split; auto.
  rewrite forallb_forall in N. apply N. eapply in_combine_l, I.
Qed.
Lemma arr_less n l : (jsize (JArr l) < S n)%nat -> j_fit (JArr l) = true ->
  forall j, In j l -> (jsize j < n)%nat /\ j_fit j = true.
Proof.
  intros S J j I. pose proof (arr_smaller _ _ I). cbn [j_fit] in J. rewrite forallb_forall in J. split; [lia|auto].
Qed.
Lemma listed_good {A} n names f l (a : A) : forallb is_str names = true ->
  (forall j, In j l -> (jsize j < n)%nat /\ j_fit j = true) -> listed names f l = JOk a ->
  exists o, obj n o /\ f o = JOk a.
Proof.
  intros N L. unfold listed. destruct (_ =? _)%nat; [|discriminate]. intros E. exists (combine names l).
  split; [now apply obj_listed|exact E].
Qed.
Lemma struct_good {A} n names f (T : A -> bool) : forallb is_str names = true ->
  (forall o a, obj n o -> f o = JOk a -> T a = true) -> good n (d_struct names f) T.
Proof.
  intros N F j S J a. destruct j as [| | | | |l|o]; try discriminate; cbn [d_struct].
  - intros E. eapply listed_good in E as (o & O & E); [eapply F; eauto|exact N|].
    apply arr_less; auto. 
  - intros E. apply d_once_ok in E as [_ E]. eapply F; [|exact E]. now apply obj_less.
Qed.
Lemma get_in {A} (f : json -> A) k o r : get f k o = Some r -> exists j, In (k, j) o /\ f j = r.
Proof.
  induction o as [|[k' v] o IH]; [discriminate|]. cbn [get]. destruct (str_eqb k k') eqn:E.
  - apply str_eqb_eq in E as ->. intros X. injection X as <-. exists v. split; [now left|reflexivity].
  - intros X. destruct (IH X) as (j & I & F). exists j. split; [now right|auto].
Qed.
Lemma need_good {A} n d T k o (a : A) : good n d T -> obj n o -> need d k o = JOk a -> T a = true.
Proof.
  intros G O. unfold need. destruct (get d k o) as [r|] eqn:E; [|discriminate].
  apply get_in in E as (j & I & <-). destruct (O _ _ I) as (S & J & _). intros X. eapply G; eauto.
Qed.
Lemma dflt_good {A} n d T k o (a v : A) : good n d T -> T v = true -> obj n o -> dflt d v k o = JOk a -> T a = true.
Proof.
  intros G V O. unfold dflt. destruct (get d k o) as [r|] eqn:E; [|intros X; injection X as <-; exact V].
  apply get_in in E as (j & I & <-). destruct (O _ _ I) as (S & J & _). intros X. eapply G; eauto.
Qed.
Definition oall {A} (T : A -> bool) (o : option A) : bool := match o with Some a => T a | None => true end.
Lemma option_good {A} n d (T : A -> bool) : good n d T -> good n (d_option d) (oall T).
Proof.
  intros G j S J o. unfold d_option. destruct j; try (intros X; apply jbind_ok in X as (a & E & X);
    injection X as <-; cbn [oall]; eapply G; eauto).
  intros X. injection X as <-. reflexivity.
Qed.
Lemma opt_good {A} n d (T : A -> bool) k o a : good n d T -> obj n o -> opt d k o = JOk a -> oall T a = true.
Proof. intros G O. unfold opt. apply dflt_good with (n := n); auto. now apply option_good. Qed.
Lemma all_good {A} n d (T : A -> bool) l : good n d T ->
  (forall j, In j l -> (jsize j < n)%nat /\ j_fit j = true) -> forall r, d_all d l = JOk r -> forallb T r = true.
Proof.
  intros G. induction l as [|j l IH]; intros L r; cbn [d_all].
  - intros X. injection X as <-. reflexivity.
  - intros X. apply jbind_ok in X as (a & E & X). apply jbind_ok in X as (q & Q & X). injection X as <-.
    cbn [forallb]. destruct (L j (or_introl eq_refl)) as [S J]. rewrite (G _ S J _ E).
    rewrite (IH (fun x I => L x (or_intror I)) _ Q). reflexivity.
Qed.
Lemma list_good {A} n d (T : A -> bool) : good n d T -> good n (d_list d) (forallb T).
Proof.
  intros G j S J r. destruct j; try discriminate. cbn [d_list]. eapply all_good; eauto.
  intros j I. pose proof (arr_smaller _ _ I). cbn [j_fit] in J. rewrite forallb_forall in J. split; [lia|auto].
Qed.
Lemma entries_good {A} n d (T : A -> bool) o : good n d T -> obj n o -> forall r, d_entries d o = JOk r ->
  forallb (fun '(k, a) => is_str k && T a) r = true.
Proof.
  intros G. induction o as [|[k j] o IH]; intros O r; cbn [d_entries].
  - intros X. injection X as <-. reflexivity.
  - intros X. apply jbind_ok in X as (a & E & X). apply jbind_ok in X as (q & Q & X). injection X as <-.
    cbn [forallb]. destruct (O k j (or_introl eq_refl)) as (S & J & K). rewrite (G _ S J _ E), K.
    rewrite (IH (fun k' j' I => O k' j' (or_intror I)) _ Q). reflexivity.
Qed.
Definition tmap {A} (T : A -> bool) (l : list (str * A)) : bool :=
  distinct str_eqb l && forallb (fun '(k, a) => is_str k && T a) l.
Lemma ins_all_tmap {A} (T : A -> bool) l : forallb (fun '(k, a) => is_str k && T a) l = true ->
  tmap T (ins_all str_eqb l) = true.
Proof.
  intros H. unfold tmap. rewrite distinct_fresh, fresh_ins_all. cbn [andb].
  apply Forall_true.
  assert (F : Forall (fun e => is_str (fst e) = true /\ T (snd e) = true) (ins_all str_eqb l)).
  { apply (ins_all_in (fun k => is_str k = true) (fun a => T a = true)).
    apply Forall_forall. intros [k a] I. rewrite forallb_forall in H. specialize (H _ I). cbn in H. now andbs. }
  eapply Forall_impl; [|exact F]. intros [k a] [X Y]. cbn [fst snd] in *. now rewrite X, Y.
Qed.
Lemma map_good {A} n d (T : A -> bool) : good n d T -> good n (d_map d) (tmap T).
Proof.
  intros G j S J r. destruct j; try discriminate. cbn [d_map]. intros X.
  apply jbind_ok in X as (q & Q & X). injection X as <-. apply ins_all_tmap.
  eapply entries_good; eauto. now apply obj_less.
Qed.

(** ** Scalars *)
Definition any {A} (a : A) : bool := true.
Lemma any_good {A} n (d : json -> jres A) : good n d any.
Proof. intros j _ _ a _. reflexivity. Qed.
Lemma str_good n : good n d_str is_str.
Proof. intros j _ J a. destruct j; try discriminate. intros X. injection X as <-. exact J. Qed.
Lemma int_good n lo hi (T : Z -> bool) : (forall z, inr lo hi z = true -> T z = true) -> good n (d_int lo hi) T.
Proof.
  intros H j _ _ a. destruct j; try discriminate. cbn [d_int]. destruct (inr lo hi z) eqn:E; [|discriminate].
  intros X. injection X as <-. auto.
Qed.
Lemma u32_good n : good n d_u32 (u_ok 4).
Proof. apply int_good. intros z H. exact H. Qed.
Lemma u64_good n : good n d_u64 (u_ok 8).
Proof. apply int_good. intros z H. exact H. Qed.
Lemma u16_good n : good n d_u16 (u_ok 2).
Proof. apply int_good. intros z H. exact H. Qed.
Lemma i32_good n : good n d_i32 (s_ok 4).
Proof. apply int_good. intros z H. exact H. Qed.
Lemma i64_good n : good n d_i64 (s_ok 8).
Proof. apply int_good. intros z H. exact H. Qed.
Lemma f32_good n : good n d_f32 (u_ok 4).
Proof.
  intros j _ J a. destruct j; try discriminate; cbn [d_f32]; intros X; injection X as <-;
    [apply int32_u|apply cast32_u].
Qed.
Lemma f64_good n : good n d_f64 (u_ok 8).
Proof.
  intros j _ J a. destruct j; try discriminate; cbn [d_f64]; intros X; injection X as <-; [apply int64_u|].
  cbn [j_fit] in J. now andbs.
Qed.
Lemma num_good n k : good n (d_num k) (num_ok k).
Proof.
  destruct k; cbn [d_num]; first [apply f32_good | apply f64_good | apply int_good; intros z H; exact H].
Qed.
Lemma guidstr_good s g : is_str s = true -> d_guidstr s = JOk g -> guid_ok g = true.
Proof.
  intros K. unfold d_guidstr. destruct (guid_parse s) eqn:E; try discriminate. intros X. injection X as <-.
  apply parse_ok_iff in E as (t & _ & [[_ ->]|[_ L]]); auto. unfold guid_ok. lia.
Qed.
Lemma guid_good n : good n d_guid guid_ok.
Proof. intros j _ J g. destruct j; try discriminate. now apply guidstr_good. Qed.
Lemma index_range s l i z : index_of s l i = JOk z -> i <= z < i + len l.
Proof.
  revert i. induction l as [|a l IH]; intros i; cbn [index_of]; [discriminate|].
  rewrite len_cons. pose proof (len_nonneg l). destruct (str_eqb s a).
  - intros X. injection X as <-. lia.
  - intros X. apply IH in X. lia.
Qed.
Lemma name_good n l b : len l = b + 1 -> good n (d_name l) (in_range 0 b).
Proof.
  intros L j _ _ z. destruct j; try discriminate. cbn [d_name]. intros X. apply index_range in X.
  unfold in_range. lia.
Qed.
Lemma tag_good n l b : len l = b + 1 -> good n (d_tag l) (in_range 0 b).
Proof.
  intros L j S J z. destruct j; try exact (name_good n l b L _ S J z). cbn [d_tag].
  destruct (inr _ _ _) eqn:E; [|discriminate]. intros X. injection X as <-. unfold inr in E. unfold in_range. lia.
Qed.
Lemma unit_good n buffered l b : len l = b + 1 -> good n (d_unit buffered l) (in_range 0 b).
Proof.
  intros L j S J z. destruct j as [| | | | | |o]; try exact (name_good n l b L _ S J z).
  destruct o as [|[k v] [|e o]]; cbn [d_unit]; try discriminate; [|destruct v as [| | | | | |[|e' o']]; discriminate].
  assert (R : index_of k l 0 = JOk z -> in_range 0 b z = true).
  { intros X. apply index_range in X. unfold in_range. lia. }
  destruct v as [| | | | | |[|e o]]; try discriminate; auto. destruct buffered; [auto|discriminate].
Qed.
Lemma style_good n : good n d_style (in_range 0 4).
Proof. now apply unit_good. Qed.
Ltac step := match goal with
  | H : jbind _ _ = JOk _ |- _ => let a := fresh "a" in let E := fresh "E" in apply jbind_ok in H as (a & E & H)
  | H : d_once _ _ _ = JOk _ |- _ => apply d_once_ok in H as [_ H]
  end.
Ltac inv := repeat step;
  match goal with H : JOk _ = JOk _ |- _ => injection H as <- end.
Lemma numfmt_good n : good n d_numfmt numfmt_ok.
Proof.
  intros j S J f. destruct j; try discriminate. cbn [d_numfmt]. intros X.
  assert (O : obj n l) by now apply obj_less. inv. unfold numfmt_ok. cbn [nf_round nf_mini nf_maxi nf_minf nf_maxf].
  bsplit; eapply need_good; try eassumption; try apply i32_good. now apply tag_good.
Qed.
Lemma ticks_good n : good n d_ticks (u_ok 8).
Proof.
  apply struct_good; [reflexivity|]. intros o a O X. eapply need_good; [apply u64_good|exact O|exact X].
Qed.

(** ** Texts *)
Lemma hist_good n dt da o h : good n dt t_text -> good n da t_arg -> obj n o ->
  d_hist dt da o = JOk h -> t_hist h = true.
Proof.
  intros GT GA O X. unfold d_hist in X. step. step. destruct a; inv; cbn [t_hist];
  repeat match goal with
    | H : opt d_str _ _ = JOk _ |- _ => apply (opt_good n d_str is_str) in H; [|apply str_good|exact O]
    | H : opt d_numfmt _ _ = JOk _ |- _ => apply (opt_good n d_numfmt numfmt_ok) in H; [|apply numfmt_good|exact O]
    | H : need d_str _ _ = JOk _ |- _ => apply (need_good n d_str is_str) in H; [|apply str_good|exact O]
    | H : need d_ticks _ _ = JOk _ |- _ => apply (need_good n d_ticks (u_ok 8)) in H; [|apply ticks_good|exact O]
    | H : need d_style _ _ = JOk _ |- _ => apply (need_good n d_style (in_range 0 4)) in H; [|apply style_good|exact O]
    | H : need (d_tag transform_names) _ _ = JOk _ |- _ =>
      apply (need_good n _ (in_range 0 1)) in H; [|now apply tag_good|exact O]
    | H : need dt _ _ = JOk _ |- _ => apply (need_good n dt t_text) in H; [|exact GT|exact O]
    | H : need da _ _ = JOk _ |- _ => apply (need_good n da t_arg) in H; [|exact GA|exact O]
    | H : need (d_list da) _ _ = JOk _ |- _ => apply (need_good n _ (forallb t_arg)) in H; [|now apply list_good|exact O]
    | H : need (d_map da) _ _ = JOk _ |- _ => apply (need_good n _ (tmap t_arg)) in H; [|now apply map_good|exact O];
        unfold tmap in H; apply andb_true_iff in H as [? ?]
    end; bsplit.
Qed.
Lemma argv_good n dt k j a : good n dt t_text -> (jsize j < n)%nat -> j_fit j = true ->
  d_argv dt k j = Some (JOk a) -> t_arg a = true.
Proof.
  intros GT S J. unfold d_argv.
  repeat (destruct (str_eqb k _); [intros X; injection X as X; inv; cbn [t_arg];
    first [now apply (GT _ S J) | now apply (i32_good n _ S J) | now apply (u32_good n _ S J)
          |now apply (f32_good n _ S J) | now apply (f64_good n _ S J) | now apply (i64_good n _ S J)
          |now apply (u64_good n _ S J)]|]). discriminate.
Qed.
Lemma text_good n : good n d_text t_text /\ good n d_arg t_arg.
Proof.
  induction n as [|n [GT GA]]; [split; intros j S; lia|]. split.
  - intros j S J t. destruct j; try discriminate. rewrite d_text_eq. intros X.
    pose proof (obj_from _ _ S J) as O. inv. cbn [t_text]. apply andb_true_iff. split.
    + eapply dflt_good; [apply u32_good| |exact O|exact E]. reflexivity.
    + eapply hist_good; [exact GT|exact GA|exact O|exact E0].
  - intros j S J a. destruct j; try discriminate. pose proof (obj_from _ _ S J) as O.
    destruct l as [|[k v] [|? ?]]; try discriminate. rewrite d_arg_eq. cbn [single].
    destruct (O k v (or_introl eq_refl)) as (S' & J' & _).
    destruct (d_argv d_text k v) as [r|] eqn:E; [|discriminate]. intros ->. eapply argv_good; eauto.
Qed.

(** ** Properties *)
Lemma fields_good n o : obj n o -> forall names ks l, List.length names = List.length ks ->
  d_fields names ks o = JOk l -> nums_ok ks l = true.
Proof.
  intros O. induction names as [|m names IH]; intros [|k ks] l L; try discriminate; cbn [d_fields]; intros X.
  - inv. reflexivity.
  - inv. cbn [nums_ok]. apply andb_true_iff. split.
    + eapply need_good; [apply num_good|exact O|exact E].
    + apply IH; auto.
Qed.
Section PropBack.
Context (hp : hashing).
Notation T := (t_prop same).
Lemma insert_same l : forallb (fun '(k, v) => T k && T v) l = true ->
  distinct same (m_insert hp l) = true /\ forallb (fun '(k, v) => T k && T v) (m_insert hp l) = true.
Proof.
  intros H. rewrite distinct_fresh. unfold m_insert.
  assert (F : forall l, forallb (fun '(k, v) => T k && T v) l = true
    <-> Forall (fun e => T (fst e) = true /\ T (snd e) = true) l).
  { intros m. rewrite forallb_forall, Forall_forall. split; intros X e I; specialize (X e I); destruct e;
      cbn [fst snd] in *; [now apply andb_true_iff|now apply andb_true_iff]. }
  rewrite F in *. revert H.
  assert (A : fresh same (@nil (property * property)) = true) by reflexivity.
  assert (B : Forall (fun e : property * property => T (fst e) = true /\ T (snd e) = true) []) by constructor.
  revert A B. generalize (@nil (property * property)) as acc.
  induction l as [|e l IH]; intros acc A B H; cbn [fold_left]; [auto|].
  inversion H as [|? ? [? ?] ?]; subst. apply IH; auto.
  - now apply mins_fresh.
  - now apply (mins_in (fun p => T p = true) (fun p => T p = true)).
Qed.
Lemma svariant_good n dp k j v : good n dp T -> (jsize j < n)%nat -> j_fit j = true ->
  d_svariant dp k j = Some (JOk v) -> t_sval same v = true.
Proof.
  intros G S J. unfold d_svariant. destruct (find _ fixeds) as [x|] eqn:E.
  - intros X. injection X as X. revert X. apply (struct_good n); auto; [now destruct x|].
    intros o a O X. inv. cbn [t_sval]. eapply fields_good; [exact O| |eassumption]. now destruct x.
  - repeat (destruct (str_eqb k _); [intros X; injection X as X; inv; cbn [t_sval]|]); try discriminate.
    + now apply (guid_good n _ S J).
    + now apply (list_good n _ _ (str_good n) _ S J).
    + now apply (map_good n _ _ (list_good n _ _ G) _ S J).
Qed.
Lemma flat_in {A} (f : str -> json -> option (jres A)) o r : flat f o = JOk r ->
  exists k v, In (k, v) o /\ f k v = Some (JOk r).
Proof.
  induction o as [|[k v] o IH]; [discriminate|]. cbn [flat]. destruct (f k v) as [x|] eqn:E.
  - intros ->. exists k, v. split; [now left|auto].
  - intros X. destruct (IH X) as (k' & v' & I & F). exists k', v'. split; [now right|auto].
Qed.
Lemma besides_in {A} (f : str -> json -> option (jres A)) t o r : single (besides f t o) = JOk r ->
  exists k v, In (k, v) o /\ f k v = Some (JOk r).
Proof.
  intros H. assert (I : In (Some (JOk r)) (besides f t o)).
  { destruct (besides f t o) as [|[x|] [|? ?]]; try discriminate. cbn in H. subst. now left. }
  clear H. induction o as [|[k v] o IH]; [destruct I|]. cbn [besides] in I. destruct (str_eqb k t).
  - destruct (IH I) as (k' & v' & I' & F). exists k', v'. split; [now right|auto].
  - destruct I as [I|I].
    + exists k, v. split; [now left|auto].
    + destruct (IH I) as (k' & v' & I' & F). exists k', v'. split; [now right|auto].
Qed.
Lemma flat_good n dp o v : good n dp T -> obj n o -> flat (d_svariant dp) o = JOk v -> t_sval same v = true.
Proof.
  intros G O X. apply flat_in in X as (k & j & I & X). destruct (O _ _ I) as (S & J & _).
  eapply svariant_good; eauto.
Qed.
Lemma sval_good n dp : good n dp T -> good n (d_sval dp) (t_sval same).
Proof.
  intros G j S J v. destruct j; try discriminate. cbn [d_sval]. pose proof (obj_less _ _ S J) as O.
  destruct l as [|[k j] [|? ?]]; try discriminate. cbn [single].
  destruct (O k j (or_introl eq_refl)) as (S' & J' & _).
  destruct (d_svariant dp k j) as [r|] eqn:E; [|discriminate]. intros ->. eapply svariant_good; eauto.
Qed.
Lemma pair_good n dp : good n dp T -> good n (d_pair dp) (fun '(k, v) => T k && T v).
Proof.
  intros G j S J v. destruct j as [| | | | |l|]; try discriminate. cbn [d_pair].
  destruct l as [|a [|b [|? ?]]]; try discriminate. intros X. inv.
  cbn [j_fit forallb] in J. andbs.
  pose proof (arr_smaller a [a; b] (or_introl eq_refl)).
  pose proof (arr_smaller b [a; b] (or_intror (or_introl eq_refl))).
  apply andb_true_iff. split; (eapply G; [| |eassumption]); auto; lia.
Qed.
Lemma delegate_good n : good n d_delegate (fun '(a, b) => is_str a && is_str b).
Proof.
  apply struct_good; [reflexivity|]. intros o v O X.
  inv. apply andb_true_iff. split; eapply need_good; try eassumption; apply str_good.
Qed.
Lemma delegates_good n : good n d_delegates (forallb (fun '(a, b) => is_str a && is_str b)).
Proof.
  apply struct_good; [reflexivity|]. intros o v O X.
  eapply need_good; [apply list_good, delegate_good|eassumption|exact X].
Qed.
Lemma path_good n : good n d_path (fun '(l, s) => forallb is_str l && is_str s).
Proof.
  apply struct_good; [reflexivity|]. intros o v O X.
  inv. apply andb_true_iff. split; eapply need_good; try eassumption; [apply list_good|]; apply str_good.
Qed.
Lemma first_in {A} (l : list (jres A)) a : first_of l = JOk a -> In (JOk a) l.
Proof. induction l as [|[x| |] l IH]; cbn [first_of]; try discriminate; intros X; [left; auto|right; auto]. Qed.
Lemma oall_ostr o : oall is_str o = ois_str o.
Proof. now destruct o. Qed.
Ltac use n O := match goal with
  | H : need d_str _ _ = JOk _ |- _ => apply (need_good n d_str is_str) in H; [|apply str_good|exact O]
  | H : need d_u32 _ _ = JOk _ |- _ => apply (need_good n d_u32 (u_ok 4)) in H; [|apply u32_good|exact O]
  | H : need (d_num ?k) _ _ = JOk _ |- _ => apply (need_good n _ (num_ok k)) in H; [|apply num_good|exact O]
  | H : opt d_str _ _ = JOk _ |- _ => apply (opt_good n d_str is_str) in H; [|apply str_good|exact O]; rewrite oall_ostr in H
  | H : dflt d_guid no_guid _ _ = JOk _ |- _ => apply (dflt_good n d_guid guid_ok) in H; [|apply guid_good|reflexivity|exact O]
  | H : dflt d_u32 0 _ _ = JOk _ |- _ => apply (dflt_good n d_u32 (u_ok 4)) in H; [|apply u32_good|reflexivity|exact O]
  | H : need (d_list d_str) _ _ = JOk _ |- _ => apply (need_good n _ (forallb is_str)) in H; [|apply list_good, str_good|exact O]
  | H : need (d_list d_f32) _ _ = JOk _ |- _ => apply (need_good n _ (forallb (u_ok 4))) in H; [|apply list_good, f32_good|exact O]
  | H : need (d_list d_i32) _ _ = JOk _ |- _ => apply (need_good n _ (forallb (s_ok 4))) in H; [|apply list_good, i32_good|exact O]
  | H : need (d_list d_ostr) _ _ = JOk _ |- _ =>
    apply (need_good n _ (forallb ois_str)) in H; [|apply list_good; intros ? ? ? ? ?; rewrite <- oall_ostr; eapply (option_good n); eauto using str_good|exact O]
  end.
Lemma array_good n dp o a : good n dp T -> obj n o -> d_array dp o = JOk a -> t_array same a = true.
Proof.
  intros G O X. unfold d_array in X. apply first_in in X. cbn [In] in X.
  repeat match type of X with _ \/ _ => destruct X as [X|X] end; try contradiction; inv; repeat use n O; cbn [t_array];
    try reflexivity; try assumption; bsplit.
  - eapply need_good; [apply list_good, sval_good; exact G|exact O|eassumption].
  - eapply need_good; [apply list_good; exact G|exact O|eassumption].
Qed.
Lemma imp_good {A} n d (T U : A -> bool) : (forall a, T a = true -> U a = true) -> good n d T -> good n d U.
Proof. intros H G j S J a X. apply H. eapply G; eauto. Qed.
Lemma mapp_good n dp o m : good n dp T -> obj n o -> d_mapp hp dp o = JOk m -> t_map same m = true.
Proof.
  intros G O X. unfold d_mapp in X. apply first_in in X. cbn [In] in X.
  assert (MB : forall k, d_mbool k o = JOk m -> t_map same m = true).
  { clear X. intros k X. unfold d_mbool in X. inv. cbn [t_map].
    eapply need_good in E; [|apply map_good, (any_good n)|exact O]. unfold tmap, any in E. andbs. bsplit.
    eapply forallb_imp; [|eassumption]. intros [s b] _. now rewrite andb_true_r. }
  assert (MI : forall k, d_mint k o = JOk m -> t_map same m = true).
  { clear X. intros k X. unfold d_mint in X. inv. cbn [t_map].
    eapply need_good in E; [|apply map_good, (i32_good n)|exact O]. exact E. }
  assert (MP : forall k, d_mprop dp k o = JOk m -> t_map same m = true).
  { clear X. intros k X. unfold d_mprop in X. inv. cbn [t_map]. use n O.
    eapply need_good in E0; [|apply map_good; exact G|exact O]. unfold tmap in E0. andbs. bsplit. }
  repeat match type of X with _ \/ _ => destruct X as [X|X] end; try contradiction; eauto.
  - inv. repeat use n O. cbn [t_map].
    eapply need_good in E2; [|apply list_good, pair_good; exact G|exact O].
    apply insert_same in E2 as [D F]. bsplit.
  - inv. cbn [t_map]. eapply need_good in E; [|apply map_good, option_good, (str_good n)|exact O].
    unfold tmap in E. andbs. bsplit.
Qed.
Lemma simple_good n ty o p : obj n o -> d_simple ty o = JOk p -> T p = true.
Proof.
  intros O X. destruct ty; cbn [d_simple] in X; try discriminate; inv; repeat use n O; cbn [t_prop];
    try assumption; try reflexivity; bsplit.
  - eapply (need_good n _ _ _ _ _ (delegate_good n) O) in E. destruct a. now andbs.
  - eapply (need_good n _ _ _ _ _ (delegate_good n) O) in E. destruct a. now andbs.
  - eapply (need_good n _ _ _ _ _ (delegates_good n) O) in E. exact E.
  - eapply (need_good n _ _ _ _ _ (path_good n) O) in E. destruct a. now andbs.
  - eapply (need_good n _ _ _ _ _ (path_good n) O) in E. destruct a. now andbs.
Qed.
Lemma d_prop_obj o p : d_prop hp (JObj o) = JOk p -> exists ty,
  need d_pname (s2z "type") o = JOk ty /\ unrepeated [s2z "type"] o = true /\ unrepeated (prop_fields ty) o = true
  /\ match ty with
     | NByte => n <~ opt d_str (s2z "name") o ;; v <~ flat d_bytev o ;; JOk (PByte n v)
     | NText => t <~ d_text (JObj o) ;; JOk (PText t)
     | NArray => a <~ d_array (d_prop hp) o ;; JOk (PArray a)
     | NSet =>
       t <~ need d_str (s2z "property_type") o ;; f <~ need d_u32 (s2z "allocation_flags") o ;;
       l <~ need (d_list (d_prop hp)) (s2z "properties") o ;; JOk (PSet t f l)
     | NMap => m <~ d_mapp hp (d_prop hp) o ;; JOk (PMap m)
     | NStruct =>
       g <~ dflt d_guid no_guid (s2z "guid") o ;; t <~ need d_str (s2z "type_name") o ;;
       v <~ flat (d_svariant (d_prop hp)) o ;; JOk (PStruct g t v)
     | NSValue => v <~ single (besides (d_svariant (d_prop hp)) (s2z "type") o) ;; JOk (PSValue v)
     | _ => d_simple ty o
     end = JOk p.
Proof.
  cbn [d_prop]. intros X. apply d_once_ok in X as [H1 X]. apply jbind_ok in X as (ty & E & X).
  apply d_once_ok in X as [H2 X]. exists ty. destruct ty; auto.
Qed.
Lemma prop_names ty : forallb is_str (prop_fields ty) = true.
Proof. destruct ty; reflexivity. Qed.
Lemma d_prop_arr l p : d_prop hp (JArr l) = JOk p -> exists x r ty, l = x :: r /\ d_pname x = JOk ty
  /\ ((exists a b c t f q, ty = NSet /\ r = [a; b; c] /\ d_str a = JOk t /\ d_u32 b = JOk f
       /\ d_list (d_prop hp) c = JOk q /\ p = PSet t f q)
      \/ listed (prop_fields ty) (d_simple ty) r = JOk p).
Proof.
  destruct l as [|x r]; [discriminate|]. cbn [d_prop]. intros X. apply jbind_ok in X as (ty & E & X).
  exists x, r, ty. repeat split; auto.
  destruct ty; try (right; exact X).
  destruct r as [|a [|b [|c [|d r]]]]; try (right; exact X). left.
  apply jbind_ok in X as (t & E1 & X). apply jbind_ok in X as (f & E2 & X). apply jbind_ok in X as (q & E3 & X).
  exists a, b, c, t, f, q. injection X as <-. auto 10.
Qed.
Lemma prop_good n : good n (d_prop hp) T.
Proof.
  induction n as [|n G]; [intros j S; lia|]. intros j S J p. destruct j as [| | | | |l|o]; try discriminate; intros X.
  - pose proof (arr_less _ _ S J) as L.
    apply d_prop_arr in X as (x & r & ty & -> & _ & [(a & b & c & t & f & q & -> & -> & E1 & E2 & E3 & ->)|X]).
    + destruct (L a) as [Sa Ja]; [cbn; auto|]. destruct (L b) as [Sb Jb]; [cbn; auto|].
      destruct (L c) as [Sc Jc]; [cbn; auto|]. cbn [t_prop].
      apply (str_good n _ Sa Ja) in E1. apply (u32_good n _ Sb Jb) in E2.
      apply (list_good n _ _ G _ Sc Jc) in E3. bsplit.
    + eapply (listed_good n) in X as (o & O & X); [|apply prop_names|intros; apply L; now right].
      eapply simple_good; eauto.
  - pose proof (obj_from _ _ S J) as O. apply d_prop_obj in X as (ty & E & _ & _ & X).
    destruct ty; try (eapply simple_good; eassumption); inv; repeat use n O; cbn [t_prop]; try assumption; bsplit.
    + apply flat_in in E1 as (k & j & I & E1). unfold d_bytev in E1. destruct (O _ _ I) as (S' & J' & _).
      repeat (destruct (str_eqb k _); [injection E1 as E1; inv; cbn [t_bytev]; [reflexivity || (eapply str_good; eauto)]|]).
      discriminate.
    + eapply (proj1 (text_good (Datatypes.S n))); eauto.
    + eapply array_good; eauto.
    + eapply need_good; [apply list_good; exact G|exact O|eassumption].
    + eapply mapp_good; eauto.
    + eapply flat_good; eauto.
    + apply besides_in in E0 as (k & j & I & E0). destruct (O _ _ I) as (S' & J' & _). eapply svariant_good; eauto.
Qed.
Lemma property_good n : good n (d_property hp) T.
Proof.
  intros j S J p. unfold d_property. destruct (tag_number j); [discriminate|]. now apply (prop_good n).
Qed.

Lemma engine_good n : good n d_engine (fun e =>
  u_ok 2 (fe_major e) && u_ok 2 (fe_minor e) && u_ok 2 (fe_patch e) && u_ok 4 (fe_change e)
  && is_str (fe_branch e)).
Proof.
  apply struct_good; [reflexivity|]. intros o e O X. inv. cbn [fe_major fe_minor fe_patch fe_change fe_branch]. repeat use n O. bsplit;
  (eapply need_good; [apply u16_good|exact O|eassumption]).
Qed.
Lemma guidkeys_good (l : list (str * Z)) r : forallb (fun '(k, v) => is_str k && u_ok 4 v) l = true ->
  d_guidkeys l = JOk r -> Forall (fun e => guid_ok (fst e) = true /\ u_ok 4 (snd e) = true) r.
Proof.
  revert r. induction l as [|[k v] l IH]; intros r; cbn [forallb d_guidkeys].
  - intros _ X. inv. constructor.
  - intros H X. andbs. inv. constructor; [|auto]. cbn [fst snd]. split; auto. eapply guidstr_good; eauto.
Qed.
Lemma versions_good n : good n d_versions (fun l => distinct guid_eqb l && forallb (fun '(g, v) => guid_ok g && u_ok 4 v) l).
Proof.
  intros j S J l. destruct j as [| | | | | |o]; try discriminate. cbn [d_versions]. intros X. inv.
  pose proof (obj_less _ _ S J) as O. eapply entries_good in E; [|apply u32_good|exact O].
  apply guidkeys_good in E0; auto. rewrite distinct_fresh, fresh_ins_all. cbn [andb]. apply Forall_true.
  apply (ins_all_in (fun g => guid_ok g = true) (fun v => u_ok 4 v = true) guid_eqb) in E0.
  eapply Forall_impl; [|exact E0]. intros [g v] [A B]. cbn [fst snd] in *. now rewrite A, B.
Qed.
Lemma version_good n t o h : obj n o -> d_version t o = JOk h -> t_header h = true.
Proof.
  intros O X. unfold d_version in X. inv. unfold t_header.
  cbn [h_package h_ue5 h_engine h_format h_versions h_class]. repeat use n O.
  eapply (need_good n _ _ _ _ _ (versions_good n) O) in E3. cbv beta in E3.
  eapply (need_good n _ _ _ _ _ (engine_good n) O) in E1. cbv beta in E1.
  andbs. bsplit. destruct (t =? 0); inv; [reflexivity|]. now use n O.
Qed.
Lemma header_good n : good n d_header t_header.
Proof.
  intros j S J h. destruct j as [| | | | |l|o]; try discriminate; cbn [d_header]; cbv zeta.
  - destruct l as [|x l]; [discriminate|]. intros X. step.
    eapply (listed_good n) in X as (o & O & X).
    + eapply version_good; eauto.
    + unfold header_fields. now destruct (a =? 0).
    + intros j I. apply (arr_less n (x :: l)); [lia|auto|now right].
  - pose proof (obj_less _ _ S J) as O. intros X. repeat step. eapply version_good; eauto.
Qed.
Lemma file_good j g : j_fit j = true -> from_json hp j = JOk g -> t_file same g = true.
Proof.
  intros J. apply (struct_good (S (jsize j))); auto. intros o g' O X. inv.
  unfold t_file. cbn [g_header g_props].
  eapply need_good in E0; [|apply header_good|exact O].
  eapply need_good in E1; [|apply map_good, property_good|exact O]. unfold tmap in E1. andbs. bsplit.
Qed.
End PropBack.
