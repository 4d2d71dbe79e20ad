(** Reading JSON does not depend on the order in which objects list their members (C57). *)
From Coq Require Import ZArith List Bool String Lia ZifyBool ZifyNat Permutation.
From Verif Require Import Base Str Types Versions Text Props File Spec BaseFacts Decode StrFacts EqFacts
  Guid Json JsonSpec JsonText JsonProp JsonBack.
Import ListNotations.
Open Scope Z_scope.

(** ** Specification *)

(** The types of properties, in the order of their numbers. *)
Definition property_types : list str :=
  map s2z ["ArrayProperty"; "BoolProperty"; "ByteProperty"; "DoubleProperty"; "EnumProperty"; "FloatProperty";
           "Int16Property"; "Int64Property"; "Int8Property"; "IntProperty"; "MapProperty"; "NameProperty";
           "ObjectProperty"; "DelegateProperty"; "MulticastInlineDelegateProperty";
           "MulticastSparseDelegateProperty"; "FieldPathProperty"; "SetProperty"; "StrProperty";
           "StructProperty"; "StructPropertyValue"; "TextProperty"; "UInt16Property"; "UInt32Property";
           "UInt64Property"; "UnknownProperty"]%string.
(** The object is a property of type [t], given by name or by number. *)
Definition has_type (t : string) (o : list (str * json)) : Prop :=
  get (fun v => v) (s2z "type") o = Some (JStr (s2z t))
  \/ exists i, get (fun v => v) (s2z "type") o = Some (JInt i) /\ 0 <= i
     /\ nth_error property_types (Z.to_nat i) = Some (s2z t).

(** [reorder j j']: [j'] is [j] with the members of its objects listed in another order, at
    any depth; arrays keep their order.  Inside the keys of a map that is written as a
    sequence of pairs (the member "value" of a MapProperty) nothing is moved. *)
Inductive reorder : json -> json -> Prop :=
| Re_leaf j : (forall l, j <> JArr l) -> (forall o, j <> JObj o) -> reorder j j
| Re_arr l l' : Forall2 reorder l l' -> reorder (JArr l) (JArr l')
| Re_obj o o1 o2 : Forall2 (member o) o o1 -> Permutation o1 o2 -> reorder (JObj o) (JObj o2)
with member : list (str * json) -> str * json -> str * json -> Prop :=
| Me_any o k v w : reorder v w -> (has_type "MapProperty" o -> k <> s2z "value") -> member o (k, v) (k, w)
| Me_same o k v : member o (k, v) (k, v)
| Me_pairs o k l l' : Forall2 entry l l' -> member o (k, JArr l) (k, JArr l')
with entry : json -> json -> Prop :=
| En_pair k v w : reorder v w -> entry (JArr [k; v]) (JArr [k; w]).

(** [inside x j]: [x] is [j] or a part of it. *)
Inductive inside (x : json) : json -> Prop :=
| In_self : inside x x
| In_val l k v : In (k, v) l -> inside x v -> inside x (JObj l)
| In_elem l v : In v l -> inside x v -> inside x (JArr l).

(** The names that select the kind of a struct. *)
Definition struct_kinds : list str :=
  map s2z ["Vector2F"; "Vector2D"; "VectorF"; "VectorD"; "RotatorF"; "RotatorD"; "QuatF"; "QuatD"; "DateTime";
           "Timespan"; "LinearColor"; "IntPoint"; "Guid"; "GameplayTagContainer"; "CustomStruct"]%string.
(** No member is named twice, no property selects two kinds of value, and no member that
    is read as a guid makes the guid parser panic (C46). *)
Definition plain_obj (o : list (str * json)) : Prop :=
  NoDup (map fst o)
  /\ (has_type "StructProperty" o -> forall k k', In k (map fst o) -> In k' (map fst o) ->
      In k struct_kinds -> In k' struct_kinds -> k = k')
  /\ (has_type "ByteProperty" o -> ~ (In (s2z "Byte") (map fst o) /\ In (s2z "Namespaced") (map fst o)))
  /\ (forall k s, In (k, JStr s) o -> In k [s2z "guid"; s2z "Guid"] -> guid_parse s <> Panicked).
Definition plain (j : json) : Prop := forall o, inside (JObj o) j -> plain_obj o.

(** The keys of the custom versions in the header are guids, written in one way each.
    (The file and its header may be given as objects or as arrays.) *)
Inductive header_of : json -> json -> Prop :=
| Ho_obj o h : get (fun v => v) (s2z "header") o = Some h -> header_of (JObj o) h
| Ho_arr v h p : header_of (JArr [v; h; p]) h.
Inductive versions_of : json -> json -> Prop :=
| Vo_obj o vs : get (fun v => v) (s2z "custom_versions") o = Some vs -> versions_of (JObj o) vs
| Vo_arr2 t p e f vs c : versions_of (JArr [t; p; e; f; vs; c]) vs
| Vo_arr3 t p u e f vs c : versions_of (JArr [t; p; u; e; f; vs; c]) vs.
Definition plain_versions (j : json) : Prop := forall h vs,
  header_of j h -> versions_of h (JObj vs) ->
  forall k k', In k (map fst vs) -> In k' (map fst vs) ->
  guid_parse k <> Panicked /\ (forall g, guid_parse k = Parsed g -> guid_parse k' = Parsed g -> k = k').

(** Hash values depend on keys only. *)
Definition keyed (hp : hashing) : Prop := forall l l' k i, map fst l = map fst l' -> hp l k i = hp l' k i.

(** Both fail, or both succeed with results related by [E]. *)
Definition alike {A} (E : A -> A -> Prop) (r r' : jres A) : Prop :=
  match r, r' with
  | JOk a, JOk a' => E a a'
  | JErr, JErr => True
  | _, _ => False
  end.
(** The same entries, in any order, with related values. *)
Definition mapped {A B} (E : B -> B -> Prop) (l l' : list (A * B)) : Prop :=
  exists l1, Forall2 (fun e f => fst e = fst f /\ E (snd e) (snd f)) l l1 /\ Permutation l1 l'.
Definition same_header (h h' : header) : Prop :=
  h_package h = h_package h' /\ h_ue5 h = h_ue5 h' /\ h_engine h = h_engine h' /\ h_format h = h_format h'
  /\ Permutation (h_versions h) (h_versions h') /\ h_class h = h_class h'.
Definition same_prop (p p' : property) : Prop := eqv p p' = true.
Definition same_file (g g' : gfile) : Prop :=
  g_version g = g_version g' /\ same_header (g_header g) (g_header g')
  /\ mapped same_prop (g_props g) (g_props g').

(** ** Proofs *)

Section Reading.
Definition like {A} (n : nat) (E : A -> A -> Prop) (d : json -> jres A) : Prop :=
  forall j j', (jsize j < n)%nat -> reorder j j' -> plain j -> alike E (d j) (d j').
Definition objs (n : nat) (o o2 : list (str * json)) : Prop :=
  plain_obj o
  /\ (exists o1, Forall2 (member o) o o1 /\ Permutation o1 o2)
  /\ forall k v, In (k, v) o -> (jsize v < n)%nat /\ plain v.

Lemma plain_elem l v : plain (JArr l) -> In v l -> plain v.
Proof. intros P I o H. apply P. eapply In_elem; eauto. Qed.
Lemma plain_val l k v : plain (JObj l) -> In (k, v) l -> plain v.
Proof. intros P I o H. apply P. eapply In_val; eauto. Qed.
Lemma objs_from n o o2 : (jsize (JObj o) < S n)%nat -> reorder (JObj o) (JObj o2) -> plain (JObj o) -> objs n o o2.
Proof.
  intros S R P. split; [apply P; constructor|]. split.
  - inversion R; subst; [congruence|eauto].
  - intros k v I. pose proof (obj_smaller _ _ _ I). split; [lia|]. eapply plain_val; eauto.
Qed.
Lemma objs_less n o o2 : (jsize (JObj o) < n)%nat -> reorder (JObj o) (JObj o2) -> plain (JObj o) -> objs n o o2.
Proof. intros. apply objs_from; auto. Qed.

Lemma reorder_refl : forall n j, (jsize j < n)%nat -> reorder j j.
Proof.
  induction n as [|n IH]; intros j S; [lia|]. destruct j as [| | | | |l|o]; try (apply Re_leaf; discriminate).
  - apply Re_arr. assert (H : forall v, In v l -> reorder v v).
    { intros v I. apply IH. pose proof (arr_smaller _ _ I). lia. }
    clear S IH. induction l as [|v l IHl]; constructor; [apply H; now left|]. apply IHl. intros; apply H; now right.
  - apply Re_obj with (o1 := o); [|reflexivity]. generalize o at 1. intros o0.
    clear. induction o as [|[k v] o IHo]; constructor; auto. apply Me_same.
Qed.
Lemma refl j : reorder j j.
Proof. apply (reorder_refl (S (jsize j))). lia. Qed.

(** Results. *)
Lemma alike_bind {A B} (E : A -> A -> Prop) (F : B -> B -> Prop) r r' (k k' : A -> jres B) :
  alike E r r' -> (forall a a', E a a' -> alike F (k a) (k' a')) -> alike F (jbind r k) (jbind r' k').
Proof. destruct r, r'; cbn [alike jbind]; try easy. intros H K. now apply K. Qed.
Lemma alike_first {A} (E : A -> A -> Prop) l l' : Forall2 (alike E) l l' -> alike E (first_of l) (first_of l').
Proof.
  induction 1 as [|r r' l l' H _ IH]; cbn [first_of]; [exact I|].
  destruct r, r'; cbn [alike] in H; try easy. 
Qed.
Lemma alike_mono {A} (E F : A -> A -> Prop) r r' : (forall a a', E a a' -> F a a') -> alike E r r' -> alike F r r'.
Proof. intros M. destruct r, r'; cbn [alike]; auto. Qed.
Lemma like_mono {A} n (E F : A -> A -> Prop) d : (forall a a', E a a' -> F a a') -> like n E d -> like n F d.
Proof. intros M L j j' S R P. eapply alike_mono; eauto. Qed.

(** Lookup. *)
Lemma get_map {A} (f : json -> A) k o : get f k o = option_map f (get (fun v => v) k o).
Proof. induction o as [|[k' v] o IH]; cbn [get option_map]; [reflexivity|]. destruct (str_eqb k k'); auto. Qed.
Lemma get_none k o : ~ In k (map fst o) -> get (fun v => v) k o = None.
Proof.
  induction o as [|[k' v] o IH]; cbn [get map fst In]; [reflexivity|]. intros N.
  destruct (str_eqb k k') eqn:E; [apply str_eqb_eq in E; subst; exfalso; apply N; now left|]. apply IH. tauto.
Qed.
Lemma get_nodup k v o : NoDup (map fst o) -> In (k, v) o -> get (fun v => v) k o = Some v.
Proof.
  induction o as [|[k' v'] o IH]; cbn [get map fst In]; [easy|]. intros N [X|I].
  - injection X as -> ->. now rewrite str_eqb_refl.
  - inversion N as [|? ? N1 N2]; subst. destruct (str_eqb k k') eqn:E; [|auto].
    apply str_eqb_eq in E. subst. exfalso. apply N1. apply in_map_iff. exists (k', v). auto.
Qed.
Lemma member_key o e f : member o e f -> fst e = fst f.
Proof. intros M. now destruct M. Qed.
Lemma members_keys o l l1 : Forall2 (member o) l l1 -> map fst l = map fst l1.
Proof. induction 1; cbn [map]; [reflexivity|]. f_equal; eauto using member_key. Qed.
Lemma objs_keys n o o2 : objs n o o2 -> Permutation (map fst o) (map fst o2) /\ NoDup (map fst o) /\ NoDup (map fst o2).
Proof.
  intros ((N & _) & (o1 & F & P) & _). apply members_keys in F.
  assert (Q : Permutation (map fst o) (map fst o2)) by (rewrite F; now apply Permutation_map).
  repeat split; auto. eapply Permutation_NoDup; eauto.
Qed.
Lemma look n k o o2 : objs n o o2 ->
  (get (fun v => v) k o = None /\ get (fun v => v) k o2 = None)
  \/ exists v w, In (k, v) o /\ In (k, w) o2 /\ member o (k, v) (k, w)
     /\ get (fun v => v) k o = Some v /\ get (fun v => v) k o2 = Some w.
Proof.
  intros O. destruct (objs_keys _ _ _ O) as (PK & N & N2). destruct O as (_ & (o1 & F & P) & _).
  destruct (in_dec (list_eq_dec Z.eq_dec) k (map fst o)) as [I|I].
  - right. apply in_map_iff in I as ([k' v] & X & I). cbn [fst] in X. subst k'.
    assert (H : exists w, In (k, w) o1 /\ member o (k, v) (k, w)).
    { clear P PK N N2. generalize dependent o1. generalize o at 1 3. intros oo o1 F.
      induction F as [|e f l l1 M F IH]; [destruct I|]. destruct I as [->|I].
      - exists (snd f). pose proof (member_key _ _ _ M) as K. destruct f as [k' w]; cbn [fst snd] in *. subst k'.
        split; [now left|auto].
      - destruct (IH I) as (w & ? & ?). exists w. split; [now right|auto]. }
    destruct H as (w & J & M). exists v, w. assert (In (k, w) o2) by (eapply Permutation_in; eauto).
    repeat split; auto using get_nodup.
  - left. split; apply get_none; auto. intros J. apply I. eapply Permutation_in; [symmetry; exact PK|auto].
Qed.
(** The members of objects other than the "value" of a map. *)
Definition open_key (k : str) (o : list (str * json)) : Prop := has_type "MapProperty" o -> k <> s2z "value".
Lemma entries_pairs l l' : Forall2 entry l l' -> Forall2 reorder l l'.
Proof.
  induction 1 as [|e f l l' M F IH]; constructor; auto. destruct M. apply Re_arr. constructor; [apply refl|]. constructor; auto.
Qed.
Lemma member_open o k v w : member o (k, v) (k, w) -> reorder v w.
Proof.
  intros M. inversion M; subst; auto using refl. apply Re_arr. now apply entries_pairs.
Qed.
Lemma need_like {A} n (E : A -> A -> Prop) d k o o2 : like n E d -> objs n o o2 -> alike E (need d k o) (need d k o2).
Proof.
  intros L O. unfold need. rewrite (get_map d k o), (get_map d k o2).
  destruct (look n k o o2 O) as [[-> ->]|(v & w & I & J & M & -> & ->)]; [exact Logic.I|]. cbn [option_map].
  destruct O as (_ & _ & S). destruct (S _ _ I) as [S1 S2]. apply L; auto. eapply member_open; eauto.
Qed.
Lemma dflt_like {A} n (E : A -> A -> Prop) d x k o o2 : E x x -> like n E d -> objs n o o2 ->
  alike E (dflt d x k o) (dflt d x k o2).
Proof.
  intros X L O. unfold dflt. rewrite (get_map d k o), (get_map d k o2).
  destruct (look n k o o2 O) as [[-> ->]|(v & w & I & J & M & -> & ->)]; [exact X|]. cbn [option_map].
  destruct O as (_ & _ & S). destruct (S _ _ I) as [S1 S2]. apply L; auto. eapply member_open; eauto.
Qed.
Definition orel {A} (E : A -> A -> Prop) (a b : option A) : Prop :=
  match a, b with None, None => True | Some x, Some y => E x y | _, _ => False end.
Lemma option_like {A} n (E : A -> A -> Prop) d : like n E d -> like n (orel E) (d_option d).
Proof.
  intros L j j' S R P. specialize (L j j' S R P).
  assert (X : alike (orel E) (a <~ d j ;; JOk (Some a)) (a <~ d j' ;; JOk (Some a))) by (eapply alike_bind; eauto).
  destruct R; [destruct j|..]; auto. exact Logic.I.
Qed.
Lemma opt_like {A} n (E : A -> A -> Prop) d k o o2 : like n E d -> objs n o o2 ->
  alike (orel E) (opt d k o) (opt d k o2).
Proof. intros L O. eapply dflt_like; eauto; [exact Logic.I|]. now apply option_like. Qed.
Lemma list_like {A} n (E : A -> A -> Prop) d : like n E d -> like n (Forall2 E) (d_list d).
Proof.
  intros L j j' S R P. destruct R as [j N1 N2|l l' F|]; [|cbn [d_list]|exact Logic.I].
  - destruct j; try exact Logic.I. exfalso. eapply N1. reflexivity.
  - assert (H : forall v, In v l -> (jsize v < n)%nat /\ plain v).
    { intros v I. pose proof (arr_smaller _ _ I). split; [lia|]. eapply plain_elem; eauto. }
    clear S P. induction F as [|v w l l' R F IH]; cbn [d_all]; [constructor|].
    destruct (H v (or_introl eq_refl)) as [S P].
    apply (alike_bind E); [apply L; auto|]. intros a a' Ea.
    apply (alike_bind (Forall2 E)); [apply IH; intros; apply H; now right|]. intros q q' Q. constructor; auto.
Qed.
(** The entries of an object read as a map. *)
Lemma entries_like {A} n (E : A -> A -> Prop) d o o2 : like n E d -> objs n o o2 ->
  alike (mapped E) (d_entries d o) (d_entries d o2).
Proof.
  intros L (_ & (o1 & F & P) & S).
  assert (H : alike (Forall2 (fun e f => fst e = fst f /\ E (snd e) (snd f))) (d_entries d o) (d_entries d o1)
    /\ Forall (fun e => d (snd e) <> JPanic) o1).
  { clear P o2. generalize dependent o1. generalize o at 1. intros oo o1 F. induction F as [|e f l l1 M F IH].
    - split; [constructor|constructor].
    - destruct e as [k v], f as [k' w]. pose proof (member_key _ _ _ M) as K. cbn [fst] in K. subst k'.
      destruct (S k v (or_introl eq_refl)) as [S1 S2]. apply member_open in M.
      specialize (L v w S1 M S2). destruct IH as [I1 I2]; [intros; eapply S; right; eauto|]. split.
      + cbn [d_entries]. apply (alike_bind E); auto. intros a a' Ea.
        eapply alike_bind; [exact I1|]. intros q q' Q. constructor; auto.
      + constructor; auto. cbn [snd]. destruct (d v), (d w); cbn [alike] in L; easy. }
  destruct H as [H NP]. clear F S L.
  assert (K : alike (@Permutation (str * A)) (d_entries d o1) (d_entries d o2)).
  { clear H. induction P as [|[k v] l l' P IH|[k v] [k' v'] l|l l' l'' P1 IH1 P2 IH2].
    - constructor.
    - inversion NP as [|? ? N1 N2]; subst. cbn [d_entries snd] in *. specialize (IH N2).
      destruct (d v); cbn [jbind]; try easy. eapply alike_bind; [exact IH|]. intros; constructor; auto.
    - inversion NP as [|? ? N1 N2]; subst. inversion N2 as [|? ? N3 N4]; subst. cbn [d_entries snd] in *.
      assert (N5 : d_entries d l <> JPanic).
      { clear - N4. induction N4 as [|[k v] l N _ IH]; cbn [d_entries snd] in *; [discriminate|].
        destruct (d v); cbn [jbind]; try easy. destruct (d_entries d l); cbn [jbind]; easy. }
      destruct (d v), (d v'); cbn [jbind]; try easy; destruct (d_entries d l); cbn [jbind alike]; try easy.
      apply perm_swap.
    - specialize (IH1 NP). assert (NP' : Forall (fun e => d (snd e) <> JPanic) l').
      { eapply Permutation_Forall; eauto. }
      specialize (IH2 NP'). destruct (d_entries d l), (d_entries d l'), (d_entries d l''); cbn [alike] in *; try easy.
      etransitivity; eauto. }
  destruct (d_entries d o), (d_entries d o1), (d_entries d o2); cbn [alike] in *; try easy. eexists; eauto.
Qed.
Lemma entries_keys {A} (d : json -> jres A) o : forall l, d_entries d o = JOk l -> map fst l = map fst o.
Proof.
  induction o as [|[k v] o IH]; intros l; cbn [d_entries]; intros X; [injection X as <-; reflexivity|].
  destruct (d v); cbn [jbind] in X; try discriminate. destruct (d_entries d o) eqn:Q; cbn [jbind] in X; try discriminate.
  injection X as <-. cbn [map fst]. f_equal. now apply IH.
Qed.
Lemma nodup_fresh {V} (l : list (str * V)) : NoDup (map fst l) -> distinct str_eqb l = true.
Proof.
  induction l as [|[k v] l IH]; cbn [map fst distinct]; [reflexivity|]. intros N.
  inversion N as [|? ? N1 N2]; subst. rewrite IH by auto. rewrite andb_true_r. apply forallb_forall.
  intros [k' v'] I. cbn [fst]. destruct (str_eqb k' k) eqn:E; [|reflexivity].
  apply str_eqb_eq in E. subst. exfalso. apply N1. apply in_map_iff. now exists (k, v').
Qed.
Lemma ins_nodup {V} (l : list (str * V)) : NoDup (map fst l) -> ins_all str_eqb l = l.
Proof. intros N. apply ins_all_fresh. rewrite <- distinct_fresh. now apply nodup_fresh. Qed.
Lemma map_like {A} n (E : A -> A -> Prop) d : like n E d -> like n (mapped E) (d_map d).
Proof.
  intros L j j' S R P. destruct R as [j N1 N2|l l' F|o o1 o2 F Q]; [|exact Logic.I|].
  - destruct j; try exact Logic.I. exfalso. eapply N2. reflexivity.
  - assert (O : objs n o o2) by (apply objs_less; auto; eapply Re_obj; eauto).
    pose proof (entries_like n E d o o2 L O) as H. destruct (objs_keys _ _ _ O) as (_ & K1 & K2).
    cbn [d_map]. destruct (d_entries d o) as [l| |] eqn:X, (d_entries d o2) as [l2| |] eqn:Y; cbn [jbind alike] in *; try easy.
    rewrite !ins_nodup; auto; [erewrite entries_keys by eassumption; auto..].
Qed.

(** Structs. *)
Lemma forall2_length {A B} (R : A -> B -> Prop) l l' : Forall2 R l l' -> List.length l = List.length l'.
Proof. induction 1; cbn; congruence. Qed.
Lemma once_like {A} n (E : A -> A -> Prop) names o o2 r r' : objs n o o2 -> alike E r r' ->
  alike E (d_once names o r) (d_once names o2 r').
Proof. intros O H. destruct (objs_keys _ _ _ O) as (_ & K1 & K2). now rewrite !d_once_t by now apply once_nodup. Qed.
Definition fields_only (names : list str) : bool :=
  distinct str_eqb (map (fun k => (k, tt)) names)
  && forallb (fun k => negb (existsb (str_eqb k) [s2z "type"; s2z "guid"; s2z "Guid"])) names.
Lemma combine_fst {A B} (l : list A) (m : list B) : List.length m = List.length l -> map fst (combine l m) = l.
Proof. revert m. induction l as [|a l IH]; intros [|b m] E; try discriminate; [reflexivity|]. cbn. f_equal. auto. Qed.
Lemma objs_listed n names l l' : fields_only names = true -> List.length l = List.length names ->
  Forall2 reorder l l' -> (forall v, In v l -> (jsize v < n)%nat /\ plain v) -> objs n (combine names l) (combine names l').
Proof.
  unfold fields_only. intros N L F S. apply andb_true_iff in N as [D N]. apply distinct_nodup in D. rewrite map_map in D.
  cbn [fst] in D. rewrite map_id in D. rewrite forallb_forall in N.
  assert (T : forall k, In k [s2z "type"; s2z "guid"; s2z "Guid"] -> ~ In k (map fst (combine names l))).
  { intros k I J. rewrite combine_fst in J by auto. specialize (N _ J). apply negb_true_iff in N.
    apply Bool.not_true_iff_false in N. apply N. apply existsb_exists. exists k. split; auto. apply str_eqb_refl. }
  assert (NT : forall t, ~ has_type t (combine names l)).
  { intros t [H|(i & H & _)]; rewrite get_none in H; try discriminate; apply T; now left. }
  split; [|split].
  - split; [now rewrite combine_fst|]. split; [intros H; now apply NT in H|]. split; [intros H; now apply NT in H|].
    intros k s I J. exfalso. apply (T k); [cbn in *; tauto|]. apply in_map_iff. now exists (k, JStr s).
  - exists (combine names l'). split; [|reflexivity]. generalize (combine names l) at 1 as o, NT. intros o NT'. clear T D N L NT S.
    revert names. induction F as [|v w l l' R F IH]; intros [|k names]; cbn [combine]; constructor; auto.
    apply Me_any; auto. intros H. now apply NT' in H.
  - intros k v I. apply S. eapply in_combine_r, I.
Qed.
Lemma listed_like {A} n (E : A -> A -> Prop) names f l l' : fields_only names = true ->
  (forall o o2, objs n o o2 -> alike E (f o) (f o2)) -> Forall2 reorder l l' ->
  (forall v, In v l -> (jsize v < n)%nat /\ plain v) -> alike E (listed names f l) (listed names f l').
Proof.
  intros N H F S. unfold listed.
  assert (L : List.length l = List.length l') by (clear - F; induction F; cbn; congruence).
  rewrite <- L. destruct (Nat.eqb_spec (List.length l) (List.length names)) as [X|X]; [|exact Logic.I].
  apply H. now apply objs_listed.
Qed.
Lemma elems n l : (jsize (JArr l) < S n)%nat -> plain (JArr l) -> forall v, In v l -> (jsize v < n)%nat /\ plain v.
Proof. intros S P v I. pose proof (arr_smaller _ _ I). split; [lia|]. eapply plain_elem; eauto. Qed.
Lemma struct_like {A} n (E : A -> A -> Prop) names f : fields_only names = true ->
  (forall o o2, objs n o o2 -> alike E (f o) (f o2)) -> like n E (d_struct names f).
Proof.
  intros N H j j' S R P. destruct R as [j N1 N2|l l' F|o o1 o2 F Q]; cbn [d_struct].
  - destruct j; try exact Logic.I; exfalso; [eapply N1|eapply N2]; reflexivity.
  - eapply listed_like; eauto. apply elems; auto.
  - assert (O : objs n o o2) by (apply objs_less; auto; eapply Re_obj; eauto). eapply once_like; eauto.
Qed.

(** Leaves. *)
Lemma leaf_like {A} n (d : json -> jres A) :
  (forall l, d (JArr l) = JErr) -> (forall o, d (JObj o) = JErr) -> (forall j, d j <> JPanic) -> like n eq d.
Proof.
  intros A1 A2 N j j' S R P. destruct R; rewrite ?A1, ?A2; try exact Logic.I.
  specialize (N j). destruct (d j); cbn [alike]; easy.
Qed.
Lemma bool_like n : like n eq d_bool.
Proof. apply leaf_like; try reflexivity. intros []; discriminate. Qed.
Lemma str_like n : like n eq d_str.
Proof. apply leaf_like; try reflexivity. intros []; discriminate. Qed.
Lemma int_like n a b : like n eq (d_int a b).
Proof. apply leaf_like; try reflexivity. intros []; try discriminate. cbn [d_int]. destruct (inr _ _ _); discriminate. Qed.
Lemma f32_like n : like n eq d_f32.
Proof. apply leaf_like; try reflexivity. intros []; discriminate. Qed.
Lemma f64_like n : like n eq d_f64.
Proof. apply leaf_like; try reflexivity. intros []; discriminate. Qed.
Lemma num_like n k : like n eq (d_num k).
Proof. destruct k; first [apply int_like|apply f32_like|apply f64_like]. Qed.
Lemma hex_like n : like n eq d_hex.
Proof.
  apply leaf_like; try reflexivity. intros []; try discriminate. cbn [d_hex].
  assert (H : forall m s, (List.length s <= m)%nat -> hex_bytes s <> JPanic).
  { induction m as [|m IH]; intros [|a [|b r]] L; cbn [hex_bytes List.length] in *; try discriminate; try lia.
    destruct (hex_val a), (hex_val b); try discriminate. specialize (IH r ltac:(lia)).
    destruct (hex_bytes r); cbn [jbind]; easy. }
  eapply H. reflexivity.
Qed.
Lemma name_like n l : like n eq (d_name l).
Proof.
  apply leaf_like; try reflexivity. intros [| | | |s| |]; try discriminate. cbn [d_name]. generalize 0 as i.
  induction l as [|a l IH]; intros i; cbn [index_of]; [discriminate|]. destruct (str_eqb s a); [discriminate|auto].
Qed.
Lemma index_np s l i : index_of s l i <> JPanic.
Proof. revert i. induction l as [|a l IH]; intros i; cbn [index_of]; [discriminate|]. destruct (str_eqb s a); [discriminate|auto]. Qed.
Lemma tag_like n l : like n eq (d_tag l).
Proof.
  apply leaf_like; try reflexivity. intros [| | | |s| |]; try discriminate; cbn [d_tag d_name]; [|apply index_np].
  destruct (inr _ _ _); discriminate.
Qed.
Lemma unit_like n b l : like n eq (d_unit b l).
Proof.
  intros j j' S R P. destruct R as [j N1 N2|q q' F|o o1 o2 F Q].
  - destruct j; try exact Logic.I; [|exfalso; eapply N2; reflexivity]. cbn [d_unit d_name].
    pose proof (index_np s l 0). destruct (index_of s l 0); easy.
  - exact Logic.I.
  - assert (O : objs n o o2) by (apply objs_less; auto; eapply Re_obj; eauto). clear F Q.
    destruct (objs_keys _ _ _ O) as (PK & _ & _). pose proof (Permutation_length PK) as LL. rewrite !map_length in LL.
    destruct O as (_ & (o3 & F & Q) & S').
    destruct o as [|[k v] [|e o]]; destruct o2 as [|[k2 w] [|e2 o2]]; try discriminate LL; try exact Logic.I.
    + apply Permutation_sym, Permutation_length_1_inv in Q. subst o3.
      inversion F as [|? ? ? ? M _]; subst. pose proof (member_key _ _ _ M) as K. cbn [fst] in K. subst k2.
      apply member_open in M. assert (X : alike eq (index_of k l 0) (index_of k l 0)).
      { pose proof (index_np k l 0). destruct (index_of k l 0); easy. }
      destruct M as [v N1 N2|q q' F'|o o' o2 F' Q'].
      * destruct v; try exact Logic.I; [exact X|exfalso; eapply N2; reflexivity].
      * exact Logic.I.
      * pose proof (forall2_length _ _ _ F') as L1. pose proof (Permutation_length Q') as L2.
        destruct o, o', o2; try discriminate; try exact Logic.I. cbn [d_unit]. destruct b; [exact X|exact Logic.I].
    + cbn [d_unit]. destruct v as [| | | | | |[|? ?]], w as [| | | | | |[|? ?]]; exact Logic.I.
Qed.
Lemma u8byte_like n : like n eq d_u8byte.
Proof.
  intros j j' S R P. unfold d_u8byte. eapply alike_bind; [eapply int_like; eauto|]. intros a a' ->. reflexivity.
Qed.
Lemma hname_like n : like n eq d_hname.
Proof.
  apply leaf_like; try reflexivity. intros []; try discriminate; cbn [d_hname]; [destruct (inr _ _ _)|destruct (find _ _)]; discriminate.
Qed.
Lemma pname_like n : like n eq d_pname.
Proof.
  apply leaf_like; try reflexivity. intros []; try discriminate; cbn [d_pname]; [destruct (inr _ _ _)|destruct (find _ _)]; discriminate.
Qed.
Lemma orel_eq {A} (a b : option A) : orel eq a b -> a = b.
Proof. destruct a, b; cbn [orel]; try easy. now intros ->. Qed.
Lemma option_eq {A} n (d : json -> jres A) : like n eq d -> like n eq (d_option d).
Proof. intros L. eapply like_mono; [|apply option_like, L]. intros a a'. apply orel_eq. Qed.
Lemma opt_eq {A} n (d : json -> jres A) k o o2 : like n eq d -> objs n o o2 -> alike eq (opt d k o) (opt d k o2).
Proof. intros L O. eapply alike_mono; [|eapply opt_like; eauto]. intros a a'. apply orel_eq. Qed.
Lemma forall2_eq {A} (l l' : list A) : Forall2 eq l l' -> l = l'.
Proof. induction 1; congruence. Qed.
Lemma list_eq {A} n (d : json -> jres A) : like n eq d -> like n eq (d_list d).
Proof. intros L. eapply like_mono; [|apply list_like, L]. intros a a'. apply forall2_eq. Qed.
Lemma ostr_like n : like n eq d_ostr.
Proof. apply option_eq, str_like. Qed.
#[local] Hint Resolve bool_like str_like int_like f32_like f64_like num_like hex_like name_like tag_like unit_like u8byte_like hname_like
  pname_like ostr_like list_eq option_eq opt_eq need_like dflt_like map_like list_like : lk.
Ltac eqs n O := repeat match goal with
  | |- alike _ (jbind _ _) (jbind _ _) => eapply (alike_bind eq); [|intros ? ? <-]
  | |- alike _ (d_once _ _ _) (d_once _ _ _) => apply once_like with (n := n); [exact O|]
  | |- alike _ (need _ _ _) (need _ _ _) => apply need_like with (n := n); [|exact O]
  | |- alike _ (dflt _ _ _ _) (dflt _ _ _ _) => apply dflt_like with (n := n); [reflexivity| |exact O]
  | |- alike _ (opt _ _ _) (opt _ _ _) => apply opt_eq with (n := n); [|exact O]
  | |- alike _ (JOk _) (JOk _) => reflexivity
  end; auto with lk.
(** An object read by looking up members. *)
Lemma obj_like {A} n (E : A -> A -> Prop) (f : list (str * json) -> jres A) :
  (forall o o2, objs n o o2 -> alike E (f o) (f o2)) ->
  like n E (fun j => match j with JObj o => f o | _ => JErr end).
Proof.
  intros H j j' S R P. destruct R as [j N1 N2|l l' F|o o1 o2 F Q]; [|exact Logic.I|].
  - destruct j; try exact Logic.I. exfalso. eapply N2. reflexivity.
  - apply H, objs_less; auto. eapply Re_obj; eauto.
Qed.
Lemma numfmt_like n : like n eq d_numfmt.
Proof. apply obj_like. intros o o2 O. eqs n O; apply int_like. Qed.
Lemma ticks_like n : like n eq d_ticks.
Proof. apply struct_like; [reflexivity|]. intros o o2 O. eqs n O; apply int_like. Qed.
#[local] Hint Resolve numfmt_like ticks_like : lk.
Lemma delegate_like n : like n eq d_delegate.
Proof. apply struct_like; [reflexivity|]. intros o o2 O. eqs n O. Qed.
#[local] Hint Resolve delegate_like : lk.
Lemma delegates_like n : like n eq d_delegates.
Proof. apply struct_like; [reflexivity|]. intros o o2 O. eqs n O. Qed.
Lemma path_like n : like n eq d_path.
Proof. apply struct_like; [reflexivity|]. intros o o2 O. eqs n O. Qed.
Lemma engine_like n : like n eq d_engine.
Proof. apply struct_like; [reflexivity|]. intros o o2 O. eqs n O; apply int_like. Qed.
#[local] Hint Resolve delegates_like path_like engine_like : lk.
Lemma obj_less_single {A} n (E : A -> A -> Prop) (f : str -> json -> option (jres A)) :
  (forall k v w, (jsize v < n)%nat -> reorder v w -> plain v ->
     (k = s2z "Guid" -> forall s, v = JStr s -> guid_parse s <> Panicked) ->
     match f k v, f k w with None, None => True | Some r, Some r' => alike E r r' | _, _ => False end) ->
  forall o o2, (jsize (JObj o) < S n)%nat -> reorder (JObj o) (JObj o2) -> plain (JObj o) ->
  alike E (single (match o with [(k, v)] => [f k v] | _ => [] end))
    (single (match o2 with [(k, v)] => [f k v] | _ => [] end)).
Proof.
  intros H o o2 S0 R0 P0. pose proof (objs_from _ _ _ S0 R0 P0) as O. destruct (objs_keys _ _ _ O) as (PK & _ & _).
  pose proof (Permutation_length PK) as LL. rewrite !map_length in LL.
  destruct O as ((_ & _ & _ & G) & (o1 & F & Q) & S).
  destruct o as [|[k v] [|? ?]]; destruct o2 as [|[k2 w] [|? ?]]; try discriminate LL; try exact Logic.I.
  apply Permutation_sym, Permutation_length_1_inv in Q. subst o1.
  inversion F as [|? ? ? ? M _]; subst. pose proof (member_key _ _ _ M) as K. cbn [fst] in K. subst k2.
  destruct (S k v (or_introl eq_refl)) as [S1 S2]. apply member_open in M.
  assert (X : k = s2z "Guid" -> forall s, v = JStr s -> guid_parse s <> Panicked).
  { intros -> s ->. apply (G (s2z "Guid")); [now left|]. right; now left. }
  specialize (H k v w S1 M S2 X). cbn [single]. destruct (f k v), (f k w); easy.
Qed.
Lemma single_like {A} n (E : A -> A -> Prop) (f : str -> json -> option (jres A)) :
  (forall k v w, (jsize v < n)%nat -> reorder v w -> plain v ->
     (k = s2z "Guid" -> forall s, v = JStr s -> guid_parse s <> Panicked) ->
     match f k v, f k w with None, None => True | Some r, Some r' => alike E r r' | _, _ => False end) ->
  like n E (fun j => match j with
    | JObj o => single (match o with [(k, v)] => [f k v] | _ => [] end) | _ => JErr end).
Proof.
  intros H j j' S R P. destruct R as [j N1 N2|l l' F|o o1 o2 F Q]; [|exact Logic.I|].
  - destruct j; try exact Logic.I. exfalso. eapply N2. reflexivity.
  - apply (obj_less_single n E f); auto. eapply Re_obj; eauto.
Qed.

(** Texts. *)
Definition trel (a b : ftext) : Prop := text_eqb false a b = true.
Definition arel (a b : farg) : Prop := arg_eqb false a b = true.
Lemma f2_len {A B} (R : A -> B -> Prop) l l' : Forall2 R l l' -> List.length l = List.length l'.
Proof. induction 1; cbn [List.length]; congruence. Qed.
Lemma mapped_eqb {B} (E : B -> B -> Prop) (e : B -> B -> bool) (l l' : list (str * B)) :
  (forall a b, E a b -> e a b = true) -> mapped E l l' -> map_eqb str_eqb e false l l' = true.
Proof.
  intros H (l1 & F & P). unfold map_eqb. apply andb_true_iff. split.
  - apply Z.eqb_eq. unfold len. apply Permutation_length in P. apply f2_len in F. congruence.
  - assert (K : forall x, In x l -> exists y, In y l' /\ fst x = fst y /\ E (snd x) (snd y)).
    { intros x I. assert (I' : exists y, In y l1 /\ fst x = fst y /\ E (snd x) (snd y)).
      { clear P. induction F as [|a b l l1 M F IH]; [destruct I|]. destruct I as [->|I].
        - exists b. split; [now left|tauto].
        - destruct (IH I) as (y & ? & ?). exists y. split; [now right|auto]. }
      destruct I' as (y & J & ?). exists y. split; auto. eapply Permutation_in; eauto. }
    clear F P l1. induction l as [|[k v] l IH]; cbn [submap_eqb]; [reflexivity|]. apply andb_true_iff. split.
    + destruct (K (k, v) (or_introl eq_refl)) as (y & I & A & B'). cbn [fst snd] in *. apply existsb_exists.
      exists y. split; auto. rewrite <- A, str_eqb_refl. cbn [andb]. auto.
    + apply IH. intros x I. apply K. now right.
Qed.
Lemma forall2_eqb {B} (E : B -> B -> Prop) (e : B -> B -> bool) (l l' : list B) :
  (forall a b, E a b -> e a b = true) -> Forall2 E l l' -> list_eqb e l l' = true.
Proof. intros H. induction 1; cbn [list_eqb]; [reflexivity|]. apply andb_true_iff. split; auto. Qed.

Lemma hist_like n dt da o o2 : like n trel dt -> like n arel da -> objs n o o2 ->
  alike (fun a b => hist_eqb false a b = true) (d_hist dt da o) (d_hist dt da o2).
Proof.
  intros GT GA O. unfold d_hist. apply once_like with (n := n); [exact O|]. eapply (alike_bind eq); [eqs n O|].
  intros h ? <-. apply once_like with (n := n); [exact O|]. destruct h;
  repeat match goal with
  | |- alike _ (jbind (need dt _ _) _) _ => apply (alike_bind trel); [apply need_like with (n := n); auto|intros ? ? ?]
  | |- alike _ (jbind (need da _ _) _) _ => apply (alike_bind arel); [apply need_like with (n := n); auto|intros ? ? ?]
  | |- alike _ (jbind (need (d_map da) _ _) _) _ =>
    apply (alike_bind (mapped arel)); [apply need_like with (n := n); auto with lk|intros ? ? ?]
  | |- alike _ (jbind (need (d_list da) _ _) _) _ =>
    apply (alike_bind (Forall2 arel)); [apply need_like with (n := n); auto with lk|intros ? ? ?]
  | |- alike _ (jbind _ _) (jbind _ _) =>
    apply (alike_bind eq); [eqs n O; first [apply int_like|apply unit_like|apply tag_like|idtac]|intros ? ? <-]
  | |- alike _ (JOk _) (JOk _) => cbn [alike hist_eqb]
  end; unfold trel, arel in *; repeat first [eapply mapped_eqb; [|eassumption]; now auto
    |eapply forall2_eqb; [|eassumption]; now auto|apply andb_true_iff; split]; auto with eqrefl.
Qed.
Lemma argv_like n dt k v w : like n trel dt -> (jsize v < n)%nat -> reorder v w -> plain v ->
  match d_argv dt k v, d_argv dt k w with
  | None, None => True | Some r, Some r' => alike arel r r' | _, _ => False end.
Proof.
  intros GT S R P. unfold d_argv.
  repeat (destruct (str_eqb k _);
    [first [ eapply (alike_bind eq); [first [eapply int_like; eassumption|eapply f32_like; eassumption|eapply f64_like; eassumption]
             |intros ? ? <-; cbn [alike]; unfold arel; cbn [arg_eqb]; auto with eqrefl]
           | eapply (alike_bind trel); [eapply GT; eassumption|intros ? ? H; exact H] ]|]). exact Logic.I.
Qed.
Lemma text_like n : like n trel d_text /\ like n arel d_arg.
Proof.
  induction n as [|n [GT GA]]; [split; intros j j' S; lia|]. split; intros j j' S R P.
  - destruct R as [j N1 N2|l l' F|o o1 o2 F Q]; [|exact Logic.I|].
    { destruct j; try exact Logic.I. exfalso. eapply N2. reflexivity. }
    rewrite !d_text_eq. assert (O : objs n o o2) by (apply objs_from; auto; eapply Re_obj; eauto).
    apply once_like with (n := n); [exact O|]. eapply (alike_bind eq); [eqs n O; apply int_like|]. intros f ? <-.
    eapply alike_bind; [eapply hist_like; eauto|]. intros h h' H. cbn [alike]. unfold trel. cbn [text_eqb].
    rewrite Z.eqb_refl. exact H.
  - assert (X : forall j, d_arg j = match j with
      | JObj o => single (match o with [(k, v)] => [d_argv d_text k v] | _ => [] end) | _ => JErr end) by (intros []; reflexivity).
    rewrite !X. revert S R P. intros S R P.
    destruct R as [j N1 N2|l l' F|o o1 o2 F Q]; [|exact Logic.I|].
    { destruct j; try exact Logic.I. exfalso. eapply N2. reflexivity. }
    pose proof (obj_less_single n arel (d_argv d_text)) as L. apply L; auto.
    + intros k v w S' R' P' _. eapply argv_like; eauto.
    + eapply Re_obj; eauto.
Qed.

(** Struct values. *)
Definition srel (a b : svalue) : Prop := sval_eqb false a b = true.
Definition vrel {A} (E : A -> A -> Prop) (a b : option (jres A)) : Prop :=
  match a, b with None, None => True | Some r, Some r' => alike E r r' | _, _ => False end.
Lemma fields_like n o o2 names : forall ks, objs n o o2 -> alike eq (d_fields names ks o) (d_fields names ks o2).
Proof.
  induction names as [|m names IH]; intros [|k ks] O; cbn [d_fields]; try reflexivity.
  eapply (alike_bind eq); [eqs n O|]. intros z ? <-. eapply (alike_bind eq); [now apply IH|]. intros l ? <-. reflexivity.
Qed.
Lemma guid_like j j' : reorder j j' -> (forall s, j = JStr s -> guid_parse s <> Panicked) -> alike eq (d_guid j) (d_guid j').
Proof.
  intros R G. destruct R as [j N1 N2|l l' F|o o1 o2 F Q]; try exact Logic.I.
  destruct j; try exact Logic.I. cbn [d_guid]. unfold d_guidstr. specialize (G s eq_refl).
  destruct (guid_parse s); easy.
Qed.
Lemma same_refl p : same_prop p p.
Proof. apply (proj1 (prop_refl false)). Qed.
Lemma srel_refl v : srel v v.
Proof. apply (proj1 (proj2 (prop_refl false))). Qed.
Lemma svariant_like n dp k v w : like n same_prop dp -> (jsize v < n)%nat -> reorder v w -> plain v ->
  (k = s2z "Guid" -> forall s, v = JStr s -> guid_parse s <> Panicked) ->
  vrel srel (d_svariant dp k v) (d_svariant dp k w).
Proof.
  intros G S R P Gd. unfold d_svariant. destruct (find _ fixeds) as [x|].
  - cbn [vrel]. apply (struct_like n); auto; [now destruct x|]. intros o o2 O.
    eapply (alike_bind eq); [eapply fields_like; eauto|]. intros l ? <-. apply srel_refl.
  - destruct (str_eqb k (s2z "Guid")) eqn:E1.
    { apply str_eqb_eq in E1. eapply (alike_bind eq); [apply guid_like; auto|]. intros g ? <-. apply srel_refl. }
    destruct (str_eqb k (s2z "GameplayTagContainer")).
    { eapply (alike_bind eq); [exact (list_eq n _ (str_like n) v w S R P)|]. intros g ? <-. apply srel_refl. }
    destruct (str_eqb k (s2z "CustomStruct")); [|exact Logic.I].
    eapply alike_bind; [exact (map_like n _ _ (list_like n _ _ G) v w S R P)|]. intros l l' H.
    cbn [alike]. unfold srel. cbn [sval_eqb]. eapply mapped_eqb; [|exact H].
    intros a b. apply forall2_eqb. auto.
Qed.
Lemma svariant_names dp k v : d_svariant dp k v <> None -> In k struct_kinds.
Proof.
  unfold d_svariant. destruct (find _ fixeds) as [x|] eqn:E.
  - intros _. apply find_some in E as [_ E]. apply str_eqb_eq in E. subst k. clear. unfold struct_kinds.
    apply in_map_iff. destruct x; eexists; (split; [reflexivity|]); repeat first [left; reflexivity|right].
  - unfold struct_kinds. intros H. rewrite in_map_iff.
    destruct (str_eqb k (s2z "Guid")) eqn:E1; [|destruct (str_eqb k (s2z "GameplayTagContainer")) eqn:E2;
      [|destruct (str_eqb k (s2z "CustomStruct")) eqn:E3; [|now destruct H]]];
    match goal with E : str_eqb k _ = true |- _ => apply str_eqb_eq in E; subst k end;
    eexists; (split; [reflexivity|]); repeat first [left; reflexivity|right].
Qed.
Lemma bytev_names k v : d_bytev k v <> None -> k = s2z "Byte" \/ k = s2z "Namespaced".
Proof.
  unfold d_bytev. intros H. destruct (str_eqb k (s2z "Byte")) eqn:E; [apply str_eqb_eq in E; auto|].
  destruct (str_eqb k (s2z "Namespaced")) eqn:E2; [apply str_eqb_eq in E2; auto|]. now destruct H.
Qed.
Lemma flat_the {A} (f : str -> json -> option (jres A)) k v r o : In (k, v) o -> f k v = Some r ->
  (forall k' v', In (k', v') o -> f k' v' <> None -> k' = k /\ v' = v) -> flat f o = r.
Proof.
  induction o as [|[k0 v0] o IH]; [easy|]. intros I F U. cbn [flat]. destruct (f k0 v0) as [r0|] eqn:E.
  - destruct (U k0 v0 (or_introl eq_refl)) as [-> ->]; congruence.
  - destruct I as [X|I]; [injection X as -> ->; congruence|]. apply IH; auto. intros. apply U; auto. now right.
Qed.
Lemma flat_none {A} (f : str -> json -> option (jres A)) o : (forall k v, In (k, v) o -> f k v = None) -> flat f o = JErr.
Proof.
  induction o as [|[k0 v0] o IH]; cbn [flat]; [reflexivity|]. intros U.
  rewrite (U k0 v0 (or_introl eq_refl)). apply IH. intros. apply U. now right.
Qed.
Lemma nodup_val {V} (o : list (str * V)) k v w : NoDup (map fst o) -> In (k, v) o -> In (k, w) o -> v = w.
Proof.
  induction o as [|[k' x] o IH]; cbn [map fst In]; [easy|]. intros N A B. inversion N as [|? ? N1 N2]; subst.
  assert (H : forall y, In (k', y) o -> False) by (intros y I; apply N1; apply in_map_iff; now exists (k', y)).
  destruct A as [A|A], B as [B|B]; [congruence| | |auto].
  - injection A as -> ->. destruct (H _ B).
  - injection B as -> ->. destruct (H _ A).
Qed.
Lemma in_key {V} (o : list (str * V)) k v : In (k, v) o -> In k (map fst o).
Proof. intros I. apply in_map_iff. now exists (k, v). Qed.
Lemma look_in n o o2 k w : objs n o o2 -> In (k, w) o2 -> exists v, In (k, v) o /\ member o (k, v) (k, w).
Proof.
  intros O I. destruct (objs_keys _ _ _ O) as (PK & N & N2).
  destruct (look n k o o2 O) as [[A B]|(v & w' & A & B & M & _ & X)].
  - rewrite (get_nodup k w) in B by auto. discriminate.
  - rewrite (get_nodup k w) in X by auto. injection X as ->. eauto.
Qed.
Lemma flat_like {A} n (E : A -> A -> Prop) (f : str -> json -> option (jres A)) o o2 : objs n o o2 ->
  (forall k v w, In (k, v) o -> member o (k, v) (k, w) -> vrel E (f k v) (f k w)) ->
  (forall k k' v v', In (k, v) o -> In (k', v') o -> f k v <> None -> f k' v' <> None -> k = k') ->
  alike E (flat f o) (flat f o2).
Proof.
  intros O V U. destruct (objs_keys _ _ _ O) as (PK & N & N2).
  destruct (existsb (fun e => match f (fst e) (snd e) with Some _ => true | None => false end) o) eqn:X.
  - apply existsb_exists in X as ([k v] & I & X). cbn [fst snd] in X. destruct (f k v) as [r|] eqn:Fv; [|discriminate].
    destruct (look n k o o2 O) as [[A0 B]|(v' & w & I' & J & M & _ & _)].
    { rewrite (get_nodup k v) in A0 by auto. discriminate. }
    assert (v' = v) by exact (nodup_val o k v' v N I' I). subst v'. pose proof (V k v w I M) as R. rewrite Fv in R.
    destruct (f k w) as [r'|] eqn:Fw; [|easy]. cbn [vrel] in R.
    rewrite (flat_the f k v r o), (flat_the f k w r' o2); auto.
    + intros k' w' I2 H. destruct (look_in _ _ _ _ _ O I2) as (v' & I3 & M').
      assert (k' = k). { eapply U; eauto; [|congruence]. pose proof (V _ _ _ I3 M') as R'. intros Z. rewrite Z in R'.
        destruct (f k' w'); easy. }
      subst k'. split; auto. exact (nodup_val o2 k w' w N2 I2 J).
    + intros k' v' I2 H. assert (k' = k) by (eapply U; eauto; congruence). subst k'. split; auto. exact (nodup_val o k v' v N I2 I).
  - assert (Z : forall k v, In (k, v) o -> f k v = None).
    { intros k v I. destruct (f k v) eqn:Y; auto. exfalso. apply Bool.not_true_iff_false in X. apply X.
      apply existsb_exists. exists (k, v). cbn [fst snd]. now rewrite Y. }
    rewrite (flat_none f o) by auto. rewrite flat_none; [exact Logic.I|].
    intros k w I. destruct (look_in _ _ _ _ _ O I) as (v & I' & M). pose proof (V _ _ _ I' M) as R.
    rewrite (Z _ _ I') in R. destruct (f k w); easy.
Qed.
Lemma besides_map {A} (f : str -> json -> option (jres A)) tag o :
  besides f tag o = map (fun e => f (fst e) (snd e)) (filter (fun e => negb (str_eqb (fst e) tag)) o).
Proof.
  induction o as [|[k v] o IH]; cbn [besides filter fst]; [reflexivity|]. destruct (str_eqb k tag); cbn [negb map fst snd]; congruence.
Qed.
Lemma perm_filter {A} (p : A -> bool) l l' : Permutation l l' -> Permutation (filter p l) (filter p l').
Proof.
  induction 1; cbn [filter]; auto; repeat (destruct (p _)); auto; [apply perm_swap|etransitivity; eauto].
Qed.
Lemma filter_members tag o l l1 : (forall e, In e l -> In e o) -> Forall2 (member o) l l1 ->
  Forall2 (fun e e' => In e o /\ member o e e') (filter (fun e => negb (str_eqb (fst e) tag)) l)
    (filter (fun e => negb (str_eqb (fst e) tag)) l1).
Proof.
  intros I F. induction F as [|e e' l l1 M F IH]; cbn [filter]; [constructor|].
  rewrite <- (member_key _ _ _ M). destruct (str_eqb (fst e) tag); cbn [negb].
  - apply IH. intros; apply I; now right.
  - constructor; [split; auto; apply I; now left|]. apply IH. intros; apply I; now right.
Qed.
Lemma besides_like {A} n (E : A -> A -> Prop) (f : str -> json -> option (jres A)) tag o o2 : objs n o o2 ->
  (forall k v w, In (k, v) o -> member o (k, v) (k, w) -> vrel E (f k v) (f k w)) ->
  alike E (single (besides f tag o)) (single (besides f tag o2)).
Proof.
  intros O V. destruct O as (_ & (o1 & F & P) & _). rewrite !besides_map.
  apply (perm_filter (fun e => negb (str_eqb (fst e) tag))) in P.
  assert (F' : Forall2 (fun e e' => In e o /\ member o e e') (filter (fun e => negb (str_eqb (fst e) tag)) o)
    (filter (fun e => negb (str_eqb (fst e) tag)) o1)).
  { apply filter_members; auto. }
  clear F. pose proof (f2_len _ _ _ F') as L1. pose proof (Permutation_length P) as L2.
  destruct (filter _ o) as [|e [|? ?]]; destruct (filter _ o1) as [|e1 [|? ?]]; try discriminate L1;
    destruct (filter _ o2) as [|e2 [|? ?]]; try discriminate L2; try exact Logic.I.
  - apply Permutation_length_1 in P. subst e2. inversion F' as [|? ? ? ? [I M] _]; subst.
    destruct e as [k v], e1 as [k' w]. pose proof (member_key _ _ _ M) as K. cbn [fst] in K. subst k'.
    specialize (V k v w I M). cbn [map fst snd single]. destruct (f k v), (f k w); easy.
  - cbn [map single]. destruct (f (fst e) (snd e)), (f (fst e2) (snd e2)); exact Logic.I.
Qed.

(** Maps written as sequences of pairs. *)
Definition prel (e f : property * property) : Prop := fst e = fst f /\ same_prop (snd e) (snd f).
Lemma prel_keys l l' : Forall2 prel l l' -> map fst l = map fst l'.
Proof. induction 1 as [|e f l l' [H _] _ IH]; cbn [map]; congruence. Qed.
Lemma hit_keys pr pr' k l : forall l' i, (forall i, pr i = pr' i) -> map fst l = map fst l' -> hit pr k l i = hit pr' k l' i.
Proof.
  induction l as [|[a b] l IH]; intros [|[a' b'] l'] i E K; cbn [map fst] in K; try discriminate; cbn [hit]; [reflexivity|].
  injection K as -> K. rewrite E. destruct (eqv k a' && pr' i); auto.
Qed.
Lemma set_at_like l : forall l' i v v', Forall2 prel l l' -> same_prop v v' -> Forall2 prel (set_at l i v) (set_at l' i v').
Proof.
  induction l as [|[a b] l IH]; intros l' i v v' F E; inversion F as [|? f ? l1 [H1 H2] F']; subst; destruct i; cbn [set_at]; auto.
  - destruct f as [a' b']; cbn [fst snd] in *. subst a'. constructor; [split; auto|auto].
  - destruct f as [a' b']. constructor; [split; auto|]. auto.
Qed.
Lemma ins_like l : forall l' k v v', Forall2 prel l l' -> same_prop v v' -> Forall2 prel (ins same l k v) (ins same l' k v').
Proof.
  induction l as [|[a b] l IH]; intros l' k v v' F E; inversion F as [|? f ? l1 [H1 H2] F']; subst; cbn [ins].
  - constructor; auto. split; auto.
  - destruct f as [a' b']; cbn [fst snd] in *. subst a'. destruct (same k a); constructor; auto; split; auto.
Qed.
Context (hp : hashing).
Hypothesis Hk : keyed hp.
Lemma m_insert_like l l' : Forall2 prel l l' -> Forall2 prel (m_insert hp l) (m_insert hp l').
Proof.
  unfold m_insert. assert (X : Forall2 prel [] []) by constructor. revert X. generalize (@nil (property * property)) at 1 3 as a.
  generalize (@nil (property * property)) as a'. intros a' a X F. revert a a' X.
  induction F as [|[k v] [k' v'] l l' [H1 H2] F IH]; intros a a' X; cbn [fold_left]; auto.
  apply IH. cbn [fst snd] in *. subst k'. unfold mins.
  pose proof (prel_keys _ _ X) as K. rewrite (hit_keys (hp a k) (hp a' k) k a a' 0 (fun i => Hk a a' k i K) K).
  destruct (hit _ _ _ _); [now apply set_at_like|now apply ins_like].
Qed.
Lemma pairs_eqb l l' : Forall2 prel l l' -> map_eqb eqv eqv false l l' = true.
Proof.
  intros F. unfold map_eqb. apply andb_true_iff. split; [apply Z.eqb_eq; unfold len; f_equal; eapply f2_len; eauto|].
  apply submap_iff. intros e I. revert e I. induction F as [|e f l l' [H1 H2] F IH]; intros x I; [destruct I|].
  destruct I as [->|I].
  - exists f. split; [now left|]. rewrite H1. split; auto. apply same_refl.
  - destruct (IH x I) as (y & ? & ?). exists y. split; [now right|auto].
Qed.
Lemma pair_like n dp l l' : like n same_prop dp -> Forall2 entry l l' \/ l = l' ->
  (forall v, In v l -> (jsize v < n)%nat /\ plain v) ->
  alike (Forall2 prel) (d_all (d_pair dp) l) (d_all (d_pair dp) l').
Proof.
  intros G H S.
  assert (X : Forall2 (fun a b => alike prel (d_pair dp a) (d_pair dp b)) l l').
  { assert (Y : forall k v w, (jsize k < n)%nat -> plain k -> (jsize v < n)%nat -> plain v -> reorder v w ->
      alike prel (d_pair dp (JArr [k; v])) (d_pair dp (JArr [k; w]))).
    { intros k v w S1 P1 S2 P2 R. cbn [d_pair]. pose proof (G k k S1 (refl k) P1) as Kk.
      destruct (dp k); cbn [jbind alike] in *; try easy.
      eapply alike_bind; [apply (G v w); auto|]. intros x x' E. split; auto. }
    destruct H as [F| ->].
    - induction F as [|a b l l' E F IH]; constructor.
      + destruct (S a (or_introl eq_refl)) as [S1 P1]. destruct E as [k v w R].
        pose proof (arr_smaller k [k; v] (or_introl eq_refl)). pose proof (arr_smaller v [k; v] (or_intror (or_introl eq_refl))).
        apply Y; auto; try lia; eapply plain_elem; eauto; cbn; auto.
      + apply IH. intros; apply S; now right.
    - induction l' as [|a l IH]; constructor.
      + destruct (S a (or_introl eq_refl)) as [S1 P1]. destruct a as [| | | | |[|k [|v [|? ?]]]|]; try exact Logic.I.
        pose proof (arr_smaller k [k; v] (or_introl eq_refl)). pose proof (arr_smaller v [k; v] (or_intror (or_introl eq_refl))).
        apply Y; auto using refl; try lia; eapply plain_elem; eauto; cbn; auto.
      + apply IH. intros; apply S; now right. }
  clear H S. induction X as [|a b l l' E F IH]; cbn [d_all]; [constructor|].
  eapply alike_bind; [exact E|]. intros p p' Hp. eapply alike_bind; [exact IH|]. intros q q' Hq. constructor; auto.
Qed.
Lemma value_like n dp o o2 : like n same_prop dp -> objs n o o2 -> has_type "MapProperty" o ->
  alike (Forall2 prel) (need (d_list (d_pair dp)) (s2z "value") o) (need (d_list (d_pair dp)) (s2z "value") o2).
Proof.
  intros G O T. unfold need. rewrite (get_map _ _ o), (get_map _ _ o2).
  destruct (look n (s2z "value") o o2 O) as [[-> ->]|(v & w & I & J & M & -> & ->)]; [exact Logic.I|]. cbn [option_map].
  destruct O as (_ & _ & S). destruct (S _ _ I) as [S1 P1].
  assert (X : forall l, v = JArr l -> forall x, In x l -> (jsize x < n)%nat /\ plain x).
  { intros l -> x Ix. pose proof (arr_smaller _ _ Ix). split; [lia|]. eapply plain_elem; eauto. }
  inversion M as [? ? ? ? R N| |? ? l l' F]; subst.
  - exfalso. now apply N.
  - match goal with |- alike _ (d_list _ ?x) _ => destruct x as [| | | | |l|] end; try exact Logic.I.
    cbn [d_list]. apply (pair_like n); [exact G|now right|now apply X].
  - cbn [d_list]. apply (pair_like n); [exact G|now left|now apply X].
Qed.
Lemma guid_member n o o2 : objs n o o2 ->
  alike eq (dflt d_guid no_guid (s2z "guid") o) (dflt d_guid no_guid (s2z "guid") o2).
Proof.
  intros O. unfold dflt. rewrite (get_map _ _ o), (get_map _ _ o2).
  destruct (look n (s2z "guid") o o2 O) as [[-> ->]|(v & w & I & J & M & -> & ->)]; [reflexivity|]. cbn [option_map].
  destruct O as ((_ & _ & _ & G) & _ & S). apply guid_like; [eapply member_open; eauto|].
  intros s ->. apply (G (s2z "guid")); auto. now left.
Qed.
Definition aprel (a b : arrayp) : Prop := array_eqb false a b = true.
Definition mprel (a b : mapp) : Prop := mapp_eqb false a b = true.
Lemma aprel_refl a : aprel a a.
Proof. apply (proj2 (proj2 (prop_refl false))). Qed.
Lemma mprel_refl a : mprel a a.
Proof. apply (proj2 (proj2 (prop_refl false))). Qed.
Lemma sval_like n dp : like n same_prop dp -> like n srel (d_sval dp).
Proof. intros G. apply single_like. intros. now apply svariant_like with (n := n). Qed.
Ltac single_field n O := apply once_like with (n := n); [exact O|].
Lemma array_like n dp o o2 : like n same_prop dp -> objs n o o2 -> alike aprel (d_array dp o) (d_array dp o2).
Proof.
  intros G O. apply alike_first.
  repeat constructor.
  all: single_field n O.
  1-7: eapply (alike_bind eq); [eqs n O; try (apply list_eq, int_like)|intros ? ? <-; apply aprel_refl].
  - eapply (alike_bind eq); [eqs n O|intros f ? <-]. eapply (alike_bind eq); [eqs n O|intros t ? <-].
    eapply (alike_bind eq); [eapply guid_member; eauto|intros g ? <-].
    eapply alike_bind; [eapply need_like, O; apply list_like, sval_like, G|]. intros l l' F.
    cbn [alike]. unfold aprel. cbn [array_eqb]. rewrite !str_eqb_refl, guid_eqb_refl. cbn [andb].
    eapply forall2_eqb; [|exact F]. auto.
  - eapply (alike_bind eq); [eqs n O|intros t ? <-].
    eapply alike_bind; [eapply need_like, O; apply list_like, G|]. intros l l' F.
    cbn [alike]. unfold aprel. cbn [array_eqb]. rewrite !str_eqb_refl. cbn [andb].
    eapply forall2_eqb; [|exact F]. auto.
Qed.
Lemma mapp_like n dp o o2 : like n same_prop dp -> objs n o o2 -> has_type "MapProperty" o ->
  alike mprel (d_mapp hp dp o) (d_mapp hp dp o2).
Proof.
  intros G O T. apply alike_first.
  assert (B : forall k, alike mprel (d_mbool k o) (d_mbool k o2)).
  { intros k. unfold d_mbool. single_field n O. eapply alike_bind; [eapply need_like, O; apply map_like, bool_like|]. intros l l' F.
    cbn [alike]. unfold mprel. cbn [mapp_eqb]. rewrite keyk_refl. cbn [andb]. eapply mapped_eqb; [|exact F].
    intros a ? <-. auto with eqrefl. }
  assert (N : forall k, alike mprel (d_mint k o) (d_mint k o2)).
  { intros k. unfold d_mint. single_field n O. eapply alike_bind; [eapply need_like, O; apply map_like, int_like|]. intros l l' F.
    cbn [alike]. unfold mprel. cbn [mapp_eqb]. rewrite keyk_refl. cbn [andb]. eapply mapped_eqb; [|exact F].
    intros a ? <-. auto with eqrefl. }
  assert (P : forall k, alike mprel (d_mprop dp k o) (d_mprop dp k o2)).
  { intros k. unfold d_mprop. single_field n O. eapply (alike_bind eq); [eqs n O|intros t ? <-].
    eapply alike_bind; [eapply need_like, O; apply map_like, G|]. intros l l' F.
    cbn [alike]. unfold mprel. cbn [mapp_eqb]. rewrite keyk_refl, str_eqb_refl. cbn [andb].
    eapply mapped_eqb; [|exact F]. auto. }
  repeat constructor; auto; single_field n O.
  - eapply (alike_bind eq); [eqs n O|intros a ? <-]. eapply (alike_bind eq); [eqs n O|intros b ? <-].
    eapply (alike_bind eq); [eqs n O; apply int_like|intros c ? <-].
    eapply alike_bind; [eapply value_like; eauto|]. intros l l' F. cbn [alike]. unfold mprel. cbn [mapp_eqb].
    rewrite !str_eqb_refl, Z.eqb_refl. cbn [andb]. apply pairs_eqb. now apply m_insert_like.
  - eapply alike_bind; [eapply need_like, O; apply map_like, ostr_like|]. intros l l' F.
    cbn [alike]. unfold mprel. cbn [mapp_eqb]. eapply mapped_eqb; [|exact F].
    intros a ? <-. auto with eqrefl.
Qed.
Lemma types_numbered : property_types = map pname_str pnames.
Proof. vm_compute. reflexivity. Qed.
Lemma type_of o ty t : need d_pname (s2z "type") o = JOk ty -> pname_str ty = s2z t -> has_type t o.
Proof.
  unfold need, has_type. rewrite get_map. destruct (get (fun v => v) (s2z "type") o) as [v|]; cbn [option_map]; [|discriminate].
  intros X <-. destruct v as [| |z| |s| |]; try discriminate; cbn [d_pname] in X.
  - right. exists z. destruct (inr 0 25 z) eqn:R; [|discriminate]. unfold inr in R. split; [reflexivity|]. split; [lia|].
    assert (Y : nth (Z.to_nat z) pnames NUnknown = ty) by congruence. rewrite types_numbered.
    rewrite nth_error_map, (nth_error_nth' pnames NUnknown), Y; [reflexivity|].
    change (List.length pnames) with 26%nat. lia.
  - left. destruct (find _ pnames) as [x|] eqn:E; [|discriminate].
    injection X as ->. apply find_some in E as [_ E]. apply str_eqb_eq in E. now subst s.
Qed.
Lemma simple_like n ty o o2 : objs n o o2 -> alike same_prop (d_simple ty o) (d_simple ty o2).
Proof.
  intros O. destruct ty; cbn [d_simple]; try exact Logic.I;
    repeat (eapply (alike_bind eq); [eqs n O; try apply int_like|intros ? ? <-]); apply same_refl.
Qed.
Lemma set_same t f l l' : Forall2 same_prop l l' -> same_prop (PSet t f l) (PSet t f l').
Proof.
  intros H. unfold same_prop, eqv. cbn [prop_eqb]. rewrite str_eqb_refl, Z.eqb_refl. cbn [andb].
  eapply forall2_eqb; [|exact H]. auto.
Qed.
Lemma prop_like n : like n same_prop (d_prop hp).
Proof.
  induction n as [|n G]; intros j j' S R P; [lia|].
  destruct R as [j N1 N2|l l' F|o o1 o2 F Q].
  { destruct j; try exact Logic.I; exfalso; [eapply N1|eapply N2]; reflexivity. }
  { pose proof (elems n l S P) as L. destruct F as [|x x' l l' R F]; [exact Logic.I|]. cbn [d_prop].
    destruct (L x (or_introl eq_refl)) as [S1 P1].
    eapply (alike_bind eq); [eapply pname_like; eauto|]. intros ty ? <-.
    assert (B : alike same_prop (listed (prop_fields ty) (d_simple ty) l) (listed (prop_fields ty) (d_simple ty) l')).
    { destruct (fields_only (prop_fields ty)) eqn:FO.
      - apply (listed_like n); auto; [|intros v I; apply L; now right]. intros o o2 O. eapply simple_like; eauto.
      - unfold listed. destruct ty; try discriminate FO; cbn [d_simple];
          repeat match goal with |- alike _ (if ?b then _ else _) _ => destruct b
                 | |- alike _ _ (if ?b then _ else _) => destruct b end; exact Logic.I. }
    destruct ty; try exact B.
    destruct F as [|a a' ? ? Ra F]; try exact B. destruct F as [|b b' ? ? Rb F]; try exact B.
    destruct F as [|c c' ? ? Rc F]; try exact B. destruct F as [|d d' ? ? Rd F]; try exact B.
    destruct (L a) as [Sa Pa]; [cbn; auto|]. destruct (L b) as [Sb Pb]; [cbn; auto|]. destruct (L c) as [Sc Pc]; [cbn; auto|].
    eapply (alike_bind eq); [eapply str_like; eauto|]. intros t ? <-.
    eapply (alike_bind eq); [eapply int_like; eauto|]. intros f ? <-.
    eapply alike_bind; [exact (list_like n _ _ G c c' Sc Rc Pc)|]. intros q q' H. cbn [alike]. now apply set_same. }
  assert (R : reorder (JObj o) (JObj o2)) by (eapply Re_obj; eauto).
  assert (O : objs n o o2) by (apply objs_from; auto).
  assert (T : alike eq (need d_pname (s2z "type") o) (need d_pname (s2z "type") o2)) by eqs n O.
  cbn [d_prop]. apply once_like with (n := n); [exact O|].
  destruct (need d_pname (s2z "type") o) as [ty| |] eqn:E1, (need d_pname (s2z "type") o2) as [ty2| |] eqn:E2;
    cbn [alike] in T; try easy. subst ty2. cbn [jbind]. apply once_like with (n := n); [exact O|].
  destruct ty.
  17: { (* PSValue *) eapply alike_bind; [eapply besides_like; [exact O|]|].
        - intros k v w I M. destruct O as ((_ & _ & _ & Gd) & _ & S'). destruct (S' _ _ I). apply svariant_like with (n := n); auto.
          + eapply member_open; eauto.
          + intros -> s ->. apply (Gd (s2z "Guid")); auto. right; now left.
        - intros v v' H. exact H. }
  16: { (* PStruct *) eapply (alike_bind eq); [eapply guid_member; eauto|intros g ? <-].
        eapply (alike_bind eq); [eqs n O|intros t ? <-].
        eapply alike_bind; [eapply flat_like; [exact O| |]|].
        - intros k v w I M. destruct O as ((_ & _ & _ & Gd) & _ & S'). destruct (S' _ _ I). apply svariant_like with (n := n); auto.
          + eapply member_open; eauto.
          + intros -> s ->. apply (Gd (s2z "Guid")); auto. right; now left.
        - intros k k' v v' I I' H H'. destruct O as ((_ & U & _) & _). apply svariant_names in H, H'.
          apply U; eauto using in_key. now apply (type_of o NStruct).
        - intros v v' H. cbn [alike]. unfold same_prop, eqv. cbn [prop_eqb]. rewrite guid_eqb_refl, str_eqb_refl. exact H. }
  15: { (* map *) eapply alike_bind; [eapply mapp_like; eauto; now apply (type_of o NMap)|]. intros m m' H. exact H. }
  14: { (* set *) eapply (alike_bind eq); [eqs n O|intros t ? <-]. eapply (alike_bind eq); [eqs n O; apply int_like|intros f ? <-].
        eapply alike_bind; [eapply need_like, O; apply list_like, G|]. intros l l' H.
        cbn [alike]. now apply set_same. }
  13: { (* array *) eapply alike_bind; [eapply array_like; eauto|]. intros m m' H. exact H. }
  6: { (* text *) eapply alike_bind; [exact (proj1 (text_like (Datatypes.S n)) _ _ S R P)|]. intros t t' H. exact H. }
  3: { (* byte *) eapply (alike_bind eq); [eqs n O|intros nm ? <-].
       eapply (alike_bind eq); [eapply flat_like; [exact O| |]|].
       - intros k v w I M. destruct O as (_ & _ & S'). destruct (S' _ _ I) as [S1 P1]. apply member_open in M. unfold d_bytev.
         destruct (str_eqb k _); [|destruct (str_eqb k _); [|exact Logic.I]]; cbn [vrel].
         + eapply (alike_bind eq); [eapply u8byte_like; eauto|intros b ? <-; reflexivity].
         + eapply (alike_bind eq); [eapply str_like; eauto|intros b ? <-; reflexivity].
       - intros k k' v v' I I' H H'. destruct O as ((_ & _ & U & _) & _). specialize (U (type_of o NByte "ByteProperty" E1 eq_refl)).
         apply bytev_names in H, H'. apply in_key in I, I'.
         destruct H as [->| ->], H' as [->| ->]; auto; exfalso; apply U; auto.
       - intros v ? <-. apply same_refl. }
  all: eapply simple_like; exact O.
Qed.
Lemma number_like n j j' : (jsize j < n)%nat -> reorder j j' -> plain j -> tag_number j = tag_number j'.
Proof.
  intros S R P. destruct R as [j N1 N2|l l' F|o o1 o2 F Q]; [reflexivity| |].
  - destruct F as [|x x' l l' R F]; [reflexivity|]. now destruct R.
  - assert (O : objs n o o2) by (apply objs_less; auto; eapply Re_obj; eauto). cbn [tag_number].
    destruct (look n (s2z "type") o o2 O) as [[-> ->]|(v & w & I & J & M & -> & ->)]; [reflexivity|].
    apply member_open in M. now destruct M.
Qed.
Lemma property_like n : like n same_prop (d_property hp).
Proof.
  intros j j' S R P. unfold d_property. rewrite <- (number_like n j j' S R P).
  destruct (tag_number j); [exact Logic.I|]. now apply (prop_like n).
Qed.

(** The file. *)
Lemma guidkeys_map l : forall q, d_guidkeys l = JOk q -> Forall2 (fun e f => guid_parse (fst e) = Parsed (fst f) /\ snd e = snd f) l q.
Proof.
  induction l as [|[s v] l IH]; cbn [d_guidkeys]; intros q X; [injection X as <-; constructor|].
  unfold d_guidstr in X. destruct (guid_parse s) as [g| |] eqn:E; cbn [jbind] in X; try discriminate.
  destruct (d_guidkeys l); cbn [jbind] in X; try discriminate. injection X as <-. constructor; auto.
Qed.
Lemma guidkeys_perm l l' : Permutation l l' -> (forall e, In e l -> guid_parse (fst e) <> Panicked) ->
  alike (@Permutation (guid * Z)) (d_guidkeys l) (d_guidkeys l').
Proof.
  assert (NP : forall l, (forall e, In e l -> guid_parse (fst e) <> Panicked) -> d_guidkeys l <> JPanic).
  { induction l0 as [|[s v] l0 IH]; cbn [d_guidkeys]; [discriminate|]. intros H.
    pose proof (H _ (or_introl eq_refl)) as Hs. cbn [fst] in Hs. unfold d_guidstr.
    destruct (guid_parse s); cbn [jbind]; try easy.
    assert (d_guidkeys l0 <> JPanic) by (apply IH; intros; apply H; now right).
    destruct (d_guidkeys l0); cbn [jbind]; easy. }
  induction 1 as [|[s v] l l' P IH|[s v] [s' v'] l|l l' l'' P1 IH1 P2 IH2]; intros H.
  - constructor.
  - pose proof (H _ (or_introl eq_refl)) as Hs. cbn [fst] in Hs. cbn [d_guidkeys]. unfold d_guidstr.
    assert (H' : forall e, In e l -> guid_parse (fst e) <> Panicked) by (intros; apply H; now right). specialize (IH H').
    destruct (guid_parse s); cbn [jbind]; try easy. eapply alike_bind; [exact IH|]. intros; constructor; auto.
  - pose proof (H _ (or_introl eq_refl)) as Hs. pose proof (H _ (or_intror (or_introl eq_refl))) as Hs'. cbn [fst] in Hs, Hs'.
    assert (H' : d_guidkeys l <> JPanic) by (apply NP; intros; apply H; right; now right).
    cbn [d_guidkeys]. unfold d_guidstr.
    destruct (guid_parse s), (guid_parse s'); cbn [jbind]; try easy; destruct (d_guidkeys l); cbn [jbind alike]; try easy.
    apply perm_swap.
  - specialize (IH1 H). assert (H' : forall e, In e l' -> guid_parse (fst e) <> Panicked).
    { intros e I. apply H. eapply Permutation_in; [symmetry; eauto|auto]. }
    specialize (IH2 H'). destruct (d_guidkeys l), (d_guidkeys l'), (d_guidkeys l''); cbn [alike] in *; try easy.
    etransitivity; eauto.
Qed.
Lemma ins_guids (q : list (guid * Z)) : NoDup (map fst q) -> ins_all guid_eqb q = q.
Proof.
  intros N. apply ins_all_fresh. rewrite <- distinct_fresh.
  induction q as [|[k v] q IH]; cbn [map fst distinct]; [reflexivity|]. cbn [map fst] in N.
  inversion N as [|? ? N1 N2]; subst. rewrite IH by auto. rewrite andb_true_r. apply forallb_forall.
  intros [k' v'] I. cbn [fst]. destruct (guid_eqb k' k) eqn:E; [|reflexivity].
  apply guid_eqb_eq in E. subst. exfalso. apply N1. apply in_map_iff. now exists (k, v').
Qed.
Lemma guids_nodup l q : NoDup (map fst l) -> d_guidkeys l = JOk q ->
  (forall k k' g, In k (map fst l) -> In k' (map fst l) -> guid_parse k = Parsed g -> guid_parse k' = Parsed g -> k = k') ->
  NoDup (map fst q).
Proof.
  intros N D U. apply guidkeys_map in D. induction D as [|e f l q [E _] D IH]; cbn [map]; [constructor|].
  cbn [map] in N. inversion N as [|? ? N1 N2]; subst. constructor.
  - intros I. apply N1. clear IH N N1 N2. apply in_map_iff in I as (f' & X & I).
    assert (Y : exists e', In e' l /\ guid_parse (fst e') = Parsed (fst f')).
    { clear U. induction D as [|a b l q [E' _] D IH]; [destruct I|]. destruct I as [->|I].
      - exists a. split; [now left|auto].
      - destruct (IH I) as (e' & ? & ?). exists e'. split; [now right|auto]. }
    destruct Y as (e' & Ie & Y). rewrite X in Y. replace (fst e) with (fst e'); [now apply in_map|].
    eapply U; eauto; [right; now apply in_map|now left].
  - apply IH; auto. intros k k' g I I'. apply U; now right.
Qed.
Lemma versions_like n : forall j j', (jsize j < n)%nat -> reorder j j' -> plain j ->
  (forall vs, j = JObj vs -> forall k k', In k (map fst vs) -> In k' (map fst vs) ->
    guid_parse k <> Panicked /\ (forall g, guid_parse k = Parsed g -> guid_parse k' = Parsed g -> k = k')) ->
  alike (@Permutation (guid * Z)) (d_versions j) (d_versions j').
Proof.
  intros j j' S R P V. destruct R as [j N1 N2|l l' F|o o1 o2 F Q]; [|exact Logic.I|].
  { destruct j; try exact Logic.I. exfalso. eapply N2. reflexivity. }
  specialize (V o eq_refl).
  assert (O : objs n o o2) by (apply objs_less; auto; eapply Re_obj; eauto).
  cbn [d_versions]. pose proof (entries_like n eq d_u32 o o2 (int_like n _ _) O) as H.
  destruct (objs_keys _ _ _ O) as (PK & K1 & K2).
  destruct (d_entries d_u32 o) as [l| |] eqn:X, (d_entries d_u32 o2) as [l2| |] eqn:Y; cbn [jbind alike] in *; try easy.
  destruct H as (l1 & F' & Q'). assert (l1 = l).
  { clear - F'. induction F' as [|[a b] [c d] l l1 [H1 H2] _ IH]; cbn [fst snd] in *; congruence. }
  subst l1. apply entries_keys in X, Y.
  assert (NP : forall e, In e l -> guid_parse (fst e) <> Panicked).
  { intros e I. apply (in_map fst) in I. rewrite X in I. apply (V _ _ I I). }
  pose proof (guidkeys_perm l l2 Q' NP) as H.
  destruct (d_guidkeys l) as [q| |] eqn:A, (d_guidkeys l2) as [q2| |] eqn:B; cbn [alike jbind] in *; try easy.
  rewrite !ins_guids; auto.
  - eapply Permutation_NoDup; [apply Permutation_map; exact H|]. eapply guids_nodup; eauto; rewrite X; auto.
    intros k k' g I I'. apply (V k k' I I').
  - eapply guids_nodup; eauto; rewrite X; auto. intros k k' g I I'. apply (V k k' I I').
Qed.
Lemma dversion_like n : like n eq d_dversion.
Proof.
  intros j j' S R P. pose proof (unit_like n false [s2z "Default"] j j' S R P) as U.
  pose proof (name_like n [s2z "Default"] j j' S R P) as U'.
  destruct R as [j N1 N2|l l' F|o o1 o2 F Q].
  - destruct j; try exact Logic.I; [|exfalso; eapply N2; reflexivity].
    cbn [d_dversion]. eapply (alike_bind eq); [exact U'|]. reflexivity.
  - exact Logic.I.
  - assert (O : objs n o o2) by (apply objs_less; auto; eapply Re_obj; eauto). clear F Q.
    destruct (objs_keys _ _ _ O) as (PK & _ & _). pose proof (Permutation_length PK) as LL. rewrite !map_length in LL.
    destruct O as (_ & (o3 & F & Q) & S').
    destruct o as [|[k v] [|? ?]]; destruct o2 as [|[k2 w] [|? ?]]; try discriminate LL; try exact Logic.I.
    apply Permutation_sym, Permutation_length_1_inv in Q. subst o3.
    inversion F as [|? ? ? ? M _]; subst. pose proof (member_key _ _ _ M) as K. cbn [fst] in K. subst k2.
    destruct (S' k v (or_introl eq_refl)) as [S1 S2]. apply member_open in M. cbn [d_dversion].
    destruct (str_eqb k _).
    + unfold d_ctype.
      eapply (alike_bind eq); [eapply (alike_bind eq); [eapply unit_like; eauto|intros ? ? <-; reflexivity]|intros ? ? <-; reflexivity].
    + eapply (alike_bind eq); [exact U|]. reflexivity.
Qed.
Definition versions_plain (j : json) : Prop := forall vs, j = JObj vs ->
  forall k k', In k (map fst vs) -> In k' (map fst vs) ->
  guid_parse k <> Panicked /\ (forall g, guid_parse k = Parsed g -> guid_parse k' = Parsed g -> k = k').
Lemma version_like n t oh oh2 : objs n oh oh2 ->
  (forall vs, get (fun v => v) (s2z "custom_versions") oh = Some vs -> versions_plain vs) ->
  alike same_header (d_version t oh) (d_version t oh2).
Proof.
  intros OH V. unfold d_version.
  eapply (alike_bind eq); [eqs n OH; apply int_like|intros p ? <-].
  eapply (alike_bind eq); [destruct (t =? 0); [reflexivity|eqs n OH; apply int_like]|intros u ? <-].
  eapply (alike_bind eq); [eqs n OH|intros e ? <-].
  eapply (alike_bind eq); [eqs n OH; apply int_like|intros f ? <-].
  eapply (alike_bind (@Permutation _)).
  { unfold need. rewrite (get_map _ _ oh), (get_map _ _ oh2).
    destruct (look n (s2z "custom_versions") oh oh2 OH) as [[-> ->]|(x & y & I' & J' & M' & Gx & ->)]; [exact Logic.I|].
    rewrite Gx. cbn [option_map]. apply member_open in M'. destruct OH as (_ & _ & SH). destruct (SH _ _ I') as [S2 P2].
    apply (versions_like n); auto. intros vs ->. now apply (V _ Gx). }
  intros vs vs' HP. eapply (alike_bind eq); [eqs n OH|intros c ? <-]. cbn [alike]. repeat split; auto.
Qed.
Lemma header_like n h h' : (jsize h < n)%nat -> reorder h h' -> plain h ->
  (forall vs, versions_of h vs -> versions_plain vs) -> alike same_header (d_header h) (d_header h').
Proof.
  intros S R P V. destruct R as [j N1 N2|l l' F|o o1 o2 F Q].
  - destruct j; try exact Logic.I; exfalso; [eapply N1|eapply N2]; reflexivity.
  - assert (L : forall v, In v l -> (jsize v < n)%nat /\ plain v) by (apply elems; auto).
    destruct F as [|x x' l l' R F]; [exact Logic.I|]. cbn [d_header]. cbv zeta.
    destruct (L x (or_introl eq_refl)) as [S1 P1].
    eapply (alike_bind eq); [eapply name_like; eauto|]. intros t ? <-.
    unfold listed. assert (LL : List.length l = List.length l') by (apply (forall2_length _ _ _ F)). rewrite <- LL.
    destruct (Nat.eqb_spec (List.length l) (List.length (header_fields t))) as [X|X]; [|exact Logic.I].
    apply (version_like n).
    + apply objs_listed; auto; [unfold header_fields; now destruct (t =? 0)|]. intros v I. apply L. now right.
    + intros vs. unfold header_fields in *. destruct (t =? 0); cbn [List.length app map] in X.
      * do 6 (destruct l as [|? l]; try discriminate X). cbn [app map combine get].
        intros Y. vm_compute in Y. injection Y as <-. apply V. constructor.
      * do 7 (destruct l as [|? l]; try discriminate X). cbn [app map combine get].
        intros Y. vm_compute in Y. injection Y as <-. apply V. constructor.
  - assert (O : objs n o o2) by (apply objs_less; auto; eapply Re_obj; eauto). cbn [d_header]. cbv zeta.
    apply once_like with (n := n); [exact O|]. eapply (alike_bind eq); [eqs n O|intros t ? <-].
    apply once_like with (n := n); [exact O|]. apply (version_like n); auto.
    intros vs Y. apply V. now constructor.
Qed.
Lemma file_like j j' : reorder j j' -> plain j -> plain_versions j -> alike same_file (from_json hp j) (from_json hp j').
Proof.
  intros R P V. assert (S : exists n, (jsize j < Datatypes.S n)%nat) by (exists (jsize j); lia). destruct S as [n S].
  assert (B : forall o o2, objs n o o2 -> (forall h, get (fun v => v) (s2z "header") o = Some h ->
      forall vs, versions_of h vs -> versions_plain vs) ->
    alike same_file
      (v <~ dflt d_dversion DDefault (s2z "deserialized_game_version") o ;;
       h <~ need d_header (s2z "header") o ;;
       l <~ need (d_map (d_property hp)) (s2z "properties") o ;; JOk (GFile v h l))
      (v <~ dflt d_dversion DDefault (s2z "deserialized_game_version") o2 ;;
       h <~ need d_header (s2z "header") o2 ;;
       l <~ need (d_map (d_property hp)) (s2z "properties") o2 ;; JOk (GFile v h l))).
  { clear j j' R P V S. intros o o2 O V.
    eapply (alike_bind eq); [apply dflt_like with (n := n); auto using dversion_like|].
    intros v ? <-. eapply (alike_bind same_header).
    { unfold need. rewrite (get_map _ _ o), (get_map _ _ o2).
      destruct (look n (s2z "header") o o2 O) as [[-> ->]|(h & h' & I & J & M & Gh & ->)]; [exact Logic.I|]. rewrite Gh. cbn [option_map].
      apply member_open in M. destruct O as (_ & _ & SS). destruct (SS _ _ I) as [S1 P1].
      apply (header_like n); auto. intros vs. now apply V. }
    intros h h' Hh. eapply alike_bind; [eapply need_like, O; apply map_like, property_like|].
    intros l l' HL. cbn [alike]. repeat split; auto; apply Hh. }
  destruct R as [j N1 N2|l l' F|o o1 o2 F Q].
  - destruct j; try exact Logic.I; exfalso; [eapply N1|eapply N2]; reflexivity.
  - unfold from_json. cbn [d_struct]. unfold listed. rewrite <- (forall2_length _ _ _ F).
    destruct (Nat.eqb_spec (List.length l) (List.length (map s2z ["deserialized_game_version"; "header"; "properties"]%string)))
      as [X|X]; [|exact Logic.I].
    apply B; [apply objs_listed; auto; apply elems; auto|].
    intros h. do 3 (destruct l as [|? l]; try discriminate X). destruct l; [|discriminate X].
    intros Y. vm_compute in Y. injection Y as <-. intros vs W ws ->. apply (V _ _ (Ho_arr _ _ _) W).
  - assert (R : reorder (JObj o) (JObj o2)) by (eapply Re_obj; eauto).
    assert (O : objs n o o2) by (apply objs_from; auto). apply once_like with (n := n); [exact O|]. apply B; auto.
    intros h Y vs W ws ->. apply (V _ _ (Ho_obj _ _ Y) W).
Qed.
End Reading.
