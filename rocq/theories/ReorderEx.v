(** Witnesses for C57: a checker for [plain], reversal of all objects, and documents for
    which the order matters. *)
From Coq Require Import ZArith List Bool String Lia ZifyBool ZifyNat Permutation.
From Verif Require Import Base Str Types Versions Text Props File Spec BaseFacts Decode StrFacts EqFacts
  Guid Json JsonSpec JsonText JsonProp JsonBack Reorder Hash.
Import ListNotations.
Open Scope Z_scope.

(** ** [plain] decided *)
Definition typeb (t : string) (o : list (str * json)) : bool :=
  match get (fun v => v) (s2z "type") o with
  | Some (JStr s) => str_eqb s (s2z t)
  | Some (JInt i) => (0 <=? i) && str_eqb (nth (Z.to_nat i) property_types []) (s2z t)
  | _ => false
  end.
Definition kindb (k : str) : bool := existsb (str_eqb k) struct_kinds.
Fixpoint onceb (l : list str) : bool :=
  match l with [] => true | k :: r => negb (existsb (str_eqb k) r) && onceb r end.
Definition plain_objb (o : list (str * json)) : bool :=
  onceb (map fst o)
  && (negb (typeb "StructProperty" o)
      || (Nat.leb (List.length (filter kindb (map fst o))) 1))
  && (negb (typeb "ByteProperty" o)
      || negb (existsb (str_eqb (s2z "Byte")) (map fst o) && existsb (str_eqb (s2z "Namespaced")) (map fst o)))
  && forallb (fun '(k, v) => match v with
       | JStr s => negb (str_eqb k (s2z "guid") || str_eqb k (s2z "Guid"))
                   || match guid_parse s with Panicked => false | _ => true end
       | _ => true end) o.
Fixpoint plainb (j : json) : bool :=
  match j with
  | JArr l => forallb plainb l
  | JObj o => plain_objb o && forallb (fun e => plainb (snd e)) o
  | _ => true
  end.
Lemma existsb_in k l : existsb (str_eqb k) l = true <-> In k l.
Proof.
  rewrite existsb_exists. split.
  - intros (x & I & E). apply str_eqb_eq in E. now subst.
  - intros I. exists k. split; auto. apply str_eqb_refl.
Qed.
Lemma onceb_ok l : onceb l = true -> NoDup l.
Proof.
  induction l as [|k l IH]; cbn [onceb]; [constructor|]. intros H. apply andb_true_iff in H as [A B].
  constructor; auto. intros I. apply existsb_in in I. rewrite I in A. discriminate.
Qed.
Lemma typeb_ok t o : has_type t o -> typeb t o = true.
Proof.
  unfold has_type, typeb. intros [->|(i & -> & N & E)]; [apply str_eqb_refl|].
  rewrite (nth_error_nth _ _ _ E), str_eqb_refl. rewrite andb_true_r. lia.
Qed.
Lemma plain_objb_ok o : plain_objb o = true -> plain_obj o.
Proof.
  unfold plain_objb. intros H. apply andb_true_iff in H as [H D]. apply andb_true_iff in H as [H C].
  apply andb_true_iff in H as [A B]. split; [now apply onceb_ok|]. split; [|split].
  - intros T k k' I I' K K'. apply typeb_ok in T. rewrite T in B. cbn [negb orb] in B. apply Nat.leb_le in B.
    assert (X : In k (filter kindb (map fst o))) by (apply filter_In; split; auto; now apply existsb_in).
    assert (Y : In k' (filter kindb (map fst o))) by (apply filter_In; split; auto; now apply existsb_in).
    destruct (filter kindb (map fst o)) as [|a [|b r]]; cbn [List.length] in B; [destruct X| |lia].
    destruct X as [<-|[]], Y as [<-|[]]. reflexivity.
  - intros T [I I']. apply typeb_ok in T. rewrite T in C. apply existsb_in in I, I'. rewrite I, I' in C. discriminate.
  - intros k s I K. rewrite forallb_forall in D. specialize (D _ I). cbv beta iota in D.
    assert (X : (str_eqb k (s2z "guid") || str_eqb k (s2z "Guid")) = true).
    { destruct K as [<-|[<-|[]]]; reflexivity. }
    rewrite X in D. cbn [negb orb] in D. destruct (guid_parse s); congruence.
Qed.
Lemma plainb_ok j : plainb j = true -> plain j.
Proof.
  intros H o I. revert H. induction I as [|l k v Iv I IH|l v Iv I IH]; cbn [plainb]; intros H.
  - apply andb_true_iff in H as [H _]. now apply plain_objb_ok.
  - apply andb_true_iff in H as [_ H]. rewrite forallb_forall in H. apply IH. apply (H (k, v) Iv).
  - rewrite forallb_forall in H. apply IH. auto.
Qed.
Definition spelledb (j : json) : bool :=
  match j with
  | JObj vs => forallb (fun k => forallb (fun k' =>
      match guid_parse k, guid_parse k' with
      | Panicked, _ => false
      | Parsed g, Parsed g' => negb (guid_eqb g g') || str_eqb k k'
      | _, _ => true
      end) (map fst vs)) (map fst vs)
  | _ => true
  end.
Definition versionsb (j : json) : bool :=
  match match j with
        | JObj o => get (fun v => v) (s2z "header") o
        | JArr [_; h; _] => Some h
        | _ => None
        end with
  | Some (JObj h) => match get (fun v => v) (s2z "custom_versions") h with Some vs => spelledb vs | None => true end
  | Some (JArr [_; _; _; _; vs; _]) => spelledb vs
  | Some (JArr [_; _; _; _; _; vs; _]) => spelledb vs
  | _ => true
  end.
Lemma versionsb_ok j : versionsb j = true -> plain_versions j.
Proof.
  intros H h vs E1 E2 k k' I I'. assert (S : spelledb (JObj vs) = true).
  { destruct E1 as [o h E1|v h p]; unfold versionsb in H; [rewrite E1 in H|].
    all: inversion E2 as [h' vs' E|t p' e f vs' c|t p' u e f vs' c]; subst; [rewrite E in H|..]; exact H. }
  clear H E1 E2. rename S into H. cbn [spelledb] in H. rewrite forallb_forall in H.
  specialize (H k I). rewrite forallb_forall in H. specialize (H k' I').
  destruct (guid_parse k) as [g| |], (guid_parse k') as [g'| |]; try discriminate; (split; [discriminate|]); try discriminate.
  intros g0 A B. injection A as ->. injection B as ->. rewrite guid_eqb_refl in H. cbn [negb orb] in H.
  now apply str_eqb_eq.
Qed.

(** ** All objects listed backwards *)
Fixpoint flip (j : json) : json :=
  match j with
  | JArr l => JArr (map flip l)
  | JObj o => JObj (rev (map (fun '(k, v) => (k, if typeb "MapProperty" o then v else flip v)) o))
  | _ => j
  end.
Lemma flip_ok j : reorder j (flip j).
Proof.
  assert (X : exists n, (jsize j < n)%nat) by (exists (S (jsize j)); lia). destruct X as [n X]. revert j X.
  induction n as [|n IH]; intros j S; [lia|].
  destruct j as [| | | | |l|o]; try (apply Re_leaf; discriminate).
  - cbn [flip]. apply Re_arr. assert (H : forall v, In v l -> reorder v (flip v)).
    { intros v I. apply IH. pose proof (arr_smaller _ _ I). lia. }
    clear S IH. induction l as [|v l IHl]; cbn [map]; constructor; [apply H; now left|]. apply IHl. intros; apply H; now right.
  - cbn [flip]. eapply Re_obj; [|apply Permutation_rev].
    assert (H : forall e, In e o -> reorder (snd e) (flip (snd e))).
    { intros [k v] I. apply IH. pose proof (obj_smaller _ _ _ I). cbn [snd]. lia. }
    assert (H' : forall e, In e o -> member o e (let '(k, v) := e in (k, if typeb "MapProperty" o then v else flip v))).
    { intros [k v] I. destruct (typeb "MapProperty" o) eqn:T; [apply Me_same|]. apply Me_any; [apply (H (k, v) I)|].
      intros Y. apply typeb_ok in Y. congruence. }
    clear H S IH.
    assert (G : forall m, (forall e, In e m -> In e o) ->
      Forall2 (member o) m (map (fun '(k, v) => (k, if typeb "MapProperty" o then v else flip v)) m)).
    { induction m as [|e m IHm]; intros Hm; cbn [map]; constructor; [apply H', Hm; now left|]. apply IHm. intros; apply Hm; now right. }
    apply G. auto.
Qed.

(** ** Where the order matters *)

(** Members in any order, everywhere. *)
Inductive shuffle : json -> json -> Prop :=
| Sh_leaf j : shuffle j j
| Sh_arr l l' : Forall2 shuffle l l' -> shuffle (JArr l) (JArr l')
| Sh_obj o o1 o2 : Forall2 (fun e f => fst e = fst f /\ shuffle (snd e) (snd f)) o o1 -> Permutation o1 o2 ->
  shuffle (JObj o) (JObj o2).

Definition jdoc (versions : list (str * json)) (props : list (str * json)) : json :=
  JObj [(s2z "header", JObj [(s2z "type", JStr (s2z "Version2")); (s2z "package_file_version", JInt 522);
          (s2z "engine_version", JObj [(s2z "major", JInt 4); (s2z "minor", JInt 27); (s2z "patch", JInt 2);
             (s2z "change_list", JInt 0); (s2z "branch", JStr [])]);
          (s2z "custom_version_format", JInt 3); (s2z "custom_versions", JObj versions);
          (s2z "save_game_class_name", JStr (s2z "S"))]);
        (s2z "properties", JObj props)].
(** The hasher as it is: a key is compared to those with the same hash. *)
Definition by_hash : hashing := fun l k i =>
  match nth_error (map fst l) i with Some k' => list_eqb Byte.eqb (h_prop k) (h_prop k') | None => false end.
Lemma by_hash_keyed : keyed by_hash.
Proof. intros l l' k i E. unfold by_hash. now rewrite E. Qed.

(** Two keys that differ in the order of their fields. *)
Definition jbool (b : bool) : json := JObj [(s2z "type", JStr (s2z "BoolProperty")); (s2z "value", JBool b)].
Definition jkey (a b : string) : json :=
  JObj [(s2z "type", JStr (s2z "StructPropertyValue"));
        (s2z "CustomStruct", JObj [(s2z a, JArr [jbool true]); (s2z b, JArr [jbool true])])].
Definition jmap (k1 k2 : json) : json :=
  jdoc [] [(s2z "m", JObj [(s2z "type", JStr (s2z "MapProperty")); (s2z "key_type", JStr (s2z "StructProperty"));
    (s2z "value_type", JStr (s2z "BoolProperty")); (s2z "allocation_flags", JInt 0);
    (s2z "value", JArr [JArr [k1; jbool true]; JArr [k2; jbool false]])])].
Ltac same_members := repeat first [apply Forall2_nil | apply Forall2_cons; [split; [reflexivity|cbn [snd]]|]]; try apply Sh_leaf.
Lemma keys_matter : exists hp j j', keyed hp /\ plain j /\ plain_versions j /\ shuffle j j'
  /\ exists g g', from_json hp j = JOk g /\ from_json hp j' = JOk g' /\ ~ same_file g g'.
Proof.
  exists by_hash, (jmap (jkey "a" "b") (jkey "b" "a")), (jmap (jkey "a" "b") (jkey "a" "b")).
  split; [apply by_hash_keyed|]. split; [apply plainb_ok; vm_compute; reflexivity|].
  split; [apply versionsb_ok; vm_compute; reflexivity|]. split.
  - unfold jmap, jdoc. eapply Sh_obj; [|reflexivity]. same_members.
    eapply Sh_obj; [|reflexivity]. same_members. eapply Sh_obj; [|reflexivity]. same_members.
    apply Sh_arr. constructor; [apply Sh_leaf|]. constructor; [|constructor].
    apply Sh_arr. constructor; [|constructor; [apply Sh_leaf|constructor]].
    unfold jkey. eapply Sh_obj; [|reflexivity]. same_members.
    eapply Sh_obj; [|apply perm_swap]. same_members.
  - eexists. eexists. split; [vm_compute; reflexivity|]. split; [vm_compute; reflexivity|].
    intros (_ & _ & l1 & F & P). apply Permutation_sym in P. cbn [g_props] in *. apply Permutation_length_1_inv in P. subst l1.
    inversion F as [|? ? ? ? [_ E] _]; subst. vm_compute in E. discriminate.
Qed.
(** A byte property with both kinds of value. *)
Definition jbyte (l : list (str * json)) : json := jdoc [] [(s2z "b", JObj ((s2z "type", JStr (s2z "ByteProperty")) :: l))].
Lemma kinds_matter : exists j j', plain_versions j /\ shuffle j j' /\ forall hp,
  exists g g', from_json hp j = JOk g /\ from_json hp j' = JOk g' /\ ~ same_file g g'.
Proof.
  exists (jbyte [(s2z "Byte", JInt 1); (s2z "Namespaced", JStr (s2z "x"))]),
         (jbyte [(s2z "Namespaced", JStr (s2z "x")); (s2z "Byte", JInt 1)]).
  split; [apply versionsb_ok; vm_compute; reflexivity|]. split.
  - unfold jbyte, jdoc. eapply Sh_obj; [|reflexivity]. same_members.
    eapply Sh_obj; [|reflexivity]. same_members. eapply Sh_obj; [|apply perm_skip, perm_swap]. same_members.
  - intros hp. eexists. eexists. split; [vm_compute; reflexivity|]. split; [vm_compute; reflexivity|].
    intros (_ & _ & l1 & F & P). apply Permutation_sym in P. cbn [g_props] in *. apply Permutation_length_1_inv in P. subst l1.
    inversion F as [|? ? ? ? [_ E] _]; subst. vm_compute in E. discriminate.
Qed.
(** One custom version under two spellings of its guid. *)
Lemma spellings_matter : exists j j', plain j /\ reorder j j' /\ forall hp,
  exists g g', from_json hp j = JOk g /\ from_json hp j' = JOk g' /\ ~ same_file g g'.
Proof.
  exists (jdoc [(s2z "0", JInt 1); (s2z "{0}", JInt 2)] []), (jdoc [(s2z "{0}", JInt 2); (s2z "0", JInt 1)] []).
  split; [apply plainb_ok; vm_compute; reflexivity|]. split.
  - unfold jdoc. eapply Re_obj; [|reflexivity]. constructor; [|constructor; [apply Me_same|constructor]].
    apply Me_any; [|intros X; apply typeb_ok in X; vm_compute in X; discriminate].
    eapply Re_obj; [|reflexivity]. repeat (constructor; [apply Me_same|]).
    constructor; [|repeat (constructor; [apply Me_same|]); constructor].
    apply Me_any; [|intros X; apply typeb_ok in X; vm_compute in X; discriminate].
    eapply Re_obj; [|apply perm_swap]. repeat (constructor; [apply Me_same|]). constructor.
  - intros hp. eexists. eexists. split; [vm_compute; reflexivity|]. split; [vm_compute; reflexivity|].
    intros (_ & (_ & _ & _ & _ & P & _) & _). cbn [h_versions g_header] in P.
    apply Permutation_length_1 in P. discriminate.
Qed.
