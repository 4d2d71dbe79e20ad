(** Editing sessions: changing values of a loaded file through the public fields and
    mutable accessors.  Specification only (the relations), then the proof that each
    step keeps a file representable. *)
From Coq Require Import ZArith List Bool String Lia ZifyBool ZifyNat Relations.
From Verif Require Import Base Str Types Versions Text Props File Spec BaseFacts Decode Induct ReadThm RoundTrip Patch Accept
  AcceptProp AcceptAll AcceptFile Device Whole WholeSave Samples.
Import ListNotations.
Open Scope Z_scope.

Section Steps.
Context (vs : list (guid * Z)).

(** A value replaced by another of the same type that fits the field. *)
Inductive retyped : property -> property -> Prop :=
| SetNum : forall k z z', num_ok k z' = true -> retyped (PNum k z) (PNum k z')
| SetBool : forall b b', retyped (PBool b) (PBool b')
| SetByte : forall n b b', retyped (PByte n (BByte b)) (PByte n (BByte b'))
| SetByteName : forall n s s', str_ok s' = true -> retyped (PByte n (BName s)) (PByte n (BName s'))
| SetEnum : forall n s s', str_ok s' = true -> retyped (PEnum n s) (PEnum n s')
| SetStr : forall s s', ostr_ok s' = true -> retyped (PStr s) (PStr s')
| SetText : forall t t', text_ok vs t' = true -> retyped (PText t) (PText t')
| SetName : forall i s s', ostr_ok s' = true -> retyped (PName i s) (PName i s')
| SetObject : forall s s', str_ok s' = true -> retyped (PObject s) (PObject s')
| SetDelegate : forall a b a' b', str_ok a' = true -> str_ok b' = true ->
    retyped (PDelegate a b) (PDelegate a' b')
| SetMulti : forall i l l', count32 l' = true -> Forall (fun e => str_ok (fst e) = true /\ str_ok (snd e) = true) l' ->
    retyped (PMulti i l) (PMulti i l')
| SetFieldPath : forall l s l' s', count32 l' = true -> Forall (fun a => str_ok a = true) l' -> str_ok s' = true ->
    retyped (PFieldPath l s) (PFieldPath l' s')
(** Without a header nothing else says how long raw data is. *)
| SetRaw : forall n r r', len r' = len r -> retyped (PUnknown n r) (PUnknown n r')
| SetBools : forall l l', count32 l' = true -> retyped (PArray (ABools l)) (PArray (ABools l'))
| SetBytes : forall l l', count32 l' = true -> retyped (PArray (ABytes l)) (PArray (ABytes l'))
| SetEnums : forall l l', count32 l' = true -> Forall (fun a => str_ok a = true) l' ->
    retyped (PArray (AEnums l)) (PArray (AEnums l'))
| SetFloats : forall l l', count32 l' = true -> Forall (fun a => u_ok 4 a = true) l' ->
    retyped (PArray (AFloats l)) (PArray (AFloats l'))
| SetInts : forall l l', count32 l' = true -> Forall (fun a => s_ok 4 a = true) l' ->
    retyped (PArray (AInts l)) (PArray (AInts l'))
| SetNames : forall l l', count32 l' = true -> Forall (fun a => ostr_ok a = true) l' ->
    retyped (PArray (ANames l)) (PArray (ANames l'))
| SetStrings : forall l l', count32 l' = true -> Forall (fun a => ostr_ok a = true) l' ->
    retyped (PArray (AStrings l)) (PArray (AStrings l'))
| SetMapBool : forall k l l', count32 l' = true -> distinct str_eqb l' = true ->
    Forall (fun e => str_ok (fst e) = true) l' -> retyped (PMap (MBool k l)) (PMap (MBool k l'))
| SetMapInt : forall k l l', count32 l' = true -> distinct str_eqb l' = true ->
    Forall (fun e => str_ok (fst e) = true /\ s_ok 4 (snd e) = true) l' -> retyped (PMap (MInt k l)) (PMap (MInt k l'))
| SetMapStr : forall l l', count32 l' = true -> distinct str_eqb l' = true ->
    Forall (fun e => str_ok (fst e) = true /\ ostr_ok (snd e) = true) l' -> retyped (PMap (MStrStr l)) (PMap (MStrStr l')).

(** Properties that can be added as a field of a struct or of the file. *)
Inductive addable : property -> Prop :=
| AddNum : forall k z, num_ok k z = true -> addable (PNum k z)
| AddBool : forall b, addable (PBool b)
| AddByte : forall n b, str_ok n = true -> addable (PByte (Some n) (BByte b))
| AddByteName : forall n s, str_ok n = true -> str_ok s = true -> addable (PByte (Some n) (BName s))
| AddEnum : forall n s, str_ok n = true -> str_ok s = true -> addable (PEnum (Some n) s)
| AddStr : forall s, ostr_ok s = true -> addable (PStr s)
| AddText : forall t, text_ok vs t = true -> addable (PText t)
| AddName : forall s, ostr_ok s = true -> addable (PName 0 s)
| AddObject : forall s, str_ok s = true -> addable (PObject s).

(** One step inside a property or struct value: a value is replaced, an element or
    entry removed, a field added; keys of maps stay. *)
Inductive revise : part -> part -> Prop :=
| RSet : forall hdr p p', retyped p p' -> revise (PartP hdr p) (PartP hdr p')
| RRaw : forall n r r', revise (PartP true (PUnknown n r)) (PartP true (PUnknown n r'))
| RFixed : forall x l l', nums_ok (layout x) l' = true -> revise (PartV (SFixed x l)) (PartV (SFixed x l'))
| RGuid : forall g g', guid_ok g' = true -> revise (PartV (SGuid g)) (PartV (SGuid g'))
| RTags : forall l l', count31 l' = true -> Forall (fun a => str_ok a = true) l' ->
    revise (PartV (STags l)) (PartV (STags l'))
(* removals *)
| RDropSet : forall hdr ty fl l1 p l2,
    revise (PartP hdr (PSet ty fl (l1 ++ p :: l2))) (PartP hdr (PSet ty fl (l1 ++ l2)))
| RDropArray : forall hdr ty l1 p l2, ty <> s2z "ByteProperty" \/ l1 ++ l2 <> [] ->
    revise (PartP hdr (PArray (AProps ty (l1 ++ p :: l2)))) (PartP hdr (PArray (AProps ty (l1 ++ l2))))
| RDropStruct : forall hdr f t g l1 v l2,
    revise (PartP hdr (PArray (AStructs f t g (l1 ++ v :: l2)))) (PartP hdr (PArray (AStructs f t g (l1 ++ l2))))
| RDropEntry : forall hdr kt vt fl l1 k v l2, null_key k = false ->
    revise (PartP hdr (PMap (MGen kt vt fl (l1 ++ (k, v) :: l2)))) (PartP hdr (PMap (MGen kt vt fl (l1 ++ l2))))
| RDropNamed : forall hdr kk vt l1 e l2,
    revise (PartP hdr (PMap (MProp kk vt (l1 ++ e :: l2)))) (PartP hdr (PMap (MProp kk vt (l1 ++ l2))))
| RDropField : forall l1 e l2, revise (PartV (SCustom (l1 ++ e :: l2))) (PartV (SCustom (l1 ++ l2)))
(* a new field *)
| RAddField : forall l1 k p l2, str_ok k = true -> k <> s2z "None" ->
    Forall (fun e => fst e <> k) (l1 ++ l2) -> addable p ->
    revise (PartV (SCustom (l1 ++ l2))) (PartV (SCustom (l1 ++ (k, [p]) :: l2)))
(* inside *)
| RInSet : forall hdr ty fl l1 l2 p p', revise (PartP false p) (PartP false p') ->
    revise (PartP hdr (PSet ty fl (l1 ++ p :: l2))) (PartP hdr (PSet ty fl (l1 ++ p' :: l2)))
| RInArray : forall hdr ty l1 l2 p p', revise (PartP false p) (PartP false p') ->
    revise (PartP hdr (PArray (AProps ty (l1 ++ p :: l2)))) (PartP hdr (PArray (AProps ty (l1 ++ p' :: l2))))
| RInStructs : forall hdr f t g l1 l2 v v', revise (PartV v) (PartV v') ->
    revise (PartP hdr (PArray (AStructs f t g (l1 ++ v :: l2)))) (PartP hdr (PArray (AStructs f t g (l1 ++ v' :: l2))))
| RInValue : forall hdr kt vt fl l1 l2 k v v', revise (PartP false v) (PartP false v') ->
    revise (PartP hdr (PMap (MGen kt vt fl (l1 ++ (k, v) :: l2)))) (PartP hdr (PMap (MGen kt vt fl (l1 ++ (k, v') :: l2))))
| RInNamed : forall hdr kk vt l1 l2 k v v', revise (PartP false v) (PartP false v') ->
    revise (PartP hdr (PMap (MProp kk vt (l1 ++ (k, v) :: l2)))) (PartP hdr (PMap (MProp kk vt (l1 ++ (k, v') :: l2))))
| RInStruct : forall hdr g ty v v', revise (PartV v) (PartV v') ->
    revise (PartP hdr (PStruct g ty v)) (PartP hdr (PStruct g ty v'))
| RInBare : forall v v', revise (PartV v) (PartV v') ->
    revise (PartP false (PSValue v)) (PartP false (PSValue v'))
| RInField : forall k ps1 ps2 l1 l2 p p', revise (PartP true p) (PartP true p') ->
    revise (PartV (SCustom (l1 ++ (k, ps1 ++ p :: ps2) :: l2))) (PartV (SCustom (l1 ++ (k, ps1 ++ p' :: ps2) :: l2))).

(** One step on the properties of a file, and a whole session. *)
Inductive step : list (str * property) -> list (str * property) -> Prop :=
| StepIn : forall l1 n p p' l2, revise (PartP true p) (PartP true p') ->
    step (l1 ++ (n, p) :: l2) (l1 ++ (n, p') :: l2)
| StepDrop : forall l1 e l2, step (l1 ++ e :: l2) (l1 ++ l2)
| StepAdd : forall l1 n p l2, str_ok n = true -> n <> s2z "None" ->
    Forall (fun e => fst e <> n) (l1 ++ l2) -> addable p -> step (l1 ++ l2) (l1 ++ (n, p) :: l2).
Definition session := clos_refl_trans _ step.
End Steps.

(** ** Proof *)
Lemma fb_mid {A} (f : A -> bool) l1 a l2 : forallb f (l1 ++ a :: l2) = forallb f (l1 ++ l2) && f a.
Proof. rewrite !forallb_app. cbn [forallb]. destruct (forallb f l1), (f a), (forallb f l2); reflexivity. Qed.
Lemma fb_Forall {A} (f : A -> bool) l : Forall (fun a => f a = true) l -> forallb f l = true.
Proof. intros H. apply forallb_forall. now rewrite Forall_forall in H. Qed.
Lemma distinct_drop {K V} (eqb : K -> K -> bool) (l1 : list (K * V)) e l2 :
  distinct eqb (l1 ++ e :: l2) = true -> distinct eqb (l1 ++ l2) = true.
Proof.
  induction l1 as [|[k v] l1 IH]; cbn [app distinct].
  - destruct e. intros H. now apply andb_true_iff in H.
  - intros H. apply andb_true_iff in H as [H1 H2]. rewrite fb_mid in H1. apply andb_true_iff in H1 as [H1 _].
    now rewrite H1, IH.
Qed.
Lemma distinct_val {K V} (eqb : K -> K -> bool) (l1 : list (K * V)) k v v' l2 :
  distinct eqb (l1 ++ (k, v') :: l2) = distinct eqb (l1 ++ (k, v) :: l2).
Proof. induction l1 as [|[k1 v1] l1 IH]; cbn [app distinct]; [reflexivity|]. now rewrite !fb_mid, IH. Qed.
Lemma distinct_add {V} (l1 : list (str * V)) k v l2 : Forall (fun e => fst e <> k) (l1 ++ l2) ->
  distinct str_eqb (l1 ++ l2) = true -> distinct str_eqb (l1 ++ (k, v) :: l2) = true.
Proof.
  induction l1 as [|[k1 v1] l1 IH]; cbn [app distinct]; intros F H.
  - rewrite H, andb_true_r. apply fb_Forall. eapply Forall_impl; [|exact F]. intros e N.
    apply negb_true_iff. destruct (str_eqb (fst e) k) eqn:E; [|reflexivity]. apply str_eqb_eq in E. contradiction.
  - inversion F as [|? ? N F']; subst. apply andb_true_iff in H as [H1 H2]. rewrite fb_mid, H1, (IH F' H2). cbn [fst andb] in *.
    rewrite andb_true_r. apply negb_true_iff. destruct (str_eqb k k1) eqn:E; [|reflexivity]. apply str_eqb_eq in E. congruence.
Qed.
Lemma count32_drop {A} (l1 : list A) a l2 : count32 (l1 ++ a :: l2) = true -> count32 (l1 ++ l2) = true.
Proof. unfold count32. rewrite !len_app, len_cons. lia. Qed.
Lemma count32_mid {A} (l1 : list A) a b l2 : count32 (l1 ++ a :: l2) = count32 (l1 ++ b :: l2).
Proof. unfold count32. now rewrite (len_mid l1 l2 b a). Qed.

(** What the containers look at: the type name, and for values whose size is not
    known from their type, the size. *)
Definition cls (p : property) : option (Z * Z) :=
  match p with
  | PUnknown _ raw => Some (0, len raw)
  | PByte _ (BByte _) => Some (1, 0)
  | PByte _ (BName _) => Some (2, 0)
  | _ => None
  end.
Record kept (p p' : property) : Prop := Kept { k_type : type_of p' = type_of p; k_cls : cls p' = cls p }.
Lemma kept_self p p' : kept p p' -> self_sized p' = self_sized p.
Proof.
  intros [_ C]. destruct p as [| |? [x|x]| | | | | | | | | | | | | |], p' as [| |? [y|y]| | | | | | | | | | | | | |];
    cbn [cls] in C; try discriminate; reflexivity.
Qed.
Lemma kept_named p p' : kept p p' -> is_named p' = is_named p.
Proof.
  intros [_ C]. destruct p as [| |? [x|x]| | | | | | | | | | | | | |], p' as [| |? [y|y]| | | | | | | | | | | | | |];
    cbn [cls] in C; try discriminate; reflexivity.
Qed.
Definition good (ty : str) (p : property) : Prop :=
  type_of p = ty /\ match p with PUnknown n _ => mem n known_types = false | _ => True end.
Lemma good_none ty p q : good ty p -> good ty q -> cls p = None -> cls q = None.
Proof.
  intros [T U] [T' U'] C. destruct q as [| |? w| | | | | | | | |n raw| | | | |]; try reflexivity; exfalso; subst ty.
  - destruct p as [k| |? [x|x]| | | | | | |[]| | | | | | |]; try discriminate C; try (destruct k); cbn [type_of num_name] in T';
      discriminate T'.
  - cbn [type_of] in T'. rewrite T' in U'. destruct p as [k| |? [x|x]| | | | | | |[]| | | | | | |]; try discriminate C; try (destruct k);
      vm_compute in U'; discriminate U'.
Qed.
(** In a list of properties of one type, [uniform] says that all are alike. *)
Lemma uniform_alike ty l : Forall (good ty) l ->
  uniform l = true <-> (forall p q, In p l -> In q l -> cls p = cls q).
Proof.
  destruct l as [|p l]; [split; [intros _ p q []|reflexivity]|]. intros F. split.
  - intros U. assert (A : forall q, In q (p :: l) -> cls q = cls p).
    { intros q I. rewrite Forall_forall in F. pose proof (F p (or_introl eq_refl)) as Gp. pose proof (F q I) as Gq.
      destruct p as [k| |? [x|x]| | | | | | | | |n raw| | | | |]; cbn [uniform] in U;
        try (cbn [cls]; apply (good_none ty _ q Gp Gq); reflexivity).
      all: rewrite forallb_forall in U; specialize (U q I); destruct q as [| |? [y|y]| | | | | | | | |n' raw'| | | | |];
        try discriminate; cbn [cls is_raw] in *; try reflexivity.
      apply Z.eqb_eq in U. now rewrite U. }
    intros a b Ia Ib. now rewrite (A a Ia), (A b Ib).
  - intros A. assert (A' : forall q, In q (p :: l) -> cls q = cls p) by (intros q I; apply A; [exact I|now left]).
    destruct p as [k| |? [x|x]| | | | | | | | |n raw| | | | |]; cbn [uniform]; try reflexivity; apply forallb_forall; intros q I;
      specialize (A' q I); destruct q as [| |? [y|y]| | | | | | | | |n' raw'| | | | |]; try discriminate; try reflexivity;
      cbn [cls is_raw] in *; injection A' as ->; apply Z.eqb_refl.
Qed.
Lemma kept_good ty p p' : kept p p' -> good ty p -> (forall n r, p' = PUnknown n r -> exists r0, p = PUnknown n r0) -> good ty p'.
Proof.
  intros [T C] [G U] H. split; [congruence|]. destruct p'; try exact I. destruct (H _ _ eq_refl) as (r0 & ->). exact U.
Qed.
Lemma uniform_mid ty l1 p p' l2 : kept p p' -> Forall (good ty) (l1 ++ p :: l2) -> good ty p' ->
  uniform (l1 ++ p :: l2) = true -> uniform (l1 ++ p' :: l2) = true.
Proof.
  intros K F G U. assert (F' : Forall (good ty) (l1 ++ p' :: l2)).
  { apply Forall_app in F as [F1 F2]. inversion F2; subst. apply Forall_app. split; [assumption|constructor; assumption]. }
  apply (proj2 (uniform_alike ty _ F')). pose proof (proj1 (uniform_alike ty _ F) U) as U0; clear U; rename U0 into U.
  assert (M : forall q, In q (l1 ++ p' :: l2) -> exists r, In r (l1 ++ p :: l2) /\ cls q = cls r).
  { intros q I. apply in_app_iff in I as [I|[<-|I]]; [exists q|exists p|exists q]; split; rewrite ?in_app_iff; cbn [In]; auto.
    apply (k_cls _ _ K). }
  intros a b Ia Ib. destruct (M a Ia) as (a' & Ja & ->). destruct (M b Ib) as (b' & Jb & ->). auto.
Qed.
Lemma uniform_drop ty l1 p l2 : Forall (good ty) (l1 ++ p :: l2) ->
  uniform (l1 ++ p :: l2) = true -> uniform (l1 ++ l2) = true.
Proof.
  intros F U. assert (F' : Forall (good ty) (l1 ++ l2)).
  { apply Forall_app in F as [F1 F2]. inversion F2; subst. apply Forall_app. auto. }
  apply (proj2 (uniform_alike ty _ F')). pose proof (proj1 (uniform_alike ty _ F) U) as U0; clear U; rename U0 into U. intros a b Ia Ib.
  apply U; rewrite in_app_iff in *; cbn [In]; tauto.
Qed.
Lemma indices_mid l1 p p' l2 : field_index p' = field_index p -> forall i,
  indices_ok i (l1 ++ p' :: l2) = indices_ok i (l1 ++ p :: l2).
Proof. intros E. induction l1 as [|q l1 IH]; intros i; cbn [app indices_ok]; [now rewrite E|now rewrite IH]. Qed.

Section Kept.
Context (o : opts) (vs : list (guid * Z)) (sep : property -> property -> bool).
Notation wfp := (wf_prop o vs sep).

Lemma wf_good ty hdr path l : forallb (fun p => str_eqb ty (type_of p) && wfp hdr path p) l = true -> Forall (good ty) l.
Proof.
  intros H. apply Forall_forall. intros p I. rewrite forallb_forall in H. specialize (H p I).
  apply andb_true_iff in H as [T W]. apply str_eqb_eq in T. split; [congruence|]. destruct p; try exact Logic.I.
  cbn [wf_prop] in W. apply andb_true_iff in W as [W _]. now apply negb_true_iff in W.
Qed.
Lemma wf_good1 ty hdr path p : type_of p = ty -> wfp hdr path p = true -> good ty p.
Proof.
  intros T W. split; [exact T|]. destruct p; try exact I. cbn [wf_prop] in W. apply andb_true_iff in W as [W _].
  now apply negb_true_iff in W.
Qed.

Lemma retyped_kept p p' : retyped vs p p' -> kept p p' /\ field_index p' = field_index p.
Proof. destruct 1; repeat split; try reflexivity. cbn [cls]. congruence. Qed.
Lemma retyped_wf p p' hdr path : retyped vs p p' -> wfp hdr path p = true -> wfp hdr path p' = true.
Proof.
  destruct 1; intros W; cbn [wf_prop wf_array wf_map bytev_ok] in *; try assumption; andbs;
    repeat match goal with H : ?x = true |- context [?x] => rewrite H end; cbn [andb]; try reflexivity; try (apply fb_Forall; assumption).
  - apply fb_Forall. eapply Forall_impl; [|eassumption]. intros [a b] [X Y]. cbn [fst snd] in *. now rewrite X, Y.
  - rewrite andb_true_r. now apply fb_Forall.
  - apply fb_Forall. eapply Forall_impl; [|eassumption]. intros [a b] X. exact X.
  - apply fb_Forall. eapply Forall_impl; [|eassumption]. intros [a b] [X Y]. cbn [fst snd] in *. now rewrite X, Y.
  - apply fb_Forall. eapply Forall_impl; [|eassumption]. intros [a b] [X Y]. cbn [fst snd] in *. now rewrite X, Y.
Qed.
Lemma addable_wf p path : addable vs p -> wfp true path p = true /\ field_index p = 0.
Proof.
  destruct 1; (split; [|reflexivity]); cbn [wf_prop name_ok bytev_ok andb];
    repeat match goal with H : ?x = true |- context [?x] => rewrite H end; reflexivity.
Qed.
Lemma ex_mid {A} (f : A -> bool) l1 a l2 : existsb f (l1 ++ a :: l2) = existsb f (l1 ++ l2) || f a.
Proof. rewrite !existsb_app. cbn [existsb]. destruct (existsb f l1), (f a), (existsb f l2); reflexivity. Qed.
Definition still (y y' : part) : Prop :=
  match y, y' with
  | PartP hdr p, PartP hdr' p' =>
    hdr' = hdr /\ (hdr = false -> kept p p') /\ type_of p' = type_of p /\ field_index p' = field_index p
    /\ forall path, wfp hdr path p = true -> wfp hdr path p' = true
  | PartV v, PartV v' => forall path ty, wf_sval o vs sep path ty v = true -> wf_sval o vs sep path ty v' = true
  | _, _ => False
  end.
Lemma still_box hdr p p' : kept p p' -> field_index p' = field_index p ->
  (forall path, wfp hdr path p = true -> wfp hdr path p' = true) -> still (PartP hdr p) (PartP hdr p').
Proof. intros K F W. split; [reflexivity|]. split; [intros _; exact K|]. split; [apply K|]. auto. Qed.
Lemma revise_still y y' : revise vs y y' -> still y y'.
Proof.
  induction 1; try (apply still_box; [split; reflexivity|reflexivity|intros path W]); try (intros path ty0 W).
  - destruct (retyped_kept _ _ H) as [K F]. apply still_box; auto. intros path W. exact (retyped_wf _ _ hdr path H W).
  - split; [reflexivity|]. split; [discriminate|]. repeat split; auto.
  - cbn [wf_sval] in *. andbs. rewrite H. bsplit; assumption.
  - cbn [wf_sval] in *. andbs. rewrite H. bsplit; assumption.
  - cbn [wf_sval] in *. andbs. rewrite H. bsplit; auto. now apply fb_Forall.
  - rewrite wf_pset in *. andbs. match goal with F : forallb _ (_ ++ _ :: _) = true |- _ =>
      pose proof (wf_good _ _ _ _ F) as G; rewrite fb_mid in F end. andbs.
    bsplit; [eapply count32_drop; eassumption|eapply uniform_drop; eassumption].
  - rewrite wf_parray, wf_aprops in *. andbs. match goal with F : forallb _ (_ ++ _ :: _) = true |- _ =>
      pose proof (wf_good _ _ _ _ F) as G; rewrite fb_mid in F end. andbs.
    match goal with U : uniform _ = true |- _ => pose proof (proj1 (uniform_alike _ _ G) U) as A end.
    bsplit; [eapply count32_drop; eassumption|eapply uniform_drop; eassumption|].
    destruct (str_eqb ty (s2z "ByteProperty")) eqn:E; [|reflexivity]. apply str_eqb_eq in E. cbn [negb orb] in *.
    destruct H as [H|H]; [contradiction|].
    match goal with X : existsb is_named _ = true |- _ => apply existsb_exists in X as (q & Iq & Nq) end.
    destruct (l1 ++ l2) as [|r l] eqn:L; [contradiction|]. apply existsb_exists. exists r. split; [now left|].
    assert (Ir : In r (l1 ++ p :: l2)).
    { assert (In r (l1 ++ l2)) by (rewrite L; now left). rewrite in_app_iff in *. cbn [In]. tauto. }
    specialize (A r q Ir Iq). destruct q as [| |? [x|x]| | | | | | | | | | | | | |]; try discriminate Nq.
    destruct r as [| |? [y|y]| | | | | | | | | | | | | |]; try discriminate A. reflexivity.
  - rewrite wf_parray, wf_astructs in *. andbs. match goal with F : forallb _ (_ ++ _ :: _) = true |- _ => rewrite fb_mid in F end.
    andbs. bsplit. eapply count32_drop; eassumption.
  - rewrite wf_pmap, wf_mgen in *. andbs. match goal with F : forallb _ (_ ++ _ :: _) = true |- _ => rewrite fb_mid in F end. andbs.
    bsplit; [eapply count32_drop; eassumption|eapply distinct_drop; eassumption|].
    unfold map_generic in *. rewrite ex_mid in *. cbn [fst] in *. rewrite H, orb_false_r in *. assumption.
  - rewrite wf_pmap, wf_mprop in *. andbs. match goal with F : forallb _ (_ ++ _ :: _) = true |- _ => rewrite fb_mid in F end. andbs.
    bsplit; [eapply count32_drop; eassumption|eapply distinct_drop; eassumption].
  - rewrite wf_scustom in *. andbs. match goal with F : forallb _ (_ ++ _ :: _) = true |- _ => rewrite fb_mid in F end. andbs.
    bsplit. eapply distinct_drop; eassumption.
  - rewrite wf_scustom in *. andbs. rewrite fb_mid. destruct (addable_wf p (k :: path) H2) as [Wp Fp].
    bsplit; [apply distinct_add; assumption| | |].
    + apply negb_true_iff. destruct (str_eqb k (s2z "None")) eqn:E; [|reflexivity]. apply str_eqb_eq in E. contradiction.
    + cbn [indices_ok]. rewrite Fp. now rewrite orb_true_r.
    + cbn [forallb]. now rewrite Wp.
  - rewrite wf_pset in *. andbs. match goal with F : forallb _ (_ ++ _ :: _) = true |- _ =>
      pose proof (wf_good _ _ _ _ F) as G; rewrite fb_mid in F end. andbs.
    destruct IHrevise as (_ & K & T & F & W). specialize (K eq_refl). match goal with X : wfp _ _ p = true |- _ => apply W in X end.
    match goal with X : str_eqb ty _ = true |- _ => rewrite <- T in X; pose proof X as X0; apply str_eqb_eq in X0 end.
    rewrite fb_mid. bsplit; [erewrite count32_mid; eassumption|].
    eapply uniform_mid; [exact K|exact G| |assumption]. eapply wf_good1; [symmetry|]; eassumption.
  - rewrite wf_parray, wf_aprops in *. andbs. match goal with F : forallb _ (_ ++ _ :: _) = true |- _ =>
      pose proof (wf_good _ _ _ _ F) as G; rewrite fb_mid in F end. andbs.
    destruct IHrevise as (_ & K & T & F & W). specialize (K eq_refl). match goal with X : wfp _ _ p = true |- _ => apply W in X end.
    match goal with X : str_eqb ty _ = true |- _ => rewrite <- T in X; pose proof X as X0; apply str_eqb_eq in X0 end.
    rewrite fb_mid. bsplit; [erewrite count32_mid; eassumption| |].
    + eapply uniform_mid; [exact K|exact G| |assumption]. eapply wf_good1; [symmetry|]; eassumption.
    + rewrite ex_mid in *. now rewrite (kept_named _ _ K).
  - rewrite wf_parray, wf_astructs in *. andbs. rewrite fb_mid in *. andbs. bsplit. erewrite count32_mid; eassumption.
  - rewrite wf_pmap, wf_mgen in *. andbs. match goal with F : forallb _ (_ ++ _ :: _) = true |- _ => rewrite fb_mid in F end. andbs.
    destruct IHrevise as (_ & K & T & F & W). specialize (K eq_refl).
    rewrite fb_mid. bsplit; [erewrite count32_mid; eassumption|erewrite distinct_val; eassumption| | |].
    + unfold map_generic in *. rewrite ex_mid in *. assumption.
    + now rewrite T.
    + now rewrite (kept_self _ _ K).
  - rewrite wf_pmap, wf_mprop in *. andbs. match goal with F : forallb _ (_ ++ _ :: _) = true |- _ => rewrite fb_mid in F end. andbs.
    destruct IHrevise as (_ & K & T & F & W). specialize (K eq_refl).
    rewrite fb_mid. bsplit; [erewrite count32_mid; eassumption|erewrite distinct_val; eassumption| |].
    + now rewrite T.
    + now rewrite (kept_self _ _ K).
  - rewrite wf_pstruct in *. andbs. bsplit.
  - rewrite wf_psvalue in *. andbs. bsplit. destruct (hints o _); [|discriminate]. now apply IHrevise.
  - rewrite wf_scustom in *. andbs. rewrite fb_mid in *. andbs. destruct IHrevise as (_ & _ & T & F & W).
    bsplit.
    + erewrite distinct_val; eassumption.
    + rewrite (len_mid ps1 ps2 p p'). assumption.
    + rewrite (indices_mid _ _ _ _ F). assumption.
    + rewrite fb_mid in *. andbs. bsplit.
Qed.
Lemma step_ok ps ps' : step vs ps ps' -> props_ok o sep vs ps = true -> props_ok o sep vs ps' = true.
Proof.
  unfold props_ok. destruct 1; intros W; andbs.
  - rewrite fb_mid in *. andbs. apply revise_still in H as (_ & _ & _ & _ & P). bsplit. erewrite distinct_val; eassumption.
  - rewrite fb_mid in *. andbs. bsplit. eapply distinct_drop; eassumption.
  - rewrite fb_mid. destruct (addable_wf p [n] H2) as [Wp _]. bsplit.
    + now apply distinct_add.
    + apply negb_true_iff. destruct (str_eqb n (s2z "None")) eqn:E; [|reflexivity]. apply str_eqb_eq in E. contradiction.
Qed.
Lemma session_ok ps ps' : session vs ps ps' -> props_ok o sep vs ps = true -> props_ok o sep vs ps' = true.
Proof. induction 1; auto. now apply step_ok. Qed.
End Kept.

Lemma session_file o sep h ps ps' : session (h_versions h) ps ps' ->
  file_ok o sep (h, ps) = true -> file_ok o sep (h, ps') = true.
Proof. unfold file_ok. cbn [fst snd]. intros S H. andbs. bsplit. eapply session_ok; eassumption. Qed.
Lemma session_reload o b h ps ps' : load_plain o b = Ok (h, ps) -> session (h_versions h) ps ps' ->
  exists b', save_plain (h, ps') = Ok b'
    /\ (len b' < 4294967296 -> (forall p i, probe o p i = false) \/ file_ok o eqv (h, ps) = true ->
        load_plain o b' = Ok (h, ps')).
Proof.
  intros L S. pose proof (session_file o same h ps ps' S (load_ok _ _ _ L)) as W.
  destruct (saves o _ W) as (b' & E). exists b'. split; [exact E|]. intros B [P|P].
  - exact (proj2 (save_load_iff o _ _ P E B) W).
  - exact (proj1 (save_load_any o _ _ E B) (session_file o eqv h ps ps' S P)).
Qed.

(** The same through a container, onto a destination. *)
Lemma session_container z o v b w h ps ps' d : zlib_ok z -> (forall p i, probe o p i = false) ->
  load z o v b = Ok (GFile w h ps) -> session (h_versions h) ps ps' ->
  exists bytes d', save_plain (h, ps') = Ok bytes /\ save z (GFile w h ps') d = (Ok tt, d')
    /\ (len bytes < 4294967296 -> load z o v (skipn (at_ d) (content d')) = Ok (GFile w h ps')).
Proof.
  intros Z Q L S. destruct (load_inv _ _ _ _ _ L) as (V & d0 & L0). cbn [g_version file_of g_header g_props] in *.
  pose proof (session_file o same h ps ps' S (load_ok _ _ _ L0)) as W. destruct (saves o _ W) as (bytes & E).
  assert (X : exists d', save z (GFile w h ps') d = (Ok tt, d')).
  { rewrite save_frame. cbn [g_header g_props]. rewrite E. eauto. }
  destruct X as (d' & X). exists bytes, d'. split; [exact E|]. split; [exact X|]. intros B. subst v.
  exact (container_round_trip z o (GFile w h ps') d d' bytes Z Q W E B X).
Qed.

(** Sessions that are not covered and do not survive. *)
Definition null_map (l : list (property * property)) : list (str * property) :=
  [(s2z "m", PMap (MGen (s2z "StrProperty") (s2z "StrProperty") 0 l))].
Lemma drop_null : exists o b h l1 k v l2 b',
  null_key k = true /\ load_plain o b = Ok (h, null_map (l1 ++ (k, v) :: l2))
  /\ save_plain (h, null_map (l1 ++ l2)) = Ok b'
  /\ exists ps, load_plain o b' = Ok (h, ps) /\ ps <> null_map (l1 ++ l2).
Proof.
  exists o_plain, (bytes_of (hdr4, null_map [(PStr (Some (s2z "a")), PStr None); (PStr None, PStr None)])), hdr4,
    [(PStr (Some (s2z "a")), PStr None)], (PStr None), (PStr None), [].
  eexists. split; [reflexivity|]. split; [vm_compute; reflexivity|]. split; [vm_compute; reflexivity|].
  eexists. split; [vm_compute; reflexivity|]. discriminate.
Qed.
Definition byte_array (l : list property) : list (str * property) :=
  [(s2z "a", PArray (AProps (s2z "ByteProperty") l))].
Lemma drop_last_byte : exists o b h p b',
  load_plain o b = Ok (h, byte_array [p]) /\ save_plain (h, byte_array []) = Ok b'
  /\ exists ps, load_plain o b' = Ok (h, ps) /\ ps <> byte_array [].
Proof.
  exists o_plain, (bytes_of (hdr4, byte_array [PByte None (BName (s2z "Red"))])), hdr4, (PByte None (BName (s2z "Red"))).
  eexists. split; [vm_compute; reflexivity|]. split; [vm_compute; reflexivity|].
  eexists. split; [vm_compute; reflexivity|]. discriminate.
Qed.
Definition one_raw (raw : list byte) : list (str * property) :=
  [(s2z "s", PSet (s2z "OddProperty") 0 [PUnknown (s2z "OddProperty") [Byte.x01]; PUnknown (s2z "OddProperty") raw])].
Lemma raw_length : exists o b h r r' b',
  load_plain o b = Ok (h, one_raw r) /\ save_plain (h, one_raw r') = Ok b' /\ load_plain o b' <> Ok (h, one_raw r').
Proof.
  exists o_plain, (bytes_of (hdr4, one_raw [Byte.x02])), hdr4, [Byte.x02], [Byte.x02; Byte.x03].
  eexists. split; [vm_compute; reflexivity|]. split; [vm_compute; reflexivity|]. vm_compute. discriminate.
Qed.
