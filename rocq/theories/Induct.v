(** Induction principles for the nested types, and totality of the writers on
    representable values. *)
From Coq Require Import ZArith List Bool String Lia ZifyBool ZifyNat.
From Verif Require Import Base Str Types Versions Text Props File Spec BaseFacts Decode.
Import ListNotations.
Open Scope Z_scope.

Section TextInd.
Variables (P : ftext -> Prop) (Q : fhist -> Prop) (R : farg -> Prop).
Hypotheses
  (HFText : forall f h, Q h -> P (FText f h))
  (HHEmpty : Q HEmpty) (HHNone : forall s, Q (HNone s)) (HHBase : forall a b c, Q (HBase a b c))
  (HHNamed : forall t l, P t -> Forall (fun e => R (snd e)) l -> Q (HNamed t l))
  (HHOrdered : forall t l, P t -> Forall R l -> Q (HOrdered t l))
  (HHArgument : forall t l, P t -> Forall (fun e => R (snd e)) l -> Q (HArgument t l))
  (HHNumber : forall v o c, R v -> Q (HNumber v o c))
  (HHPercent : forall v o c, R v -> Q (HPercent v o c))
  (HHCurrency : forall d v o c, R v -> Q (HCurrency d v o c))
  (HHDate : forall t s c, Q (HDate t s c)) (HHTime : forall t s z c, Q (HTime t s z c))
  (HHDateTime : forall t s u z c, Q (HDateTime t s u z c))
  (HHTransform : forall t x, P t -> Q (HTransform t x)) (HHTable : forall a b, Q (HTable a b))
  (HAInt : forall z, R (AInt z)) (HAUInt : forall z, R (AUInt z)) (HAFloat : forall z, R (AFloat z))
  (HADouble : forall z, R (ADouble z)) (HAText : forall t, P t -> R (AText t))
  (HAInt64 : forall z, R (AInt64 z)) (HAUInt64 : forall z, R (AUInt64 z)).

Fixpoint text_ind' (t : ftext) : P t :=
  match t with FText f h => HFText f h (hist_ind' h) end
with hist_ind' (h : fhist) : Q h :=
  let named := fix named (l : list (str * farg)) : Forall (fun e => R (snd e)) l :=
    match l with [] => Forall_nil _ | e :: r => Forall_cons e (arg_ind' (snd e)) (named r) end in
  let plain := fix plain (l : list farg) : Forall R l :=
    match l with [] => Forall_nil _ | e :: r => Forall_cons e (arg_ind' e) (plain r) end in
  match h with
  | HEmpty => HHEmpty
  | HNone s => HHNone s
  | HBase a b c => HHBase a b c
  | HNamed t l => HHNamed t l (text_ind' t) (named l)
  | HOrdered t l => HHOrdered t l (text_ind' t) (plain l)
  | HArgument t l => HHArgument t l (text_ind' t) (named l)
  | HNumber v o c => HHNumber v o c (arg_ind' v)
  | HPercent v o c => HHPercent v o c (arg_ind' v)
  | HCurrency d v o c => HHCurrency d v o c (arg_ind' v)
  | HDate t s c => HHDate t s c
  | HTime t s z c => HHTime t s z c
  | HDateTime t s u z c => HHDateTime t s u z c
  | HTransform t x => HHTransform t x (text_ind' t)
  | HTable a b => HHTable a b
  end
with arg_ind' (a : farg) : R a :=
  match a with
  | AInt z => HAInt z | AUInt z => HAUInt z | AFloat z => HAFloat z | ADouble z => HADouble z
  | AText t => HAText t (text_ind' t) | AInt64 z => HAInt64 z | AUInt64 z => HAUInt64 z
  end.
Lemma text_all : (forall t, P t) /\ (forall h, Q h) /\ (forall a, R a).
Proof. split; [exact text_ind'|split; [exact hist_ind'|exact arg_ind']]. Qed.
End TextInd.

Section PropInd.
Variables (P : property -> Prop) (Q : svalue -> Prop) (A : arrayp -> Prop) (M : mapp -> Prop).
Hypotheses
  (HPNum : forall k z, P (PNum k z)) (HPBool : forall b, P (PBool b))
  (HPByte : forall n v, P (PByte n v)) (HPEnum : forall t v, P (PEnum t v))
  (HPStr : forall v, P (PStr v)) (HPText : forall t, P (PText t))
  (HPName : forall i v, P (PName i v)) (HPObject : forall v, P (PObject v))
  (HPDelegate : forall a b, P (PDelegate a b)) (HPMulti : forall i l, P (PMulti i l))
  (HPFieldPath : forall l s, P (PFieldPath l s)) (HPUnknown : forall n r, P (PUnknown n r))
  (HPArray : forall a, A a -> P (PArray a))
  (HPSet : forall t f l, Forall P l -> P (PSet t f l))
  (HPMap : forall m, M m -> P (PMap m))
  (HPStruct : forall g t v, Q v -> P (PStruct g t v))
  (HPSValue : forall v, Q v -> P (PSValue v))
  (HSFixed : forall x l, Q (SFixed x l)) (HSGuid : forall g, Q (SGuid g)) (HSTags : forall l, Q (STags l))
  (HSCustom : forall l, Forall (fun e => Forall P (snd e)) l -> Q (SCustom l))
  (HABools : forall l, A (ABools l)) (HABytes : forall l, A (ABytes l)) (HAEnums : forall l, A (AEnums l))
  (HAFloats : forall l, A (AFloats l)) (HAInts : forall l, A (AInts l))
  (HANames : forall l, A (ANames l)) (HAStrings : forall l, A (AStrings l))
  (HAStructs : forall f t g l, Forall Q l -> A (AStructs f t g l))
  (HAProps : forall t l, Forall P l -> A (AProps t l))
  (HMBool : forall k l, M (MBool k l)) (HMInt : forall k l, M (MInt k l))
  (HMProp : forall k vt l, Forall (fun e => P (snd e)) l -> M (MProp k vt l))
  (HMStrStr : forall l, M (MStrStr l))
  (HMGen : forall kt vt f l, Forall (fun e => P (fst e) /\ P (snd e)) l -> M (MGen kt vt f l)).

Fixpoint prop_ind' (p : property) : P p :=
  match p with
  | PNum k z => HPNum k z | PBool b => HPBool b | PByte n v => HPByte n v | PEnum t v => HPEnum t v
  | PStr v => HPStr v | PText t => HPText t | PName i v => HPName i v | PObject v => HPObject v
  | PDelegate a b => HPDelegate a b | PMulti i l => HPMulti i l | PFieldPath l s => HPFieldPath l s
  | PUnknown n r => HPUnknown n r
  | PArray a => HPArray a (array_ind' a)
  | PSet t f l => HPSet t f l
    ((fix go l : Forall P l :=
        match l with [] => Forall_nil _ | e :: r => Forall_cons e (prop_ind' e) (go r) end) l)
  | PMap m => HPMap m (mapp_ind' m)
  | PStruct g t v => HPStruct g t v (sval_ind' v)
  | PSValue v => HPSValue v (sval_ind' v)
  end
with sval_ind' (v : svalue) : Q v :=
  match v with
  | SFixed x l => HSFixed x l | SGuid g => HSGuid g | STags l => HSTags l
  | SCustom l => HSCustom l
    ((fix go l : Forall (fun e => Forall P (snd e)) l :=
        match l with
        | [] => Forall_nil _
        | e :: r => Forall_cons e
            ((fix inner l : Forall P l :=
               match l with [] => Forall_nil _ | p :: q => Forall_cons p (prop_ind' p) (inner q) end) (snd e))
            (go r)
        end) l)
  end
with array_ind' (a : arrayp) : A a :=
  match a with
  | ABools l => HABools l | ABytes l => HABytes l | AEnums l => HAEnums l | AFloats l => HAFloats l
  | AInts l => HAInts l | ANames l => HANames l | AStrings l => HAStrings l
  | AStructs f t g l => HAStructs f t g l
    ((fix go l : Forall Q l :=
        match l with [] => Forall_nil _ | e :: r => Forall_cons e (sval_ind' e) (go r) end) l)
  | AProps t l => HAProps t l
    ((fix go l : Forall P l :=
        match l with [] => Forall_nil _ | e :: r => Forall_cons e (prop_ind' e) (go r) end) l)
  end
with mapp_ind' (m : mapp) : M m :=
  match m with
  | MBool k l => HMBool k l | MInt k l => HMInt k l
  | MProp k vt l => HMProp k vt l
    ((fix go l : Forall (fun e => P (snd e)) l :=
        match l with [] => Forall_nil _ | e :: r => Forall_cons e (prop_ind' (snd e)) (go r) end) l)
  | MStrStr l => HMStrStr l
  | MGen kt vt f l => HMGen kt vt f l
    ((fix go l : Forall (fun e => P (fst e) /\ P (snd e)) l :=
        match l with
        | [] => Forall_nil _
        | e :: r => Forall_cons e (conj (prop_ind' (fst e)) (prop_ind' (snd e))) (go r)
        end) l)
  end.
Lemma prop_all : (forall p, P p) /\ (forall v, Q v) /\ (forall a, A a) /\ (forall m, M m).
Proof.
  split; [exact prop_ind'|split; [exact sval_ind'|split; [exact array_ind'|exact mapp_ind']]].
Qed.
End PropInd.

(** ** Writers succeed on representable values *)
Definition wrote (w : out) : Prop := exists b n, w = Ok (b, n).
Lemma wrote_seq a b : wrote a -> wrote b -> wrote (a +> b).
Proof. intros (x & n & ->) (y & m & ->). cbn. unfold wrote. eauto. Qed.
Lemma wrote_emit b n : wrote (emit b n).
Proof. exists b, n. reflexivity. Qed.
Lemma wrote_fstring o : wrote (w_fstring o).
Proof. destruct o; apply wrote_emit. Qed.
Lemma wrote_seqs {A} (f : A -> out) l : Forall (fun a => wrote (f a)) l -> wrote (seqs f l).
Proof. induction 1; cbn [seqs]; [apply wrote_emit|]. now apply wrote_seq. Qed.
Lemma wrote_seqs' {A} (f : A -> out) l : (forall a, wrote (f a)) -> wrote (seqs f l).
Proof. intros H. apply wrote_seqs, Forall_forall. auto. Qed.
Lemma wrote_header hdr name c idx e b : (hdr = true -> wrote e) -> wrote b ->
  wrote (with_header hdr name c idx e b).
Proof.
  intros He (x & n & ->). unfold with_header. destruct hdr; [|apply wrote_emit].
  repeat apply wrote_seq; auto; try (destruct c); apply wrote_emit.
Qed.
Lemma wrote_optfmt o : wrote (w_optfmt o).
Proof.
  destruct o as [f|]; cbn [w_optfmt]; [|apply wrote_emit].
  repeat apply wrote_seq; apply wrote_emit.
Qed.
Create HintDb wrote.
#[export] Hint Resolve wrote_emit wrote_fstring wrote_optfmt : wrote.
#[export] Hint Extern 1 (wrote (w_string _)) => apply wrote_emit : wrote.
#[export] Hint Extern 1 (wrote (w_enum _)) => apply wrote_emit : wrote.
#[export] Hint Extern 1 (wrote (w_int _ _)) => apply wrote_emit : wrote.
#[export] Hint Extern 1 (wrote (w_u8 _)) => apply wrote_emit : wrote.
#[export] Hint Extern 1 (wrote (w_u32 _)) => apply wrote_emit : wrote.
#[export] Hint Extern 1 (wrote (w_u64 _)) => apply wrote_emit : wrote.
#[export] Hint Extern 1 (wrote (w_b32 _)) => apply wrote_emit : wrote.
#[export] Hint Extern 1 (wrote (w_bool _)) => apply wrote_emit : wrote.
#[export] Hint Extern 1 (wrote (w_guid _)) => apply wrote_emit : wrote.
#[export] Hint Extern 1 (wrote skip) => apply wrote_emit : wrote.
Ltac wr := repeat apply wrote_seq; auto with wrote.

(** What the writer needs of a text: integer arguments of the file's width. *)
Fixpoint text_w (vs : list (guid * Z)) (t : ftext) : bool :=
  match t with FText _ h => hist_w vs h end
with hist_w (vs : list (guid * Z)) (h : fhist) : bool :=
  match h with
  | HNamed t l | HArgument t l => text_w vs t && forallb (fun e => arg_w vs (snd e)) l
  | HOrdered t l => text_w vs t && forallb (arg_w vs) l
  | HNumber v _ _ | HPercent v _ _ | HCurrency _ v _ _ => arg_w vs v
  | HTransform t _ => text_w vs t
  | _ => true
  end
with arg_w (vs : list (guid * Z)) (a : farg) : bool :=
  match a with
  | AInt _ | AUInt _ => negb (has_arg64 vs)
  | AInt64 _ | AUInt64 _ => has_arg64 vs
  | AText t => text_w vs t
  | _ => true
  end.

Lemma forallb_in {A} (f : A -> bool) l a : forallb f l = true -> In a l -> f a = true.
Proof. intros H. now apply forallb_forall. Qed.
Lemma Forall_and_in {A} (P : A -> Prop) (f : A -> bool) (Q : A -> Prop) l :
  Forall P l -> forallb f l = true -> (forall a, P a -> f a = true -> Q a) -> Forall Q l.
Proof.
  intros H1 H2 H. apply Forall_forall. intros a Ha. rewrite Forall_forall in H1.
  eapply H; eauto. eapply forallb_in; eauto.
Qed.

Section Wrote.
Context (vs : list (guid * Z)).
Lemma wrote_text_all :
  (forall t, text_w vs t = true -> wrote (w_text vs t))
  /\ (forall h, hist_w vs h = true -> wrote (w_hist vs h))
  /\ (forall a, arg_w vs a = true -> wrote (w_farg vs a)).
Proof.
  apply text_all; cbn [text_w hist_w arg_w w_text w_hist w_farg]; intros; andbs; wr;
    try (match goal with |- context [has_culture vs] => destruct (has_culture vs); wr end);
    try (apply wrote_seqs; eapply Forall_and_in; eauto; cbv beta; try (intros [? ?] HH ?);
         try (intros ? HH ?); cbn [snd] in *; wr; fail);
    unfold w_argint; try (match goal with H : negb _ = true |- _ => apply negb_true_iff in H end);
    match goal with H : has_arg64 vs = _ |- _ => rewrite H end; cbn [Bool.eqb]; wr.
Qed.
Lemma wrote_text t : text_w vs t = true -> wrote (w_text vs t).
Proof. apply wrote_text_all. Qed.

Lemma text_ok_w_all : (forall t, text_ok vs t = true -> text_w vs t = true)
  /\ (forall h, hist_ok vs h = true -> hist_w vs h = true)
  /\ (forall a, arg_ok vs a = true -> arg_w vs a = true).
Proof.
  apply text_all; cbn [text_w hist_w arg_w text_ok hist_ok arg_ok]; intros; andbs; auto;
    try (apply andb_true_iff; split; [auto|]); auto;
    apply forallb_forall; intros; rewrite Forall_forall in *; 
    match goal with H : forall x, In x ?l -> _, Hin : In ?x ?l |- _ => apply H; [exact Hin|] end;
    match goal with H : forallb _ ?l = true, Hin : In ?x ?l |- _ =>
      pose proof (forallb_in _ _ _ H Hin) as HH; cbv beta in HH end; auto.
  - destruct x. now andbs.
  - destruct x. now andbs.
Qed.
Lemma text_ok_w t : text_ok vs t = true -> text_w vs t = true.
Proof. apply text_ok_w_all. Qed.

Lemma wrote_nums ks l : wrote (w_nums ks l).
Proof. revert l. induction ks as [|k ks IH]; intros [|z l]; cbn [w_nums]; wr. Qed.
Lemma wrote_fixed x l : precision_ok (has_lwc vs) x = true -> wrote (w_fixed vs x l).
Proof.
  intros H. unfold w_fixed. destruct x; cbn [fixed_lwc precision_ok] in *; auto using wrote_nums;
    try (apply negb_true_iff in H); rewrite H; cbn [Bool.eqb]; apply wrote_nums.
Qed.
Lemma wrote_key kk s : wrote (w_key kk s).
Proof. destruct kk; cbn [w_key]; wr. Qed.
Lemma wrote_bytev v : wrote (w_bytev v).
Proof. destruct v; cbn [w_bytev]; wr. Qed.

Context (o : opts) (sep : property -> property -> bool).
Lemma wrote_all :
  (forall p hdr path, wf_prop o vs sep hdr path p = true -> wrote (w_prop vs hdr p))
  /\ (forall v path ty, wf_sval o vs sep path ty v = true -> wrote (w_sval vs v))
  /\ (forall a path, wf_array o vs sep path a = true -> wrote (w_array vs a))
  /\ (forall m path, wf_map o vs sep path m = true -> wrote (w_map vs m)).
Proof.
  apply prop_all; cbn [wf_prop wf_sval wf_array wf_map w_prop w_sval w_array w_map];
    intros; andbs;
    try (apply wrote_header; [intros; wr; fail|]); wr;
    try (apply wrote_seqs'; intros; wr; fail);
    try (apply wrote_seqs'; intros [? ?]; wr; auto using wrote_key; fail); eauto.
  - unfold w_pbool. destruct hdr; wr.
  - unfold w_pbyte. destruct hdr; [|apply wrote_bytev].
    destruct (wrote_bytev v) as (b & q & ->). wr.
  - apply wrote_text, text_ok_w; auto.
  - apply wrote_seqs. eapply Forall_and_in; eauto. cbv beta. intros p HH ?. andbs. eauto.
  - destruct hdr; [discriminate|]. destruct (hints o _); [eauto|discriminate].
  - now apply wrote_fixed.
  - apply wrote_seqs. eapply Forall_and_in; eauto. cbv beta. intros [k ps] HH ?. andbs. cbn [snd] in *.
    apply wrote_seqs. eapply Forall_and_in; eauto. cbv beta. intros p HP ?. wr. eauto.
  - assert (W : wrote (seqs (w_sval vs) l)).
    { apply wrote_seqs. eapply Forall_and_in; eauto. }
    destruct W as (b & q & ->). wr.
  - apply wrote_seqs. eapply Forall_and_in; eauto. cbv beta. intros p HP ?. andbs. eauto.
  - apply wrote_seqs. eapply Forall_and_in; eauto. cbv beta. intros [kk v] HP ?. andbs. cbn [snd] in *.
    wr; eauto using wrote_key.
  - apply wrote_seqs. eapply Forall_and_in; eauto. cbv beta. intros [kk v] [HP HQ] ?. andbs.
    cbn [fst snd] in *. wr; eauto.
Qed.
End Wrote.

Lemma wrote_file o sep f : file_ok o sep f = true -> exists b, save_plain f = Ok b.
Proof.
  destruct f as [h l]. unfold file_ok, props_ok. cbn [fst snd]. intros H. andbs.
  assert (W : wrote (w_file (h, l))).
  { unfold w_file, w_header, w_fengine. cbn [fst snd]. wr.
    - destruct (h_ue5 h); wr.
    - apply wrote_seqs'. intros [? ?]. unfold w_version. wr.
    - apply wrote_seqs, Forall_forall. intros [name p] Hin.
      match goal with H : forallb _ l = true |- _ => pose proof (forallb_in _ _ _ H Hin) as HH end.
      cbv beta iota in HH. andbs. wr. eapply (proj1 (wrote_all _ _ _)); eauto. }
  destruct W as (b & q & E). exists b. unfold save_plain. now rewrite E.
Qed.
