(** Everything a reader accepts is representable: properties and files. *)
From Coq Require Import ZArith List Bool String Lia ZifyBool ZifyNat.
From Verif Require Import Base Str Types Versions Text Props File Spec BaseFacts ReaderFacts Prim StrFacts
  Decode KindFacts DecodeProp DecodeMain Induct Accept.
Import ListNotations.
Open Scope Z_scope.

(** ** Headers *)
Lemma a_sized st {A} (Q : A -> Prop) n r : acc st Q r -> acc st Q (sized n r).
Proof.
  intros H. unfold sized. apply a_position. intros p. eapply a_bind; [exact H|intros a Ha].
  apply a_position. intros q. destruct (_ =? n); [now apply a_ret|apply a_fail].
Qed.
Lemma a_headed st {V A} (QV : V -> Prop) (Q : A -> Prop) vars body :
  acc st QV vars -> (forall n v, u_ok 4 n = true -> QV v -> acc st Q (body n v)) ->
  acc st Q (headed vars body).
Proof.
  intros H1 H2. unfold headed. eapply a_bind; [apply a_u32|intros n Hn].
  eapply a_bind; [apply a_prim, q_index0; auto|intros _ _].
  eapply a_bind; [exact H1|intros v Hv].
  eapply a_bind; [apply a_prim, q_term; auto|intros _ _].
  apply a_sized. auto.
Qed.
Lemma a_headed_index st {A} (Q : A -> Prop) body :
  (forall i, u_ok 4 i = true -> acc st Q (body i)) -> acc st Q (headed_index body).
Proof.
  intros H. unfold headed_index. eapply a_bind; [apply a_u32|intros n Hn].
  eapply a_bind; [apply a_u32|intros i Hi].
  eapply a_bind; [apply a_prim, q_term; auto|intros _ _].
  apply a_sized. auto.
Qed.
Lemma a_plain st hdr {A} (Q : A -> Prop) r : acc st Q r -> acc st Q (plain hdr r).
Proof.
  intros H. unfold plain. destruct hdr; [|exact H].
  apply (a_headed st (fun _ => True)); auto. now apply a_ret.
Qed.
Lemma a_check st n : acc st (fun _ => True) (check_size n).
Proof. apply a_prim, q_check. auto. Qed.
Lemma a_zero st s r : prim (fun _ => True) r -> acc st (fun _ => True) (zero_or s r).
Proof. intros. apply a_prim, q_zero; auto. Qed.
Lemma a_num st k : acc st (fun z => num_ok k z = true) (r_num k).
Proof.
  destruct k; unfold r_num, num_ok; cbn [num_signed num_width];
    first [apply (a_sint st 1) | apply (a_sint st 2) | apply (a_sint st 4) | apply (a_sint st 8)
          | apply (a_uint st 2) | apply (a_uint st 4) | apply (a_uint st 8)]; lia.
Qed.
Lemma a_nums st ks : acc st (fun l => nums_ok ks l = true) (mapM r_num ks).
Proof.
  induction ks as [|k ks IH]; cbn [mapM]; [now apply a_ret|].
  eapply a_bind; [apply a_num|intros z Hz]. eapply a_bind; [exact IH|intros l Hl].
  apply a_ret. cbn [nums_ok]. bsplit.
Qed.

(** The shape of an element follows from the size handed down. *)
Definition bsug (sug : option Z) : bool :=
  match sug with None => true | Some e => (e =? 1) || (e =? 2) end.
Definition shape (sug : option Z) (p : property) : Prop :=
  match p with
  | PByte _ (BByte _) => bsug sug = true
  | PByte _ (BName _) => bsug sug = false
  | PUnknown _ raw => match sug with Some l => len raw = l | None => False end
  | _ => True
  end.

Section Good.
Context (o : opts) (vs : list (guid * Z)) (sep : property -> property -> bool).
Notation wfp := (wf_prop o vs sep).

(** Unfolding lemmas. *)
Lemma wf_aprops path ty l : wf_array o vs sep path (AProps ty l) =
  str_ok ty && count32 l && uniform l && negb (array_special ty)
  && (negb (str_eqb ty (s2z "ByteProperty")) || existsb is_named l)
  && forallb (fun p => str_eqb ty (type_of p) && wfp false path p) l.
Proof. reflexivity. Qed.
Lemma wf_astructs path field ty g l : wf_array o vs sep path (AStructs field ty g l) =
  count32 l && str_ok field && str_ok ty && guid_ok g && forallb (wf_sval o vs sep path ty) l.
Proof. reflexivity. Qed.
Lemma wf_scustom path ty l : wf_sval o vs sep path ty (SCustom l) =
  negb (mem ty known_structs) && distinct str_eqb l
  && forallb (fun '(k, ps) =>
         str_ok k && negb (str_eqb k (s2z "None")) && negb (len ps =? 0)
         && (negb (dbg o) || indices_ok 0 ps)
         && forallb (wfp true (k :: path)) ps) l.
Proof. reflexivity. Qed.
Lemma wf_pset hdr path ty flags l : wfp hdr path (PSet ty flags l) =
  hdr && str_ok ty && u_ok 4 flags && count32 l && uniform l
  && forallb (fun p => str_eqb ty (type_of p) && wfp false (s2z "SetProperty" :: path) p) l.
Proof. reflexivity. Qed.
Lemma wf_parray hdr path a : wfp hdr path (PArray a) = hdr && wf_array o vs sep (s2z "ArrayProperty" :: path) a.
Proof. reflexivity. Qed.
Lemma wf_pmap hdr path m : wfp hdr path (PMap m) = hdr && wf_map o vs sep (s2z "MapProperty" :: path) m.
Proof. reflexivity. Qed.
Lemma wf_pstruct hdr path g ty v : wfp hdr path (PStruct g ty v) =
  hdr && guid_ok g && str_ok ty && wf_sval o vs sep (s2z "StructProperty" :: path) ty v.
Proof. reflexivity. Qed.
Lemma wf_psvalue hdr path v : wfp hdr path (PSValue v) =
  negb hdr && match hints o (dotted (s2z "StructProperty" :: path)) with
              | Some ty => wf_sval o vs sep (s2z "StructProperty" :: path) ty v
              | None => false
              end.
Proof. reflexivity. Qed.
Lemma wf_mprop path kk vt l : wf_map o vs sep path (MProp kk vt l) =
  str_ok vt && negb (map_special kk vt) && count32 l && distinct str_eqb l
  && forallb (fun '(k, v) => str_ok k && str_eqb vt (type_of v) && self_sized v
                             && wfp false (s_value :: path) v) l.
Proof. reflexivity. Qed.
Lemma wf_mgen path kt vt flags l : wf_map o vs sep path (MGen kt vt flags l) =
  str_ok kt && str_ok vt && u_ok 4 flags && count32 l && distinct sep l
  && map_generic kt flags l
  && forallb (fun '(k, v) =>
         str_eqb kt (type_of k) && self_sized k && wfp false (s_key :: path) k
         && str_eqb vt (type_of v) && self_sized v && wfp false (s_value :: path) v) l.
Proof. reflexivity. Qed.

Definition good (st : list str) (ty : str) (hdr : bool) (sug : option Z) (p : property) : Prop :=
  type_of p = ty /\ wfp hdr st p = true /\ (hdr = false -> shape sug p).

Lemma uniform_shape sug ty l : Forall (fun p => type_of p = ty /\ shape sug p /\ negb (mem ty known_types)
    = match p with PUnknown _ _ => true | _ => false end) l ->
  uniform l = true.
Proof.
  intros H. destruct l as [|p l]; [reflexivity|]. rewrite Forall_forall in H.
  pose proof (H p (or_introl eq_refl)) as (T & Sh & U).
  destruct p as [| |nm [b|s]| | | | | | | | |name raw| | | | |]; try reflexivity; cbn [uniform];
    apply forallb_forall; intros q Hq; destruct (H q Hq) as (T' & Sh' & U'); cbn [shape] in *.
  - destruct q as [k| |? [|]| | | | | | |i| | | | | | |]; cbn [type_of shape] in *; try congruence; try reflexivity;
      subst ty; try (vm_compute in T'; discriminate T'); try (destruct k; vm_compute in T'; discriminate T');
      destruct i; vm_compute in T'; discriminate T'.
  - destruct q as [k| |? [|]| | | | | | |i| | | | | | |]; cbn [type_of shape] in *; try congruence; try reflexivity;
      subst ty; try (vm_compute in T'; discriminate T'); try (destruct k; vm_compute in T'; discriminate T');
      destruct i; vm_compute in T'; discriminate T'.
  - rewrite U in U'. destruct q as [| | | | | | | | | | |? r| | | | |]; try discriminate U'.
    cbn [shape is_raw] in *. destruct sug; [|tauto]. lia.
Qed.
(** Only properties of unknown type have unknown type names. *)
Lemma unknown_type hdr st p : wfp hdr st p = true ->
  negb (mem (type_of p) known_types) = match p with PUnknown _ _ => true | _ => false end.
Proof.
  intros H. destruct p; try reflexivity.
  - destruct k; reflexivity.
  - destruct inline; reflexivity.
  - cbn [wf_prop type_of] in *. now apply andb_true_iff in H as [? _].
Qed.
Lemma uniform_good st ty sug l : Forall (good st ty false sug) l -> uniform l = true.
Proof.
  intros H. apply (uniform_shape sug ty). eapply Forall_impl; [|exact H].
  intros p (T & W & Sh). repeat split; auto. subst ty. eapply unknown_type; eauto.
Qed.
Lemma sized_good st ty p : good st ty false None p -> self_sized p = true.
Proof.
  intros (_ & _ & Sh). specialize (Sh eq_refl).
  destruct p as [| |? [|]| | | | | | | | | | | | | |]; cbn in *; auto; try discriminate; tauto.
Qed.
Lemma wf_forall st ty sug l : Forall (good st ty false sug) l ->
  forallb (fun p => str_eqb ty (type_of p) && wfp false st p) l = true.
Proof.
  intros H. apply forallb_forall. intros p Hp. rewrite Forall_forall in H.
  destruct (H p Hp) as (T & W & _). subst ty. now rewrite str_eqb_refl, W.
Qed.

(** ** Arrays *)
Lemma opt_map_all {A B} (f : A -> option B) (g : B -> A) l :
  (forall a b, f a = Some b -> a = g b) ->
  match opt_map f l with
  | Some bs => l = map g bs
  | None => exists a, In a l /\ f a = None
  end.
Proof.
  intros H. induction l as [|a l IH]; cbn [opt_map]; [reflexivity|].
  destruct (f a) as [b|] eqn:E.
  - destruct (opt_map f l) as [bs|]; [cbn; f_equal; auto|]. destruct IH as (x & Hx & Ex).
    exists x. cbn. auto.
  - exists a. cbn. auto.
Qed.
(** An element that is not of the specialised form contradicts its type. *)
Ltac not_special :=
  match goal with
  | T : type_of ?p = _, W : wfp false _ ?p = true, N : _ ?p = None |- _ =>
    destruct p as [k| | | | | |? ?| | |inl| | | | | | |]; cbn [type_of] in T;
    try (vm_compute in T; discriminate T); try (destruct k; vm_compute in T; discriminate T);
    try (destruct inl; vm_compute in T; discriminate T);
    try (cbn [wf_prop] in W; andbs;
         match goal with H : negb (mem _ _) = true |- _ => rewrite T in H; vm_compute in H; discriminate H end)
  end.

Lemma count32_of_map {A B} (g : A -> B) l : count32 (map g l) = true -> count32 l = true.
Proof. now rewrite count32_map. Qed.

Ltac elements Hg :=
  apply count32_of_map in Hg.

Lemma array_new_wf st ty sug l a : str_ok ty = true -> kind_of ty <> KStruct ->
  Forall (good st ty false sug) l -> count32 l = true ->
  array_new ty None l = Ok a -> wf_array o vs sep st a = true.
Proof.
  intros Hty Hk HF Hc E. unfold array_new in E. injection E as E.
  assert (Htype : kind_of ty <> KOther -> ty = kind_name (kind_of ty)) by apply kind_of_name.
  assert (Hgen : array_special ty = false ->
    (ty = s2z "ByteProperty" -> existsb is_named l = true) ->
    wf_array o vs sep st (AProps ty l) = true).
  { intros Hs Hb. rewrite wf_aprops. rewrite Hty, Hc, (uniform_good _ _ _ _ HF), Hs, (wf_forall _ _ _ _ HF).
    cbn [negb andb]. destruct (str_eqb ty (s2z "ByteProperty")) eqn:Eb; [|reflexivity].
    apply str_eqb_eq in Eb. now rewrite Hb. }
  assert (Hin : forall p, In p l -> type_of p = ty /\ wfp false st p = true).
  { intros p Hp. rewrite Forall_forall in HF. destruct (HF p Hp) as (? & ? & _). auto. }
  destruct (kind_of ty) as [k| | | | | | | | | | | | | | |] eqn:Ek; try congruence;
    try (specialize (Htype ltac:(discriminate)); cbn [kind_name] in Htype);
    try (subst a; apply Hgen; [subst ty; reflexivity|subst ty; intros X; vm_compute in X; discriminate X]).
  - (* numbers *)
    destruct k; try (subst a; apply Hgen; [subst ty; reflexivity|subst ty; intros X; vm_compute in X; discriminate X]).
    + pose proof (opt_map_all as_int (PNum I32) l) as Ho.
      destruct (opt_map as_int l) as [bs|]; cbn [or_else] in E; subst a.
      * specialize (Ho ltac:(intros [[] ?| | | | | | | | | | | | | | | |]; cbn; congruence)). subst l.
        cbn [wf_prop wf_sval wf_array wf_map]. rewrite (count32_of_map _ _ Hc). apply forallb_forall. intros z Hz.
        apply (Hin (PNum I32 z)). now apply in_map.
      * destruct (Ho ltac:(intros [[] ?| | | | | | | | | | | | | | | |]; cbn; congruence)) as (p & Hp & N).
        exfalso. destruct (Hin p Hp) as [T W]. rewrite Htype in T. not_special. destruct k; try discriminate N;
        vm_compute in T; discriminate T.
    + pose proof (opt_map_all as_float (PNum F32) l) as Ho.
      destruct (opt_map as_float l) as [bs|]; cbn [or_else] in E; subst a.
      * specialize (Ho ltac:(intros [[] ?| | | | | | | | | | | | | | | |]; cbn; congruence)). subst l.
        cbn [wf_prop wf_sval wf_array wf_map]. rewrite (count32_of_map _ _ Hc). apply forallb_forall. intros z Hz.
        apply (Hin (PNum F32 z)). now apply in_map.
      * destruct (Ho ltac:(intros [[] ?| | | | | | | | | | | | | | | |]; cbn; congruence)) as (p & Hp & N).
        exfalso. destruct (Hin p Hp) as [T W]. rewrite Htype in T. not_special. destruct k; try discriminate N;
        vm_compute in T; discriminate T.
  - (* bytes *)
    pose proof (opt_map_all as_byte (fun b => PByte None (BByte b)) l) as Ho.
    assert (Hf : forall a b, as_byte a = Some b -> a = PByte None (BByte b))
      by (intros [| |[] []| | | | | | | | | | | | | |]; cbn; congruence).
    specialize (Ho Hf).
    destruct (opt_map as_byte l) as [bs|]; cbn [or_else] in E; subst a.
    + subst l. cbn [wf_prop wf_sval wf_array wf_map]. now apply count32_of_map in Hc.
    + destruct Ho as (p & Hp & N). apply Hgen; [subst ty; reflexivity|]. intros _.
      apply existsb_exists. exists p. split; [exact Hp|].
      destruct (Hin p Hp) as [T W]. rewrite Htype in T.
      not_special. destruct v; [|reflexivity]. cbn in W, N. destruct name; [discriminate|discriminate].
  - (* bools *)
    pose proof (opt_map_all as_bool PBool l) as Ho.
    assert (Hf : forall a b, as_bool a = Some b -> a = PBool b) by (intros []; cbn; congruence).
    specialize (Ho Hf).
    destruct (opt_map as_bool l) as [bs|]; cbn [or_else] in E; subst a.
    + subst l. cbn [wf_prop wf_sval wf_array wf_map]. now apply count32_of_map in Hc.
    + destruct Ho as (p & Hp & N). exfalso. destruct (Hin p Hp) as [T W]. rewrite Htype in T. not_special.
      discriminate N.
  - (* enums *)
    pose proof (opt_map_all as_enum (PEnum None) l) as Ho.
    assert (Hf : forall a b, as_enum a = Some b -> a = PEnum None b)
      by (intros [| | |[]| | | | | | | | | | | | |]; cbn; congruence).
    specialize (Ho Hf).
    destruct (opt_map as_enum l) as [bs|]; cbn [or_else] in E; subst a.
    + subst l. cbn [wf_prop wf_sval wf_array wf_map]. rewrite (count32_of_map _ _ Hc). apply forallb_forall. intros z Hz.
      apply (Hin (PEnum None z)). now apply in_map.
    + destruct Ho as (p & Hp & N). exfalso. destruct (Hin p Hp) as [T W]. rewrite Htype in T. not_special.
      destruct ty0; [cbn in W; discriminate|discriminate N].
  - (* strings *)
    pose proof (opt_map_all as_str PStr l) as Ho.
    assert (Hf : forall a b, as_str a = Some b -> a = PStr b) by (intros []; cbn; congruence).
    specialize (Ho Hf).
    destruct (opt_map as_str l) as [bs|]; cbn [or_else] in E; subst a.
    + subst l. cbn [wf_prop wf_sval wf_array wf_map]. rewrite (count32_of_map _ _ Hc). apply forallb_forall. intros z Hz.
      apply (Hin (PStr z)). now apply in_map.
    + destruct Ho as (p & Hp & N). exfalso. destruct (Hin p Hp) as [T W]. rewrite Htype in T. not_special.
      discriminate N.
  - (* names *)
    pose proof (opt_map_all as_name (PName 0) l) as Ho.
    assert (Hf : forall a b, as_name a = Some b -> a = PName 0 b).
    { intros [| | | | | |i ?| | | | | | | | | |]; cbn; try congruence. intros b.
      destruct (Z.eqb_spec i 0); congruence. }
    specialize (Ho Hf).
    destruct (opt_map as_name l) as [bs|]; cbn [or_else] in E; subst a.
    + subst l. cbn [wf_prop wf_sval wf_array wf_map]. rewrite (count32_of_map _ _ Hc). apply forallb_forall. intros z Hz.
      apply (Hin (PName 0 z)). now apply in_map.
    + destruct Ho as (p & Hp & N). exfalso. destruct (Hin p Hp) as [T W]. rewrite Htype in T. not_special.
      cbn in N, W. destruct (index =? 0); discriminate.
  - (* multicast delegates *)
    subst a. apply Hgen; subst ty; destruct inline; try reflexivity; intros X; vm_compute in X; discriminate X.
  - (* unknown *)
    subst a. assert (Hm : mem ty known_types = false) by now apply kind_other.
    assert (Hd : forall s, mem s known_types = true -> ty <> s) by congruence.
    apply Hgen.
    + destruct (array_special ty) eqn:Em; [|reflexivity]. apply mem_in in Em. exfalso.
      cbn [map] in Em. repeat (destruct Em as [Em|Em]; [symmetry in Em; revert Em; now apply Hd|]). destruct Em.
    + intros X. exfalso. revert X. now apply Hd.
Qed.

Lemma array_structs_wf st field ty g l a : str_ok field = true -> str_ok ty = true -> guid_ok g = true ->
  count32 l = true -> Forall (fun p => exists v, p = PSValue v /\ wf_sval o vs sep st ty v = true) l ->
  array_new (s2z "StructProperty") (Some (field, ty, g)) l = Ok a -> wf_array o vs sep st a = true.
Proof.
  intros H1 H2 H3 H4 HF E. unfold array_new in E.
  change (kind_of (s2z "StructProperty")) with KStruct in E. cbv iota in E.
  assert (Ho : exists bs, opt_map as_sval l = Some bs /\ len bs = len l /\ Forall (fun v => wf_sval o vs sep st ty v = true) bs).
  { clear E H4. induction HF as [|p l (v & -> & Hv) HF IH].
    - exists []. auto.
    - destruct IH as (bs & E & L & F). exists (v :: bs). cbn [opt_map as_sval]. rewrite E, !len_cons, L.
      repeat split; auto. }
  destruct Ho as (bs & Eb & L & F). rewrite Eb in E. injection E as <-.
  rewrite wf_astructs, H1, H2, H3. unfold count32 in *. rewrite L, H4. cbn [andb]. now apply Forall_true.
Qed.

(** ** Maps *)
Lemma map_new_wf st kt vt flags l : str_ok kt = true -> str_ok vt = true -> u_ok 4 flags = true ->
  count32 l = true -> distinct sep l = true ->
  Forall (entry_ok o vs sep st kt vt) l -> wf_map o vs sep st (map_new kt vt flags l) = true.
Proof.
  intros Hkt Hvt Hfl Hc Hd HF.
  assert (Hgen : map_generic kt flags l = true -> wf_map o vs sep st (MGen kt vt flags l) = true).
  { intros Hg. rewrite wf_mgen, Hkt, Hvt, Hfl, Hc, Hd, Hg. cbn [andb]. apply Forall_true.
    eapply Forall_impl; [|exact HF]. intros [k v] (T & S1 & W & T' & S2 & W'). cbn [fst snd] in *. subst kt vt.
    rewrite !str_eqb_refl, S1, W, S2, W'. reflexivity. }
  unfold map_new. destruct (keyk_of kt) as [kk|] eqn:Ek.
  2:{ apply Hgen. unfold map_generic.
      assert (mem kt (map s2z ["EnumProperty"; "NameProperty"; "StrProperty"]%string) = false) as ->.
      { destruct (mem kt _) eqn:Em; [|reflexivity]. apply mem_in in Em. cbn [map] in Em.
        repeat (destruct Em as [Em|Em]; [subst kt; vm_compute in Ek; discriminate Ek|]). destruct Em. }
      cbn [negb]. now rewrite orb_true_r. }
  destruct (flags =? 0) eqn:Efl; [|apply Hgen; unfold map_generic; now rewrite Efl].
  assert (Hkn : kt = keyk_name kk).
  { revert Ek. unfold keyk_of. destruct (kind_of kt) eqn:E; try discriminate;
      intros X; injection X as <-;
      (assert (Hn : kind_of kt <> KOther) by (rewrite E; discriminate);
       apply kind_of_name in Hn; rewrite E in Hn; exact Hn). }
  (* keys that are not null are of the expected form *)
  assert (Hkey : forall e, In e l -> as_key kk (fst e) = None -> null_key (fst e) = true).
  { intros [k v] Hin N. rewrite Forall_forall in HF. destruct (HF _ Hin) as (T & _ & W & _). cbn [fst] in *.
    rewrite Hkn in T.
    destruct k as [n| | | | | |i s| | |inl| |nm| | | | |]; cbn [type_of] in T;
      try (destruct kk; vm_compute in T; discriminate T);
      try (destruct kk, n; vm_compute in T; discriminate T);
      try (destruct kk, inl; vm_compute in T; discriminate T).
    - destruct kk; try (vm_compute in T; discriminate T). cbn in W, N. destruct ty; [discriminate W|discriminate N].
    - destruct kk; try (vm_compute in T; discriminate T). cbn in W, N. destruct v0; [discriminate N|reflexivity].
    - destruct kk; try (vm_compute in T; discriminate T). cbn in W, N. destruct s; [|reflexivity].
      destruct (i =? 0); discriminate.
    - cbn [wf_prop] in W. andbs. exfalso. match goal with H : negb (mem _ _) = true |- _ => rewrite <- T in H;
        destruct kk; vm_compute in H; discriminate H end. }
  assert (Hkok : forall k s, wfp false (s_key :: st) k = true -> as_key kk k = Some s -> str_ok s = true).
  { intros k s W N. destruct kk, k as [| | |[]|[]| |i []| | | | | | | | | |]; cbn in N; try discriminate N.
    - injection N as <-. cbn in W. exact W.
    - destruct (i =? 0); [|discriminate]. injection N as <-. cbn in W. now apply andb_true_iff in W as [_ W].
    - injection N as <-. exact W. }
  assert (Hsp : forall V (f : property -> option V) (mk : list (str * V) -> mapp) (Q : V -> Prop),
    (forall e, In e l -> exists v, f (snd e) = Some v /\ Q v) ->
    (forall l', count32 l' = true -> distinct str_eqb l' = true ->
       Forall (fun e => str_ok (fst e) = true /\ Q (snd e)) l' -> wf_map o vs sep st (mk l') = true) ->
    wf_map o vs sep st (or_else (entries kk f l) mk (MGen kt vt flags l)) = true).
  { intros V f mk Q Hf Hmk. unfold entries.
    set (g := fun e : property * property => match as_key kk (fst e), f (snd e) with
                  | Some a, Some b => Some (a, b) | _, _ => None end).
    assert (Hg : match opt_map g l with
                 | Some r => len r = len l /\ Forall (fun e => str_ok (fst e) = true /\ Q (snd e)) r
                 | None => existsb (fun e => null_key (fst e)) l = true
                 end).
    { clear Hd Hgen Hmk Hc. induction l as [|e l' IH]; cbn [opt_map]; [split; [reflexivity|constructor]|].
      specialize (IH ltac:(inversion HF; auto) ltac:(intros; apply Hkey; cbn; auto) ltac:(intros; apply Hf; cbn; auto)).
      destruct (Hf e (or_introl eq_refl)) as (v & Ev & Qv).
      unfold g at 1. rewrite Ev. destruct (as_key kk (fst e)) as [s|] eqn:Es.
      - destruct (opt_map g l') as [r|].
        + destruct IH as [L F]. rewrite !len_cons, L. split; [reflexivity|]. constructor; [|exact F].
          cbn [fst snd]. split; [|exact Qv]. inversion HF as [|? ? (_ & _ & W & _) ?]; subst. eapply Hkok; eauto.
        + cbn [existsb]. rewrite IH. apply orb_true_r.
      - cbn [existsb]. rewrite Hkey; cbn; auto. }
    destruct (opt_map g l) as [r|]; cbn [or_else].
    - destruct Hg as [L F]. apply Hmk.
      + unfold count32 in *. pose proof (ins_all_len str_eqb r). lia.
      + rewrite distinct_fresh. apply fresh_ins_all.
      + now apply (ins_all_in (fun k => str_ok k = true) Q).
    - apply Hgen. unfold map_generic. rewrite Hg. apply orb_true_r. }
  assert (Hval : forall e, In e l -> type_of (snd e) = vt /\ self_sized (snd e) = true /\ wfp false (s_value :: st) (snd e) = true).
  { intros e He. rewrite Forall_forall in HF. destruct (HF e He) as (_ & _ & _ & T & Sz & W). auto. }
  assert (Hprop : map_special kk vt = false ->
    wf_map o vs sep st (or_else (entries kk Some l) (MProp kk vt) (MGen kt vt flags l)) = true).
  { intros Hms. apply (Hsp _ Some _ (fun v => type_of v = vt /\ self_sized v = true /\ wfp false (s_value :: st) v = true)).
    - intros e He. exists (snd e). auto.
    - intros l' C D F. rewrite wf_mprop, Hvt, Hms, C, D. cbn [negb andb]. apply Forall_true.
      eapply Forall_impl; [|exact F]. intros [k v] (Hk & T & Sz & W). cbn [fst snd] in *.
      rewrite Hk, Sz, W. subst vt. now rewrite str_eqb_refl. }
  assert (Hvn : kind_of vt <> KOther -> vt = kind_name (kind_of vt)) by apply kind_of_name.
  assert (Hother : forall k, kind_of vt = k -> k <> KBool -> k <> KNum I32 -> (kk = KkStr -> k <> KStr) ->
    map_special kk vt = false).
  { intros k <- N1 N2 N3. unfold map_special.
    assert (mem vt (map s2z ["BoolProperty"; "IntProperty"]%string) = false) as ->.
    { destruct (mem vt _) eqn:Em; [|reflexivity]. apply mem_in in Em. cbn [map] in Em.
      destruct Em as [Em|[Em|[]]]; subst vt; [now elim N1|now elim N2]. }
    destruct kk; try reflexivity. cbn [orb]. destruct (str_eqb vt (s2z "StrProperty")) eqn:E; [|reflexivity].
    apply str_eqb_eq in E. subst vt. now elim (N3 eq_refl). }
  (* value types with a specialised map *)
  assert (Hspecial : forall V (f : property -> option V) (Q : V -> Prop) k, kind_of vt = k -> k <> KOther ->
    (forall p, type_of p = kind_name k -> wfp false (s_value :: st) p = true -> exists v, f p = Some v /\ Q v) ->
    forall e, In e l -> exists v, f (snd e) = Some v /\ Q v).
  { intros V f Q k Ekv Nk Hp e He. destruct (Hval e He) as (T & _ & W). apply Hp; [|exact W].
    rewrite T. rewrite Hvn by congruence. now rewrite Ekv. }
  destruct (kind_of vt) as [n| | | | | | | | | | | | | | |] eqn:Ekv;
    try (apply Hprop; eapply Hother; [reflexivity| | |]; intros; discriminate);
    try (destruct n; try (apply Hprop; eapply Hother; [reflexivity| | |]; intros; discriminate)).
  - eapply (Hsp Z as_int (MInt kk) (fun z => s_ok 4 z = true)).
    + eapply Hspecial; [reflexivity|discriminate|]. intros p T W.
      destruct p as [n| | | | | | | | |inl| |nm| | | | |]; cbn [type_of] in T;
        try (vm_compute in T; discriminate T); try (destruct inl; vm_compute in T; discriminate T).
      * destruct n; try (vm_compute in T; discriminate T). exists z. split; [reflexivity|exact W].
      * cbn [wf_prop] in W. andbs. exfalso. match goal with H : negb (mem _ _) = true |- _ => rewrite T in H;
          vm_compute in H; discriminate H end.
    + intros l' C D F. cbn [wf_map]. rewrite C, D. apply Forall_true. eapply Forall_impl; [|exact F].
      intros [k v] [? ?]. cbn [fst snd] in *. bsplit.
  - eapply (Hsp bool as_bool (MBool kk) (fun _ => True)).
    + eapply Hspecial; [reflexivity|discriminate|]. intros p T W.
      destruct p as [n| | | | | | | | |inl| |nm| | | | |]; cbn [type_of] in T;
        try (vm_compute in T; discriminate T); try (destruct inl; vm_compute in T; discriminate T);
        try (destruct n; vm_compute in T; discriminate T).
      * exists b. auto.
      * cbn [wf_prop] in W. andbs. exfalso. match goal with H : negb (mem _ _) = true |- _ => rewrite T in H;
          vm_compute in H; discriminate H end.
    + intros l' C D F. cbn [wf_map]. rewrite C, D. apply Forall_true. eapply Forall_impl; [|exact F].
      intros [k v] [? ?]. cbn [fst snd] in *. bsplit.
  - destruct kk; try (apply Hprop; eapply Hother; [reflexivity| | |]; intros; discriminate).
    eapply (Hsp (option str) as_str MStrStr (fun v => ostr_ok v = true)).
    + eapply Hspecial; [reflexivity|discriminate|]. intros p T W.
      destruct p as [n| | | | | | | | |inl| |nm| | | | |]; cbn [type_of] in T;
        try (vm_compute in T; discriminate T); try (destruct inl; vm_compute in T; discriminate T);
        try (destruct n; vm_compute in T; discriminate T).
      * exists v. auto.
      * cbn [wf_prop] in W. andbs. exfalso. match goal with H : negb (mem _ _) = true |- _ => rewrite T in H;
          vm_compute in H; discriminate H end.
    + intros l' C D F. cbn [wf_map]. rewrite C, D. apply Forall_true. eapply Forall_impl; [|exact F].
      intros [k v] [? ?]. cbn [fst snd] in *. bsplit.
Qed.
End Good.
