(** Reading back what a writer emits: every property, and files. *)
From Coq Require Import ZArith List Bool String Lia ZifyBool ZifyNat.
From Verif Require Import Base Str Types Versions Text Props File Spec BaseFacts StrFacts Decode KindFacts
  DecodeProp DecodeMain.
Import ListNotations.
Open Scope Z_scope.

Lemma enc_dec M lo st {A} w (r : reader A) a bs n :
  enc M lo st w r a -> w = Ok (bs, n) -> len bs < M -> decodes st r bs a.
Proof. intros H E L. now destruct (H bs n E L). Qed.
Lemma enc_ext M lo st {A} w (r r' : reader A) a :
  (forall c, r c = r' c) -> enc M lo st w r' a -> enc M lo st w r a.
Proof. intros H E bs n W L. destruct (E bs n W L). split; auto. eapply dec_ext; eauto. Qed.
Lemma e_nums M st ks l : nums_ok ks l = true -> enc M 0 st (w_nums ks l) (mapM r_num ks) l.
Proof.
  revert M l. induction ks as [|k ks IH]; intros M [|z l]; cbn [nums_ok w_nums mapM]; try discriminate.
  - intros _. apply e_ret. lia.
  - intros H. andbs. eapply e_seq; [now apply e_num|].
    eapply e_last; [|apply dec_ret].
    eapply e_weaken; [apply IH; auto|apply Z.le_refl|]. destruct k; cbn; lia.
Qed.

Lemma u32_bytes z y m : w_u32 z = Ok (y, m) -> y = le_bytes 4 z.
Proof. intros E. change (Ok (le_bytes 4 z, 4) = Ok (y, m)) in E. congruence. Qed.

Section All.
Context (o : opts) (vs : list (guid * Z)) (sep : property -> property -> bool).
Hypothesis Hsep : forall k k', sep k k' = false -> apart o k k'.
Notation wf := (wf_prop o vs sep).

(** What is shown of a property with and without header, for fuel [n]. *)
Definition good_h (n : nat) : Prop := forall path p bs q,
  wf true path p = true -> w_prop vs true p = Ok (bs, q) -> len bs < Z.of_nat n ->
  exists bs', bs = str_bytes (type_of p) ++ bs'
              /\ decodes path (r_prop n o vs (type_of p) true None) bs' p.
Definition good_l (n : nat) : Prop := forall path p sug,
  wf false path p = true -> sug_ok sug p ->
  enc (Z.of_nat n) 0 path (w_prop vs false p) (r_prop n o vs (type_of p) false sug) p.

Section Step.
Context (n : nat).
Hypothesis Hn : Z.of_nat (S n) <= 4294967296.
Hypothesis Hh : good_h n.
Hypothesis Hl : good_l n.
Notation rp := (r_prop n o vs).

(** *** Structs *)
Lemma d_custom path fl : forall m acc bs q,
  Forall (fun e => str_ok (fst e) = true /\ str_eqb (fst e) s_none = false
                   /\ wf true (fst e :: path) (snd e) = true) fl ->
  (dbg o = true -> chain acc fl = true) ->
  seqs (fun '(k, p) => w_string k +> w_prop vs true p) fl = Ok (bs, q) ->
  len bs < Z.of_nat m -> len bs < Z.of_nat (S n) ->
  decodes path (r_custom m o rp acc) (bs ++ str_bytes s_none) (regroup acc fl).
Proof.
  induction fl as [|[k p] fl IH]; intros m acc bs q HF Hc E Lm Ln.
  - cbn [seqs] in E. injection E as <- <-. cbn [app regroup fold_left].
    destruct m as [|m]; [rewrite len_nil in Lm; lia|]. cbn [r_custom].
    eapply dec_bind_last; [now apply dec_string|]. cbv beta.
    replace (str_eqb s_none s_none) with true by reflexivity. apply dec_ret.
  - cbn [seqs] in E. apply seq_ok in E as (y & m1 & y2 & m2 & E1 & E2 & -> & ->).
    apply seq_ok in E1 as (y0 & m0 & y1 & m3 & E0 & E1 & -> & ->).
    unfold w_string, emit in E0. injection E0 as <- <-.
    inversion HF as [|? ? (Hk & Hnn & Hw) HF']; subst. cbn [fst snd] in *.
    rewrite !len_app in *. pose proof (len_str_bytes k). pose proof (len_nonneg y1).
    pose proof (len_nonneg y2).
    destruct m as [|m]; [lia|]. cbn [r_custom].
    destruct (Hh _ _ _ _ Hw E1 ltac:(lia)) as (b & -> & D).
    rewrite <- !app_assoc. eapply dec_bind; [now apply dec_string|]. cbv beta. rewrite Hnn.
    assert (Ht : str_ok (type_of p) = true).
    { destruct p as [k0 ?| | | | | | | | |inl ?| | | | | | |]; try reflexivity.
      - destruct k0; reflexivity. - destruct inl; reflexivity.
      - cbn [wf_prop] in Hw. andbs. auto. }
    eapply dec_bind; [now apply dec_string|].
    eapply dec_bind; [apply dec_scoped; exact D|]. cbv beta.
    assert (Hd : dbg o && negb (index_ok acc k p) = false).
    { destruct (dbg o) eqn:Ed; auto. specialize (Hc eq_refl). cbn [chain] in Hc. andbs.
      match goal with H : index_ok _ _ _ = true |- _ => now rewrite H end. }
    rewrite Hd. cbn [regroup fold_left fst snd]. eapply (IH m (group_add acc k p)); eauto; try lia.
    intros Ed. specialize (Hc Ed). cbn [chain] in Hc. now andbs.
Qed.

Lemma e_sval path ty v : wf_sval o vs sep path ty v = true ->
  enc (Z.of_nat (S n)) 0 path (w_sval vs v) (r_sval (S n) o vs rp ty) v.
Proof.
  intros H. unfold r_sval. destruct v as [x l|g|l|l]; cbn [wf_sval w_sval] in *; andbs.
  - match goal with H : str_eqb _ _ = true |- _ => apply str_eqb_eq in H; subst ty end.
    rewrite fixed_of_name by auto.
    assert (Ew : w_fixed vs x l = w_nums (layout x) l).
    { unfold w_fixed. destruct x; cbn [fixed_lwc precision_ok] in *; auto;
        try (match goal with H : negb _ = true |- _ => apply negb_true_iff in H end);
        match goal with H : has_lwc vs = _ |- _ => rewrite H end; reflexivity. }
    rewrite Ew. eapply e_last; [now apply e_nums|apply dec_ret].
  - match goal with H : str_eqb _ _ = true |- _ => apply str_eqb_eq in H; subst ty end.
    change (skind_of (s2z "Guid")) with SkGuid. cbn [fixed_of].
    eapply e_last; [|apply dec_ret]. eapply e_weaken; [now apply e_guid|apply Z.le_refl|lia].
  - match goal with H : str_eqb _ _ = true |- _ => apply str_eqb_eq in H; subst ty end.
    change (skind_of (s2z "GameplayTagContainer")) with SkTags. cbn [fixed_of].
    eapply (e_seq _ _ 4).
    + apply e_emit; [|rewrite len_le_bytes; lia].
      eapply enc_dec with (w := w_int 4 (len l)) (M := 5); [now apply e_count|reflexivity|].
      rewrite len_le_bytes. lia.
    + eapply e_last; [|apply dec_ret]. eapply e_weaken; [apply e_rep|apply Z.le_refl|lia].
      intros s Hs. eapply e_weaken; [apply e_string|apply Z.le_refl|lia].
      match goal with H : forallb str_ok l = true |- _ => rewrite forallb_forall in H; now apply H end.
  - match goal with H : negb (mem _ _) = true |- _ => apply negb_true_iff, skind_custom in H; rewrite H end.
    cbn [fixed_of]. intros bs q E L. split; [apply len_nonneg|].
    apply seq_ok in E as (y & m1 & y2 & m2 & E1 & E2 & -> & ->).
    apply (seqs_flatten (fun k p => w_string k +> w_prop vs true p)) in E1.
    unfold w_string, emit in E2. injection E2 as <- <-.
    rewrite len_app in L. pose proof (len_str_bytes s_none).
    assert (R : regroup [] (flatten l) = l).
    { apply regroup_flatten; auto.
      match goal with H : forallb _ l = true |- _ => rewrite forallb_forall in H; rename H into HF end.
      apply forallb_forall. intros [k ps] Hin. apply HF in Hin. now andbs. }
    eapply dec_bind_last; [|apply dec_ret]. rewrite <- R at 1.
    eapply d_custom; eauto; try lia.
    + apply Forall_forall. intros [k p] Hin. unfold flatten in Hin. apply in_flat_map in Hin as ([k' ps] & Hin & Hp).
      apply in_map_iff in Hp as (p' & Ep & Hp). injection Ep as -> ->.
      match goal with H : forallb _ l = true |- _ => rewrite forallb_forall in H; apply H in Hin end.
      andbs. cbn [fst snd]. repeat split; auto.
      * now apply negb_true_iff.
      * match goal with H : forallb _ ps = true |- _ => rewrite forallb_forall in H; now apply H end.
    + intros Ed. apply chain_flatten; auto.
      match goal with H : forallb _ l = true |- _ => rewrite forallb_forall in H; rename H into HF end.
      apply forallb_forall. intros [k ps] Hin. apply HF in Hin. rewrite Ed in Hin. cbn [negb orb] in Hin.
      andbs. apply andb_true_iff. auto.
Qed.

(** *** Arrays *)
Lemma d_struct_array path f ty g l b nb M :
  str_ok f = true -> str_ok ty = true -> guid_ok g = true ->
  forallb (wf_sval o vs sep path ty) l = true -> seqs (w_sval vs) l = Ok (b, nb) ->
  len b < Z.of_nat (S n) ->
  enc M 0 path
    (w_string f +> w_string (kind_name KStruct) +> w_u64 (len b) +> w_string ty +> w_guid g
     +> w_u8 0 +> emit b nb)
    (r_struct_array (S n) o vs rp (len l)) (f, ty, g, map PSValue l).
Proof.
  intros Hf Ht Hg Hw Eb L. pose proof (len_nonneg b). unfold r_struct_array.
  eapply e_seq; [now apply e_string|]. eapply e_seq; [apply e_string; reflexivity|].
  change (negb (str_eqb (kind_name KStruct) (kind_name KStruct))) with false. cbv iota.
  eapply e_seq; [apply e_u64, u64_ok; lia|]. eapply e_seq; [now apply e_string|].
  eapply e_seq; [now apply e_guid|].
  eapply (e_seq _ _ 1); [apply e_emit; [apply dec_term|rewrite len_le_bytes; lia]|].
  apply e_emit; [|lia].
  assert (D : decodes path (rep (len l) (v <- r_sval (S n) o vs rp ty;; ret (PSValue v))) b (map PSValue l)).
  { eapply enc_dec with (w := seqs (w_sval vs) l) (M := Z.of_nat (S n)) (lo := 0); eauto.
    replace (seqs (w_sval vs) l) with
      (seqs (fun p => match p with PSValue v => w_sval vs v | _ => skip end) (map PSValue l))
      by (now rewrite seqs_map).
    replace (len l) with (len (map PSValue l)) by apply len_map. apply e_rep. intros p Hin.
    apply in_map_iff in Hin as (v & <- & Hin). rewrite forallb_forall in Hw.
    eapply e_last; [apply e_sval; auto|apply dec_ret]. }
  intros p t. unfold bind, position. cbn [pos]. unfold bind in D. rewrite D. cbn [pos].
  replace (p + len b - p) with (len b) by lia. now rewrite Z.eqb_refl.
Qed.
Lemma opt_svals l : opt_map as_sval (map PSValue l) = Some l.
Proof. now apply opt_map_map. Qed.

Lemma d_array path a bs q : wf_array o vs sep path a = true -> w_array vs a = Ok (bs, q) ->
  len bs < Z.of_nat n ->
  decodes path (r_array (S n) o vs rp (len bs) (array_type a)) bs (PArray a).
Proof.
  intros H E L. unfold r_array. destruct (is_structs a) eqn:Es.
  - destruct a as [| | | | | | |f ty g l|]; try discriminate. cbn [wf_array w_array array_type] in *. andbs.
    change (kind_of (kind_name KStruct)) with KStruct. cbv iota.
    destruct (seqs (w_sval vs) l) as [[b nb]|] eqn:Eb; [|discriminate].
    assert (Lb : len b < Z.of_nat (S n)).
    { assert (len b <= len bs); [|lia]. revert E. clear. intros E.
      apply seq_ok in E as (zz1 & ? & ? & ? & _ & E & -> & ->).
      apply seq_ok in E as (zz2 & ? & ? & ? & _ & E & -> & ->).
      apply seq_ok in E as (zz3 & ? & ? & ? & _ & E & -> & ->).
      apply seq_ok in E as (zz4 & ? & ? & ? & _ & E & -> & ->).
      apply seq_ok in E as (zz5 & ? & ? & ? & _ & E & -> & ->).
      apply seq_ok in E as (zz6 & ? & ? & ? & _ & E & -> & ->).
      apply seq_ok in E as (zz7 & ? & ? & ? & _ & E & -> & ->).
      injection E as <- <-. rewrite !len_app.
      pose proof (len_nonneg zz1). pose proof (len_nonneg zz2). pose proof (len_nonneg zz3).
      pose proof (len_nonneg zz4). pose proof (len_nonneg zz5). pose proof (len_nonneg zz6).
      pose proof (len_nonneg zz7). lia. }
    refine (enc_dec (Z.of_nat n) 0 path _ _ _ bs q _ E L).
    eapply e_seq; [now apply e_u32, count32_u|].
    eapply e_last.
    + eapply e_weaken; [eapply d_struct_array; eauto|apply Z.le_refl|lia].
    + cbn [fst snd]. unfold array_new. change (kind_of (kind_name KStruct)) with KStruct.
      rewrite opt_svals. apply dec_ret.
  - destruct (wf_elems o vs sep path a Es H) as (Ht & Hc & Hu & Hw & Ha & Hk).
    rewrite w_array_elems in E by auto.
    apply seq_ok in E as (y & m1 & y2 & m2 & E1 & E2 & -> & ->).
    assert (E1' : y = le_bytes 4 (len (elems a))) by (eapply u32_bytes; exact E1).
    subst y. rewrite len_app, len_le_bytes in *. pose proof (len_nonneg y2).
    eapply dec_bind.
    { apply (dec_uint _ 4). apply count32_u. assumption. }
    cbv beta.
    set (sug := if (0 <? len (elems a)) && (4 <=? Z.of_nat 4 + len y2)
                then Some ((Z.of_nat 4 + len y2 - 4) / len (elems a)) else None).
    assert (Hs : forall p, In p (elems a) -> sug_ok sug p).
    { intros p Hin. subst sug. destruct (elems a) as [|p0 l] eqn:Ee; [destruct Hin|].
      assert (0 < len (p0 :: l)) by (rewrite len_cons; pose proof (len_nonneg l); lia).
      rewrite (proj2 (Z.ltb_lt _ _)) by lia. rewrite (proj2 (Z.leb_le _ _)) by lia. cbn [andb].
      replace (Z.of_nat 4 + len y2 - 4) with (len y2) by lia.
      eapply sug_uniform; eauto. discriminate. }
    assert (D : decodes path (rep (len (elems a)) (rp (array_type a) false sug)) y2 (elems a)).
    { eapply enc_dec with (M := Z.of_nat n) (lo := 0); [|exact E2|lia].
      apply e_rep. intros p Hin. rewrite forallb_forall in Hw. specialize (Hw _ Hin).
      apply andb_true_iff in Hw as [Hty Hw]. apply str_eqb_eq in Hty. rewrite Hty. apply Hl; auto. }
    destruct (kind_of (array_type a)); try congruence;
      (eapply dec_bind_last; [exact D|]; rewrite Ha; apply dec_ret).
Qed.

(** *** Sets and maps *)
Lemma d_set path ty flags l bs q :
  wf true path (PSet ty flags l) = true ->
  w_u32 flags +> w_u32 (len l) +> seqs (w_prop vs false) l = Ok (bs, q) -> len bs < Z.of_nat n ->
  decodes (s2z "SetProperty" :: path) (r_set o rp (len bs) ty) bs (PSet ty flags l).
Proof.
  intros H E L. cbn [wf_prop] in H. andbs. unfold r_set.
  apply seq_ok in E as (y & m1 & y0 & m0 & E1 & E2 & -> & ->).
  apply seq_ok in E2 as (y1 & m2 & y2 & m3 & E2 & E3 & -> & ->).
  assert (E1' : y = le_bytes 4 flags) by (eapply u32_bytes; exact E1).
  assert (E2' : y1 = le_bytes 4 (len l)) by (eapply u32_bytes; exact E2).
  subst y y1. rewrite !len_app, !len_le_bytes in *. pose proof (len_nonneg y2).
  eapply dec_bind.
  { apply (dec_uint _ 4). assumption. }
  eapply dec_bind.
  { apply (dec_uint _ 4). apply count32_u. assumption. }
  cbv beta. destruct l as [|p0 l].
  - cbn in E3. injection E3 as <- <-. apply dec_ret.
  - set (L0 := p0 :: l) in *.
    assert (0 < len L0) by (subst L0; rewrite len_cons; pose proof (len_nonneg l); lia).
    rewrite (proj2 (Z.ltb_lt _ _)) by lia. rewrite (proj2 (Z.ltb_ge _ _)) by lia. cbn [andb].
    replace ((Z.of_nat 4 + (Z.of_nat 4 + len y2) - 8) mod 4294967296) with (len y2).
    2: { rewrite Z.mod_small; lia. }
    eapply dec_bind_last; [|apply dec_ret].
    eapply enc_dec with (M := Z.of_nat n) (lo := 0); [|exact E3|lia].
    apply e_rep. intros p Hin.
    assert (Hs : sug_ok (Some (len y2 / len L0)) p).
    { eapply sug_uniform; eauto. discriminate. }
    match goal with H : forallb _ L0 = true |- _ => rewrite forallb_forall in H; apply H in Hin end.
    andbs. match goal with H : str_eqb _ _ = true |- _ => apply str_eqb_eq in H; subst ty end. now apply Hl.
Qed.
Lemma self_sug p : self_sized p = true -> sug_ok None p.
Proof. destruct p as [| |? []| | | | | | | | | | | | | |]; cbn; auto; discriminate. Qed.
Lemma d_entries path kt vt l : forall bs q,
  Forall (entry_ok o vs sep path kt vt) l ->
  seqs (fun e => w_prop vs false (fst e) +> w_prop vs false (snd e)) l = Ok (bs, q) ->
  len bs < Z.of_nat n ->
  forall p t, exists l', repn (List.length l) (r_entry rp kt vt) (Cur p (bs ++ t) path)
                         = Ok (l', Cur (p + len bs) t path) /\ map fst l' = l.
Proof.
  induction l as [|[k v] l IH]; intros bs q HF E L p t; cbn [List.length repn seqs] in *.
  - injection E as <- <-. exists []. split; auto. unfold ret. rewrite len_nil, Z.add_0_r. reflexivity.
  - apply seq_ok in E as (y & m1 & y2 & m2 & E1 & E2 & -> & ->).
    apply seq_ok in E1 as (y0 & m0 & y1 & m3 & E0 & E1 & -> & ->).
    inversion HF as [|? ? (T1 & S1 & W1 & T2 & S2 & W2) HF']; subst. cbn [fst snd] in *.
    rewrite !len_app in L. pose proof (len_nonneg y0). pose proof (len_nonneg y1).
    pose proof (len_nonneg y2).
    pose proof (enc_dec _ _ _ _ _ _ _ _ (Hl _ _ None W1 (self_sug _ S1)) E0 ltac:(lia)) as D1.
    pose proof (enc_dec _ _ _ _ _ _ _ _ (Hl _ _ None W2 (self_sug _ S2)) E1 ltac:(lia)) as D2.
    apply dec_scoped in D1. apply dec_scoped in D2.
    rewrite <- !app_assoc. rewrite !len_app.
    destruct (IH _ _ HF' E2 ltac:(lia) (p + len y0 + len y1) t) as (l' & R & M).
    exists ((k, v, p + len y0 + len y1) :: l'). split; [|cbn; now rewrite M].
    unfold bind at 1. unfold r_entry at 1. unfold bind at 1. rewrite D1. unfold bind at 1. rewrite D2.
    unfold bind at 1, position at 1, ret at 1. cbn [pos]. unfold bind. rewrite R. unfold ret.
    do 3 f_equal. lia.
Qed.
Lemma d_map path m bs q :
  wf_map o vs sep path m = true -> w_map vs m = Ok (bs, q) -> len bs < Z.of_nat n ->
  decodes path (r_map o rp (map_key_type m) (map_value_type m)) bs (PMap m).
Proof.
  intros H E L. destruct (wf_mentries o vs sep Hsep path m H) as (Hk & Hv & Hf & Hc & Ha & Hw & Hm).
  rewrite w_map_entries in E. unfold r_map.
  apply seq_ok in E as (y & m1 & y0 & m0 & E1 & E2 & -> & ->).
  apply seq_ok in E2 as (y1 & m2 & y2 & m3 & E2 & E3 & -> & ->).
  assert (E1' : y = le_bytes 4 (mflags m)) by (eapply u32_bytes; exact E1).
  assert (E2' : y1 = le_bytes 4 (len (mentries m))) by (eapply u32_bytes; exact E2).
  subst y y1. rewrite !len_app, !len_le_bytes in *. pose proof (len_nonneg y2).
  eapply dec_bind.
  { apply (dec_uint _ 4). assumption. }
  eapply dec_bind.
  { apply (dec_uint _ 4). apply count32_u. assumption. }
  cbv beta. intros p t. destruct (d_entries path _ _ _ _ _ Hw E3 ltac:(lia) p t) as (l' & R & M).
  unfold bind. rewrite rep_repn. unfold len at 1. rewrite Nat2Z.id. rewrite R.
  rewrite mins_all_apart by (rewrite M; auto). rewrite M, Hm. reflexivity.
Qed.

(** *** Every property without header *)
Lemma e_delegate M st d : str_ok (fst d) = true -> str_ok (snd d) = true ->
  enc M 10 st (w_string (fst d) +> w_string (snd d)) r_delegate d.
Proof.
  intros H1 H2. unfold r_delegate. eapply e_seq; [now apply e_string|].
  eapply e_last; [eapply e_weaken; [now apply e_string|apply Z.le_refl|lia]|]. destruct d. apply dec_ret.
Qed.
Lemma e_multi M st i l : count32 l = true -> forallb (fun '(a, b) => str_ok a && str_ok b) l = true ->
  enc M 0 st (w_u32 (len l) +> seqs (fun '(a, b) => w_string a +> w_string b) l)
      (n <- r_u32 ;; l <- rep n r_delegate ;; ret (PMulti i l)) (PMulti i l).
Proof.
  intros Hc H. eapply e_seq; [now apply e_u32, count32_u|].
  eapply e_last; [|apply dec_ret]. eapply e_weaken; [apply e_rep|apply Z.le_refl|lia].
  intros [a b] Hin. rewrite forallb_forall in H. apply H in Hin. andbs.
  eapply e_weaken; [now apply (e_delegate _ _ (a, b))|apply Z.le_refl|lia].
Qed.
Lemma e_fieldpath M st l s : count32 l = true -> forallb str_ok l = true -> str_ok s = true ->
  enc M 0 st (w_u32 (len l) +> seqs w_string l +> w_string s)
      (n <- r_u32 ;; l <- rep n r_string ;; s <- r_string ;; ret (PFieldPath l s)) (PFieldPath l s).
Proof.
  intros Hc H Hs. eapply e_seq; [now apply e_u32, count32_u|].
  eapply e_seq.
  - apply e_rep. intros a Hin. rewrite forallb_forall in H.
    eapply e_weaken; [apply e_string; auto|apply Z.le_refl|lia].
  - elast.
Qed.
Lemma dec_byte st b : decodes st (take 1) [b] [b].
Proof. apply (dec_take_n st 1 [b]). reflexivity. Qed.
Lemma e_bytev M st sug nm v : bytev_ok v = true -> sug_ok sug (PByte nm v) ->
  enc M 1 st (w_bytev v) (r_bytev o sug) v.
Proof.
  destruct v as [b|s]; cbn [bytev_ok sug_ok w_bytev]; intros Hv Hs.
  - apply e_emit; [|rewrite len_cons, len_nil; lia].
    destruct Hs as [->| ->]; cbn [r_bytev].
    + eapply dec_bind_last; [apply dec_byte|]. apply dec_ret.
    + change ((1 =? 0) && dbg o) with false. cbv iota. change ((1 =? 1) || (1 =? 2)) with true. cbv iota.
      eapply dec_bind_last; [apply dec_byte|]. apply dec_ret.
  - destruct Hs as (e & -> & He). cbn [r_bytev].
    rewrite (proj2 (Z.eqb_neq e 0)) by lia. rewrite (proj2 (Z.eqb_neq e 1)) by lia.
    rewrite (proj2 (Z.eqb_neq e 2)) by lia. cbn [andb orb]. elast.
Qed.
Lemma raw_emit M st name raw : enc M 0 st (emit raw (len raw)) (r_unknown name (len raw)) (PUnknown name raw).
Proof.
  apply e_emit; [|apply len_nonneg]. unfold r_unknown.
  eapply dec_bind_last; [now apply dec_take_n|]. apply dec_ret.
Qed.

Ltac kind_is k := match goal with |- context [kind_of ?s] => change (kind_of s) with k end; cbv iota.

Lemma step_l : good_l (S n).
Proof.
  intros path p sug H Hs. cbn [r_prop]. apply e_scoped. unfold r_body.
  destruct p as [k z|b|nm v|ty v|v|t|i v|v|a b|i l|l s|name raw|a|ty flags l|m|g ty v|v];
    cbn [wf_prop type_of andb negb] in *; try discriminate H; cbn [w_prop].
  - rewrite kind_of_num. unfold r_pnum. cbn [with_header].
    refine (enc_ext _ _ _ _ _ (z0 <- r_num k ;; ret (PNum k z0)) _ _ _); [reflexivity|].
    eapply e_last; [|apply dec_ret].
    eapply e_weaken; [now apply e_num|apply Z.le_refl|destruct k; cbn; lia].
  - kind_is KBool. unfold r_pbool, w_pbool.
    refine (enc_ext _ _ _ _ _ (b0 <- r_bool ;; ret (PBool b0)) _ _ _); [reflexivity|]. elast.
  - kind_is KByte. unfold r_pbyte, w_pbyte. andbs. destruct nm; [discriminate|].
    eapply e_last; [|apply dec_ret]. eapply e_weaken; [eapply e_bytev; eauto|apply Z.le_refl|lia].
  - kind_is KEnum. unfold r_penum. cbn [with_header]. andbs. destruct ty; [discriminate|]. elast.
  - kind_is KStr. unfold r_pstr, plain. cbn [with_header]. elast.
  - kind_is KText. unfold r_ptext, plain. cbn [with_header]. eapply e_last; [|apply dec_ret].
    eapply e_weaken; [now apply e_text|apply Z.le_refl|lia].
  - kind_is KName. unfold r_pname. cbn [with_header]. andbs.
    match goal with H : (i =? 0) = true |- _ => apply Z.eqb_eq in H; subst i end. elast.
  - kind_is KObject. unfold r_pobject, plain. cbn [with_header]. elast.
  - kind_is KDelegate. unfold r_pdelegate, plain. cbn [with_header]. andbs.
    eapply (e_last _ _ _ _ _ _ (a, b)); [|apply dec_ret].
    eapply e_weaken; [now apply (e_delegate _ _ (a, b))|apply Z.le_refl|lia].
  - destruct i; [kind_is (KMulti true)|kind_is (KMulti false)]; unfold r_pmulti, plain;
      cbn [with_header]; andbs; now apply e_multi.
  - kind_is KFieldPath. unfold r_pfieldpath, plain. cbn [with_header]. andbs. now apply e_fieldpath.
  - andbs. rewrite (proj2 (kind_other name)) by (now apply negb_true_iff). cbn [with_header].
    cbn [sug_ok] in Hs. subst sug. apply raw_emit.
  - kind_is KStruct. unfold r_hinted. intros bs q E L. split; [apply len_nonneg|].
    destruct (hints o (dotted (s2z "StructProperty" :: path))) as [ty|] eqn:Eh; [|discriminate].
    intros p t. unfold bind at 1, get_stk, bind at 1, position. cbn [stk pos].
    rewrite dotted_join, Eh. pose proof (enc_dec _ _ _ _ _ _ _ _ (e_sval _ _ _ H) E L) as D.
    assert (D' : decodes (s2z "StructProperty" :: path)
                   (v <- r_sval (S n) o vs rp ty ;; ret (PSValue v)) bs (PSValue v)).
    { eapply dec_bind_last; [exact D|apply dec_ret]. }
    apply D'.
Qed.

(** *** Every property with header *)
Lemma str_bytes_app_inv s b M : len (str_bytes s ++ b) < M -> len b < M - 5.
Proof. rewrite len_app. pose proof (len_str_bytes s). lia. Qed.
Lemma h_plain c name path w r (p : property) bs q :
  enc (Z.of_nat n) 0 path w r p ->
  with_header true name c 0 skip w = Ok (bs, q) -> len bs < Z.of_nat (S n) ->
  exists bs', bs = str_bytes name ++ bs' /\ decodes path (plain true r) bs' p.
Proof.
  intros H E L. apply header_inv in E as (b & nb & be & ne & Eb & Ee & ->).
  eexists. split; [reflexivity|].
  unfold skip, emit in Ee. injection Ee as <- <-.
  pose proof (len_str_bytes name). rewrite !len_app, !len_le_bytes, len_nil in L.
  apply (dec_headed path (ret tt) (fun _ _ => r) [] tt); [lia|apply dec_ret|]. eapply enc_dec; eauto. lia.
Qed.
Lemma h_vars {V} c name path extra w (vars : reader V) v (body : Z -> V -> reader property) (p : property) bs q :
  enc (Z.of_nat (S n)) 0 path extra vars v ->
  (forall b nb, w = Ok (b, nb) -> len b < Z.of_nat n -> decodes path (body (len b) v) b p) ->
  with_header true name c 0 extra w = Ok (bs, q) -> len bs < Z.of_nat (S n) ->
  exists bs', bs = str_bytes name ++ bs' /\ decodes path (headed vars body) bs' p.
Proof.
  intros H Hb E L. apply header_inv in E as (b & nb & be & ne & Eb & Ee & ->).
  eexists. split; [reflexivity|].
  pose proof (len_str_bytes name). rewrite !len_app, !len_le_bytes in L.
  pose proof (len_nonneg b). pose proof (len_nonneg be).
  apply dec_headed with (v := v); [lia| |].
  - eapply enc_dec; eauto. lia.
  - eapply Hb; eauto. lia.
Qed.
Lemma enc_any M lo path {A} w (r : reader A) a : (forall M, enc M lo path w r a) -> 0 <= lo -> enc M 0 path w r a.
Proof. intros H L. eapply e_weaken; [apply H|apply Z.le_refl|lia]. Qed.
Lemma scoped_ex path ty bs (r : reader property) (p : property) :
  (exists bs', bs = str_bytes ty ++ bs' /\ decodes (ty :: path) r bs' p) ->
  exists bs', bs = str_bytes ty ++ bs' /\ decodes path (scoped ty r) bs' p.
Proof. intros (bs' & ? & ?). exists bs'. split; auto. now apply dec_scoped. Qed.

Lemma step_h : good_h (S n).
Proof.
  intros path p bs q H E L. cbn [r_prop]. apply scoped_ex. unfold r_body.
  destruct p as [k z|b|nm v|ty v|v|t|i v|v|a b|i l|l s|name raw|a|ty flags l|m|g ty v|v];
    cbn [wf_prop type_of andb negb] in *; try discriminate H; cbn [w_prop] in E.
  - rewrite kind_of_num. apply header_inv in E as (b & nb & be & ne & Eb & Ee & ->).
    unfold skip, emit in Ee. injection Ee as <- <-.
    eexists. split; [reflexivity|]. unfold r_pnum.
    assert (Lb : len b = num_width k).
    { unfold w_int, emit in Eb. assert (b = le_bytes (Z.to_nat (num_width k)) z) as -> by congruence.
      rewrite len_le_bytes. destruct k; reflexivity. }
    rewrite Lb. rewrite app_assoc. cbn [app]. cbv iota. rewrite app_assoc.
    eapply dec_bind with (a := tt).
    + eapply dec_bind with (a := tt); [|apply dec_zero_u8].
      unfold check_size. rewrite <- le8_split by (destruct k; cbn; lia).
      eapply dec_bind_last; [apply (dec_uint _ 8), u64_ok; destruct k; cbn; lia|].
      intros p t. unfold bind, position. rewrite Z.eqb_refl. unfold ret. cbn. now rewrite Z.add_0_r.
    + eapply dec_bind_last; [|apply dec_ret].
      eapply enc_dec with (M := Z.of_nat (S n)); [now apply e_num|exact Eb|].
      rewrite !len_app, !len_le_bytes in L. pose proof (len_str_bytes (num_name k)). 
      rewrite ?len_nil in L. lia.
  - kind_is KBool. unfold w_pbool in E. unfold r_pbool.
    apply seq_ok in E as (y0 & ? & y & ? & E0 & E & -> & _).
    unfold w_string, emit in E0. injection E0 as <- _.
    eexists. split; [reflexivity|].
    refine (enc_dec 13 0 _ _ _ _ _ _ _ E _).
    + eapply (e_seq _ _ 8).
      * unfold check_size. eapply e_last; [apply e_u64; reflexivity|].
        intros p t. unfold bind, position. cbn. now rewrite Z.add_0_r.
      * eseq. eapply (e_last _ _ _ _ _ _ tt); [|apply dec_ret].
        apply e_emit; [apply dec_zero_u8|rewrite len_le_bytes; lia].
    + apply seq_ok in E as (y1 & ? & y2 & ? & E1 & E2 & -> & _).
      apply seq_ok in E2 as (y3 & ? & y4 & ? & E2 & E3 & -> & _).
      unfold w_u64, w_int, emit in E1. unfold w_bool, w_int, emit in E2. unfold w_u8, w_int, emit in E3.
      injection E1 as <- _. injection E2 as <- _. injection E3 as <- _.
      rewrite !len_app, ?len_cons, ?len_nil. lia.
  - kind_is KByte. unfold w_pbyte in E. unfold r_pbyte. andbs. destruct nm as [nm|]; [|discriminate].
    cbn [name_ok andb] in *.
    destruct (w_bytev v) as [[b nb]|] eqn:Eb; [|discriminate].
    apply seq_ok in E as (y0 & ? & y & ? & E0 & E & -> & _).
    unfold w_string, emit in E0. injection E0 as <- _.
    eexists. split; [reflexivity|].
    apply seq_ok in E as (y1 & ? & y2 & ? & E1 & E2 & -> & _).
    apply seq_ok in E2 as (y3 & ? & y4 & ? & E2 & E3 & -> & _).
    apply seq_ok in E3 as (y5 & ? & y6 & ? & E3 & E4 & -> & _).
    assert (y1 = le_bytes 8 (len b)) as ->.
    { change (Ok (le_bytes 8 (len b), 8) = Ok (y1, x1)) in E1. congruence. }
    assert (y3 = str_bytes nm) as ->.
    { change (w_string nm = Ok (y3, x3)) in E2. unfold w_string, emit in E2. congruence. }
    assert (y5 = le_bytes 1 0) as ->.
    { change (Ok (le_bytes 1 0, 1) = Ok (y5, x5)) in E3. congruence. }
    unfold emit in E4. injection E4 as <- _.
    rewrite !len_app, !len_le_bytes in L. pose proof (len_nonneg b).
    pose proof (len_str_bytes nm).
    match type of L with len ?x + _ < _ => pose proof (len_nonneg x) end.
    rewrite le8_split by lia. rewrite <- !app_assoc.
    eapply dec_bind; [apply dec_u32; lia|]. eapply dec_bind; [apply dec_zero_u32|].
    eapply dec_bind; [now apply dec_string|]. eapply dec_bind; [apply dec_zero_u8|].
    eapply dec_bind_last; [|apply dec_ret].
    eapply enc_dec with (M := Z.of_nat (S n)); [eapply e_bytev with (nm := None)|exact Eb|lia]; auto.
    destruct v; cbn [w_bytev sug_ok] in *.
    + unfold emit in Eb. injection Eb as <- _. right. reflexivity.
    + unfold w_string, emit in Eb. injection Eb as <- _. eexists. split; [reflexivity|].
      pose proof (len_str_bytes s). lia.
  - kind_is KEnum. unfold r_penum. andbs. destruct ty as [ty|]; [|discriminate].
    eapply h_vars; [| |exact E|exact L].
    + cbn [w_fstring]. eapply enc_any; [intros; now apply e_string|lia].
    + intros b nb Eb Lb. eapply dec_bind_last; [|apply dec_ret].
      eapply enc_dec with (M := Z.of_nat n); [now apply e_string|exact Eb|exact Lb].
  - kind_is KStr. unfold r_pstr. eapply h_plain; [|exact E|exact L]. elast.
  - kind_is KText. unfold r_ptext. eapply h_plain; [|exact E|exact L].
    eapply e_last; [|apply dec_ret]. eapply e_weaken; [now apply e_text|lia|lia].
  - kind_is KName. unfold r_pname. andbs. apply header_inv in E as (b & nb & be & ne & Eb & Ee & ->).
    unfold skip, emit in Ee. injection Ee as <- <-.
    eexists. split; [reflexivity|]. cbn [app].
    rewrite !len_app, !len_le_bytes in L. pose proof (len_str_bytes (kind_name KName)).
    rewrite ?len_nil in L.
    apply dec_headed_index; [lia|auto|].
    eapply dec_bind_last; [|apply dec_ret].
    eapply enc_dec with (M := Z.of_nat (S n)); [now apply e_fstring|exact Eb|lia].
  - kind_is KObject. unfold r_pobject. eapply h_plain; [|exact E|exact L]. elast.
  - kind_is KDelegate. unfold r_pdelegate. andbs. eapply h_plain; [|exact E|exact L].
    eapply (e_last _ _ _ _ _ _ (a, b)); [|apply dec_ret].
    eapply e_weaken; [now apply (e_delegate _ _ (a, b))|apply Z.le_refl|lia].
  - andbs. destruct i; [kind_is (KMulti true)|kind_is (KMulti false)]; unfold r_pmulti;
      (eapply h_plain; [|exact E|exact L]; now apply e_multi).
  - kind_is KFieldPath. unfold r_pfieldpath. andbs. eapply h_plain; [|exact E|exact L]. now apply e_fieldpath.
  - andbs. rewrite (proj2 (kind_other name)) by (now apply negb_true_iff).
    apply header_inv in E as (b & nb & be & ne & Eb & Ee & ->).
    unfold skip, emit in Ee. injection Ee as <- <-. unfold emit in Eb. injection Eb as <- <-.
    eexists. split; [reflexivity|]. cbn [app]. unfold r_unknown_header.
    rewrite !len_app, !len_le_bytes in L. pose proof (len_str_bytes name).
    rewrite ?len_nil in L. pose proof (len_nonneg raw).
    eapply dec_bind; [apply dec_u32; lia|]. eapply dec_bind; [apply dec_zero_u32|].
    eapply dec_bind; [apply dec_zero_u8|].
    eapply enc_dec with (M := Z.of_nat (S n)) (w := emit raw (len raw)); [apply raw_emit|reflexivity|lia].
  - kind_is KArray.
    assert (Ht : str_ok (array_type a) = true).
    { destruct (is_structs a) eqn:Es; [destruct a; try discriminate Es; reflexivity|].
      now destruct (wf_elems o vs sep _ a Es H). }
    eapply h_vars; [| |exact E|exact L].
    + eapply enc_any; [intros; now apply e_string|lia].
    + intros b nb Eb Lb. eapply d_array; eauto.
  - kind_is KSet. eapply h_vars; [| |exact E|exact L].
    + andbs. eapply enc_any; [intros; now apply e_string|lia].
    + intros b nb Eb Lb. eapply d_set; eauto.
  - kind_is KMap.
    destruct (wf_mentries o vs sep Hsep _ m H) as (Hk & Hv & _).
    eapply (h_vars _ _ _ _ _ _ (map_key_type m, map_value_type m)); [| |exact E|exact L].
    + eapply e_weaken; [|apply Z.le_refl|].
      * eapply (e_seq _ 10); [now apply e_string|]. eapply e_last; [|apply dec_ret].
        eapply e_weaken; [now apply e_string|apply Z.le_refl|lia].
      * lia.
    + intros b nb Eb Lb. cbn [fst snd]. eapply d_map; eauto.
  - kind_is KStruct. andbs. unfold r_pstruct.
    eapply (h_vars _ _ _ _ _ _ (ty, g)); [| |exact E|exact L].
    + eapply e_weaken; [|apply Z.le_refl|].
      * eapply (e_seq _ 10); [now apply e_string|]. eapply e_last; [|apply dec_ret].
        eapply e_weaken; [now apply e_guid|apply Z.le_refl|lia].
      * lia.
    + intros b nb Eb Lb. cbn [fst snd]. eapply dec_bind_last; [|apply dec_ret].
      eapply enc_dec; [now apply e_sval|exact Eb|lia].
Qed.
End Step.

Lemma all_good n : Z.of_nat n <= 4294967296 -> good_h n /\ good_l n.
Proof.
  induction n as [|n IH]; intros Hn.
  - split.
    + intros path p bs q _ _ L. pose proof (len_nonneg bs). lia.
    + intros path p sug _ _ bs q _ L. pose proof (len_nonneg bs). lia.
  - destruct (IH ltac:(lia)). split; [now apply step_h|now apply step_l].
Qed.
End All.
