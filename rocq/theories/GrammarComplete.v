(** Properties and files: whatever the grammar derives is read. *)
From Coq Require Import ZArith List Bool String Lia ZifyBool ZifyNat.
From Verif Require Import Base Str Types Versions Text Props File Spec BaseFacts StrFacts Decode KindFacts
  DecodeProp DecodeMain StrThm EqFacts MapFacts CtorThm OrderThm HeaderThm Grammar GrammarBase GrammarText GrammarCtor
  GrammarProp.
Import ListNotations.
Open Scope Z_scope.

Scheme is_prop_ind2 := Induction for is_prop Sort Prop
with is_elems_ind2 := Induction for is_elems Sort Prop
with is_entries_ind2 := Induction for is_entries Sort Prop
with is_structs_ind2 := Induction for is_structs Sort Prop
with is_struct_ind2 := Induction for is_struct Sort Prop
with is_fields_ind2 := Induction for is_fields Sort Prop.
Combined Scheme prop_mut from is_prop_ind2, is_elems_ind2, is_entries_ind2, is_structs_ind2, is_struct_ind2, is_fields_ind2.

Lemma stored_len s b : stored s b -> 4 <= len b.
Proof.
  intros H. destruct H; rewrite ?len_app, len_le_bytes;
    try match goal with |- _ <= _ + (len ?x + len ?y) => pose proof (len_nonneg x); pose proof (len_nonneg y) end; lia.
Qed.
Lemma text_len s b : text_of s b -> 4 <= len b.
Proof. apply stored_len. Qed.

Section Complete.
Context (o : opts) (vs : list (guid * Z)).

Lemma dec_rep {A B} st (r : reader A) (l : list B) x v :
  decodes st (repn (List.length l) r) x v -> decodes st (rep (len l) r) x v.
Proof. intros H. eapply dec_ext; [intros c; apply rep_repn|]. unfold len. now rewrite Nat2Z.id. Qed.
Definition CProp path ty hdr size p b :=
  forall n, len b < Z.of_nat n -> decodes path (r_prop n o vs ty hdr size) b p.
Definition CElems path ty size l b :=
  forall n, len b < Z.of_nat n -> decodes path (repn (List.length l) (r_prop n o vs ty false size)) b l.
Definition CEntries path kt vt l b :=
  forall n, len b < Z.of_nat n -> forall q t, exists l',
    repn (List.length l) (r_entry (r_prop n o vs) kt vt) (Cur q (b ++ t) path) = Ok (l', Cur (q + len b) t path)
    /\ map fst l' = l.
Definition CStruct path ty v b :=
  forall n, len b <= Z.of_nat n -> decodes path (r_sval (S n) o vs (r_prop n o vs) ty) b v.
Definition CStructs path ty l b :=
  forall n, len b <= Z.of_nat n ->
    decodes path (repn (List.length l) (v <- r_sval (S n) o vs (r_prop n o vs) ty ;; ret (PSValue v))) b (map PSValue l).
Definition CFields path l b :=
  (List.length l <= List.length b)%nat /\
  forall n, len b < Z.of_nat n -> forall q t y, text_of (s2z "None") y ->
    OrderThm.named (r_prop n o vs) (Cur q (b ++ y ++ t) path) l (Cur (q + len b + len y) t path).

Lemma de_body path n ty hdr size b p :
  (forall m, len b <= Z.of_nat m -> n = S m -> decodes (ty :: path) (r_body (S m) o vs (r_prop m o vs) ty hdr size) b p) ->
  len b < Z.of_nat n -> decodes path (r_prop n o vs ty hdr size) b p.
Proof.
  intros H L. destruct n as [|m]; [pose proof (len_nonneg b); lia|]. cbn [r_prop]. apply dec_scoped. apply H; [lia|reflexivity].
Qed.
Lemma de_bytev st size v b : is_bytev o size v b -> decodes st (r_bytev o size) b v.
Proof.
  intros H. destruct H as [c|e c E|e s x E1 E2 E3 H]; unfold r_bytev.
  - eapply dec_bind_last; [apply (dec_take_n st 1 [c]); reflexivity|]. apply dec_ret.
  - assert ((e =? 0) = false) as -> by lia. assert ((e =? 1) || (e =? 2) = true) as -> by lia. cbn [andb].
    eapply dec_bind_last; [apply (dec_take_n st 1 [c]); reflexivity|]. apply dec_ret.
  - assert ((e =? 0) && dbg o = false) as -> by (destruct (dbg o); [specialize (E3 eq_refl)|]; lia).
    assert ((e =? 1) || (e =? 2) = false) as -> by lia.
    eapply dec_bind_last; [eapply de_string; eassumption|]. apply dec_ret.
Qed.
Lemma de_delegate st p b : is_pair p b -> decodes st r_delegate b p.
Proof.
  intros (x & y & Hx & Hy & ->). unfold r_delegate. eapply dec_bind; [eapply de_string; eassumption|].
  eapply dec_bind_last; [eapply de_string; eassumption|]. destruct p. apply dec_ret.
Qed.
Lemma kind_of_num k : kind_of (s2z (fst (fst (num_spec k)))) = KNum k.
Proof. destruct k; reflexivity. Qed.
Lemma plain_h ty p b : is_plain vs ty p b -> 
  exists r : nat -> reader property, (forall m st, len b < Z.of_nat m -> decodes st (r m) b p)
   /\ (forall m rp hdr size, r_body m o vs rp ty hdr size = plain hdr (r m)
        \/ exists k, ty = s2z (fst (fst (num_spec k))) /\ r_body m o vs rp ty hdr size = r_pnum k hdr
             /\ r m = (z <- r_num k ;; ret (PNum k z)) /\ len b = num_width k).
Proof.
  intros H. destruct H.
  - exists (fun _ => z <- r_num k ;; ret (PNum k z)). split.
    + intros m st _. eapply dec_bind_last; [eapply de_num; eassumption|apply dec_ret].
    + intros m rp hdr size. right. exists k. split; [reflexivity|]. unfold r_body. rewrite kind_of_num.
      split; [reflexivity|]. split; [reflexivity|].
      unfold num_bytes in H. destruct k; cbn [num_spec] in H; destruct H as [-> _]; now rewrite len_le_bytes.
  - exists (fun _ => v <- r_fstring ;; ret (PStr v)). split; [|left; reflexivity].
    intros m st _. eapply dec_bind_last; [eapply de_fstring; eassumption|apply dec_ret].
  - exists (fun _ => v <- r_string ;; ret (PObject v)). split; [|left; reflexivity].
    intros m st _. eapply dec_bind_last; [eapply de_string; eassumption|apply dec_ret].
  - exists (fun _ => d <- r_delegate ;; ret (PDelegate (fst d) (snd d))). split; [|left; reflexivity].
    intros m st _. eapply dec_bind_last; [eapply de_delegate; eassumption|apply dec_ret].
  - exists (fun _ => n <- r_u32 ;; l <- rep n r_delegate ;; ret (PMulti true l)). split; [|left; reflexivity].
    intros m st _. eapply dec_bind; [apply de_u32; assumption|].
    eapply dec_bind_last; [eapply de_rep; [eassumption|reflexivity|]|apply dec_ret].
    intros a y Ha _. now apply de_delegate.
  - exists (fun _ => n <- r_u32 ;; l <- rep n r_delegate ;; ret (PMulti false l)). split; [|left; reflexivity].
    intros m st _. eapply dec_bind; [apply de_u32; assumption|].
    eapply dec_bind_last; [eapply de_rep; [eassumption|reflexivity|]|apply dec_ret].
    intros a y Ha _. now apply de_delegate.
  - exists (fun _ => n <- r_u32 ;; l <- rep n r_string ;; s <- r_string ;; ret (PFieldPath l s)). split; [|left; reflexivity].
    intros m st _. eapply dec_bind; [apply de_u32; assumption|].
    eapply dec_bind; [eapply de_rep; [eassumption|reflexivity|]|].
    + intros a z Ha _. eapply de_string; eassumption.
    + eapply dec_bind_last; [eapply de_string; eassumption|apply dec_ret].
  - exists (fun m => t <- r_text m vs ;; ret (PText t)). split; [|left; reflexivity].
    intros m st L. eapply dec_bind_last; [eapply de_text; eassumption|apply dec_ret].
Qed.
Lemma de_check st n : 0 <= n < 2 ^ 64 -> decodes st (check_size n) (le_bytes 8 n) tt.
Proof.
  intros R. unfold check_size. eapply dec_bind_last; [apply de_u64, R|].
  apply dec_position. intros p. rewrite Z.eqb_refl. apply dec_ret.
Qed.
Lemma len_framed i x b : len (framed i x b) = 9 + len x + len b.
Proof. unfold framed, u4. rewrite !len_app, !len_le_bytes, len_cons. lia. Qed.
Lemma framed0 x b : framed 0 x b = u4 (len b) ++ u4 0 ++ x ++ Byte.x00 :: b.
Proof. reflexivity. Qed.

Lemma complete :
  (forall path ty hdr size p b, is_prop o vs path ty hdr size p b -> CProp path ty hdr size p b)
  /\ (forall path ty size l b, is_elems o vs path ty size l b -> CElems path ty size l b)
  /\ (forall path kt vt l b, is_entries o vs path kt vt l b -> CEntries path kt vt l b)
  /\ (forall path ty l b, is_structs o vs path ty l b -> CStructs path ty l b)
  /\ (forall path ty v b, is_struct o vs path ty v b -> CStruct path ty v b)
  /\ (forall path l b, is_fields o vs path l b -> CFields path l b).
Proof.
  apply prop_mut with
    (P := fun path ty hdr size p b _ => CProp path ty hdr size p b)
    (P0 := fun path ty size l b _ => CElems path ty size l b)
    (P1 := fun path kt vt l b _ => CEntries path kt vt l b)
    (P2 := fun path ty l b _ => CStructs path ty l b)
    (P3 := fun path ty v b _ => CStruct path ty v b)
    (P4 := fun path l b _ => CFields path l b); unfold CProp, CElems, CEntries, CStructs, CStruct, CFields.
  - (* plain *)
    intros path ty size p b H n L. apply de_body; [|exact L]. intros m Lm _.
    destruct (plain_h ty p b H) as (r & Hr & Hb). destruct (Hb (S m) (r_prop m o vs) false size) as [->|(k & _ & -> & Er & _)].
    + unfold plain. apply Hr. lia.
    + unfold r_pnum. change b with ([] ++ b). eapply dec_bind; [apply dec_ret|]. specialize (Hr (S m) (ty :: path) ltac:(lia)).
      now rewrite Er in Hr.
  - intros path ty size p b H W n L. apply de_body; [|exact L]. intros m Lm _. rewrite len_framed, len_nil in Lm. pose proof (len_nonneg b).
    destruct (plain_h ty p b H) as (r & Hr & Hb). destruct (Hb (S m) (r_prop m o vs) true size) as [->|(k & _ & -> & Er & El)].
    + unfold plain. eapply de_headed; [exact W|apply dec_ret|]. apply Hr. lia.
    + unfold r_pnum. specialize (Hr (S m) (ty :: path) ltac:(lia)). rewrite Er in Hr.
      rewrite framed0, El. change ([] ++ Byte.x00 :: b) with ([Byte.x00] ++ b). 
      replace (u4 (num_width k) ++ u4 0 ++ [Byte.x00] ++ b) with ((le_bytes 8 (num_width k) ++ [Byte.x00]) ++ b)
        by (destruct k; reflexivity).
      eapply dec_bind; [|exact Hr]. eapply dec_bind; [apply de_check; destruct k; cbn; lia|apply dec_zero_u8].
  - (* booleans *)
    intros path size v n L. apply de_body; [|exact L]. intros m Lm _. unfold r_body, r_pbool.
    change (kind_of (s2z "BoolProperty")) with KBool. cbv iota.
    change (le_bytes 1 (flag v)) with ([] ++ le_bytes 1 (flag v)). eapply dec_bind; [apply dec_ret|].
    eapply dec_bind_last; [apply de_bool|]. eapply dec_bind_last; apply dec_ret.
  - intros path size v n L. apply de_body; [|exact L]. intros m Lm _. unfold r_body, r_pbool.
    change (kind_of (s2z "BoolProperty")) with KBool. cbv iota. rewrite app_assoc.
    eapply dec_bind; [apply (de_check _ 0); lia|].
    eapply dec_bind; [apply de_bool|]. eapply dec_bind_last; [apply dec_zero_u8|apply dec_ret].
  - (* bytes *)
    intros path size v b H n L. apply de_body; [|exact L]. intros m Lm _. unfold r_body, r_pbyte.
    change (kind_of (s2z "ByteProperty")) with KByte. cbv iota.
    eapply dec_bind_last; [eapply de_bytev; eassumption|apply dec_ret].
  - intros path size nm e x v b He Hx H n L. apply de_body; [|exact L]. intros m Lm _. unfold r_body, r_pbyte.
    change (kind_of (s2z "ByteProperty")) with KByte. cbv iota.
    eapply dec_bind; [apply de_u32, He|]. eapply dec_bind; [apply dec_zero_u32|].
    eapply dec_bind; [eapply de_string; eassumption|]. eapply de_cons; [apply dec_zero_u8|].
    eapply dec_bind_last; [eapply de_bytev; eassumption|apply dec_ret].
  - (* enums *)
    intros path size s b H n L. apply de_body; [|exact L]. intros m Lm _. unfold r_body, r_penum.
    change (kind_of (s2z "EnumProperty")) with KEnum. cbv iota.
    eapply dec_bind_last; [eapply de_string; eassumption|apply dec_ret].
  - intros path size t s x b Ht H W n L. apply de_body; [|exact L]. intros m Lm _. unfold r_body, r_penum.
    change (kind_of (s2z "EnumProperty")) with KEnum. cbv iota.
    apply de_headed with (v := t); [exact W|eapply de_string; eassumption|].
    eapply dec_bind_last; [eapply de_string; eassumption|apply dec_ret].
  - (* names *)
    intros path size s b H n L. apply de_body; [|exact L]. intros m Lm _. unfold r_body, r_pname.
    change (kind_of (s2z "NameProperty")) with KName. cbv iota.
    eapply dec_bind_last; [eapply de_fstring; eassumption|apply dec_ret].
  - intros path size i s b Hi H W n L. apply de_body; [|exact L]. intros m Lm _. unfold r_body, r_pname.
    change (kind_of (s2z "NameProperty")) with KName. cbv iota. unfold headed_index, framed.
    eapply dec_bind; [apply de_u32, W|]. eapply dec_bind; [apply de_u32, Hi|].
    cbn [app]. eapply de_cons; [apply de_term|]. apply de_sized; [|reflexivity].
    eapply dec_bind_last; [eapply de_fstring; eassumption|apply dec_ret].
  - (* unknown *)
    intros path ty raw H n L. apply de_body; [|exact L]. intros m Lm _. unfold r_body.
    apply other_iff in H. rewrite H. unfold r_unknown. eapply dec_bind_last; [apply dec_take|apply dec_ret].
  - intros path ty size raw H W n L. apply de_body; [|exact L]. intros m Lm _. unfold r_body.
    apply other_iff in H. rewrite H. unfold r_unknown_header, r_unknown, framed.
    eapply dec_bind; [apply de_u32, W|]. eapply dec_bind; [apply dec_zero_u32|].
    cbn [app]. eapply de_cons; [apply dec_zero_u8|]. eapply dec_bind_last; [apply dec_take|apply dec_ret].
  - (* structs *)
    intros path size ty v b Hh _ IH n L. apply de_body; [|exact L]. intros m Lm _. unfold r_body, r_hinted.
    change (kind_of (s2z "StructProperty")) with KStruct. cbv iota.
    intros q t. unfold bind at 1, get_stk. cbn [stk]. unfold bind at 1, position. rewrite dotted_join, Hh.
    refine (dec_bind_last (s2z "StructProperty" :: path) _ _ _ _ _ (IH m Lm) _ q t). apply dec_ret.
  - intros path size ty g v x b Hx Hg _ IH W n L. apply de_body; [|exact L]. intros m Lm _. unfold r_body, r_pstruct.
    change (kind_of (s2z "StructProperty")) with KStruct. cbv iota. rewrite len_framed, len_app in Lm.
    pose proof (text_len _ _ Hx).
    apply de_headed with (v := (ty, g)); [exact W| |].
    + eapply dec_bind; [eapply de_string; eassumption|]. eapply dec_bind_last; [apply de_guid, Hg|apply dec_ret].
    + eapply dec_bind_last; [apply IH; lia|apply dec_ret].
  - (* arrays *)
    intros path size ty l a x y b Hx NS Wl -> _ IH Ha W n L. apply de_body; [|exact L]. intros m Lm _. unfold r_body.
    change (kind_of (s2z "ArrayProperty")) with KArray. cbv iota. rewrite len_framed, len_app in Lm.
    pose proof (text_len _ _ Hx). pose proof (len_nonneg y). unfold u4 in Lm. rewrite len_le_bytes in Lm.
    apply de_headed with (v := ty); [exact W|eapply de_string; eassumption|].
    unfold r_array. eapply dec_bind; [apply de_u32, Wl|].
    apply array_new_iff in Ha.
    assert (HG : decodes (s2z "ArrayProperty" :: path)
      (l0 <- rep (len l) (r_prop m o vs ty false
               (if (0 <? len l) && (4 <=? len (u4 (len l) ++ y)) then Some ((len (u4 (len l) ++ y) - 4) / len l) else None)) ;;
       a <- of_outcome (array_new ty None l0) ;; ret (PArray a)) y (PArray a)).
    { eapply dec_bind_last with (a := l).
      - apply dec_rep. specialize (IH m ltac:(lia)). rewrite len_app. unfold u4. rewrite len_le_bytes.
        destruct l as [|p l]; [exact IH|].
        assert ((0 <? len (p :: l)) && (4 <=? Z.of_nat 4 + len y) = true) as -> by (rewrite len_cons; pose proof (len_nonneg l); lia).
        replace (Z.of_nat 4 + len y - 4) with (len y) by lia. exact IH.
      - rewrite Ha. cbn [of_outcome]. eapply dec_bind_last; apply dec_ret. }
    destruct (kind_of ty) eqn:K; try exact HG.
    exfalso. apply NS. now rewrite (is_name _ _ K).
  - intros path size f ty g l x xf xs xt y b Hx Wl Hf Hs Ht Hg -> _ IH W n L. apply de_body; [|exact L]. intros m Lm _.
    unfold r_body. change (kind_of (s2z "ArrayProperty")) with KArray. cbv iota.
    assert (Ly : len y < Z.of_nat m /\ len y < 2 ^ 64).
    { rewrite len_framed in Lm. unfold word in W. rewrite !len_app, len_cons in *. pose proof (text_len _ _ Hx). pose proof (text_len _ _ Hf).
      pose proof (text_len _ _ Hs). pose proof (text_len _ _ Ht). pose proof (len_nonneg (u4 (len l))).
      pose proof (len_nonneg (le_bytes 8 (len y))). lia. }
    apply de_headed with (v := s2z "StructProperty"); [exact W|eapply de_string; eassumption|].
    unfold r_array. eapply dec_bind; [apply de_u32, Wl|].
    change (kind_of (s2z "StructProperty")) with KStruct. cbv iota.
    eapply dec_bind_last with (a := (f, ty, g, map PSValue l)).
    + unfold r_struct_array. eapply dec_bind; [eapply de_string; eassumption|].
      eapply dec_bind; [eapply de_string; eassumption|].
      change (str_eqb (s2z "StructProperty") (kind_name KStruct)) with true. cbn [negb].
      eapply dec_bind; [apply de_u64; pose proof (len_nonneg y); lia|]. eapply dec_bind; [eapply de_string; eassumption|].
      eapply dec_bind; [apply de_guid, Hg|]. eapply de_cons; [apply de_term|].
      apply (de_measured _ (len y) (rep (len l) (v <- r_sval (S m) o vs (r_prop m o vs) ty ;; ret (PSValue v))) (fun l => (f, ty, g, l))
             (fun start stop => Err (EProperty (decimal (stop - start) ++ s2z " != " ++ decimal (len y)) stop))); [|reflexivity].
      apply dec_rep. apply IH. lia.
    + cbn [fst snd]. unfold array_new. change (kind_of (s2z "StructProperty")) with KStruct. cbv iota.
      rewrite opt_map_map by reflexivity. cbn [of_outcome]. eapply dec_bind_last; apply dec_ret.
  - (* sets *)
    intros path size ty flags l x y b Hx Wf Wl -> _ IH W n L. apply de_body; [|exact L]. intros m Lm _.
    unfold r_body. change (kind_of (s2z "SetProperty")) with KSet. cbv iota.
    pose proof (text_len _ _ Hx). rewrite len_framed in Lm. unfold word in W. pose proof (len_nonneg y).
    assert (Lb : len (u4 flags ++ u4 (len l) ++ y) = 8 + len y) by (unfold u4; rewrite !len_app, !len_le_bytes; lia).
    apply de_headed with (v := ty); [exact W|eapply de_string; eassumption|].
    unfold r_set. eapply dec_bind; [apply de_u32, Wf|]. eapply dec_bind; [apply de_u32, Wl|].
    rewrite Lb in *. destruct l as [|p l].
    + specialize (IH m ltac:(lia) 0 []). cbn [repn List.length] in IH. unfold ret in IH. injection IH as IH1 IH2.
      apply app_eq_nil in IH2 as [-> _]. apply dec_ret.
    + assert ((0 <? len (p :: l)) = true) as -> by (rewrite len_cons; pose proof (len_nonneg l); lia).
      assert ((8 + len y <? 8) && dbg o = false) as -> by lia.
      replace ((8 + len y - 8) mod 4294967296) with (len y) by (rewrite Z.mod_small; lia).
      eapply dec_bind_last; [|apply dec_ret]. apply dec_rep. apply IH. lia.
  - (* maps *)
    intros path size kt vt flags l l' mp xk xv y b Hk Hv Wf Wl -> He IH Ht Hc Hm W n L. apply de_body; [|exact L]. intros m Lm _.
    unfold r_body. change (kind_of (s2z "MapProperty")) with KMap. cbv iota.
    pose proof (text_len _ _ Hk). pose proof (text_len _ _ Hv). rewrite len_framed, !len_app in Lm. pose proof (len_nonneg y).
    pose proof (len_nonneg (u4 flags)). pose proof (len_nonneg (u4 (len l))).
    apply de_headed with (v := (kt, vt)); [exact W| |].
    { eapply dec_bind; [eapply de_string; eassumption|]. eapply dec_bind_last; [eapply de_string; eassumption|apply dec_ret]. }
    cbn [fst snd]. unfold r_map. eapply dec_bind; [apply de_u32, Wf|]. eapply dec_bind; [apply de_u32, Wl|].
    intros q t. destruct (IH m ltac:(lia) q t) as (l2 & R & M).
    unfold bind. rewrite rep_repn. unfold len at 1. rewrite Nat2Z.id. rewrite R.
    eapply map_iff in Hm; [|eassumption..]. subst mp.
    assert (C : collapsed same (map fst l2) (mins_all o l2)) by (apply mins_all_collapsed; rewrite M; exact Ht).
    rewrite M in C.
    rewrite (collapsed_unique same _ _ _ C Hc). reflexivity.
  - (* elements *)
    intros path ty size n L. apply dec_ret.
  - intros path ty size p l x y _ IHp _ IHl n L. cbn [repn List.length]. rewrite len_app in L.
    pose proof (len_nonneg x). pose proof (len_nonneg y).
    eapply dec_bind; [apply IHp; lia|]. eapply dec_bind_last; [apply IHl; lia|apply dec_ret].
  - (* entries *)
    intros path kt vt n L q t. exists []. split; [|reflexivity]. cbn [repn List.length app]. unfold ret.
    rewrite len_nil, Z.add_0_r. reflexivity.
  - intros path kt vt k v l x y z _ IHk _ IHv _ IHl n L q t. rewrite !len_app in *.
    pose proof (len_nonneg x). pose proof (len_nonneg y). pose proof (len_nonneg z).
    specialize (IHk n ltac:(lia)). specialize (IHv n ltac:(lia)). apply dec_scoped in IHk. apply dec_scoped in IHv.
    destruct (IHl n ltac:(lia) (q + len x + len y) t) as (l' & R & M).
    exists ((k, v, q + len x + len y) :: l'). split; [|cbn; now rewrite M]. cbn [repn List.length].
    rewrite <- !app_assoc. unfold bind at 1. unfold r_entry at 1. unfold bind at 1. rewrite IHk.
    unfold bind at 1. rewrite IHv.
    unfold bind at 1, position at 1, ret at 1. cbn [pos]. unfold bind. rewrite R. unfold ret. do 3 f_equal. lia.
  - (* struct values *)
    intros path ty n L. apply dec_ret.
  - intros path ty v l x y _ IHv _ IHl n L. cbn [repn List.length map]. rewrite len_app in L.
    pose proof (len_nonneg x). pose proof (len_nonneg y).
    eapply dec_bind; [eapply dec_bind_last; [apply IHv; lia|apply dec_ret]|].
    eapply dec_bind_last; [apply IHl; lia|apply dec_ret].
  - intros path x name lwc ks l b F V H n L. unfold r_sval.
    assert (fixed_of vs (skind_of (s2z name)) = Some x /\ ks = layout x) as [-> ->].
    { destruct x; cbn [fixed_spec] in F; injection F as <- <- <-;
        (split; [|reflexivity]);
        first [reflexivity | specialize (V _ eq_refl); unfold fixed_of; rewrite V; reflexivity]. }
    eapply dec_bind_last; [|apply dec_ret]. eapply de_mapM; [exact H|]. intros. now apply de_num.
  - intros path g Hg n L. unfold r_sval. change (skind_of (s2z "Guid")) with SkGuid. cbn [fixed_of].
    eapply dec_bind_last; [apply de_guid, Hg|apply dec_ret].
  - intros path l x Hl H n L. unfold r_sval. change (skind_of (s2z "GameplayTagContainer")) with SkTags. cbn [fixed_of].
    eapply dec_bind; [apply de_count; pose proof (len_nonneg l); lia|].
    eapply dec_bind_last; [eapply de_rep; [eassumption|reflexivity|]|apply dec_ret].
    intros a y Ha _. now apply de_string.
  - intros path ty l x y Hty _ [Hn IH] Hy D n L. apply custom_name_iff in Hty. unfold r_sval. rewrite Hty. cbn [fixed_of].
    eapply dec_bind_last with (a := grouped l); [|apply dec_ret]. rewrite len_app in L. pose proof (text_len _ _ Hy).
    intros q t. apply custom_iff. exists l. rewrite <- app_assoc, len_app, Z.add_assoc.
    split; [apply IH; [lia|exact Hy]|]. split; [unfold len in L; lia|]. auto.
  - (* fields *)
    intros path. split; [reflexivity|]. intros n L q t y Hy. cbn [app]. rewrite len_nil, Z.add_0_r.
    constructor. exact (de_string path _ _ Hy q t).
  - intros path k ty p l x y z w Hx Nk Hy _ IHp _ [Hn IHl].
    pose proof (text_len _ _ Hx) as Lx. pose proof (text_len _ _ Hy) as Ly. split.
    + cbn [List.length]. rewrite !app_length. unfold len in Lx. lia.
    + intros n L q t u Hu. rewrite !len_app in L |- *. pose proof (len_nonneg z). pose proof (len_nonneg w).
      specialize (IHp n ltac:(lia)). apply dec_scoped in IHp. specialize (IHl n ltac:(lia)).
      rewrite <- !app_assoc.
      econstructor; [exact (de_string path _ _ Hx q _)|exact Nk|exact (de_string path _ _ Hy _ _)|exact (IHp _ _)|].
      replace (q + (len x + (len y + (len z + len w))) + len u) with (q + len x + len y + len z + len w + len u) by lia.
      now apply IHl.
Qed.
End Complete.
