(** Everything a reader accepts is representable: the main induction. *)
From Coq Require Import ZArith List Bool String Lia ZifyBool ZifyNat.
From Verif Require Import Base Str Types Versions Text Props File Spec BaseFacts ReaderFacts Prim StrFacts
  Decode KindFacts DecodeProp DecodeMain DecodeFile Induct Accept AcceptProp.
Import ListNotations.
Open Scope Z_scope.

(** ** Insertion into property-keyed maps *)
Lemma set_at_keys l i v : map fst (set_at l i v) = map fst l.
Proof. revert i. induction l as [|[k w] l IH]; intros [|i]; cbn; auto. now rewrite IH. Qed.
Lemma mins_fresh pr l k v : fresh same l = true -> fresh same (mins pr l k v) = true.
Proof.
  intros H. unfold mins. destruct (hit pr k l 0) as [i|]; [|now apply ins_fresh].
  rewrite <- H. apply fresh_keys. apply set_at_keys.
Qed.
Lemma mins_all_fresh o l : distinct same (mins_all o l) = true.
Proof.
  rewrite distinct_fresh. unfold mins_all.
  assert (H : fresh same (@nil (property * property)) = true) by reflexivity. revert H.
  generalize (@nil (property * property)).
  induction l as [|e l IH]; intros acc H; cbn [fold_left]; [exact H|]. apply IH, mins_fresh, H.
Qed.
Lemma set_at_in (P Q : property -> Prop) l i v : Forall (fun e => P (fst e) /\ Q (snd e)) l -> Q v ->
  Forall (fun e => P (fst e) /\ Q (snd e)) (set_at l i v).
Proof.
  intros H Hv. revert i. induction H as [|[k w] l [? ?] H IH]; intros [|i]; cbn; constructor; cbn in *; auto.
Qed.
Lemma mins_in (P Q : property -> Prop) pr l k v : Forall (fun e => P (fst e) /\ Q (snd e)) l -> P k -> Q v ->
  Forall (fun e => P (fst e) /\ Q (snd e)) (mins pr l k v).
Proof. intros. unfold mins. destruct (hit _ _ _ _); [apply set_at_in|apply ins_in]; auto. Qed.
Lemma mins_all_in (P Q : property -> Prop) o l :
  Forall (fun e : property * property * Z => P (fst (fst e)) /\ Q (snd (fst e))) l ->
  Forall (fun e => P (fst e) /\ Q (snd e)) (mins_all o l).
Proof.
  unfold mins_all. assert (H : Forall (fun e => P (fst e) /\ Q (snd e)) (@nil (property * property))) by constructor.
  revert H. generalize (@nil (property * property)).
  induction l as [|e l IH]; intros acc Ha H; cbn [fold_left]; [exact Ha|].
  inversion H as [|? ? [? ?] ?]; subst. apply IH; auto. apply mins_in; auto.
Qed.
Lemma set_at_len l i v : len (set_at l i v) = len l.
Proof. unfold len. now rewrite <- (map_length fst (set_at _ _ _)), set_at_keys, map_length. Qed.
Lemma mins_all_len o l : len (mins_all o l) <= len l.
Proof.
  unfold mins_all. assert (H : len (@nil (property * property)) <= 0) by (rewrite len_nil; lia).
  replace (len l) with (0 + len l) by lia. revert H. generalize 0. generalize (@nil (property * property)).
  induction l as [|e l IH]; intros acc z Ha; cbn [fold_left]; [rewrite len_nil; lia|].
  rewrite len_cons. replace (z + (1 + len l)) with ((z + 1) + len l) by lia. apply IH.
  unfold mins. destruct (hit _ _ _ _); [rewrite set_at_len; lia|].
  etransitivity; [apply ins_len|lia].
Qed.

(** ** Fields of custom structs *)
Lemma lookup_in {V} (l : list (str * V)) k v : lookup str_eqb k l = Some v -> In (k, v) l.
Proof.
  induction l as [|[k' w] l IH]; cbn; [discriminate|]. destruct (str_eqb k k') eqn:E; auto.
  intros H; injection H as <-. apply str_eqb_eq in E. subst. auto.
Qed.
Lemma ins_elim {V} (l : list (str * V)) k v e : In e (ins str_eqb l k v) -> e = (k, v) \/ In e l.
Proof.
  induction l as [|[k' w] l IH]; cbn; [intros [<-|[]]; auto|]. destruct (str_eqb k k') eqn:E.
  - apply str_eqb_eq in E. subst k'. intros [<-|H]; auto.
  - intros [<-|H]; auto. destruct (IH H); auto.
Qed.
Lemma indices_app i l p : indices_ok i (l ++ [p]) = indices_ok i l && (field_index p =? (i + len l) mod 4294967296).
Proof.
  revert i. induction l as [|q l IH]; intros i; cbn [app indices_ok].
  - rewrite len_nil, Z.add_0_r, andb_true_r. reflexivity.
  - rewrite IH, len_cons, andb_assoc. do 3 f_equal. lia.
Qed.

Section All.
Context (o : opts) (vs : list (guid * Z)) (sep : property -> property -> bool).
Hypothesis Hsep : forall l, distinct sep (mins_all o l) = true.
Notation wfp := (wf_prop o vs sep).
Notation good := (good o vs sep).

(** ** Leaves *)
Lemma a_pnum st k hdr sug : acc (num_name k :: st) (good st (num_name k) hdr sug) (r_pnum k hdr).
Proof.
  unfold r_pnum. eapply a_bind with (Q := fun _ => True).
  - destruct hdr; [|now apply a_ret]. eapply a_bind; [apply a_check|intros _ _].
    apply a_zero, q_uint. 
  - intros _ _. eapply a_bind; [apply a_num|intros z Hz]. apply a_ret. repeat split; auto.
Qed.
Lemma a_byte st : acc st (fun _ => True) (take 1).
Proof. apply a_prim, q_take. Qed.
Lemma a_bytev st sug : acc st (fun v => bytev_ok v = true /\ shape sug (PByte None v)) (r_bytev o sug).
Proof.
  unfold r_bytev. destruct sug as [e|].
  - destruct ((e =? 0) && dbg o); [apply a_fail|].
    destruct ((e =? 1) || (e =? 2)) eqn:E.
    + eapply a_bind; [apply a_byte|intros b _]. apply a_ret. split; [reflexivity|exact E].
    + eapply a_bind; [apply a_string|intros s Hs]. apply a_ret. split; [exact Hs|exact E].
  - eapply a_bind; [apply a_byte|intros b _]. apply a_ret. split; reflexivity.
Qed.
Lemma a_pbyte st hdr sug : acc st (fun p => exists n v, p = PByte n v /\ name_ok hdr n = true
    /\ bytev_ok v = true /\ (hdr = false -> shape sug (PByte n v))) (r_pbyte o hdr sug).
Proof.
  unfold r_pbyte. destruct hdr.
  - eapply a_bind; [apply a_u32|intros n Hn]. eapply a_bind; [apply a_zero, q_uint|intros _ _].
    eapply a_bind; [apply a_string|intros s Hs]. eapply a_bind; [apply a_zero, q_uint|intros _ _].
    eapply a_bind; [apply a_bytev|intros v [Hv _]]. apply a_ret. exists (Some s), v.
    repeat split; auto. discriminate.
  - eapply a_bind; [apply a_bytev|intros v [Hv Hs]]. apply a_ret. exists None, v. repeat split; auto.
Qed.
Lemma a_pbool st hdr : acc st (fun p => exists b, p = PBool b) (r_pbool hdr).
Proof.
  unfold r_pbool. eapply a_bind with (Q := fun _ => True).
  - destruct hdr; [apply a_check|now apply a_ret].
  - intros _ _. eapply a_bind; [apply a_bool|intros b _].
    eapply a_bind with (Q := fun _ => True).
    + destruct hdr; [apply a_zero, q_uint|now apply a_ret].
    + intros _ _. apply a_ret. eauto.
Qed.

(** ** Nested readers *)
Definition nonneg (sug : option Z) : Prop := match sug with Some e => 0 <= e | None => True end.
Section Nested.
Context (n : nat) (rp : preader).
Hypothesis Hrp : forall st ty hdr sug, str_ok ty = true -> nonneg sug -> acc st (good st ty hdr sug) (rp ty hdr sug).

Definition fields_ok (st : list str) (l : list (str * list property)) : Prop :=
  distinct str_eqb l = true
  /\ Forall (fun '(k, ps) => str_ok k = true /\ str_eqb k (s2z "None") = false /\ len ps <> 0
       /\ (dbg o = true -> indices_ok 0 ps = true) /\ Forall (fun p => wfp true (k :: st) p = true) ps) l.
Lemma a_custom st m : forall acc0, fields_ok st acc0 -> acc st (fields_ok st) (r_custom m o rp acc0).
Proof.
  induction m; intros acc0 H; cbn [r_custom]; [apply a_fail|].
  eapply a_bind; [apply a_string|intros name Hname].
  destruct (str_eqb name s_none) eqn:En; [now apply a_ret|].
  eapply a_bind; [apply a_string|intros ty Hty].
  eapply a_bind; [apply a_scoped, (Hrp _ _ true None Hty I)|intros p (T & W & _)].
  destruct (dbg o && negb (index_ok acc0 name p)) eqn:Ed; [apply a_fail|].
  apply IHm. destruct H as [Hd HF]. unfold fields_ok, group_add. split.
  - rewrite distinct_fresh in *. now apply ins_fresh.
  - assert (HG : (dbg o = true -> indices_ok 0 (group acc0 name) = true)
                 /\ Forall (fun p => wfp true (name :: st) p = true) (group acc0 name)).
    { unfold group. destruct (lookup str_eqb name acc0) as [g|] eqn:El; [|split; [reflexivity|constructor]].
      apply lookup_in in El. rewrite Forall_forall in HF. apply HF in El. tauto. }
    destruct HG as [G1 G2]. apply Forall_forall. intros [k ps] Hin.
    apply ins_elim in Hin as [E|Hin]; [|rewrite Forall_forall in HF; exact (HF _ Hin)].
    injection E as -> ->. repeat split; auto.
    + rewrite len_app, len_cons. pose proof (len_nonneg (group acc0 name)). rewrite len_nil. lia.
    + intros D. rewrite D in Ed. cbn [andb] in Ed. apply negb_false_iff in Ed.
      rewrite indices_app, G1 by exact D. unfold index_ok in Ed.
      change (field_index p) with (prop_index p). rewrite Z.add_0_l. lia.
    + apply Forall_app. auto.
Qed.
Lemma a_sval st ty : acc st (fun v => wf_sval o vs sep st ty v = true) (r_sval n o vs rp ty).
Proof.
  unfold r_sval. destruct (fixed_of vs (skind_of ty)) as [x|] eqn:Ef.
  - eapply a_bind; [apply a_nums|intros l Hl]. apply a_ret. assert (Hp : ty = fixed_name x /\ precision_ok (has_lwc vs) x = true) by (apply fixed_of_spec in Ef; tauto).
    destruct Hp as [-> Hp]. cbn [wf_sval]. rewrite str_eqb_refl, Hp. exact Hl.
  - assert (Hn : skind_of ty <> SkCustom -> ty = skind_name (skind_of ty)) by apply skind_of_name.
    destruct (skind_of ty) eqn:Es; try discriminate Ef.
    + eapply a_bind; [apply a_guid|intros g Hg]. apply a_ret. rewrite Hn by discriminate. exact Hg.
    + eapply a_bind; [apply a_count|intros k Hk]. cbv beta in Hk.
      eapply a_bind; [apply (a_rep st (fun s => str_ok s = true)); [lia|apply a_string]|intros l [Hl HF]].
      apply a_ret. rewrite Hn by discriminate. cbn [wf_sval].
      change (str_eqb (skind_name SkTags) (s2z "GameplayTagContainer")) with true. cbn [andb].
      apply andb_true_iff; split; [eapply count31_len; eauto; lia|now apply Forall_true].
    + eapply a_bind; [apply a_custom; split; [reflexivity|constructor]|intros l [Hd HF]].
      apply a_ret. rewrite wf_scustom, Hd.
      assert (mem ty known_structs = false) as -> by now apply skind_custom.
      cbn [negb andb]. apply Forall_true. eapply Forall_impl; [|exact HF].
      intros [k ps] (H1 & H2 & H3 & H4 & H5). rewrite H1, H2. apply Forall_true in H5. rewrite H5.
      destruct (Z.eqb_spec (len ps) 0); [congruence|]. cbn [negb andb].
      rewrite andb_true_r. destruct (dbg o); [|reflexivity]. now rewrite H4.
Qed.
Lemma a_pstruct st sug : acc (s2z "StructProperty" :: st) (good st (s2z "StructProperty") true sug) (r_pstruct n o vs rp).
Proof.
  unfold r_pstruct.
  apply a_headed with (QV := fun tg => str_ok (fst tg) = true /\ guid_ok (snd tg) = true).
  - eapply a_bind; [apply a_string|intros t Ht]. eapply a_bind; [apply a_guid|intros g Hg].
    apply a_ret. auto.
  - intros k [t g] _ [Ht Hg]. cbn [fst snd] in *. eapply a_bind; [apply a_sval|intros v Hv]. apply a_ret.
    split; [reflexivity|]. split; [|discriminate]. rewrite wf_pstruct, Hg, Ht. exact Hv.
Qed.
Lemma a_hinted st sug : acc (s2z "StructProperty" :: st) (good st (s2z "StructProperty") false sug) (r_hinted n o vs rp).
Proof.
  unfold r_hinted. apply a_get_stk, a_position. intros p.
  destruct (hints o _) as [ty|] eqn:E; [|apply a_fail].
  eapply a_bind; [apply a_sval|intros v Hv]. apply a_ret. split; [reflexivity|]. split; [|intros; exact I].
  rewrite wf_psvalue, <- dotted_join, E. exact Hv.
Qed.
Lemma a_outcome st {A} (x : outcome A) : acc st (fun a => x = Ok a) (of_outcome x).
Proof. destruct x; [now apply a_ret|apply a_fail]. Qed.
Lemma a_struct_array st count : 0 <= count -> acc st (fun x => let '(f, t, g, l) := x in
    str_ok f = true /\ str_ok t = true /\ guid_ok g = true /\ len l = count
    /\ Forall (fun p => exists v, p = PSValue v /\ wf_sval o vs sep st t v = true) l)
  (r_struct_array n o vs rp count).
Proof.
  intros Hc. unfold r_struct_array.
  eapply a_bind; [apply a_string|intros f Hf]. eapply a_bind; [apply a_string|intros ty Hty].
  destruct (negb _); [apply a_fail|].
  eapply a_bind; [apply a_u64|intros size _]. eapply a_bind; [apply a_string|intros t Ht].
  eapply a_bind; [apply a_guid|intros g Hg]. eapply a_bind; [apply a_prim, q_term; auto|intros _ _].
  apply a_position. intros p.
  eapply a_bind; [apply (a_rep st (fun p => exists v, p = PSValue v /\ wf_sval o vs sep st t v = true)); [exact Hc|]|].
  - eapply a_bind; [apply a_sval|intros v Hv]. apply a_ret. eauto.
  - intros l [Hl HF]. apply a_position. intros q. destruct (_ =? size); [|apply a_fail].
    apply a_ret. auto 10.
Qed.
Lemma u_ok_nonneg w z : u_ok w z = true -> 0 <= z.
Proof. unfold u_ok, in_range. rewrite andb_true_iff, !Z.leb_le. tauto. Qed.
Lemma u32_lt z : u_ok 4 z = true -> z < 4294967296.
Proof. unfold u_ok, in_range. rewrite andb_true_iff, !Z.leb_le. change (2 ^ (8 * 4)) with 4294967296. lia. Qed.
Lemma a_array st length ty sug : str_ok ty = true ->
  acc (s2z "ArrayProperty" :: st) (good st (s2z "ArrayProperty") true sug) (r_array n o vs rp length ty).
Proof.
  intros Hty. unfold r_array. eapply a_bind; [apply a_u32|intros count Hc]. cbv beta in Hc.
  pose proof (u_ok_nonneg _ _ Hc) as Hc0.
  assert (Hnon : kind_of ty <> KStruct -> acc (s2z "ArrayProperty" :: st) (good st (s2z "ArrayProperty") true sug)
    (let sug := if (0 <? count) && (4 <=? length) then Some ((length - 4) / count) else None in
     l <- rep count (rp ty false sug) ;;
     a <- of_outcome (array_new ty None l) ;;
     ret (PArray a))).
  { intros Hk. cbv zeta. eapply a_bind; [apply a_rep; [lia|apply (Hrp _ ty false); [exact Hty|]]|intros l [Hl HF]].
    { destruct (Z.ltb_spec 0 count), (Z.leb_spec 4 length); cbn; auto. apply Z.div_pos; lia. }
    eapply a_bind; [apply a_outcome|intros a Ha]. apply a_ret.
    split; [reflexivity|]. split; [|discriminate]. rewrite wf_parray. cbn [andb].
    eapply array_new_wf; eauto. eapply count32_len; eauto. }
  destruct (kind_of ty) eqn:Ek; try (apply Hnon; discriminate).
  eapply a_bind; [apply a_struct_array; lia|]. intros [[[f t] g] l] (Hf & Ht & Hg & Hl & HF).
  cbn [fst snd]. eapply a_bind; [apply a_outcome|intros a Ha]. apply a_ret.
  split; [reflexivity|]. split; [|discriminate]. rewrite wf_parray. cbn [andb].
  assert (ty = s2z "StructProperty") as ->.
  { pose proof (kind_of_name ty ltac:(rewrite Ek; discriminate)) as H. rewrite Ek in H. exact H. }
  apply (array_structs_wf _ _ _ (s2z "ArrayProperty" :: st) f t g l a); auto. eapply count32_len; eauto.
Qed.
Lemma a_set st length ty sug : str_ok ty = true ->
  acc (s2z "SetProperty" :: st) (good st (s2z "SetProperty") true sug) (r_set o rp length ty).
Proof.
  intros Hty. unfold r_set. eapply a_bind; [apply a_u32|intros flags Hf].
  eapply a_bind; [apply a_u32|intros count Hc]. cbv beta in Hf, Hc.
  pose proof (u_ok_nonneg _ _ Hc) as Hc0.
  destruct (Z.ltb_spec 0 count).
  - destruct (_ && _); [apply a_fail|].
    eapply a_bind; [apply a_rep; [lia|apply (Hrp _ ty false); [exact Hty|]]|intros l [Hl HF]].
    { cbn [nonneg]. apply Z.div_pos; [|lia]. apply Z.mod_pos_bound. lia. }
    apply a_ret. split; [reflexivity|]. split; [|discriminate].
    rewrite wf_pset, Hty, Hf, (count32_len _ _ Hl Hc), (uniform_good _ _ _ _ _ _ _ HF), (wf_forall _ _ _ _ _ _ _ HF).
    reflexivity.
  - apply a_ret. split; [reflexivity|]. split; [|discriminate].
    rewrite wf_pset, Hty, Hf. reflexivity.
Qed.
Lemma a_map st kt vt sug : str_ok kt = true -> str_ok vt = true ->
  acc (s2z "MapProperty" :: st) (good st (s2z "MapProperty") true sug) (r_map o rp kt vt).
Proof.
  intros Hkt Hvt. unfold r_map. eapply a_bind; [apply a_u32|intros flags Hf].
  eapply a_bind; [apply a_u32|intros count Hc]. cbv beta in Hf, Hc.
  pose proof (u_ok_nonneg _ _ Hc) as Hc0.
  set (st' := s2z "MapProperty" :: st).
  set (P := good (s_key :: st') kt false None). set (Q := good (s_value :: st') vt false None).
  eapply a_bind; [apply (a_rep st' (fun e => P (fst (fst e)) /\ Q (snd (fst e)))); [lia|]|].
  - unfold r_entry. eapply a_bind; [apply a_scoped, (Hrp _ kt false None Hkt I)|intros k Hk].
    eapply a_bind; [apply a_scoped, (Hrp _ vt false None Hvt I)|intros v Hv].
    apply a_position. intros p. apply a_ret. cbn. auto.
  - intros l [Hl HF]. apply a_ret. split; [reflexivity|]. split; [|discriminate].
    rewrite wf_pmap. cbn [andb]. apply map_new_wf; auto.
    + unfold count32. pose proof (mins_all_len o l). pose proof (u32_lt _ Hc). lia.
    + apply (mins_all_in P Q o) in HF. eapply Forall_impl; [|exact HF]. intros [k v] [Hk Hv].
      unfold entry_ok. cbn [fst snd] in *.
      pose proof (sized_good _ _ _ _ _ _ Hk). pose proof (sized_good _ _ _ _ _ _ Hv).
      destruct Hk as (? & ? & _), Hv as (? & ? & _). auto 10.
Qed.

Lemma a_body st ty hdr sug : str_ok ty = true -> nonneg sug ->
  acc (ty :: st) (good st ty hdr sug) (r_body n o vs rp ty hdr sug).
Proof.
  intros Hty Hsug. unfold r_body.
  assert (Htype : kind_of ty <> KOther -> ty = kind_name (kind_of ty)) by apply kind_of_name.
  destruct (kind_of ty) as [k| | | | | | | | | | | | | | |] eqn:Ek;
    try (specialize (Htype ltac:(discriminate)); cbn [kind_name] in Htype; subst ty).
  - apply a_pnum.
  - eapply a_weaken; [apply a_pbyte|]. intros p (nm & v & -> & Hn & Hv & Hs).
    split; [reflexivity|]. split; [|exact Hs]. cbn [wf_prop]. now rewrite Hn, Hv.
  - eapply a_weaken; [apply a_pbool|]. intros p (b & ->). repeat split; auto.
  - unfold r_penum. destruct hdr.
    + eapply a_headed; [apply a_string|]. intros m t _ Ht. eapply a_bind; [apply a_string|intros v Hv].
      apply a_ret. split; [reflexivity|]. split; [|discriminate]. cbn [wf_prop name_ok andb]. bsplit.
    + eapply a_bind; [apply a_string|intros v Hv]. apply a_ret. repeat split; auto.
  - apply a_plain. eapply a_bind; [apply a_fstring|intros v Hv]. apply a_ret. repeat split; auto.
  - apply a_plain. eapply a_bind; [apply a_text|intros v Hv]. apply a_ret. repeat split; auto.
  - unfold r_pname. destruct hdr.
    + apply a_headed_index. intros i Hi. eapply a_bind; [apply a_fstring|intros v Hv]. apply a_ret.
      split; [reflexivity|]. split; [|discriminate]. cbn [wf_prop]. bsplit.
    + eapply a_bind; [apply a_fstring|intros v Hv]. apply a_ret. repeat split; auto.
  - apply a_plain. eapply a_bind; [apply a_string|intros v Hv]. apply a_ret. repeat split; auto.
  - apply a_plain. unfold r_delegate. eapply a_bind with (Q := fun d => str_ok (fst d) = true /\ str_ok (snd d) = true).
    + eapply a_bind; [apply a_string|intros a Ha]. eapply a_bind; [apply a_string|intros b Hb]. apply a_ret. auto.
    + intros d [? ?]. apply a_ret. repeat split; auto. cbn [wf_prop]. bsplit.
  - assert (HG : acc (kind_name (KMulti inline) :: st) (good st (kind_name (KMulti inline)) hdr sug)
      (r_pmulti inline hdr)); [|destruct inline; exact HG].
    apply a_plain. eapply a_bind; [apply a_u32|intros m Hm]. cbv beta in Hm. pose proof (u_ok_nonneg _ _ Hm).
    eapply a_bind; [apply (a_rep _ (fun d => str_ok (fst d) = true /\ str_ok (snd d) = true)); [lia|]|].
    + unfold r_delegate.
      eapply a_bind; [apply a_string|intros a Ha]. eapply a_bind; [apply a_string|intros b Hb]. apply a_ret. auto.
    + intros l [Hl HF]. apply a_ret. split; [destruct inline; reflexivity|]. split; [|intros; exact I].
      cbn [wf_prop]. rewrite (count32_len _ _ Hl Hm). apply Forall_true. eapply Forall_impl; [|exact HF].
      intros [a b] [? ?]. bsplit.
  - apply a_plain. eapply a_bind; [apply a_u32|intros m Hm]. cbv beta in Hm. pose proof (u_ok_nonneg _ _ Hm).
    eapply a_bind; [apply (a_rep _ (fun s => str_ok s = true)); [lia|apply a_string]|intros l [Hl HF]].
    eapply a_bind; [apply a_string|intros s Hs]. apply a_ret. repeat split; auto.
    cbn [wf_prop]. rewrite (count32_len _ _ Hl Hm). apply andb_true_iff; split; [now apply Forall_true|exact Hs].
  - destruct hdr; [apply a_pstruct|apply a_hinted].
  - destruct hdr; [|apply a_position_fail]. eapply a_headed; [apply a_string|]. intros m t _ Ht. now apply a_array.
  - destruct hdr; [|apply a_position_fail]. eapply a_headed; [apply a_string|]. intros m t _ Ht. now apply a_set.
  - destruct hdr; [|apply a_position_fail].
    apply a_headed with (QV := fun kv => str_ok (fst kv) = true /\ str_ok (snd kv) = true).
    + eapply a_bind; [apply a_string|intros a Ha]. eapply a_bind; [apply a_string|intros b Hb]. apply a_ret. auto.
    + intros m kv _ [? ?]. now apply a_map.
  - assert (Hm : mem ty known_types = false) by now apply kind_other.
    destruct hdr.
    + unfold r_unknown_header, r_unknown. eapply a_bind; [apply a_u32|intros m Hm'].
      eapply a_bind; [apply a_zero, q_uint|intros _ _]. eapply a_bind; [apply a_zero, q_uint|intros _ _].
      eapply a_bind; [apply a_prim, q_take|intros raw _]. apply a_ret.
      split; [reflexivity|]. split; [|discriminate]. cbn [wf_prop]. now rewrite Hm, Hty.
    + destruct sug as [l|]; [|apply a_position_fail]. unfold r_unknown.
      eapply a_bind; [apply a_take; exact Hsug|intros raw Hr]. apply a_ret.
      split; [reflexivity|]. split; [|intros _; exact Hr]. cbn [wf_prop]. now rewrite Hm, Hty.
Qed.
End Nested.
End All.
