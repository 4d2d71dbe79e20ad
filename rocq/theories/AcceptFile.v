(** Everything a reader accepts is representable: headers and files. *)
From Coq Require Import ZArith List Bool String Lia ZifyBool ZifyNat.
From Verif Require Import Base Str Types Versions Text Props File Spec BaseFacts ReaderFacts Prim StrFacts
  Decode KindFacts DecodeProp DecodeMain DecodeAll DecodeFile Induct Accept AcceptProp AcceptAll.
Import ListNotations.
Open Scope Z_scope.

Lemma a_prop o vs sep : (forall l, distinct sep (mins_all o l) = true) ->
  forall n st ty hdr sug, str_ok ty = true -> nonneg sug ->
  acc st (good o vs sep st ty hdr sug) (r_prop n o vs ty hdr sug).
Proof.
  intros Hsep. induction n as [|n IH]; intros st ty hdr sug Hty Hs; cbn [r_prop]; [apply a_fail|].
  apply a_scoped, a_body; auto.
Qed.
Lemma a_entries o vs sep st n m : (forall l, distinct sep (mins_all o l) = true) ->
  acc st (Forall (fun e => str_ok (fst e) = true /\ str_eqb (fst e) (s2z "None") = false
                           /\ wf_prop o vs sep true (fst e :: st) (snd e) = true)) (r_entries n m o vs).
Proof.
  intros Hsep. induction n; cbn [r_entries]; [apply a_fail|].
  eapply a_bind; [apply a_string|intros name Hname].
  destruct (str_eqb name s_none) eqn:En; [apply a_ret; constructor|].
  eapply a_bind; [apply a_string|intros ty Hty].
  eapply a_bind; [apply a_scoped, (a_prop o vs sep Hsep m _ ty true None Hty I)|intros p (_ & W & _)].
  eapply a_bind; [exact IHn|intros l Hl]. apply a_ret. constructor; auto.
Qed.

Lemma a_checked st f ok : acc st (fun v => u_ok 4 v = true /\ ok v = true) (r_checked f ok).
Proof.
  unfold r_checked. eapply a_bind; [apply a_u32|intros v Hv].
  destruct (ok v) eqn:E; [apply a_ret; auto|apply a_fail].
Qed.
Lemma a_fengine st : acc st (fun e => u_ok 2 (fe_major e) && u_ok 2 (fe_minor e)
      && u_ok 2 (fe_patch e) && u_ok 4 (fe_change e) && str_ok (fe_branch e) = true) r_fengine.
Proof. unfold r_fengine. asolve. cbn [fe_major fe_minor fe_patch fe_change fe_branch]. bsplit. Qed.
Lemma guid_distinct (l : list (guid * Z)) : distinct guid_eqb (ins_all guid_eqb l) = true.
Proof. rewrite distinct_fresh. apply fresh_ins_all. Qed.
Lemma a_header st : acc st (fun h => header_ok h = true) r_header.
Proof.
  unfold r_header. eapply a_bind; [apply a_checked|intros _ _].
  eapply a_bind; [apply a_checked|intros version _]. eapply a_bind; [apply a_checked|intros package [_ Hp]].
  eapply a_bind with (Q := fun u => match u with Some v => in_range 1000 1009 v | None => true end = true).
  { destruct (3 <=? version); [|now apply a_ret]. eapply a_bind; [apply a_checked|intros v [_ Hv]].
    now apply a_ret. }
  intros ue5 Hu. eapply a_bind; [apply a_fengine|intros engine He].
  eapply a_bind; [apply a_checked|intros format [_ Hf]].
  eapply a_bind; [apply a_u32|intros n Hn]. cbv beta in Hn.
  eapply a_bind; [apply (a_rep st (fun e => guid_ok (fst e) = true /\ u_ok 4 (snd e) = true))|].
  { now apply u_ok_nonneg in Hn. }
  { unfold r_version. asolve. auto. }
  intros l [Hl HF]. eapply a_bind; [apply a_string|intros class Hc]. apply a_ret.
  unfold header_ok. cbn [h_package h_ue5 h_engine h_format h_versions h_class].
  change (inr 517 525 package) with (in_range 517 525 package) in Hp. cbv beta in He.
  rewrite He, guid_distinct, Hp, Hu, Hf. cbn [andb].
  assert (count32 (ins_all guid_eqb l) = true) as ->.
  { unfold count32. pose proof (ins_all_len guid_eqb l). pose proof (u32_lt _ Hn). lia. }
  cbn [andb]. apply andb_true_iff; split; [|exact Hc].
  apply Forall_true. apply (ins_all_in (fun g => guid_ok g = true) (fun v => u_ok 4 v = true) guid_eqb) in HF.
  eapply Forall_impl; [|exact HF]. intros [g v] [? ?]. cbn [fst snd] in *. bsplit.
Qed.

Lemma ins_all_elim {V} (l : list (str * V)) e : In e (ins_all str_eqb l) -> In e l.
Proof.
  unfold ins_all. cut (forall acc, In e (fold_left (fun acc kv => ins str_eqb acc (fst kv) (snd kv)) l acc) ->
    In e acc \/ In e l); [intros H He; destruct (H [] He) as [[]|]; auto|].
  induction l as [|[k v] l IH]; intros acc H; cbn [fold_left] in H; [auto|].
  apply IH in H as [H|H]; [|cbn; auto]. apply ins_elim in H as [->|H]; cbn; auto.
Qed.
Lemma a_file o sep n : (forall l, distinct sep (mins_all o l) = true) ->
  acc [] (fun f => file_ok o sep f = true) (r_file n o).
Proof.
  intros Hsep. unfold r_file. eapply a_bind; [apply a_header|intros h Hh].
  eapply a_bind; [apply (a_entries _ _ _ _ _ _ Hsep)|intros l Hl]. apply a_ret.
  unfold file_ok, props_ok. cbn [fst snd]. cbv beta in Hh. rewrite Hh. cbn [andb].
  apply andb_true_iff; split; [rewrite distinct_fresh; apply fresh_ins_all|].
  apply forallb_forall. intros [k p] Hin. apply ins_all_elim in Hin.
  rewrite Forall_forall in Hl. destruct (Hl _ Hin) as (H1 & H2 & H3). cbn [fst snd] in *.
  now rewrite H1, H2, H3.
Qed.

(** What a read yields is representable. *)
Lemma load_ok o b f : load_plain o b = Ok f -> file_ok o same f = true.
Proof.
  unfold load_plain, parse. destruct (r_file _ o _) as [[g c]|] eqn:E; [|discriminate].
  intros H; injection H as <-. apply (a_file o same _ (mins_all_fresh o)) in E; [|reflexivity]. apply E.
Qed.
