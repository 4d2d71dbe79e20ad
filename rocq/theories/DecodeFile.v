(** Reading back what a writer emits: headers and files. *)
From Coq Require Import ZArith List Bool String Lia ZifyBool ZifyNat.
From Verif Require Import Base Str Types Versions Text Props File Spec BaseFacts StrFacts Decode KindFacts
  DecodeProp DecodeMain DecodeAll ReaderFacts Sane Rel Prim ReadThm.
Import ListNotations.
Open Scope Z_scope.

Lemma e_checked M st f ok v : u_ok 4 v = true -> ok v = true ->
  enc M 4 st (w_u32 v) (r_checked f ok) v.
Proof.
  intros Hu Ho. unfold r_checked. eapply e_last; [now apply e_u32|]. rewrite Ho. apply dec_ret.
Qed.
Lemma e_u16 M st z : u_ok 2 z = true -> enc M 2 st (w_int 2 z) r_u16 z.
Proof. apply e_uint. lia. Qed.
Lemma e_fengine M st e :
  u_ok 2 (fe_major e) = true -> u_ok 2 (fe_minor e) = true -> u_ok 2 (fe_patch e) = true ->
  u_ok 4 (fe_change e) = true -> str_ok (fe_branch e) = true ->
  enc M 15 st (w_fengine e) r_fengine e.
Proof.
  intros. unfold w_fengine, r_fengine.
  eapply e_seq; [now apply e_u16|]. eapply e_seq; [now apply e_u16|].
  eapply e_seq; [now apply e_u16|]. eapply e_seq; [now apply e_u32|].
  eapply e_last; [eapply e_weaken; [now apply e_string|apply Z.le_refl|lia]|].
  destruct e. apply dec_ret.
Qed.
Lemma in_range_u32 a b z : 0 <= a -> b < 4294967296 -> in_range a b z = true -> u_ok 4 z = true.
Proof. unfold in_range. rewrite andb_true_iff, !Z.leb_le. intros. apply u32_ok. lia. Qed.

Lemma e_header M st h : header_ok h = true -> enc M 0 st (w_header h) r_header h.
Proof.
  unfold header_ok. intros H. andbs. unfold w_header, r_header.
  eapply (e_seq _ _ 4); [now apply e_checked|].
  assert (Hf : h_format h = 3) by (now apply Z.eqb_eq).
  eapply (e_seq _ _ 4); [apply e_checked with (v := match h_ue5 h with None => 2 | Some _ => 3 end);
    destruct (h_ue5 h); reflexivity|].
  eapply (e_seq _ _ 4); [apply e_checked; [eapply in_range_u32 with (a := 0x205) (b := 0x20D); eauto; lia|assumption]|].
  eapply (e_seq _ _ 0 st _ _ _ _ (h_ue5 h)).
  { destruct (h_ue5 h) as [v|].
    - change (3 <=? 3) with true. cbv iota.
      eapply e_last; [|apply dec_ret]. eapply e_weaken; [apply e_checked|apply Z.le_refl|lia].
      + eapply in_range_u32 with (a := 1000) (b := 1009); eauto; lia.
      + assumption.
    - change (3 <=? 2) with false. cbv iota. apply e_ret. lia. }
  eapply e_seq; [apply e_fengine; auto|].
  eapply (e_seq _ _ 4); [apply e_checked; rewrite Hf; reflexivity|].
  eapply e_seq; [now apply e_u32, count32_u|].
  eapply e_seq.
  - apply e_rep. intros [g v] Hin.
    match goal with H : forallb _ (h_versions h) = true |- _ => rewrite forallb_forall in H; apply H in Hin end.
    andbs. unfold w_version, r_version. cbn [fst snd].
    eapply e_weaken; [eapply (e_seq _ 20); [now apply e_guid|]|apply Z.le_refl|lia].
    eapply e_last; [eapply e_weaken; [now apply e_u32|apply Z.le_refl|lia]|apply dec_ret].
  - eapply e_last; [eapply e_weaken; [now apply e_string|apply Z.le_refl|lia]|].
    rewrite ins_all_fresh by auto. destruct h; apply dec_ret.
Qed.

Lemma w_header_ok h : exists b q, w_header h = Ok (b, q).
Proof.
  unfold w_header, w_fengine, w_u32, w_int, w_string, emit.
  assert (S : exists x n, seqs w_version (h_versions h) = Ok (x, n)).
  { induction (h_versions h) as [|[g v] l IH]; cbn [seqs]; [exists [], 0; reflexivity|].
    destruct IH as (x & n & ->). cbn. eauto. }
  destruct S as (x & n & ->). destruct (h_ue5 h); cbn [seq skip emit]; eauto.
Qed.

Section Files.
Context (o : opts) (sep : property -> property -> bool).
Hypothesis Hsep : forall k k', sep k k' = false -> apart o k k'.

Lemma d_props vs l : forall m n bs q,
  Z.of_nat n <= 4294967296 ->
  forallb (fun '(name, p) => str_ok name && negb (str_eqb name (s2z "None"))
                             && wf_prop o vs sep true [name] p) l = true ->
  seqs (fun '(name, p) => w_string name +> w_prop vs true p) l = Ok (bs, q) ->
  len bs < Z.of_nat m -> len bs < Z.of_nat n ->
  decodes [] (r_entries m n o vs) (bs ++ str_bytes s_none) l.
Proof.
  induction l as [|[k p] l IH]; intros m n bs q Hn HF E Lm Ln.
  - cbn [seqs] in E. injection E as <- <-. cbn [app].
    destruct m as [|m]; [rewrite len_nil in Lm; lia|]. cbn [r_entries].
    eapply dec_bind_last; [now apply dec_string|]. cbv beta.
    replace (str_eqb s_none s_none) with true by reflexivity. apply dec_ret.
  - cbn [seqs] in E. apply seq_ok in E as (y & m1 & y2 & m2 & E1 & E2 & -> & ->).
    apply seq_ok in E1 as (y0 & m0 & y1 & m3 & E0 & E1 & -> & ->).
    unfold w_string, emit in E0. injection E0 as <- <-.
    cbn [forallb] in HF. andbs.
    match goal with H : negb _ = true |- _ => apply negb_true_iff in H; rename H into Hnn end.
    rewrite !len_app in *. pose proof (len_str_bytes k). pose proof (len_nonneg y1).
    pose proof (len_nonneg y2).
    destruct m as [|m]; [lia|]. cbn [r_entries].
    match goal with H : wf_prop _ _ _ _ _ _ = true |- _ => rename H into Hw end.
    destruct (proj1 (all_good o vs sep Hsep n Hn) _ _ _ _ Hw E1 ltac:(lia)) as (b & -> & D).
    rewrite <- !app_assoc. eapply dec_bind; [now apply dec_string|]. cbv beta.
    fold s_none in Hnn. rewrite Hnn.
    assert (Ht : str_ok (type_of p) = true).
    { destruct p as [k0 ?| | | | | | | | |inl ?| | | | | | |]; try reflexivity.
      - destruct k0; reflexivity. - destruct inl; reflexivity.
      - cbn [wf_prop] in Hw. andbs. auto. }
    eapply dec_bind; [now apply dec_string|].
    eapply dec_bind; [apply dec_scoped; exact D|]. cbv beta.
    eapply dec_bind_last; [|apply dec_ret]. eapply IH; eauto; lia.
Qed.

(** With or without repeated names. *)
Theorem parse_entries h l b q t : header_ok h = true ->
  forallb (fun '(name, p) => str_ok name && negb (str_eqb name (s2z "None"))
                             && wf_prop o (h_versions h) sep true [name] p) l = true ->
  w_file (h, l) = Ok (b, q) -> len b < 4294967296 ->
  parse o (b ++ t) = Ok ((h, ins_all str_eqb l), Cur (len b - 4) (le_bytes 4 0 ++ t) []).
Proof.
  intros Hh Hf E L. unfold w_file in E. cbn [fst snd] in E.
  apply seq_ok in E as (bh & m1 & y & m2 & Eh & E & -> & ->).
  apply seq_ok in E as (bp & m3 & y2 & m4 & Ep & E & -> & ->).
  apply seq_ok in E as (y3 & m5 & y4 & m6 & E3 & E4 & -> & ->).
  assert (y3 = str_bytes s_none) as -> by (unfold w_string, emit in E3; congruence).
  assert (y4 = le_bytes 4 0) as ->.
  { change (Ok (le_bytes 4 0, 4) = Ok (y4, m6)) in E4. congruence. }
  rewrite !len_app, len_le_bytes in *.
  pose proof (len_nonneg bh). pose proof (len_nonneg bp). pose proof (len_str_bytes s_none).
  set (B := bh ++ bp ++ str_bytes s_none ++ le_bytes 4 0) in *.
  assert (LB : len B = len bh + (len bp + (len (str_bytes s_none) + Z.of_nat 4)))
    by (unfold B; rewrite !len_app, len_le_bytes; lia).
  set (n := S (List.length B)). assert (Hn : Z.of_nat n = 1 + len B) by (unfold n, len; lia).
  assert (D : decodes [] (r_file n o) (bh ++ (bp ++ str_bytes s_none)) (h, ins_all str_eqb l)).
  { unfold r_file. eapply dec_bind.
    - eapply enc_dec with (M := 1 + len bh); [apply (e_header _ []); eassumption|exact Eh|lia].
    - eapply dec_bind_last; [eapply d_props; eauto; lia|]. apply dec_ret. }
  assert (P : parse o B = Ok (h, ins_all str_eqb l, Cur (len B - 4) (le_bytes 4 0) [])).
  { unfold parse. fold n. specialize (D 0 (le_bytes 4 0)).
    rewrite <- !app_assoc in D. fold B in D. rewrite D. do 3 f_equal.
    rewrite !len_app, LB. lia. }
  pose proof (parse_extend o B t) as X. rewrite P in X. specialize (X ltac:(discriminate)).
  rewrite X. unfold ext. cbn [pos rest stk]. do 3 f_equal. lia.
Qed.
Theorem parse_written f b q t : file_ok o sep f = true -> w_file f = Ok (b, q) ->
  len b < 4294967296 ->
  parse o (b ++ t) = Ok (f, Cur (len b - 4) (le_bytes 4 0 ++ t) []).
Proof.
  intros Hf E L. destruct f as [h l]. unfold file_ok, props_ok in Hf. cbn [fst snd] in *. andbs.
  rewrite (parse_entries h l b q t) by assumption. now rewrite ins_all_fresh by auto.
Qed.
Theorem load_written f b t : file_ok o sep f = true -> save_plain f = Ok b ->
  len b < 4294967296 -> load_plain o (b ++ t) = Ok f.
Proof.
  unfold save_plain. destruct (w_file f) as [[b' q]|] eqn:E; [|discriminate].
  intros H X L. injection X as ->. unfold load_plain. now rewrite (parse_written f b q t H E L).
Qed.
End Files.
