(** Texts, properties and files: the reader accepts exactly the grammar, and writers stay in it. *)
From Coq Require Import ZArith List Bool String Lia ZifyBool ZifyNat.
From Verif Require Import Base Str Types Versions Text Props File Spec BaseFacts StrFacts Decode KindFacts
  DecodeProp DecodeMain DecodeAll DecodeFile RoundTrip StrThm EqFacts MapFacts CtorThm OrderThm HeaderThm
  Grammar GrammarBase GrammarText GrammarCtor GrammarProp GrammarComplete.
Import ListNotations.
Open Scope Z_scope.

Lemma iff_of {A} st (r : reader A) L b q a c :
  sound st r L -> (forall x t, b = x ++ t -> L a x -> decodes st r x a) ->
  r (Cur q b st) = Ok (a, c) <-> exists x t, b = x ++ t /\ L a x /\ c = Cur (q + len x) t st.
Proof.
  intros S D. split.
  - intros E. apply S in E as (x & t & -> & -> & H). eauto.
  - intros (x & t & -> & H & ->). now apply (D x t).
Qed.
Lemma prefix_len {A} (b x t : list A) : b = x ++ t -> len x < Z.of_nat (S (List.length b)).
Proof. intros ->. rewrite app_length. unfold len. lia. Qed.

Theorem text_iff vs st b q t c :
  r_text (S (List.length b)) vs (Cur q b st) = Ok (t, c)
  <-> exists x r, b = x ++ r /\ is_text vs t x /\ c = Cur (q + len x) r st.
Proof.
  apply iff_of; [apply so_text|]. intros x r E H. eapply de_text; [exact H|]. eapply prefix_len, E.
Qed.

Section Quiet.
Context (o : opts).
Hypothesis Q : forall p i, probe o p i = false.

Theorem prop_iff vs st ty hdr size b q p c : (forall z, size = Some z -> 0 <= z) ->
  r_prop (S (List.length b)) o vs ty hdr size (Cur q b st) = Ok (p, c)
  <-> exists x t, b = x ++ t /\ is_prop o vs st ty hdr size p x /\ c = Cur (q + len x) t st.
Proof.
  intros Hs. apply iff_of.
  - apply so_prop; [exact Q|]. destruct size; cbn; auto.
  - intros x t E H. eapply (proj1 (complete o vs)); [exact H|]. eapply prefix_len, E.
Qed.

(** Files. *)
Lemma collapsed_guid_eq {V} (l m : list (guid * V)) : collapsed guid_eqb l m <-> m = ins_all guid_eqb l.
Proof.
  assert (C : collapsed guid_eqb l (ins_all guid_eqb l))
    by (apply ins_all_collapsed; [apply guid_eqb_refl|apply guid_sy|apply guid_tr]).
  split; [|intros ->; exact C]. intros H. exact (collapsed_unique guid_eqb _ _ _ H C).
Qed.
Lemma so_header st : sound st r_header
  (fun h x => exists l, header_coded h l x /\ collapsed guid_eqb l (h_versions h)).
Proof.
  intros q b h c E. apply header_iff in E as (l & x & t & -> & H & V & ->).
  exists x, t. split; [reflexivity|]. split; [reflexivity|]. exists l. split; [exact H|]. now apply collapsed_guid_eq.
Qed.
Lemma de_header st h l x : header_coded h l x -> collapsed guid_eqb l (h_versions h) -> decodes st r_header x h.
Proof.
  intros H C q t. apply header_iff. exists l, x, t. apply collapsed_guid_eq in C. auto.
Qed.
Lemma so_named n m vs : sound [] (r_entries n m o vs)
  (fun l b => exists x y, b = x ++ y /\ is_fields o vs [] l x /\ text_of (s2z "None") y).
Proof.
  induction n as [|n IH]; cbn [r_entries]; [apply so_fail|].
  eapply so_bind; [apply so_string|]. intros name x Hx. destruct (name_cases name) as [[-> E]|[-> E]].
  - subst name. apply so_ret. rewrite app_nil_r. exists [], x. split; [reflexivity|]. split; [constructor|exact Hx].
  - eapply so_bind; [apply so_string|]. intros ty y Hy.
    eapply so_bind; [apply so_scoped, so_prop; [exact Q|exact I]|]. intros p z Hz.
    eapply so_last; [apply IH|]. intros l w (w1 & w2 & -> & Hl & Hn).
    exists (x ++ y ++ z ++ w1), w2. rewrite <- !app_assoc. split; [reflexivity|]. split; [|exact Hn].
    econstructor; eauto.
Qed.
Lemma so_file n : sound [] (r_file n o) (fun f => is_file o (fst f) (snd f)).
Proof.
  unfold r_file. eapply so_bind; [apply so_header|]. intros h x (vl & Hh & Hv).
  eapply so_last; [apply so_named|]. intros l b (y & z & -> & Hl & Hz). cbn [fst snd].
  exists vl, l, x, y, z. split; [reflexivity|]. repeat (split; [assumption|]). apply collapsed_str.
Qed.
Lemma de_file n h ps b : is_file o h ps b -> len b < Z.of_nat n -> decodes [] (r_file n o) b (h, ps).
Proof.
  clear Q. intros (vl & l & x & y & z & -> & Hh & Hv & Hl & Hz & Hc) L. rewrite !len_app in L.
  pose proof (len_nonneg x). pose proof (len_nonneg z). apply collapsed_str_eq in Hc. subst ps.
  unfold r_file. eapply dec_bind; [eapply de_header; eassumption|].
  eapply dec_bind_last with (a := l); [|apply dec_ret].
  destruct (complete o (h_versions h)) as (_ & _ & _ & _ & _ & C). apply C in Hl as [Ln Hl].
  intros q t. rewrite <- app_assoc, len_app, Z.add_assoc. apply named_entries; [apply Hl; [lia|exact Hz]|].
  unfold len in *. lia.
Qed.
Theorem derived_reads h ps x t : is_file o h ps x -> parse o (x ++ t) = Ok ((h, ps), Cur (len x) t []).
Proof.
  clear Q. intros H. exact (de_file (S (List.length (x ++ t))) h ps x H (prefix_len _ _ _ eq_refl) 0 t).
Qed.
Theorem file_iff b h ps c : parse o b = Ok ((h, ps), c)
  <-> exists x t, b = x ++ t /\ is_file o h ps x /\ c = Cur (len x) t [].
Proof.
  apply (iff_of [] (r_file (S (List.length b)) o) (fun f => is_file o (fst f) (snd f)) b 0 (h, ps) c).
  - apply so_file.
  - intros x t E H. apply de_file; [exact H|]. eapply prefix_len, E.
Qed.

(** No two derivations start alike. *)
Theorem prop_unambiguous vs st ty hdr size p p' x x' t t' :
  is_prop o vs st ty hdr size p x -> is_prop o vs st ty hdr size p' x' -> x ++ t = x' ++ t' ->
  p = p' /\ x = x' /\ t = t'.
Proof.
  clear Q. intros H H' E. set (n := S (List.length (x ++ t))).
  pose proof (proj1 (complete o vs) _ _ _ _ _ _ H n (prefix_len _ _ _ eq_refl) 0 t) as D.
  pose proof (proj1 (complete o vs) _ _ _ _ _ _ H' n (prefix_len _ _ _ E) 0 t') as D'.
  rewrite E in D. rewrite D' in D. injection D as -> L ->.
  split; [reflexivity|]. split; [|reflexivity]. now apply app_inv_tail in E.
Qed.
Theorem file_unambiguous h h' ps ps' x x' t t' :
  is_file o h ps x -> is_file o h' ps' x' -> x ++ t = x' ++ t' -> h = h' /\ ps = ps' /\ x = x' /\ t = t'.
Proof.
  clear Q. intros H H' E. set (n := S (List.length (x ++ t))).
  pose proof (de_file n _ _ _ H (prefix_len _ _ _ eq_refl) 0 t) as D.
  pose proof (de_file n _ _ _ H' (prefix_len _ _ _ E) 0 t') as D'.
  rewrite E in D. rewrite D' in D. injection D as -> -> L ->.
  repeat (split; [reflexivity|]). split; [|reflexivity]. now apply app_inv_tail in E.
Qed.

(** Writers stay in the grammar. *)
Lemma str_text s : str_ok s = true -> text_of s (str_bytes s).
Proof.
  intros H. pose proof (dec_string [] s H 0 []) as D. apply so_string in D as (x & t & E & C & T).
  assert (t = []) as -> by congruence. rewrite !app_nil_r in E. now rewrite E.
Qed.
Lemma type_ok vs path p : wf_prop o vs same true path p = true -> str_ok (type_of p) = true.
Proof.
  intros Hw. destruct p as [k0 ?| | | | | | | | |inl ?| | | | | | |]; try reflexivity.
  - destruct k0; reflexivity. - destruct inl; reflexivity.
  - cbn [wf_prop] in Hw. andbs. auto.
Qed.
Theorem prop_written vs path p b q : wf_prop o vs same true path p = true -> w_prop vs true p = Ok (b, q) ->
  len b < 4294967295 ->
  exists x y, b = x ++ y /\ text_of (type_of p) x /\ is_prop o vs path (type_of p) true None p y.
Proof.
  intros W E L. set (n := S (List.length b)). assert (Hn : Z.of_nat n = 1 + len b) by (unfold n, len; lia).
  destruct (proj1 (all_good o vs same (fun k k' => apart_same o k k' Q) n ltac:(lia)) _ _ _ _ W E ltac:(lia)) as (y & -> & D).
  exists (str_bytes (type_of p)), y. split; [reflexivity|]. split; [eapply str_text, type_ok, W|].
  specialize (D 0 []). apply so_prop in D as (x & t & E' & C & H); [|exact Q|exact I].
  assert (t = []) as -> by congruence. rewrite !app_nil_r in E'. now rewrite E'.
Qed.
Theorem file_written f b : file_ok o same f = true -> save_plain f = Ok b -> len b < 4294967296 ->
  exists x, b = x ++ u4 0 /\ is_file o (fst f) (snd f) x.
Proof.
  unfold save_plain. destruct (w_file f) as [[b' q]|] eqn:E; [|discriminate].
  intros H X L. injection X as ->.
  pose proof (parse_written o same (fun k k' => apart_same o k k' Q) f b q [] H E L) as P.
  rewrite !app_nil_r in P. destruct f as [h ps]. apply file_iff in P as (x & t & -> & F & C).
  exists x. split; [|exact F]. f_equal. unfold u4. congruence.
Qed.
(** Loading succeeds exactly on the files of the grammar, whatever follows them. *)
Theorem load_grammar b h ps :
  load_plain o b = Ok (h, ps) <-> exists x t, b = x ++ t /\ is_file o h ps x.
Proof.
  unfold load_plain. split.
  - destruct (parse o b) as [[f c]|] eqn:E; [|discriminate]. intros X. injection X as ->.
    apply file_iff in E as (x & t & -> & H & _). eauto.
  - intros (x & t & -> & H). assert (P : parse o (x ++ t) = Ok ((h, ps), Cur (len x) t [])) by (apply file_iff; eauto).
    now rewrite P.
Qed.
End Quiet.

(** Integers are stored little endian. *)
Lemma little_endian w : forall z i, (i < w)%nat ->
  b2z (nth i (le_bytes w z) Byte.x00) = z / 256 ^ Z.of_nat i mod 256.
Proof.
  induction w as [|w IH]; intros z [|i] H; try lia; cbn [le_bytes nth].
  - rewrite b2z_z2b. change (256 ^ Z.of_nat 0) with 1. now rewrite Z.div_1_r.
  - rewrite IH by lia. rewrite Nat2Z.inj_succ, Z.pow_succ_r by lia. now rewrite Z.div_div by lia.
Qed.
