(** Canonical form, files: the files a load and a save leave as they are. *)
From Coq Require Import ZArith List Bool String Lia ZifyBool ZifyNat.
From Verif Require Import Base Str Types Versions Text Props File Spec BaseFacts StrFacts Decode KindFacts
  DecodeProp DecodeMain DecodeAll DecodeFile RoundTrip Accept AcceptProp AcceptAll AcceptFile StrThm EqFacts MapFacts CtorThm OrderThm HeaderThm
  Grammar GrammarBase GrammarText GrammarCtor GrammarProp GrammarComplete GrammarFile Tidy TidyText TidyProp TidyBack.
Import ListNotations.
Open Scope Z_scope.

Lemma entries_iff l b : writes (seqs w_version l) b <-> b = entries_bytes l.
Proof.
  revert b. induction l as [|[g v] l IH]; intros b.
  - split; [intros H; now apply wr_seqs_nil in H|intros ->; now exists 0].
  - split.
    + intros H. apply wr_seqs_cons in H as (x & y & -> & H1 & H2). apply IH in H2. subst y.
      unfold w_version, w_guid, w_u32 in H1. cbn [fst snd] in H1. wr_split. reflexivity.
    + intros ->. cbn [entries_bytes flat_map]. fold (entries_bytes l). change (seqs w_version ((g, v) :: l)) with (w_version (g, v) +> seqs w_version l).
      apply wr_seq; [|now apply IH]. unfold w_version, w_guid, w_u32, entry_bytes. cbn [fst snd].
      apply wr_seq; [apply wr_emit|apply wr_int].
Qed.
Lemma wr_engine v e : tidy_engine v e -> writes (w_fengine v) e.
Proof. intros (s & Hs & -> & _). unfold w_fengine. repeat (apply wr_seq; [apply wr_int|]). now apply wr_string. Qed.
Lemma engine_tidy v e : u_ok 2 (fe_major v) = true -> u_ok 2 (fe_minor v) = true -> u_ok 2 (fe_patch v) = true ->
  u_ok 4 (fe_change v) = true -> str_ok (fe_branch v) = true -> writes (w_fengine v) e -> tidy_engine v e.
Proof.
  intros. unfold w_fengine in *. wr_split. eexists. split; [eassumption|]. split; [reflexivity|].
  unfold u_ok, in_range in *. change (2 ^ (8 * 2)) with 65536 in *. change (2 ^ (8 * 4)) with 4294967296 in *. lia.
Qed.
Lemma wr_header h b : tidy_header h b -> writes (w_header h) b.
Proof.
  intros (e & c & -> & Hp & Hu & He & Hc & Hf & _). unfold w_header, w_u32, opening. rewrite Hf.
  assert (T : writes (w_fengine (h_engine h) +> w_int 4 3 +> w_int 4 (len (h_versions h)) +> seqs w_version (h_versions h) +> w_string (h_class h))
    (e ++ u4 3 ++ u4 (len (h_versions h)) ++ entries_bytes (h_versions h) ++ c)).
  { apply wr_seq; [now apply wr_engine|]. repeat (apply wr_seq; [apply wr_int|]).
    apply wr_seq; [now apply entries_iff|now apply wr_string]. }
  destruct (h_ue5 h) as [v|].
  - rewrite <- !app_assoc. repeat (apply wr_seq; [apply wr_int|]). exact T.
  - rewrite <- !app_assoc. repeat (apply wr_seq; [apply wr_int|]). exact (wr_seq _ _ _ _ wr_skip T).
Qed.
Lemma tidy_header_ok h b : tidy_header h b -> header_ok h = true.
Proof.
  intros (e & c & -> & Hp & Hu & (s & Hs & -> & H1 & H2 & H3 & H4) & Hc & Hf & Hl & He & Hd).
  apply tidy_line in Hs as [Ks _]. apply tidy_line in Hc as [Kc _].
  unfold header_ok. rewrite Ks, Kc, Hd, Hf. unfold u_ok, in_range, count32.
  change (2 ^ (8 * 2)) with 65536. change (2 ^ (8 * 4)) with 4294967296.
  assert (U : match h_ue5 h with Some v => (1000 <=? v) && (v <=? 1009) | None => true end = true)
    by (destruct (h_ue5 h) as [v|]; [specialize (Hu v eq_refl); lia|reflexivity]).
  rewrite U. match goal with |- context [forallb ?f (h_versions h)] => assert (F : forallb f (h_versions h) = true) end.
  { apply forallb_forall. intros [g v] Hin. rewrite Forall_forall in He. destruct (He _ Hin) as [Hg Hv]. cbn [fst snd] in *.
    unfold guid_ok. lia. }
  rewrite F. lia.
Qed.
Lemma header_tidy h b : header_ok h = true -> writes (w_header h) b -> tidy_header h b.
Proof.
  intros H W. unfold header_ok in H. andbs. unfold w_header, w_u32 in W.
  assert (HF : h_format h = 3) by lia. rewrite HF in W.
  assert (X : exists y, b = opening h ++ y /\ writes (w_fengine (h_engine h) +> w_int 4 3 +> w_int 4 (len (h_versions h)) +> seqs w_version (h_versions h) +> w_string (h_class h)) y).
  { unfold opening. destruct (h_ue5 h) as [v|];
      repeat match goal with W : writes (w_fengine _ +> _) _ |- _ => fail 1 | W : writes (_ +> _) _ |- _ => apply wr_seq_iff in W as (? & ? & -> & ? & ?) end;
      repeat match goal with W : writes (w_int _ _) _ |- _ => apply wr_int_iff in W; subst | W : writes skip _ |- _ => apply wr_skip_iff in W; subst end;
      (eexists; split; [|eassumption]); rewrite <- !app_assoc; reflexivity. }
  destruct X as (y & -> & W').
  apply wr_seq_iff in W' as (e & y1 & -> & W1 & W2). apply wr_seq_iff in W2 as (x2 & y2 & -> & W2 & W3).
  apply wr_seq_iff in W3 as (x3 & y3 & -> & W3 & W4). apply wr_seq_iff in W4 as (x4 & c & -> & W4 & W5).
  apply wr_int_iff in W2. apply wr_int_iff in W3. apply entries_iff in W4. subst x2 x3 x4.
  exists e, c. split; [reflexivity|]. split; [unfold in_range in *; lia|]. split.
  { intros v Hv. rewrite Hv in *. unfold in_range in *. lia. }
  split; [now apply engine_tidy|]. split; [now apply wr_string_iff|]. split; [exact HF|].
  split; [unfold count32 in *; lia|]. split; [|assumption].
  apply Forall_forall. intros [g v] Hin. match goal with H : forallb _ (h_versions h) = true |- _ => rewrite forallb_forall in H; apply H in Hin end.
  andbs. split; cbn [fst snd]; [now apply guid_in|now apply u4_in].
Qed.

Lemma tidy_file_in o h ps b : tidy_file o h ps b -> is_file o h ps b.
Proof.
  intros (x & y & z & -> & Hh & Hf & Hz & Hd).
  pose proof (tidy_header_ok _ _ Hh) as Ok_. pose proof (wr_header _ _ Hh) as [n W].
  destruct (e_header (len x + 1) [] h Ok_ x n W ltac:(lia)) as [_ D].
  specialize (D 0 []). rewrite app_nil_r in D. apply so_header in D as (x' & t & E & C & l & Hc & Hv).
  assert (t = []) as -> by congruence. rewrite app_nil_r in E. subst x'.
  exists l, ps, x, y, z. split; [reflexivity|]. split; [exact Hc|]. split; [exact Hv|].
  split; [now apply (tidy_in o (h_versions h))|]. split; [now apply tidy_text_of|]. now apply distinct_fresh.
Qed.
Lemma tidy_file_saves o f x : tidy_file o (fst f) (snd f) x -> save_plain f = Ok (x ++ u4 0).
Proof.
  intros (a & y & z & -> & Hh & Hf & Hz & _).
  assert (W : writes (w_file f) ((a ++ y ++ z) ++ u4 0)).
  { unfold w_file. rewrite <- !app_assoc. apply wr_seq; [now apply wr_header|].
    destruct (tidy_writes o (h_versions (fst f))) as (_ & _ & _ & _ & _ & T). apply wr_seq; [exact (T _ _ _ Hf)|]. apply wr_seq; [now apply wr_string|]. apply wr_int. }
  destruct W as [n W]. unfold save_plain. now rewrite W.
Qed.
Lemma saved_tidy o sep f b : (forall k k', sep k k' = false -> apart o k k') -> (forall p i, probe o p i = false) ->
  file_ok o sep f = true -> save_plain f = Ok b ->
  len b < 4294967296 -> exists x, b = x ++ u4 0 /\ tidy_file o (fst f) (snd f) x.
Proof.
  intros Hsep Q H S L. unfold save_plain in S. destruct (w_file f) as [[b' n]|] eqn:E; [|discriminate]. injection S as ->.
  assert (W : writes (w_file f) b) by now exists n. unfold w_file in W.
  apply wr_seq_iff in W as (a & w & -> & W1 & W2). apply wr_seq_iff in W2 as (y & w' & -> & W2 & W3).
  apply wr_seq_iff in W3 as (z & w'' & -> & W3 & W4). apply wr_int_iff in W4. subst w''.
  unfold file_ok, props_ok in H. andbs.
  match goal with H : forallb _ (snd f) = true |- _ => rename H into HF end. rewrite forallb_forall in HF.
  rewrite !len_app in L. pose proof (len_nonneg a). pose proof (len_nonneg y). pose proof (len_nonneg z).
  pose proof (len_nonneg (le_bytes (Z.to_nat 4) 0)).
  exists (a ++ y ++ z). split; [now rewrite <- !app_assoc|]. exists a, y, z. split; [reflexivity|].
  split; [now apply header_tidy|]. split; [|split; [now apply wr_string_iff|assumption]].
  apply (fields_tidy o (h_versions (fst f)) sep Hsep); [| |exact W2|lia].
  - apply Forall_forall. intros e _. apply (back o _ sep Hsep Q).
  - apply Forall_forall. intros [k p] Hin. apply HF in Hin. andbs. cbn [fst snd]. repeat split; auto. now apply negb_true_iff.
Qed.

(** ** Statements *)
Theorem exact_back o f x : tidy_file o (fst f) (snd f) x ->
  load_plain o (x ++ u4 0) = Ok f /\ save_plain f = Ok (x ++ u4 0).
Proof.
  intros H. split; [|now apply (tidy_file_saves o)]. apply tidy_file_in in H. unfold load_plain.
  rewrite (derived_reads o _ _ x (u4 0) H). now destruct f.
Qed.
Theorem exact_iff o f b : (forall p i, probe o p i = false) -> len b < 4294967296 ->
  (load_plain o b = Ok f /\ save_plain f = Ok b) <-> (exists x, b = x ++ u4 0 /\ tidy_file o (fst f) (snd f) x).
Proof.
  intros Q L. split.
  - intros [H S]. apply load_ok in H. exact (saved_tidy o same f b (fun k k' => apart_same o k k' Q) Q H S L).
  - intros (x & -> & H). now apply exact_back.
Qed.
Theorem resaved_tidy o f b b' : (forall p i, probe o p i = false) ->
  load_plain o b = Ok f -> save_plain f = Ok b' -> len b' < 4294967296 ->
  exists x, b' = x ++ u4 0 /\ tidy_file o (fst f) (snd f) x.
Proof. intros Q H S L. apply load_ok in H. exact (saved_tidy o same f b' (fun k k' => apart_same o k k' Q) Q H S L). Qed.
Theorem tidy_unique o o' f x x' : tidy_file o (fst f) (snd f) x -> tidy_file o' (fst f) (snd f) x' -> x = x'.
Proof.
  intros H H'. apply tidy_file_saves in H. apply tidy_file_saves in H'. rewrite H in H'. injection H' as E.
  now apply app_inv_tail in E.
Qed.
(** One string, text or property on its own. *)
Theorem string_exact s b :
  (r_fstring (Cur 0 b []) = Ok (s, Cur (len b) [] []) /\ writes (w_fstring s) b) <-> tidy_str s b.
Proof.
  split.
  - intros [R W]. apply (a_fstring []) in R as [_ R]; [|reflexivity]. now apply wr_fstring_iff.
  - intros H. split; [|now apply wr_fstring]. pose proof (de_fstring [] s b (tidy_stored s b H) 0 []) as D.
    now rewrite app_nil_r in D.
Qed.
Theorem text_exact vs t b :
  (r_text (S (List.length b)) vs (Cur 0 b []) = Ok (t, Cur (len b) [] []) /\ writes (w_text vs t) b) <-> tidy_text vs t b.
Proof.
  split.
  - intros [R W]. apply (Accept.a_text vs _ []) in R as [_ R]; [|reflexivity]. now apply (text_tidy vs).
  - intros H. split; [|now apply (wr_text vs)]. apply text_iff. exists b, []. rewrite app_nil_r.
    split; [reflexivity|]. split; [now apply (tidy_in_text vs)|reflexivity].
Qed.
Theorem prop_exact o vs path ty p y : (forall q i, probe o q i = false) -> str_ok ty = true ->
  len (str_bytes ty ++ y) < 4294967296 ->
  (r_prop (S (List.length y)) o vs ty true None (Cur 0 y path) = Ok (p, Cur (len y) [] path)
   /\ writes (w_prop vs true p) (str_bytes ty ++ y))
  <-> tidy_prop o vs path ty true None p y.
Proof.
  intros Q Hty L. split.
  - intros [R W]. apply (a_prop o vs same (mins_all_fresh o) _ path) in R as [_ (E & Wf & _)]; auto; [|exact I].
    destruct (proj1 (back o vs same (fun k k' => apart_same o k k' Q) Q) p) as [_ B].
    destruct (B path None _ Wf W L) as (y' & Ey & T). rewrite E in T. rewrite E in Ey. apply app_inv_head in Ey. now subst y'.
  - intros H. pose proof (proj1 (tidy_writes o vs) _ _ _ _ _ _ H) as [E W]. split; [|exact W].
    apply prop_iff; [exact Q|discriminate|]. exists y, []. rewrite app_nil_r. split; [reflexivity|].
    split; [now apply (tidy_in o vs)|reflexivity].
Qed.
