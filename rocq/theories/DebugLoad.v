(** Whatever its size, a file that was loaded is saved alike by both builds: its texts are
    short. *)
From Coq Require Import ZArith List Bool String Lia ZifyBool ZifyNat.
From Verif Require Import Base Str Types Versions Text Props File DebugSave Spec BaseFacts StrFacts ReaderFacts Decode Induct
  EqFacts StrThm ReadThm SizeThm AcceptFile DebugSaveThm.
Import ListNotations.
Open Scope Z_scope.

Section Short.
Variable site : psite.
Notation ds := (debug_string site).
Lemma short_string s : str_ok s = true -> ds s = w_string s.
Proof.
  intros H. apply debug_string_same. intros [_ L]. rewrite utf16_units in L.
  unfold str_ok in H. apply andb_true_iff in H. destruct H as [_ H].
  assert (0 <= units s) by (rewrite <- utf16_units; apply len_nonneg).
  rewrite Z.mod_small in L by lia. lia.
Qed.
Lemma short_ostring o : ostr_ok o = true -> dw_fstring ds o = w_fstring o.
Proof. destruct o; [apply short_string|reflexivity]. Qed.
Lemma eq_seq a a' b b' : a = a' -> b = b' -> a +> b = a' +> b'.
Proof. now intros -> ->. Qed.
Lemma eq_seqs {A} (f g : A -> out) l : Forall (fun x => f x = g x) l -> seqs f l = seqs g l.
Proof. induction 1; cbn [seqs]; [reflexivity|now apply eq_seq]. Qed.
Lemma eq_seqs_if {A} (f g : A -> out) (q : A -> bool) l :
  forallb q l = true -> (forall x, q x = true -> f x = g x) -> seqs f l = seqs g l.
Proof. intros Q H. apply eq_seqs, Forall_forall. intros x I. apply H. revert Q. rewrite forallb_forall. auto. Qed.
Ltac eqs :=
  repeat first [reflexivity | apply short_string; assumption | apply short_ostring; assumption
               | apply eq_seq | solve [auto]].
Ltac use := cbn beta in *; match goal with H : _ |- _ => eapply H; eassumption end.
Lemma short_texts vs :
  (forall t, text_ok vs t = true -> dw_text ds vs t = w_text vs t)
  /\ (forall h, hist_ok vs h = true -> dw_hist ds vs h = w_hist vs h)
  /\ (forall a, arg_ok vs a = true -> dw_farg ds vs a = w_farg vs a).
Proof.
  apply text_all; intros; cbn [dw_text dw_hist dw_farg w_text w_hist w_farg];
    cbn [text_ok hist_ok arg_ok] in *; andbs; eqs.
  - destruct (has_culture vs); eqs.
  - apply eq_seqs. eapply Forall_and_in; [eassumption|eassumption|]. intros [k v] ? ?. andbs. eqs.
  - apply eq_seqs. eapply Forall_and_in; [eassumption|eassumption|]. auto.
  - apply eq_seqs. eapply Forall_and_in; [eassumption|eassumption|]. intros [k v] ? ?. andbs. eqs.
Qed.
Lemma short_header hdr name c idx e e' b b' : ds name = w_string name -> (hdr = true -> e = e') -> b = b' ->
  dwith_header ds hdr name c idx e b = with_header hdr name c idx e' b'.
Proof.
  intros N E ->. unfold dwith_header, with_header. destruct hdr; [|reflexivity]. rewrite E, N by reflexivity.
  destruct c; reflexivity.
Qed.
Lemma kind_short k : ds (kind_name k) = w_string (kind_name k).
Proof. destruct k; try match goal with x : _ |- _ => destruct x end; reflexivity. Qed.
Lemma num_short k : ds (num_name k) = w_string (num_name k).
Proof. destruct k; reflexivity. Qed.
Lemma key_short kk k : str_ok k = true -> dw_key ds kk k = w_key kk k.
Proof. intros H. destruct kk; cbn [dw_key w_key]; [now apply short_string|now apply short_string|now apply short_string]. Qed.
Lemma keyk_short kk : ds (keyk_name kk) = w_string (keyk_name kk).
Proof. destruct kk; reflexivity. Qed.
Lemma array_short o vs sep path a : wf_array o vs sep path a = true ->
  ds (array_type a) = w_string (array_type a).
Proof. destruct a; cbn [wf_array array_type]; intros; andbs; try reflexivity; now apply short_string. Qed.
Lemma map_short o vs sep path m : wf_map o vs sep path m = true ->
  ds (map_key_type m) = w_string (map_key_type m) /\ ds (map_value_type m) = w_string (map_value_type m).
Proof.
  destruct m; cbn [wf_map map_key_type map_value_type]; intros; andbs; split;
    first [apply keyk_short | reflexivity | now apply short_string].
Qed.
Lemma short_bytev v : bytev_ok v = true -> dw_bytev ds v = w_bytev v.
Proof. destruct v; [reflexivity|apply short_string]. Qed.
Lemma short_buffer (d a : out) (k k' : list byte -> Z -> out) : d = a -> (forall b n, k b n = k' b n) ->
  match d with Ok (b, n) => k b n | Fail f => Fail f end
  = match a with Ok (b, n) => k' b n | Fail f => Fail f end.
Proof. intros -> K. destruct a as [[b n]|f]; [apply K|reflexivity]. Qed.
Lemma short_props o vs sep :
  (forall p hdr path, wf_prop o vs sep hdr path p = true -> dw_prop ds vs hdr p = w_prop vs hdr p)
  /\ (forall v path ty, wf_sval o vs sep path ty v = true -> dw_sval ds vs v = w_sval vs v)
  /\ (forall a path, wf_array o vs sep path a = true -> dw_array ds vs a = w_array vs a)
  /\ (forall m path, wf_map o vs sep path m = true -> dw_map ds vs m = w_map vs m).
Proof.
  apply prop_all; intros; cbn [dw_prop dw_sval dw_array dw_map w_prop w_sval w_array w_map];
    cbn [wf_prop wf_sval wf_array wf_map] in *; andbs;
    try (apply short_header; [first [apply kind_short|apply num_short|now apply short_string]|intros; subst|]);
    eqs.
  all: try (apply (proj1 (short_texts vs)); assumption).
  all: try (eapply eq_seqs_if; [eassumption|]; try (intros [a b]); intros; andbs; eqs; fail).
  all: try (eapply eq_seqs_if; [eassumption|]; try (intros [a b]); intros; andbs; apply eq_seq; [now apply key_short|eqs]; fail).
  - unfold dw_pbyte, w_pbyte. destruct hdr.
    + rewrite short_bytev by assumption. destruct (w_bytev v) as [[b m]|]; [|reflexivity]. eqs.
      destruct n; [|discriminate]. cbn [name_ok andb] in *. now apply short_string.
    + now apply short_bytev.
  - destruct t; [|discriminate]. cbn [name_ok andb] in *. now apply short_string.
  - eapply array_short; eassumption.
  - use.
  - apply eq_seqs. eapply Forall_and_in; [eassumption|eassumption|]. intros p IH ?. cbn beta in *. andbs. use.
  - eapply map_short; eassumption.
  - eapply map_short; eassumption.
  - use.
  - use.
  - destruct hdr; [reflexivity|]. destruct (hints o _); [|discriminate]. use.
  - apply eq_seqs. eapply Forall_and_in; [eassumption|eassumption|]. intros [k ps] IH ?. cbn [snd] in IH. andbs.
    apply eq_seqs. eapply Forall_and_in; [exact IH|eassumption|]. intros p IP ?. apply eq_seq; [eqs|use].
  - apply (short_buffer _ _
      (fun b n => w_u32 (len l) +> ds f +> ds (kind_name KStruct) +> w_u64 (len b)
                  +> ds t +> w_guid g +> w_u8 0 +> emit b n)
      (fun b n => w_u32 (len l) +> w_string f +> w_string (kind_name KStruct) +> w_u64 (len b)
                  +> w_string t +> w_guid g +> w_u8 0 +> emit b n)); [|intros; eqs].
    apply eq_seqs. apply (Forall_and_in _ (wf_sval o vs sep path t) _ l H H1). intros v IV W. exact (IV _ _ W).
  - apply eq_seqs. eapply Forall_and_in; [eassumption|eassumption|]. intros p IP ?. cbn beta in *. andbs. use.
  - apply eq_seqs. eapply Forall_and_in; [eassumption|eassumption|]. intros [a v] IV ?. cbn [snd] in IV. andbs.
    apply eq_seq; [now apply key_short|use].
  - apply eq_seqs. eapply Forall_and_in; [eassumption|eassumption|]. intros [a v] [I1 I2] ?. cbn [fst snd] in I1, I2. andbs.
    apply eq_seq; use.
Qed.
Lemma short_file o sep f : file_ok o sep f = true -> debug_save site f = save_plain f.
Proof.
  intros H. unfold file_ok, header_ok, props_ok in H. andbs.
  unfold debug_save, dsave_plain, save_plain. replace (dw_file ds f) with (w_file f); [reflexivity|].
  symmetry. unfold dw_file, w_file, dw_header, w_header, dw_fengine, w_fengine. eqs.
  eapply eq_seqs_if; [eassumption|]. intros [name p] ?. andbs. apply eq_seq; [eqs|].
  eapply (proj1 (short_props o _ sep)). eassumption.
Qed.
End Short.
Lemma short_loaded site z o v b g : load z o v b = Ok g ->
  debug_save site (g_header g, g_props g) = save_plain (g_header g, g_props g).
Proof.
  unfold load. destruct v.
  - destruct (load_plain o b) as [[h ps]|] eqn:E; [|discriminate]. intros [= <-]. cbn [g_header g_props].
    exact (short_file site o _ _ (load_ok o b _ E)).
  - destruct (r_palworld z (Cur 0 b [])) as [[[c d] k]|]; [|discriminate].
    destruct (load_plain o d) as [[h ps]|] eqn:E; [|discriminate]. intros [= <-]. cbn [g_header g_props].
    exact (short_file site o _ _ (load_ok o d _ E)).
Qed.
