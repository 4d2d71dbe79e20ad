(** Canonical form, properties: nothing else is written. *)
From Coq Require Import ZArith List Bool String Lia ZifyBool ZifyNat.
From Verif Require Import Base Str Guid Types Versions Text Props File Spec BaseFacts StrFacts Decode KindFacts
  DecodeProp DecodeMain DecodeAll StrThm EqFacts MapFacts HeaderThm OrderThm CtorThm Grammar GrammarBase GrammarText GrammarCtor
  GrammarProp GrammarComplete Induct Tidy TidyText TidyProp.
Import ListNotations.
Open Scope Z_scope.

Ltac wr_split := repeat match goal with
  | W : writes (_ +> _) _ |- _ => apply wr_seq_iff in W as (? & ? & -> & ? & ?)
  | W : writes skip _ |- _ => apply wr_skip_iff in W; subst
  | W : writes (w_int _ _) _ |- _ => apply wr_int_iff in W; subst
  | W : writes (emit _ _) _ |- _ => apply wr_emit_iff in W; subst
  | W : writes (Fail _) _ |- _ => destruct (wr_fail _ _ W)
  | W : writes (w_string _) _ |- _ => apply wr_string_iff in W; [|first [assumption|reflexivity]]
  | W : writes (w_fstring _) _ |- _ => apply wr_fstring_iff in W; [|first [assumption|reflexivity]]
  end.
Lemma wr_head_iff name c i extra body z : writes (with_header true name c i extra body) z ->
  exists x b, z = str_bytes name ++ framed i x b /\ writes extra x /\ writes body b.
Proof.
  intros [n E]. apply header_inv in E as (b & nb & x & nx & -> & -> & ->). exists x, b.
  split; [reflexivity|]. unfold writes. eauto.
Qed.
Lemma len_head name i x b : len x + len b + 9 <= len (str_bytes name ++ framed i x b).
Proof. rewrite len_app, len_framed. pose proof (len_nonneg (str_bytes name)). lia. Qed.
Lemma count32_in {A} (l : list A) : count32 l = true -> word (len l).
Proof. unfold count32, word. pose proof (len_nonneg l). lia. Qed.
Lemma guid_in g : guid_ok g = true -> len g = 16.
Proof. unfold guid_ok. lia. Qed.
Lemma num_in k z b : num_ok k z = true -> writes (w_int (num_width k) z) b -> num_bytes k z b.
Proof.
  intros H W. apply wr_int_iff in W. subst b. unfold num_bytes.
  destruct k; cbn [num_spec num_width num_ok num_signed] in *; (split; [reflexivity|]);
    first [exact (u4_in _ H)|exact (u8_in _ H)|exact (s4_in _ H)|exact (s8_in _ H)
      |unfold u_ok, s_ok, in_range in H; cbn in *; lia].
Qed.
Lemma nums_in ks : forall l b, nums_ok ks l = true -> writes (w_nums ks l) b -> many2 num_bytes ks l b.
Proof.
  induction ks as [|k ks IH]; intros [|z l] b H W; cbn [nums_ok] in H; try discriminate; cbn [w_nums] in W.
  - apply wr_skip_iff in W. subst. constructor.
  - andbs. apply wr_seq_iff in W as (x & y & -> & W1 & W2). constructor; [now apply num_in|auto].
Qed.
Lemma many_in {A} (R : A -> list byte -> Prop) f l : forall b,
  (forall a x, In a l -> writes (f a) x -> R a x) -> writes (seqs f l) b -> many R l b.
Proof.
  induction l as [|a l IH]; intros b H W.
  - apply wr_seqs_nil in W. subst. constructor.
  - apply wr_seqs_cons in W as (x & y & -> & W1 & W2). constructor; [apply H; [now left|exact W1]|].
    apply IH; [|exact W2]. intros a' x' Hin. apply H. now right.
Qed.
Lemma pair_tidy a c b : str_ok a = true -> str_ok c = true -> writes (w_string a +> w_string c) b -> tidy_pair (a, c) b.
Proof.
  intros Ha Hc W. apply wr_seq_iff in W as (x & y & -> & W1 & W2). exists x, y.
  split; [now apply wr_string_iff|]. split; [now apply wr_string_iff|reflexivity].
Qed.

(** Keys told apart. *)
Lemma apart_settled o (l : list (property * property)) : (forall p i, probe o p i = false) ->
  ForallOrdPairs (fun a b => apart o (fst b) (fst a)) l -> distinct same l = true /\ settled o (map fst l).
Proof.
  intros Q H. split.
  - induction H as [|[k v] l H _ IH]; [reflexivity|]. cbn [distinct]. rewrite IH, andb_true_r.
    apply forallb_forall. intros e He. rewrite Forall_forall in H. destruct (H _ He) as [S _]. cbn [fst] in S.
    now rewrite S.
  - now left.
Qed.

Section Back.
Context (o : opts) (vs : list (guid * Z)) (sep : property -> property -> bool).
Hypothesis Hsep : forall k k', sep k k' = false -> apart o k k'.
Hypothesis Q : forall p i, probe o p i = false.
Notation wf := (wf_prop o vs sep).

Definition BL p := forall path size b, wf false path p = true -> sug_ok size p ->
  writes (w_prop vs false p) b -> len b < 4294967296 -> tidy_prop o vs path (type_of p) false size p b.
Definition BH p := forall path size b, wf true path p = true ->
  writes (w_prop vs true p) b -> len b < 4294967296 ->
  exists y, b = str_bytes (type_of p) ++ y /\ tidy_prop o vs path (type_of p) true size p y.
Definition B p := BL p /\ BH p.
Definition BS v := forall path ty b, wf_sval o vs sep path ty v = true -> writes (w_sval vs v) b -> len b < 4294967296 ->
  tidy_struct o vs path ty v b.

Lemma b_plain p body : (forall hdr, w_prop vs hdr p = with_header hdr (type_of p) true 0 skip body) ->
  (forall hdr path b, wf hdr path p = true -> writes body b -> tidy_plain vs (type_of p) p b) -> B p.
Proof.
  intros E H. split.
  - intros path size b W _ X L. rewrite E in X. constructor. eapply H; eassumption.
  - intros path size b W X L. rewrite E in X. apply wr_head_iff in X as (x & y & -> & X1 & X2).
    apply wr_skip_iff in X1. subst x. eexists. split; [reflexivity|]. constructor; [eapply H; eassumption|].
    pose proof (len_head (type_of p) 0 [] y). pose proof (len_nonneg y). rewrite len_nil in *. unfold word. lia.
Qed.
Lemma bytev_tidy size nm v b : bytev_ok v = true -> sug_ok size (PByte nm v) -> writes (w_bytev v) b -> tidy_bytev size v b.
Proof.
  destruct v as [c|s]; cbn [bytev_ok sug_ok w_bytev]; intros H S W.
  - apply wr_emit_iff in W. subst b. destruct S as [->| ->]; constructor.
  - destruct S as (e & -> & S). constructor; [exact S|]. now apply wr_string_iff.
Qed.
Ltac bh := intros path size b W X L; cbn [wf_prop name_ok negb andb] in W; andbs.
Lemma b_byte nm v : B (PByte nm v).
Proof.
  split.
  - intros path size b W S X L. cbn [wf_prop] in W. andbs. destruct nm; [discriminate|].
    apply t_byte. cbn [w_prop] in X. unfold w_pbyte in X. eapply bytev_tidy; eassumption.
  - intros path size b W X L. cbn [wf_prop] in W. andbs. destruct nm as [nm|]; [|discriminate]. cbn [name_ok] in *. andbs.
    destruct X as [q X]. cbn [w_prop w_pbyte] in X. destruct (w_bytev v) as [[y n]|] eqn:Ev; [|discriminate].
    assert (X' : writes (w_string (kind_name KByte) +> w_u64 (len y) +> w_fstring (Some nm) +> w_u8 0 +> emit y n) b) by now exists q.
    clear X. unfold w_u64, w_u8 in X'. wr_split.
    repeat match goal with H : writes (_ +> _) _ |- _ => apply wr_seq_iff in H as (? & ? & -> & ? & ?) end. wr_split.
    match goal with H : line (kind_name KByte) _ |- _ => apply tidy_line in H as [_ ->] end.
    match goal with H : tidy_str (Some nm) ?x |- _ => rename x into x0, H into Hx end.
    rewrite !len_app in L. pose proof (len_nonneg y). pose proof (len_nonneg x0).
    pose proof (len_nonneg (str_bytes (kind_name KByte))). pose proof (len_nonneg (le_bytes (Z.to_nat 8) (len y))).
    pose proof (len_nonneg (le_bytes (Z.to_nat 1) 0)).
    exists (framed 0 x0 y). split.
    + unfold framed, u4. change (Z.to_nat 8) with 8%nat. rewrite le8_split by lia. now rewrite <- !app_assoc.
    + apply t_byte_h; [exact Hx| |unfold word; lia].
      apply (bytev_tidy _ None); [assumption| |now exists n].
      destruct v as [c|s]; cbn [sug_ok w_bytev] in *; injection Ev as <- <-; [now right|].
      eexists. split; [reflexivity|]. pose proof (len_str_bytes s). lia.
Qed.
Lemma b_bool v : B (PBool v).
Proof.
  split.
  - intros path size b _ _ X _. cbn [w_prop w_pbool] in X. unfold w_bool in X. apply wr_int_iff in X. subst b. apply t_bool.
  - intros path size b _ X _. cbn [w_prop w_pbool] in X. unfold w_bool, w_u64, w_u8 in X. wr_split.
    match goal with H : line (kind_name KBool) _ |- _ => apply tidy_line in H as [_ ->] end.
    eexists. split; [reflexivity|]. apply t_bool_h.
Qed.
Lemma b_enum t v : B (PEnum t v).
Proof.
  split.
  - intros path size b W _ X _. cbn [wf_prop] in W. andbs. destruct t; [discriminate|].
    apply t_enum. now apply wr_string_iff.
  - intros path size b W X L. cbn [wf_prop] in W. andbs. destruct t as [t|]; [|discriminate]. cbn [name_ok] in *. andbs.
    cbn [w_prop] in X. apply wr_head_iff in X as (x & y & -> & X1 & X2).
    eexists. split; [reflexivity|]. pose proof (len_head (kind_name KEnum) 0 x y). pose proof (len_nonneg x). pose proof (len_nonneg y).
    apply t_enum_h; [now apply wr_string_iff|now apply wr_string_iff|unfold word; lia].
Qed.
Lemma b_name i v : B (PName i v).
Proof.
  split.
  - intros path size b W _ X _. cbn [wf_prop] in W. andbs. assert (i = 0) as -> by lia.
    apply t_name. now apply wr_fstring_iff.
  - intros path size b W X L. cbn [wf_prop] in W. andbs.
    cbn [w_prop] in X. apply wr_head_iff in X as (x & y & -> & X1 & X2). apply wr_skip_iff in X1. subst x.
    eexists. split; [reflexivity|]. pose proof (len_head (kind_name KName) i [] y). rewrite len_nil in *. pose proof (len_nonneg y).
    apply t_name_h; [now apply u4_in|now apply wr_fstring_iff|unfold word; lia].
Qed.
Lemma not_known name : negb (mem name known_types) = true -> ~ In name type_names.
Proof. intros H I. apply type_names_iff in I. rewrite I in H. discriminate. Qed.
Lemma b_unknown name raw : B (PUnknown name raw).
Proof.
  split.
  - intros path size b W S X _. cbn [wf_prop] in W. andbs. cbn [w_prop with_header] in X. apply wr_emit_iff in X. subst b.
    cbn [sug_ok] in S. subst size. apply t_unknown. now apply not_known.
  - intros path size b W X L. cbn [wf_prop] in W. andbs.
    cbn [w_prop] in X. apply wr_head_iff in X as (x & y & -> & X1 & X2). apply wr_skip_iff in X1. apply wr_emit_iff in X2. subst x y.
    eexists. split; [reflexivity|]. pose proof (len_head name 0 [] raw). rewrite len_nil in *. pose proof (len_nonneg raw).
    apply t_unknown_h; [now apply not_known|unfold word; lia].
Qed.
Lemma b_num k z : B (PNum k z).
Proof.
  apply (b_plain _ (w_int (num_width k) z)); [reflexivity|]. intros hdr path b W X. cbn [wf_prop] in W. cbn [type_of].
  rewrite <- num_spec_name. constructor. now apply num_in.
Qed.
Lemma b_str v : B (PStr v).
Proof.
  apply (b_plain _ (w_fstring v)); [reflexivity|]. intros hdr path b W X. constructor. now apply wr_fstring_iff.
Qed.
Lemma b_object v : B (PObject v).
Proof.
  apply (b_plain _ (w_string v)); [reflexivity|]. intros hdr path b W X. constructor. now apply wr_string_iff.
Qed.
Lemma b_text t : B (PText t).
Proof.
  apply (b_plain _ (w_text vs t)); [reflexivity|]. intros hdr path b W X. constructor. now apply (text_tidy vs).
Qed.
Lemma b_delegate a c : B (PDelegate a c).
Proof.
  apply (b_plain _ (w_string a +> w_string c)); [reflexivity|]. intros hdr path b W X. cbn [wf_prop] in W. andbs.
  apply (tp_delegate vs (a, c)). now apply pair_tidy.
Qed.
Lemma b_multi i l : B (PMulti i l).
Proof.
  apply (b_plain _ (w_u32 (len l) +> seqs (fun '(a, b) => w_string a +> w_string b) l)); [destruct i; reflexivity|].
  intros hdr path b W X. cbn [wf_prop] in W. andbs. unfold w_u32 in X.
  apply wr_seq_iff in X as (x & y & -> & X1 & X2). apply wr_int_iff in X1. subst x.
  assert (M : many tidy_pair l y).
  { eapply many_in; [|exact X2]. intros [a c] x Hin Hx.
    match goal with H : forallb _ l = true |- _ => rewrite forallb_forall in H; apply H in Hin end. andbs. now apply pair_tidy. }
  destruct i; constructor; auto using count32_in.
Qed.
Lemma b_path l s : B (PFieldPath l s).
Proof.
  apply (b_plain _ (w_u32 (len l) +> seqs w_string l +> w_string s)); [reflexivity|].
  intros hdr path b W X. cbn [wf_prop] in W. andbs. unfold w_u32 in X.
  apply wr_seq_iff in X as (x & y & -> & X1 & X2). apply wr_int_iff in X1. subst x.
  apply wr_seq_iff in X2 as (x & z & -> & X2 & X3).
  constructor; [now apply count32_in| |now apply wr_string_iff].
  eapply many_in; [|exact X2]. intros a w Hin Hx.
  match goal with H : forallb _ l = true |- _ => rewrite forallb_forall in H; apply H in Hin end. now apply wr_string_iff.
Qed.

(** *** Containers *)
Lemma elems_tidy path ty size l : forall b, Forall B l ->
  forallb (fun p => str_eqb ty (type_of p) && wf false path p) l = true -> (forall p, In p l -> sug_ok size p) ->
  writes (seqs (w_prop vs false) l) b -> len b < 4294967296 -> tidy_elems o vs path ty size l b.
Proof.
  induction l as [|p l IH]; intros b F W S X L.
  - apply wr_seqs_nil in X. subst b. constructor.
  - apply wr_seqs_cons in X as (x & y & -> & X1 & X2). rewrite len_app in L. pose proof (len_nonneg x). pose proof (len_nonneg y).
    cbn [forallb] in W. andbs. match goal with H : str_eqb ty _ = true |- _ => apply str_eqb_eq in H; subst ty end.
    inversion F as [|? ? [BLp _] F']; subst. constructor.
    + apply BLp; [assumption|apply S; now left|exact X1|lia].
    + apply IH; auto; [|lia]. intros q Hq. apply S. now right.
Qed.
Lemma sized_elems path ty l y : Forall B l -> uniform l = true ->
  forallb (fun p => str_eqb ty (type_of p) && wf false path p) l = true ->
  writes (seqs (w_prop vs false) l) y -> len y < 4294967296 ->
  tidy_elems o vs path ty (Some (len y / len l)) l y.
Proof.
  intros F U W X L. apply elems_tidy; auto. intros p Hin. destruct X as [q X].
  eapply sug_uniform; eauto. intros ->. destruct Hin.
Qed.
Lemma entries_tidy path kt vt l : forall b, Forall (fun e => B (fst e) /\ B (snd e)) l ->
  Forall (entry_ok o vs sep path kt vt) l ->
  writes (seqs (fun e => w_prop vs false (fst e) +> w_prop vs false (snd e)) l) b -> len b < 4294967296 ->
  tidy_entries o vs path kt vt l b.
Proof.
  induction l as [|[k v] l IH]; intros b F W X L.
  - apply wr_seqs_nil in X. subst b. constructor.
  - apply wr_seqs_cons in X as (x & y & -> & X1 & X2). cbn [fst snd] in X1.
    apply wr_seq_iff in X1 as (x1 & x2 & -> & X0 & X1). rewrite !len_app in L.
    pose proof (len_nonneg x1). pose proof (len_nonneg x2). pose proof (len_nonneg y).
    inversion F as [|? ? [[Bk _] [Bv _]] F']; subst. inversion W as [|? ? (T1 & S1 & W1 & T2 & S2 & W2) W']; subst.
    cbn [fst snd] in *. rewrite <- app_assoc. constructor.
    + apply Bk; [exact W1|now apply self_sug|exact X0|lia].
    + apply Bv; [exact W2|now apply self_sug|exact X1|lia].
    + apply IH; auto. lia.
Qed.
Lemma structs_tidy path ty l : forall b, Forall BS l -> forallb (wf_sval o vs sep path ty) l = true ->
  writes (seqs (w_sval vs) l) b -> len b < 4294967296 -> tidy_structs o vs path ty l b.
Proof.
  induction l as [|v l IH]; intros b F W X L.
  - apply wr_seqs_nil in X. subst b. constructor.
  - apply wr_seqs_cons in X as (x & y & -> & X1 & X2). rewrite len_app in L. pose proof (len_nonneg x). pose proof (len_nonneg y).
    cbn [forallb] in W. andbs. inversion F as [|? ? Bv F']; subst. constructor.
    + apply Bv; [assumption|exact X1|lia].
    + apply IH; auto. lia.
Qed.
Lemma type_ok hdr path p : wf hdr path p = true -> str_ok (type_of p) = true.
Proof.
  intros Hw. destruct p as [k0 ?| | | | | | | | |inl ?| | | | | | |]; try reflexivity.
  - destruct k0; reflexivity. - destruct inl; reflexivity.
  - cbn [wf_prop] in Hw. andbs. auto.
Qed.
Lemma fields_tidy path l : forall b, Forall (fun e => B (snd e)) l ->
  Forall (fun e => str_ok (fst e) = true /\ str_eqb (fst e) (s2z "None") = false /\ wf true (fst e :: path) (snd e) = true) l ->
  writes (seqs (named_w vs) l) b -> len b < 4294967296 -> tidy_fields o vs path l b.
Proof.
  induction l as [|[k p] l IH]; intros b F W X L.
  - apply wr_seqs_nil in X. subst b. constructor.
  - apply wr_seqs_cons in X as (x & y & -> & X1 & X2). cbn [named_w] in X1.
    apply wr_seq_iff in X1 as (x1 & x2 & -> & X0 & X1). rewrite !len_app in L.
    pose proof (len_nonneg x1). pose proof (len_nonneg x2). pose proof (len_nonneg y).
    inversion F as [|? ? [_ Bp] F']; subst. inversion W as [|? ? (Hk & Hn & Hw) W']; subst. cbn [fst snd] in *.
    destruct (Bp _ None _ Hw X1 ltac:(lia)) as (z & -> & T).
    rewrite <- !app_assoc. apply tf_cons with (ty := type_of p).
    + now apply wr_string_iff.
    + intros ->. rewrite str_eqb_refl in Hn. discriminate.
    + apply tidy_line. split; [eapply type_ok; eassumption|reflexivity].
    + exact T.
    + apply IH; auto. lia.
Qed.
Lemma wr_unflat f l b : writes (seqs (fun '(k, ps) => seqs (fun p => f k p) ps) l) b ->
  writes (seqs (fun '(k, p) => f k p) (spread l)) b.
Proof. intros [n H]. exists n. rewrite spread_flatten. now apply seqs_flatten. Qed.

Definition BA a := forall path size y, wf_array o vs sep (s2z "ArrayProperty" :: path) a = true ->
  writes (w_array vs a) y -> word (len y) ->
  exists x, line (array_type a) x /\ tidy_prop o vs path (s2z "ArrayProperty") true size (PArray a) (framed 0 x y).
Lemma ba_elems a : DecodeProp.is_structs a = false -> Forall B (elems a) -> BA a.
Proof.
  intros S F path size y W X L. destruct (wf_elems o vs sep _ a S W) as (Ht & Hc & Hu & Hw & Ha & Hk).
  rewrite w_array_elems in X by exact S. unfold w_u32 in X. apply wr_seq_iff in X as (x1 & z & -> & X1 & X2).
  apply wr_int_iff in X1. subst x1. exists (str_bytes (array_type a)).
  assert (Hl : line (array_type a) (str_bytes (array_type a))) by (apply tidy_line; auto).
  split; [exact Hl|]. rewrite len_app in L. unfold word in L. pose proof (len_nonneg (le_bytes (Z.to_nat 4) (len (elems a)))).
  pose proof (len_nonneg z).
  eapply t_array with (l := elems a) (y := z); [exact Hl| |now apply count32_in|reflexivity| |now apply array_new_iff|].
  - intros E. apply Hk. rewrite E. reflexivity.
  - apply sized_elems; auto. lia.
  - rewrite len_app. unfold word. lia.
Qed.
Lemma ba_structs f ty g l : Forall BS l -> BA (AStructs f ty g l).
Proof.
  intros F path size y W X L. cbn [wf_array] in W. andbs.
  assert (E : exists z n, seqs (w_sval vs) l = Ok (z, n)).
  { destruct X as [q X]. cbn [w_array] in X. change (seqs _ l) with (seqs (w_sval vs) l) in X.
    destruct (seqs (w_sval vs) l) as [[z n]|]; [eauto|discriminate]. }
  destruct E as (z & n & E). rewrite (w_structs vs f ty g l z n E) in X. unfold w_u32, w_u64, w_u8, w_guid in X. wr_split.
  repeat match goal with H : line _ _ |- _ => apply tidy_line in H as [_ ->] end.
  exists (str_bytes (kind_name KStruct)).
  assert (Hl : line (kind_name KStruct) (str_bytes (kind_name KStruct))) by (apply tidy_line; auto).
  split; [exact Hl|].
  eapply t_structs with (y := z); [exact Hl|now apply count32_in|apply tidy_line; auto|exact Hl|apply tidy_line; auto|now apply guid_in| | |exact L].
  - reflexivity.
  - apply structs_tidy; auto; [now exists n|]. unfold word in L. rewrite !len_app in L.
    repeat match goal with L : context [len ?x] |- _ => lazymatch goal with H : 0 <= len x |- _ => fail | _ => pose proof (len_nonneg x) end end.
    lia.
Qed.
Definition BM m := forall path size y, wf_map o vs sep (s2z "MapProperty" :: path) m = true ->
  writes (w_map vs m) y -> word (len y) ->
  exists xk xv, line (map_key_type m) xk /\ line (map_value_type m) xv
    /\ tidy_prop o vs path (s2z "MapProperty") true size (PMap m) (framed 0 (xk ++ xv) y).
Lemma bm_entries m : Forall (fun e => B (fst e) /\ B (snd e)) (mentries m) -> BM m.
Proof.
  intros F path size y W X L. destruct (wf_mentries o vs sep Hsep _ m W) as (Hk & Hv & Hf & Hc & Ha & Hw & Hm).
  rewrite w_map_entries in X. unfold w_u32 in X. apply wr_seq_iff in X as (x1 & z & -> & X1 & X2).
  apply wr_seq_iff in X2 as (x2 & z' & -> & X2 & X3). apply wr_int_iff in X1. apply wr_int_iff in X2. subst x1 x2.
  exists (str_bytes (map_key_type m)), (str_bytes (map_value_type m)).
  assert (Hlk : line (map_key_type m) (str_bytes (map_key_type m))) by (apply tidy_line; auto).
  assert (Hlv : line (map_value_type m) (str_bytes (map_value_type m))) by (apply tidy_line; auto).
  split; [exact Hlk|]. split; [exact Hlv|]. destruct (apart_settled o _ Q Ha) as [D T].
  assert (Lz : len z' < 4294967296).
  { unfold word in L. rewrite !len_app in L. pose proof (len_nonneg (le_bytes (Z.to_nat 4) (mflags m))).
    pose proof (len_nonneg (le_bytes (Z.to_nat 4) (len (mentries m)))). lia. }
  pose proof (entries_tidy _ _ _ _ _ F Hw X3 Lz) as TE.
  eapply t_map with (l := mentries m) (y := z'); [exact Hlk|exact Hlv|apply u4_in, Hf|apply count32_in, Hc|reflexivity|exact TE|exact T|exact D| |exact L].
  apply map_new_iff; [exact D| |now symmetry].
  destruct (tidy_in o vs) as (_ & _ & I & _). apply I in TE. now apply entries_typed in TE.
Qed.

Lemma b_array a : BA a -> B (PArray a).
Proof.
  intros H. split.
  - intros path size b W. discriminate.
  - intros path size b W X L. cbn [wf_prop] in W. andbs. cbn [w_prop] in X.
    apply wr_head_iff in X as (x & y & -> & X1 & X2). pose proof (len_head (kind_name KArray) 0 x y).
    pose proof (len_nonneg x). pose proof (len_nonneg y).
    destruct (H path size y) as (x' & Hx & T); [assumption|exact X2|unfold word; lia|].
    apply wr_emit_iff in X1. apply tidy_line in Hx as [_ ->]. subst x. eexists. split; [reflexivity|exact T].
Qed.
Lemma b_map m : BM m -> B (PMap m).
Proof.
  intros H. split.
  - intros path size b W. discriminate.
  - intros path size b W X L. cbn [wf_prop] in W. andbs. cbn [w_prop] in X.
    apply wr_head_iff in X as (x & y & -> & X1 & X2). pose proof (len_head (kind_name KMap) 0 x y).
    pose proof (len_nonneg x). pose proof (len_nonneg y).
    destruct (H path size y) as (xk & xv & Hk & Hv & T); [assumption|exact X2|unfold word; lia|].
    apply wr_seq_iff in X1 as (x1 & x2 & -> & X1 & X3).
    apply wr_emit_iff in X1. apply wr_emit_iff in X3. apply tidy_line in Hk as [_ ->]. apply tidy_line in Hv as [_ ->]. subst x1 x2.
    eexists. split; [reflexivity|exact T].
Qed.
Lemma b_set ty flags l : Forall B l -> B (PSet ty flags l).
Proof.
  intros F. split.
  - intros path size b W. discriminate.
  - intros path size b W X L. cbn [wf_prop] in W. andbs. cbn [w_prop] in X.
    apply wr_head_iff in X as (x & y & -> & X1 & X2). pose proof (len_head (kind_name KSet) 0 x y).
    pose proof (len_nonneg x). pose proof (len_nonneg y).
    unfold w_u32 in X2. apply wr_seq_iff in X2 as (x2 & z & -> & X2 & X3).
    apply wr_seq_iff in X3 as (x3 & z' & -> & X3 & X4). apply wr_int_iff in X2. apply wr_int_iff in X3. subst x2 x3.
    eexists. split; [reflexivity|].
    assert (Lz : len z' < 4294967296).
    { rewrite !len_app in *. pose proof (len_nonneg (le_bytes (Z.to_nat 4) flags)).
      pose proof (len_nonneg (le_bytes (Z.to_nat 4) (len l))). lia. }
    eapply t_set with (y := z'); [now apply wr_string_iff|now apply u4_in|now apply count32_in|reflexivity| |unfold word; lia].
    apply sized_elems; auto.
Qed.
Lemma b_struct g ty v : BS v -> B (PStruct g ty v).
Proof.
  intros H. split.
  - intros path size b W. discriminate.
  - intros path size b W X L. cbn [wf_prop] in W. andbs. cbn [w_prop] in X.
    apply wr_head_iff in X as (x & y & -> & X1 & X2). pose proof (len_head (kind_name KStruct) 0 x y).
    pose proof (len_nonneg x). pose proof (len_nonneg y).
    apply wr_seq_iff in X1 as (x1 & x2 & -> & X1 & X3). apply wr_emit_iff in X3. subst x2.
    eexists. split; [reflexivity|].
    eapply t_struct_h; [now apply wr_string_iff|now apply guid_in|apply H; [assumption|exact X2|lia]|unfold word; lia].
Qed.
Lemma b_svalue v : BS v -> B (PSValue v).
Proof.
  intros H. split.
  - intros path size b W _ X L. cbn [wf_prop] in W. andbs.
    destruct (hints o (dotted (s2z "StructProperty" :: path))) as [ty|] eqn:E; [|discriminate].
    eapply t_struct; [exact E|]. apply H; [assumption|exact X|exact L].
  - intros path size b W. discriminate.
Qed.
Lemma bs_custom l : Forall (fun e => Forall B (snd e)) l -> BS (SCustom l).
Proof.
  intros F path ty b W X L. cbn [wf_sval] in W. andbs.
  match goal with H : forallb _ l = true |- _ => rewrite forallb_forall in H; rename H into HF end.
  assert (X' : writes (seqs (fun '(k, ps) => seqs (fun p => w_string k +> w_prop vs true p) ps) l +> w_string s_none) b) by exact X.
  apply wr_seq_iff in X' as (x & y & -> & X1 & X2). rewrite len_app in L. pose proof (len_nonneg x). pose proof (len_nonneg y).
  apply (wr_unflat (fun k p => w_string k +> w_prop vs true p)) in X1.
  assert (NE : Forall (fun e => snd e <> []) l).
  { apply groups_nonempty, forallb_forall. intros [k ps] Hin. apply HF in Hin. now andbs. }
  constructor; auto.
  - intros I. match goal with H : negb (mem ty known_structs) = true |- _ => apply negb_true_iff in H end.
    apply skind_custom in H. apply custom_name_iff in H. contradiction.
  - apply fields_tidy; [| |exact X1|lia].
    + rewrite spread_flatten. apply Forall_forall. intros [k p] Hin. unfold flatten in Hin.
      apply in_flat_map in Hin as ([k' ps] & Hin & Hp). apply in_map_iff in Hp as (p' & Ep & Hp). injection Ep as -> ->.
      rewrite Forall_forall in F. specialize (F _ Hin). cbn [snd] in *. rewrite Forall_forall in F. now apply F.
    + rewrite spread_flatten. apply Forall_forall. intros [k p] Hin. unfold flatten in Hin.
      apply in_flat_map in Hin as ([k' ps] & Hin & Hp). apply in_map_iff in Hp as (p' & Ep & Hp). injection Ep as -> ->.
      apply HF in Hin. andbs. cbn [fst snd]. repeat split; auto.
      * now apply negb_true_iff.
      * match goal with H : forallb _ ps = true |- _ => rewrite forallb_forall in H; now apply H end.
  - now apply wr_string_iff.
  - intros Ed. rewrite spread_flatten. assert (C : chain [] (flatten l) = true); [|exact (proj1 (chain_indexed _ []) C)]. apply chain_flatten; [assumption|].
    apply forallb_forall. intros [k ps] Hin. apply HF in Hin. rewrite Ed in Hin. cbn [negb orb] in Hin.
    andbs. apply andb_true_iff. auto.
Qed.
Lemma bs_fixed x l : BS (SFixed x l).
Proof.
  intros path ty b W X _. cbn [wf_sval] in W. andbs.
  match goal with H : str_eqb ty _ = true |- _ => apply str_eqb_eq in H; subst ty end.
  cbn [w_sval] in X. unfold w_fixed in X.
  destruct x; cbn [fixed_lwc precision_ok fixed_name layout] in *;
    try (match goal with H : negb _ = true |- _ => apply negb_true_iff in H end);
    try (match goal with H : has_lwc vs = _, X : writes (if Bool.eqb (has_lwc vs) _ then _ else _) _ |- _ => rewrite H in X; cbn [Bool.eqb] in X end);
    (eapply tx_fixed; [reflexivity|intros d E; first [discriminate|injection E as <-; assumption]|apply nums_in; assumption]).
Qed.
Lemma bs_guid g : BS (SGuid g).
Proof.
  intros path ty b W X _. cbn [wf_sval] in W. andbs.
  match goal with H : str_eqb ty _ = true |- _ => apply str_eqb_eq in H; subst ty end.
  apply wr_emit_iff in X. subst b. constructor. now apply guid_in.
Qed.
Lemma bs_tags l : BS (STags l).
Proof.
  intros path ty b W X _. cbn [wf_sval] in W. andbs.
  match goal with H : str_eqb ty _ = true |- _ => apply str_eqb_eq in H; subst ty end.
  cbn [w_sval] in X. apply wr_seq_iff in X as (x & y & -> & X1 & X2). apply wr_emit_iff in X1. subst x.
  constructor; [now apply count_in|]. eapply many_in; [|exact X2]. intros s x Hin Hx.
  match goal with H : forallb _ l = true |- _ => rewrite forallb_forall in H; apply H in Hin end. now apply wr_string_iff.
Qed.
Lemma forall_map {X Y} (P : Y -> Prop) (f : X -> Y) l : (forall x, P (f x)) -> Forall P (map f l).
Proof. intros H. apply Forall_forall. intros y Hy. apply in_map_iff in Hy as (x & <- & _). apply H. Qed.
Lemma b_key kk s : B (key_prop kk s).
Proof. destruct kk; [apply b_enum|apply b_name|apply b_str]. Qed.

Lemma back : (forall p, B p) /\ (forall v, BS v) /\ (forall a, BA a) /\ (forall m, BM m).
Proof.
  apply prop_all; auto using b_num, b_bool, b_byte, b_enum, b_str, b_text, b_name, b_object, b_delegate, b_multi, b_path,
    b_unknown, b_array, b_set, b_map, b_struct, b_svalue, bs_fixed, bs_guid, bs_tags, bs_custom, ba_structs;
    try (intros; apply ba_elems; [reflexivity|]; cbn [elems]; try assumption; apply forall_map; intros; auto using b_bool, b_byte, b_enum, b_num, b_name, b_str; fail).
  - intros k l. apply bm_entries. cbn [mentries]. apply forall_map. intros e. cbn [fst snd]. auto using b_key, b_bool.
  - intros k l. apply bm_entries. cbn [mentries]. apply forall_map. intros e. cbn [fst snd]. auto using b_key, b_num.
  - intros k vt l F. apply bm_entries. cbn [mentries]. apply Forall_map. eapply Forall_impl; [|exact F]. intros e He. cbn [fst snd]. auto using b_key.
  - intros l. apply bm_entries. cbn [mentries]. apply forall_map. intros e. cbn [fst snd]. auto using b_key, b_str.
  - intros kt vt f l F. apply bm_entries. exact F.
Qed.
End Back.
