(** What the file asks for is reported. *)
From Coq Require Import ZArith List Bool String Lia ZifyBool ZifyNat.
From Verif Require Import Base Str Types Versions Text Props File Spec BaseFacts StrFacts Decode KindFacts
  DecodeProp DecodeMain StrThm EqFacts MapFacts CtorThm OrderThm HeaderThm Grammar GrammarBase GrammarText GrammarCtor
  GrammarProp GrammarComplete GrammarFile HashFree AskSpec AskThm.
Import ListNotations.
Open Scope Z_scope.

Scheme asks_ind2 := Induction for asks Sort Prop
with asks_inside_ind2 := Induction for asks_inside Sort Prop.
Combined Scheme asks_mut from asks_ind2, asks_inside_ind2.

Definition halts {A} (st : list str) (r : reader A) (d : list byte) (path : str) : Prop :=
  forall q t, r (Cur q (d ++ t) st) = Fail (Err (EHint path (q + len d))).

Section Comb.
Context (st : list str) (path : str).
Lemma ha_first {A B} (r : reader A) (k : A -> reader B) d : halts st r d path -> halts st (bind r k) d path.
Proof. intros H q t. unfold bind. now rewrite H. Qed.
Lemma ha_then {A B} (r : reader A) (k : A -> reader B) x a d :
  decodes st r x a -> halts st (k a) d path -> halts st (bind r k) (x ++ d) path.
Proof. intros D H q t. unfold bind. rewrite <- app_assoc, D, H, len_app, Z.add_assoc. reflexivity. Qed.
Lemma ha_cons {A B} (r : reader A) (k : A -> reader B) x a d :
  decodes st r [x] a -> halts st (k a) d path -> halts st (bind r k) (x :: d) path.
Proof. apply (ha_then r k [x]). Qed.
Lemma ha_position {A} (k : Z -> reader A) d : (forall p, halts st (k p) d path) -> halts st (bind position k) d path.
Proof. intros H q t. apply (H q q t). Qed.
Lemma ha_scoped {A} s (r : reader A) d : halts (s :: st) r d path -> halts st (scoped s r) d path.
Proof. intros H q t. unfold scoped, bind, push. cbn [pos rest stk]. now rewrite H. Qed.
Lemma repn_stop {A} (r : reader A) k m f : forall c v c', repn k r c = Ok (v, c') -> r c' = Fail f -> repn (k + S m) r c = Fail f.
Proof.
  induction k as [|k IH]; intros c v c' E F; cbn [repn Nat.add] in *.
  - unfold ret in E. injection E as <- <-. unfold bind. now rewrite F.
  - unfold bind in *. destruct (r c) as [[a c1]|]; [|discriminate].
    destruct (repn k r c1) as [[l c2]|] eqn:R; [|discriminate]. unfold ret in E. injection E as <- <-.
    now rewrite (IH _ _ _ R F).
Qed.
Lemma ha_rep {A B} (r : reader A) n (l : list B) y d :
  (forall q t, exists v, repn (List.length l) r (Cur q (y ++ t) st) = Ok (v, Cur (q + len y) t st)) ->
  len l < n -> halts st r d path -> halts st (rep n r) (y ++ d) path.
Proof.
  intros D Ln H q t. rewrite rep_repn, <- app_assoc. destruct (D q (d ++ t)) as [v E].
  replace (Z.to_nat n) with (List.length l + S (Z.to_nat n - S (List.length l)))%nat by (unfold len in Ln; lia).
  rewrite (repn_stop _ _ _ _ _ _ _ E (H _ _)), len_app, Z.add_assoc. reflexivity.
Qed.
Lemma ha_headed {V A} (vars : reader V) (body : Z -> V -> reader A) e x v d :
  word e -> decodes st vars x v -> halts st (body e v) d path -> halts st (headed vars body) (opened e x d) path.
Proof.
  intros He D H. unfold headed, opened. eapply ha_then; [apply de_u32, He|].
  eapply ha_then; [apply dec_index0|]. eapply ha_then; [exact D|]. eapply ha_cons; [apply de_term|].
  unfold sized. apply ha_position. intros p. now apply ha_first.
Qed.
End Comb.

Section Back.
Context (o : opts) (vs : list (guid * Z)).
Lemma some_value {A} st (r : reader A) y v : decodes st r y v ->
  forall q t, exists v, r (Cur q (y ++ t) st) = Ok (v, Cur (q + len y) t st).
Proof. intros D q t. exists v. apply D. Qed.
Lemma len_opened e x d : len (opened e x d) = 9 + len x + len d.
Proof. unfold opened, u4. rewrite !len_app, !len_le_bytes, len_cons. lia. Qed.

Lemma ha_custom n st k kty d x z path : text_of k x -> k <> s2z "None" -> text_of kty z ->
  halts (k :: st) (r_prop n o vs kty true None) d path ->
  forall l y, is_fields o vs st l y -> len y < Z.of_nat n -> forall m acc, (List.length l < m)%nat ->
  (dbg o = true -> chain acc l = true) -> halts st (r_custom m o (r_prop n o vs) acc) (y ++ x ++ z ++ d) path.
Proof.
  intros Hx Hk Hz Hd l y F.
  assert (N : forall k, k <> s2z "None" -> str_eqb k s_none = false).
  { intros k' N. destruct (str_eqb k' s_none) eqn:E; [|reflexivity]. apply str_eqb_eq in E. contradiction. }
  induction F as [path0|path0 k0 ty p l x0 y0 z0 w H1 H2 H3 H4 F IH]; intros L m acc Lm C;
    (destruct m as [|m]; [cbn in Lm; lia|]); cbn [r_custom].
  - cbn [app]. eapply ha_then; [eapply de_string; eassumption|]. rewrite N by assumption.
    eapply ha_then; [eapply de_string; eassumption|]. now apply ha_first, ha_scoped.
  - rewrite !len_app in L. pose proof (text_len _ _ H1). pose proof (text_len _ _ H3). pose proof (len_nonneg z0). pose proof (len_nonneg w).
    rewrite <- !app_assoc. eapply ha_then; [eapply de_string; eassumption|]. rewrite N by assumption.
    eapply ha_then; [eapply de_string; eassumption|].
    eapply ha_then; [apply dec_scoped; eapply (proj1 (complete o vs)); [exact H4|lia]|].
    cbn [List.length] in Lm. cbn [chain] in C.
    destruct (dbg o) eqn:D.
    + specialize (C eq_refl). apply andb_true_iff in C as [C1 C2]. rewrite C1. cbn [negb andb]. apply IH; auto; lia.
    + cbn [andb]. apply IH; auto; lia.
Qed.

Lemma back :
  (forall path ty hdr d way, asks o vs path ty hdr d way -> hints o (dotted way) = None ->
     forall n size, len d < Z.of_nat n -> halts path (r_prop n o vs ty hdr size) d (dotted way))
  /\ (forall path ty d way, asks_inside o vs path ty d way -> hints o (dotted way) = None ->
     forall n, len d <= Z.of_nat n -> halts path (r_sval (S n) o vs (r_prop n o vs) ty) d (dotted way)).
Proof.
  apply asks_mut with
    (P := fun path ty hdr d way _ => hints o (dotted way) = None ->
       forall n size, len d < Z.of_nat n -> halts path (r_prop n o vs ty hdr size) d (dotted way))
    (P0 := fun path ty d way _ => hints o (dotted way) = None ->
       forall n, len d <= Z.of_nat n -> halts path (r_sval (S n) o vs (r_prop n o vs) ty) d (dotted way)).
  - intros path Hn [|m] size L; [rewrite len_nil in L; lia|]. cbn [r_prop]. apply ha_scoped. unfold r_body.
    change (kind_of (s2z "StructProperty")) with KStruct. cbv iota. unfold r_hinted. intros q t.
    unfold bind at 1, get_stk. cbn [stk]. unfold bind at 1, position. cbn [pos].
    rewrite dotted_join, Hn, len_nil, Z.add_0_r. reflexivity.
  - intros path ty d way Hh _ IH Hn [|m] size L; [pose proof (len_nonneg d); lia|]. cbn [r_prop]. apply ha_scoped. unfold r_body.
    change (kind_of (s2z "StructProperty")) with KStruct. cbv iota. unfold r_hinted. intros q t.
    unfold bind at 1, get_stk. cbn [stk]. unfold bind at 1, position. cbn [pos].
    rewrite dotted_join, Hh. apply ha_first. apply IH; [exact Hn|lia].
  - intros path e ty x g d way He Hx Hg _ IH Hn [|m] size L; [pose proof (len_nonneg (opened e (x ++ g) d)); lia|].
    rewrite len_opened in L. pose proof (len_nonneg (x ++ g)). cbn [r_prop]. apply ha_scoped. unfold r_body, r_pstruct.
    change (kind_of (s2z "StructProperty")) with KStruct. cbv iota.
    apply ha_headed with (v := (ty, g)); [exact He| |].
    + eapply dec_bind; [eapply de_string; eassumption|]. eapply dec_bind_last; [apply de_guid, Hg|apply dec_ret].
    + apply ha_first. cbn [fst]. apply IH; [exact Hn|lia].
  - intros path e n0 f ty g l size x xf xs xt y d way He Hw Hx Hf Hs Hz Ht Hg Hl Ln _ IH Hn [|m] sg L;
      [match type of L with len ?b < _ => pose proof (len_nonneg b) end; lia|].
    rewrite len_opened, !len_app, len_cons, len_app in L. pose proof (text_len _ _ Hx). pose proof (text_len _ _ Hf).
    pose proof (text_len _ _ Hs). pose proof (text_len _ _ Ht). pose proof (len_nonneg (u4 n0)).
    pose proof (len_nonneg (le_bytes 8 size)). pose proof (len_nonneg y). pose proof (len_nonneg d).
    cbn [r_prop]. apply ha_scoped. unfold r_body.
    change (kind_of (s2z "ArrayProperty")) with KArray. cbv iota.
    apply ha_headed with (v := s2z "StructProperty"); [exact He|eapply de_string; eassumption|].
    unfold r_array. eapply ha_then; [apply de_u32, Hw|].
    change (kind_of (s2z "StructProperty")) with KStruct. cbv iota. apply ha_first.
    unfold r_struct_array. eapply ha_then; [eapply de_string; eassumption|].
    eapply ha_then; [eapply de_string; eassumption|].
    change (str_eqb (s2z "StructProperty") (kind_name KStruct)) with true. cbn [negb].
    eapply ha_then; [apply de_u64, Hz|]. eapply ha_then; [eapply de_string; eassumption|].
    eapply ha_then; [apply de_guid, Hg|]. eapply ha_cons; [apply de_term|].
    apply ha_position. intros p. apply ha_first. apply ha_rep with (l := l); [|exact Ln|].
    + destruct (complete o vs) as (_ & _ & _ & C & _). eapply some_value. apply (C _ _ _ _ Hl). lia.
    + apply ha_first. apply IH; [exact Hn|lia].
  - intros path e flags n0 ty l x y d way He Hd Hf Hw Hx Hl Ln Ha IH Hn [|m] sg L;
      [match type of L with len ?b < _ => pose proof (len_nonneg b) end; lia|].
    rewrite len_opened, !len_app in L. pose proof (text_len _ _ Hx). pose proof (len_nonneg (u4 flags)).
    pose proof (len_nonneg (u4 n0)). pose proof (len_nonneg y). pose proof (len_nonneg d).
    cbn [r_prop]. apply ha_scoped. unfold r_body. change (kind_of (s2z "SetProperty")) with KSet. cbv iota.
    apply ha_headed with (v := ty); [exact He|eapply de_string; eassumption|].
    unfold r_set. eapply ha_then; [apply de_u32, Hf|]. eapply ha_then; [apply de_u32, Hw|].
    assert ((0 <? n0) = true) as -> by (pose proof (len_nonneg l); lia).
    assert ((e <? 8) && dbg o = false) as -> by (destruct (dbg o); [specialize (Hd eq_refl)|]; lia).
    apply ha_first. pose proof (asks_type o vs _ _ _ _ Ha) as ->.
    apply elems_size with (s' := Some ((e - 8) mod 4294967296 / n0)) in Hl.
    apply ha_rep with (l := l); [|exact Ln|].
    + destruct (complete o vs) as (_ & C & _). eapply some_value. apply (C _ _ _ _ _ Hl). lia.
    + apply IH; [exact Hn|lia].
  - intros path e flags n0 kt vt l xk xv y d way He Hf Hw Hk Hv Hl Ln Ha IH Hn [|m] sg L;
      [match type of L with len ?b < _ => pose proof (len_nonneg b) end; lia|].
    rewrite len_opened, !len_app in L. pose proof (text_len _ _ Hk). pose proof (text_len _ _ Hv). pose proof (len_nonneg (u4 flags)).
    pose proof (len_nonneg (u4 n0)). pose proof (len_nonneg y). pose proof (len_nonneg d).
    cbn [r_prop]. apply ha_scoped. unfold r_body. change (kind_of (s2z "MapProperty")) with KMap. cbv iota.
    apply ha_headed with (v := (kt, vt)); [exact He| |].
    { eapply dec_bind; [eapply de_string; eassumption|]. eapply dec_bind_last; [eapply de_string; eassumption|apply dec_ret]. }
    cbn [fst snd]. unfold r_map. eapply ha_then; [apply de_u32, Hf|]. eapply ha_then; [apply de_u32, Hw|].
    apply ha_first. apply ha_rep with (l := l); [|exact Ln|].
    + destruct (complete o vs) as (_ & _ & C & _). intros q t. destruct (C _ _ _ _ _ Hl m ltac:(lia) q t) as (l' & E & _). eauto.
    + unfold r_entry. apply ha_first, ha_scoped. apply IH; [exact Hn|lia].
  - intros path e flags n0 kt vt l k xk xv y z d way He Hf Hw Hk Hv Hl Ln Hp Ha IH Hn [|m] sg L;
      [match type of L with len ?b < _ => pose proof (len_nonneg b) end; lia|].
    rewrite len_opened, !len_app in L. pose proof (text_len _ _ Hk). pose proof (text_len _ _ Hv). pose proof (len_nonneg (u4 flags)).
    pose proof (len_nonneg (u4 n0)). pose proof (len_nonneg y). pose proof (len_nonneg d). pose proof (len_nonneg z).
    cbn [r_prop]. apply ha_scoped. unfold r_body. change (kind_of (s2z "MapProperty")) with KMap. cbv iota.
    apply ha_headed with (v := (kt, vt)); [exact He| |].
    { eapply dec_bind; [eapply de_string; eassumption|]. eapply dec_bind_last; [eapply de_string; eassumption|apply dec_ret]. }
    cbn [fst snd]. unfold r_map. eapply ha_then; [apply de_u32, Hf|]. eapply ha_then; [apply de_u32, Hw|].
    apply ha_first. apply ha_rep with (l := l); [|exact Ln|].
    + destruct (complete o vs) as (_ & _ & C & _). intros q t. destruct (C _ _ _ _ _ Hl m ltac:(lia) q t) as (l' & E & _). eauto.
    + unfold r_entry. eapply ha_then; [apply dec_scoped; eapply (proj1 (complete o vs)); [exact Hp|lia]|].
      apply ha_first, ha_scoped. apply IH; [exact Hn|lia].
  - intros path ty l y k x kty z d way Ht Hl Hi Hx Hk Hz _ IH Hn n L. rewrite !len_app in L.
    pose proof (text_len _ _ Hx). pose proof (text_len _ _ Hz). pose proof (len_nonneg y). pose proof (len_nonneg d).
    unfold r_sval. apply custom_name_iff in Ht. rewrite Ht. cbn [fixed_of]. apply ha_first.
    destruct (complete o vs) as (_ & _ & _ & _ & _ & C). destruct (C _ _ _ Hl) as [Ll _].
    eapply ha_custom; eauto; [apply IH; [exact Hn|lia]|lia|unfold len in L; lia|].
    intros D. apply indexed_chain. auto.
Qed.
End Back.

Section File.
Context (o : opts).
Lemma ha_entries vs n k ty d xk xt path : text_of k xk -> k <> s2z "None" -> text_of ty xt ->
  halts [k] (r_prop n o vs ty true None) d path ->
  forall l y, is_fields o vs [] l y -> len y < Z.of_nat n -> forall m, (List.length l < m)%nat ->
  halts [] (r_entries m n o vs) (y ++ xk ++ xt ++ d) path.
Proof.
  intros Hx Hk Hz Hd l y F. remember [] as st eqn:ST.
  assert (N : forall k, k <> s2z "None" -> str_eqb k s_none = false).
  { intros k' N. destruct (str_eqb k' s_none) eqn:E; [|reflexivity]. apply str_eqb_eq in E. contradiction. }
  induction F as [path0|path0 k0 ty0 p l x0 y0 z0 w H1 H2 H3 H4 F IH]; intros L m Lm; subst path0;
    (destruct m as [|m]; [cbn in Lm; lia|]); cbn [r_entries].
  - cbn [app]. eapply ha_then; [eapply de_string; eassumption|]. rewrite N by assumption.
    eapply ha_then; [eapply de_string; eassumption|]. now apply ha_first, ha_scoped.
  - rewrite !len_app in L. pose proof (text_len _ _ H1). pose proof (text_len _ _ H3). pose proof (len_nonneg z0). pose proof (len_nonneg w).
    rewrite <- !app_assoc. eapply ha_then; [eapply de_string; eassumption|]. rewrite N by assumption.
    eapply ha_then; [eapply de_string; eassumption|].
    eapply ha_then; [apply dec_scoped; eapply (proj1 (complete o vs)); [exact H4|lia]|].
    cbn [List.length] in Lm. apply ha_first. apply IH; auto; lia.
Qed.
Lemma ask_back d way t : file_asks o d way -> hints o (dotted way) = None ->
  load_plain o (d ++ t) = Fail (Err (EHint (dotted way) (len d))).
Proof.
  intros (h & vl & l & k & ty & x & y & xk & xt & d' & -> & Hh & Hv & Hl & Hk & Nk & Ht & Ha) Hn.
  unfold load_plain, parse. set (n := S _).
  assert (L : len (x ++ y ++ xk ++ xt ++ d') < Z.of_nat n) by (eapply prefix_len; reflexivity).
  pose proof L as L'. rewrite !len_app in L'. pose proof (len_nonneg x). pose proof (len_nonneg y). pose proof (len_nonneg d').
  pose proof (len_nonneg xk). pose proof (len_nonneg xt).
  assert (H' : halts [] (r_file n o) (x ++ y ++ xk ++ xt ++ d') (dotted way)).
  { unfold r_file. eapply ha_then; [eapply de_header; eassumption|]. apply ha_first.
    destruct (complete o (h_versions h)) as (_ & _ & _ & _ & _ & C). destruct (C _ _ _ Hl) as [Ll _].
    eapply ha_entries; eauto; [|lia|unfold len in L'; lia].
    apply (proj1 (back o (h_versions h))); [exact Ha|exact Hn|lia]. }
  rewrite (H' 0 t). reflexivity.
Qed.
Theorem ask_quiet (Q : forall p i, probe o p i = false) b path p :
  load_plain o b = Fail (Err (EHint path p))
  <-> exists d t way, b = d ++ t /\ p = len d /\ path = dotted way /\ hints o path = None /\ file_asks o d way.
Proof.
  split.
  - intros E. unfold load_plain in E. destruct (parse o b) as [[f c]|e] eqn:F; [discriminate|]. injection E as ->.
    exact (ak_file o Q _ _ _ _ _ F).
  - intros (d & t & way & -> & -> & -> & Hn & Ha). now apply ask_back.
Qed.
End File.
Lemma hash_plain o b f : load_plain o b = Fail f <-> load_plain (calm o) b = Fail f.
Proof.
  pose proof (hash_parse o (calm o) eq_refl (fun _ => eq_refl) b) as H. unfold load_plain.
  destruct (parse o b) as [[[h ps] c]|g], (parse (calm o) b) as [[[h' ps'] c']|g']; try contradiction; [split; discriminate|].
  subst. tauto.
Qed.
Theorem ask_iff o b path p :
  load_plain o b = Fail (Err (EHint path p))
  <-> exists d t way, b = d ++ t /\ p = len d /\ path = dotted way /\ hints o path = None /\ file_asks (calm o) d way.
Proof. rewrite hash_plain. exact (ask_quiet (calm o) (fun _ _ => eq_refl) b path p). Qed.
