(** Properties of unknown type (C15). *)
From Coq Require Import ZArith List Bool String Lia ZifyBool ZifyNat.
From Verif Require Import Base Str Types Versions Text Props File Spec BaseFacts ReaderFacts Prim StrFacts StrThm
  Decode KindFacts DecodeProp OrderThm FrameThm.
Import ListNotations.
Open Scope Z_scope.

Definition unknown (ty : str) : Prop := ~ In ty known_types.
Lemma unknown_kind ty : unknown ty <-> kind_of ty = KOther.
Proof.
  unfold unknown. rewrite kind_other, <- mem_in. split; intros H; [now apply not_true_is_false|rewrite H; discriminate].
Qed.
Lemma scoped_iff {A} s (r : reader A) p b st x c : local r ->
  scoped s r (Cur p b st) = Ok (x, c) <-> exists p' t, r (Cur p b (s :: st)) = Ok (x, Cur p' t (s :: st)) /\ c = Cur p' t st.
Proof.
  intros L. unfold scoped, bind, push, pop, ret. cbn [pos rest stk]. split.
  - destruct (r (Cur p b (s :: st))) as [[y [p1 b1 s1]]|] eqn:E; [|discriminate]. intros X. injection X as <- <-.
    apply L in E as E'. destruct E' as (bs & _ & _ & HS & _). cbn [stk] in *. subst s1. cbn [tl]. eauto.
  - intros (p' & t & -> & ->). reflexivity.
Qed.
Lemma take_iff n p b st x c : 0 <= n ->
  take n (Cur p b st) = Ok (x, c) <-> exists t, b = x ++ t /\ len x = n /\ c = Cur (p + n) t st.
Proof.
  intros Hn. split.
  - intros E. apply take_inv in E as (R & L & P & K); [|exact Hn]. destruct c as [p1 b1 s1]. cbn in *. subst. eauto.
  - intros (t & -> & <- & ->). apply (dec_take_n st (len x) x eq_refl).
Qed.
Lemma zero_at p t st : r_u8 (Cur p (Byte.x00 :: t) st) = Ok (0, Cur (p + 1) t st).
Proof. exact (dec_uint st 1 0 eq_refl p t). Qed.
Lemma term_at p t st : r_term (Cur p (Byte.x00 :: t) st) = Ok (tt, Cur (p + 1) t st).
Proof. unfold r_term. unfold bind at 1. rewrite zero_at. reflexivity. Qed.
Lemma index0_at p t st : r_index0 (Cur p (le_bytes 4 0 ++ t) st) = Ok (tt, Cur (p + 4) t st).
Proof. unfold r_index0. unfold bind at 1. rewrite u32_at_front by lia. reflexivity. Qed.
Lemma headed_iff {A} (body : Z -> str -> reader A) p b st x c :
  headed r_string body (Cur p b st) = Ok (x, c) <->
  exists L s e t, 0 <= L < 4294967296 /\ stored (Some s) e /\ b = le_bytes 4 L ++ le_bytes 4 0 ++ e ++ [Byte.x00] ++ t
    /\ body L s (Cur (p + 9 + len e) t st) = Ok (x, c) /\ pos c = p + 9 + len e + L.
Proof.
  split.
  - intros E. unfold headed in E. apply bind_ok in E as (L & c1 & E1 & E). apply eats_u32 in E1 as [(R1 & P1 & K1) HL].
    apply bind_ok in E as ([] & c2 & E2 & E). apply eats_index0 in E2 as (R2 & P2 & K2).
    apply bind_ok in E as (s & c3 & E3 & E). apply eats_string in E3 as (e & S3 & R3 & P3 & K3).
    apply bind_ok in E as ([] & c4 & E4 & E). apply eats_term in E4 as (R4 & P4 & K4).
    apply sized_ok in E as [E PE]. exists L, s, e, (rest c4). cbn [rest pos stk] in *.
    rewrite !len_le_bytes in *. change (len [Byte.x00]) with 1 in P4.
    assert (c4 = Cur (p + 9 + len e) (rest c4) st) as X by (destruct c4 as [p4 b4 s4]; cbn in *; f_equal; [lia|congruence]).
    rewrite <- X. split; [exact HL|]. split; [exact S3|]. split; [now rewrite R1, R2, R3, R4|]. split; [exact E|lia].
  - intros (L & s & e & t & HL & S3 & -> & E & P). unfold headed. unfold bind at 1. rewrite u32_at_front by exact HL.
    unfold bind at 1. rewrite index0_at. unfold bind at 1. rewrite string_at with (s := s) by exact S3.
    unfold bind at 1. cbn [app]. rewrite term_at. unfold sized, bind, position, ret. cbn [pos].
    replace (p + 4 + 4 + len e + 1) with (p + 9 + len e) by lia. rewrite E.
    destruct (Z.eqb_spec (pos c - (p + 9 + len e)) L); [reflexivity|lia].
Qed.
(** With a header. *)
Lemma unknown_iff n o vs ty sug p b st x c : unknown ty ->
  r_prop (S n) o vs ty true sug (Cur p b st) = Ok (x, c) <->
  exists raw t, len raw < 4294967296 /\ b = le_bytes 4 (len raw) ++ le_bytes 4 0 ++ [Byte.x00] ++ raw ++ t
    /\ x = PUnknown ty raw /\ c = Cur (p + 9 + len raw) t st.
Proof.
  intros U. apply unknown_kind in U. cbn [r_prop]. unfold r_body. rewrite U.
  rewrite scoped_iff by (apply prim_any, q_unknown_header; auto). split.
  - intros (p' & t & E & ->). unfold r_unknown_header in E.
    apply bind_ok in E as (L & c1 & E1 & E). apply eats_u32 in E1 as [(R1 & P1 & K1) HL].
    apply bind_ok in E as ([] & c2 & E2 & E). apply eats_zero32 in E2 as (R2 & P2 & K2).
    apply bind_ok in E as ([] & c3 & E3 & E). apply eats_zero8 in E3 as (R3 & P3 & K3).
    unfold r_unknown in E. apply bind_ok in E as (raw & c4 & E4 & E). injection E as <- ->.
    apply eats_take in E4 as [(R4 & P4 & K4) L4]; [|lia]. cbn [rest pos stk] in *. rewrite !len_le_bytes in *.
    change (len [Byte.x00]) with 1 in P3. subst L.
    exists raw, t. split; [lia|]. split; [now rewrite R1, R2, R3, R4|]. split; [reflexivity|]. f_equal. lia.
  - intros (raw & t & L & -> & -> & ->). exists (p + 9 + len raw), t. split; [|reflexivity].
    pose proof (len_nonneg raw). unfold r_unknown_header. unfold bind at 1. rewrite u32_at_front by lia.
    unfold bind at 1. unfold zero_or at 1. unfold bind at 1. rewrite u32_at_front by lia. cbn [Z.eqb]. unfold ret at 1.
    cbn [app]. unfold bind at 1, zero_or at 1. unfold bind at 1.
    rewrite zero_at. cbn [Z.eqb]. unfold ret at 1. unfold r_unknown, bind, ret.
    assert (X : take (len raw) (Cur (p + 4 + 4 + 1) (raw ++ t) (ty :: st)) = Ok (raw, Cur (p + 4 + 4 + 1 + len raw) t (ty :: st)))
      by (apply take_iff; [lia|eauto]).
    rewrite X. do 3 f_equal. lia.
Qed.
(** Elements. *)
Lemma runs_unknown n o vs ty k : unknown ty -> 0 <= k -> forall l p b st c,
  runs (r_prop (S n) o vs ty false (Some k)) (Cur p b st) l c <->
  exists raws t, l = map (PUnknown ty) raws /\ Forall (fun r => len r = k) raws /\ b = List.concat raws ++ t
    /\ c = Cur (p + len (List.concat raws)) t st.
Proof.
  intros U Hk. apply unknown_kind in U.
  assert (ONE : forall p b st x c, r_prop (S n) o vs ty false (Some k) (Cur p b st) = Ok (x, c) <->
    exists raw t, x = PUnknown ty raw /\ len raw = k /\ b = raw ++ t /\ c = Cur (p + k) t st).
  { intros p b st x c. cbn [r_prop]. unfold r_body. rewrite U. rewrite scoped_iff by (apply prim_any, q_unknown; auto).
    unfold r_unknown. split.
    - intros (p' & t & E & ->). apply bind_ok in E as (raw & c1 & E & X). injection X as <- ->.
      apply take_iff in E as (t' & -> & L & X); [|exact Hk]. injection X as -> ->. exists raw, t'. auto.
    - intros (raw & t & -> & L & -> & ->). exists (p + k), t. split; [|reflexivity].
      unfold bind. replace (take k (Cur p (raw ++ t) (ty :: st))) with (@Ok (list byte * cur) (raw, Cur (p + k) t (ty :: st))).
      { reflexivity. } symmetry. apply take_iff; [exact Hk|eauto]. }
  intros l. induction l as [|x l IH]; intros p b st c.
  - split.
    + intros H. inversion H; subst. exists [], b. cbn [map List.concat app]. rewrite len_nil, Z.add_0_r. auto.
    + intros (raws & t & E & _ & -> & ->). destruct raws; [|discriminate E]. cbn [List.concat app]. rewrite len_nil, Z.add_0_r. constructor.
  - split.
    + intros H. inversion H as [|? ? c1 ? ? H1 H2]; subst. apply ONE in H1 as (raw & t & -> & L & -> & ->).
      apply IH in H2 as (raws & t' & -> & F & -> & ->). exists (raw :: raws), t'. cbn [map List.concat].
      split; [reflexivity|]. split; [constructor; assumption|]. rewrite <- app_assoc, len_app. split; [reflexivity|]. f_equal. lia.
    + intros (raws & t & E & F & -> & ->). destruct raws as [|raw raws]; [discriminate E|]. cbn [map] in E. injection E as -> ->.
      inversion F; subst. cbn [List.concat]. rewrite <- app_assoc, len_app.
      econstructor; [apply ONE; eauto 7|]. apply IH. exists raws, t. repeat (split; [auto; fail|]). f_equal. lia.
Qed.
Lemma len_concat (raws : list (list byte)) k : Forall (fun r => len r = k) raws -> len (List.concat raws) = len raws * k.
Proof. induction 1 as [|r raws H F IH]; [reflexivity|]. cbn [List.concat]. rewrite len_app, len_cons, IH, H. lia. Qed.
Lemma seqs_raws vs ty raws : seqs (w_prop vs false) (map (PUnknown ty) raws) = Ok (List.concat raws, len (List.concat raws)).
Proof.
  induction raws as [|r raws IH]; [reflexivity|]. cbn [map List.concat seqs w_prop with_header]. rewrite IH. unfold emit, seq. now rewrite len_app.
Qed.
Lemma le4_shape L e a b L' e' s s' : 0 <= L < 4294967296 -> 0 <= L' < 4294967296 -> stored (Some s) e -> stored (Some s') e' ->
  le_bytes 4 L ++ le_bytes 4 0 ++ e ++ [Byte.x00] ++ a = le_bytes 4 L' ++ le_bytes 4 0 ++ e' ++ [Byte.x00] ++ b ->
  L = L' /\ s = s' /\ e = e' /\ a = b.
Proof.
  intros H H' S1 S2 E. apply le4_front in E as [-> E]; [|assumption|assumption]. apply le4_front in E as [_ E]; [|lia|lia].
  destruct (stored_front _ _ S1 _ _ _ _ S2 E) as (X & -> & E1). injection X as ->. cbn [app] in E1. injection E1 as ->. auto.
Qed.
Lemma cur_eq (c : cur) p t st : c = Cur p t st <-> pos c = p /\ rest c = t /\ stk c = st.
Proof. split; [intros ->; auto|]. destruct c as [a b d]. cbn. intros (-> & -> & ->). reflexivity. Qed.
(** Arrays. *)
Lemma unknown_array n o vs ty sug p L e t0 st x c : unknown ty -> stored (Some ty) e -> 0 <= L < 4294967296 ->
  r_prop (S (S n)) o vs (s2z "ArrayProperty") true sug (Cur p (le_bytes 4 L ++ le_bytes 4 0 ++ e ++ [Byte.x00] ++ t0) st) = Ok (x, c) <->
  exists raws k t, Forall (fun r => len r = k) raws /\ len raws < 4294967296 /\ L = 4 + len raws * k
    /\ t0 = le_bytes 4 (len raws) ++ List.concat raws ++ t
    /\ x = PArray (AProps ty (map (PUnknown ty) raws)) /\ c = Cur (p + 13 + len e + len (List.concat raws)) t st.
Proof.
  intros U He HL. change (r_prop (S (S n)) o vs (s2z "ArrayProperty") true sug)
    with (scoped (s2z "ArrayProperty") (headed r_string (fun length t => r_array (S (S n)) o vs (r_prop (S n) o vs) length t))).
  rewrite scoped_iff by (apply prim_any, q_headed; [auto|apply q_string; auto|intros; apply q_array; auto; intros; apply q_prop; auto]).
  pose proof (proj1 (unknown_kind ty) U) as KU.
  assert (NEW : forall l, array_new ty None l = Ok (AProps ty l)) by (intros l; unfold array_new; rewrite KU; reflexivity).
  assert (FAIL : forall st c x, r_prop (S n) o vs ty false None (Cur (pos c) (rest c) st) <> Ok x).
  { intros st' c0 y. cbn [r_prop]. unfold scoped, bind, push, r_body. rewrite KU. discriminate. }
  split.
  - intros (p' & t1 & E & ->). apply headed_iff in E as (L' & s & e' & t & HL' & Hs & Eb & E & P).
    apply le4_shape with (1 := HL) (2 := HL') (3 := He) (4 := Hs) in Eb as (<- & <- & <- & ->).
    unfold r_array in E. apply bind_ok in E as (cnt & c1 & E1 & E). apply eats_u32 in E1 as [(R1 & P1 & K1) HC].
    rewrite KU in E. apply bind_ok in E as (l & c2 & E2 & E). rewrite NEW in E. cbn [of_outcome] in E.
    unfold bind, ret in E. injection E as <- ->. cbn [rest pos stk] in *. rewrite len_le_bytes in P1.
    destruct c1 as [p1 b1 s1]. cbn [rest pos stk] in *. subst p1 s1 t.
    apply runs_rep in E2 as [E2 LL]; [|lia].
    destruct (Z.ltb_spec 0 cnt) as [H0|H0]; cbn [andb] in E2.
    + destruct (Z.leb_spec 4 L) as [H4|H4]; cbn [andb] in E2.
      * apply runs_unknown in E2 as (raws & t2 & -> & F & -> & X); [|exact U|apply Z.div_pos; lia].
        injection X as -> ->. rewrite len_map in LL. exists raws, ((L - 4) / cnt), t2.
        pose proof (len_concat _ _ F) as LC. rewrite LC in *. subst cnt.
        split; [exact F|]. split; [lia|]. split; [lia|]. split; [reflexivity|]. split; [reflexivity|]. f_equal. lia.
      * exfalso. destruct l as [|y l]; [rewrite len_nil in LL; lia|]. inversion E2; subst.
        match goal with Q : r_prop _ _ _ _ _ None (Cur ?a ?b ?d) = Ok ?y |- _ => now apply (FAIL d (Cur a b []) y) end.
    + destruct l; [|rewrite len_cons in LL; pose proof (len_nonneg l); lia].
      rewrite len_nil in LL. inversion E2; subst. exists [], 0, t1. cbn [List.concat app map]. change (@len (list byte) []) with 0. change (@len byte []) with 0.
      split; [constructor|]. split; [lia|]. split; [lia|]. split; [reflexivity|]. split; [reflexivity|]. f_equal. lia.
  - intros (raws & k & t & F & HN & -> & -> & -> & ->). eexists _, t. split; [|reflexivity].
    apply headed_iff. eexists _, ty, e, _. split; [exact HL|]. split; [exact He|]. split; [reflexivity|].
    pose proof (len_concat _ _ F) as LC. pose proof (len_nonneg raws).
    split; [|cbn [pos]; lia]. unfold r_array. unfold bind at 1. rewrite u32_at_front by lia. rewrite KU.
    assert (RUN : rep (len raws) (r_prop (S n) o vs ty false
        (if (0 <? len raws) && (4 <=? 4 + len raws * k) then Some ((4 + len raws * k - 4) / len raws) else None))
        (Cur (p + 9 + len e + 4) (List.concat raws ++ t) (s2z "ArrayProperty" :: st))
      = Ok (map (PUnknown ty) raws, Cur (p + 13 + len e + len (List.concat raws)) t (s2z "ArrayProperty" :: st))).
    { apply runs_rep; [lia|]. split; [|apply len_map].
      destruct (Z.ltb_spec 0 (len raws)) as [H0|H0]; cbn [andb].
      - assert (Hk : 0 <= k). { destruct raws as [|r rs]; [discriminate H0|]. apply Forall_inv in F. pose proof (len_nonneg r). lia. }
        destruct (Z.leb_spec 4 (4 + len raws * k)) as [H4|H4]; [|nia].
        replace ((4 + len raws * k - 4) / len raws) with k by (apply Z.div_unique_exact; lia).
        apply runs_unknown; [exact U|exact Hk|]. exists raws, t. split; [reflexivity|]. split; [exact F|]. split; [reflexivity|]. f_equal. lia.
      - destruct raws; [|rewrite len_cons in H0; pose proof (len_nonneg raws); lia]. cbn [map List.concat app]. change (@len (list byte) []) with 0. change (@len byte []) with 0.
        replace (p + 9 + len e + 4) with (p + 13 + len e + 0) by lia. constructor. }
    cbv zeta. unfold bind at 1. rewrite RUN. rewrite NEW. reflexivity.
Qed.
(** Sets. *)
Lemma unknown_set n o vs ty sug p L e t0 st x c : unknown ty -> stored (Some ty) e -> 0 <= L < 4294967296 ->
  r_prop (S (S n)) o vs (s2z "SetProperty") true sug (Cur p (le_bytes 4 L ++ le_bytes 4 0 ++ e ++ [Byte.x00] ++ t0) st) = Ok (x, c) <->
  exists flags raws k t, Forall (fun r => len r = k) raws /\ 0 <= flags < 4294967296 /\ len raws < 4294967296 /\ L = 8 + len raws * k
    /\ t0 = le_bytes 4 flags ++ le_bytes 4 (len raws) ++ List.concat raws ++ t
    /\ x = PSet ty flags (map (PUnknown ty) raws) /\ c = Cur (p + 17 + len e + len (List.concat raws)) t st.
Proof.
  intros U He HL. change (r_prop (S (S n)) o vs (s2z "SetProperty") true sug)
    with (scoped (s2z "SetProperty") (headed r_string (fun length t => r_set o (r_prop (S n) o vs) length t))).
  rewrite scoped_iff by (apply prim_any, q_headed; [auto|apply q_string; auto|intros; apply q_set; auto; intros; apply q_prop; auto]).
  split.
  - intros (p' & t1 & E & ->). apply headed_iff in E as (L' & s & e' & t & HL' & Hs & Eb & E & P).
    apply le4_shape with (1 := HL) (2 := HL') (3 := He) (4 := Hs) in Eb as (<- & <- & <- & ->).
    unfold r_set in E. apply bind_ok in E as (fl & c1 & E1 & E). apply eats_u32 in E1 as [(R1 & P1 & K1) HF].
    apply bind_ok in E as (cnt & c2 & E2 & E). apply eats_u32 in E2 as [(R2 & P2 & K2) HC].
    cbn [rest pos stk] in *. rewrite len_le_bytes in P1, P2.
    destruct c2 as [p2 b2 s2]. cbn [rest pos stk] in *. rewrite R2 in R1. subst p2 s2 t.
    destruct (Z.ltb_spec 0 cnt) as [H0|H0].
    + destruct ((L <? 8) && dbg o) eqn:D; [discriminate|].
      apply bind_ok in E as (l & c3 & E3 & E). injection E as <- ->.
      apply runs_rep in E3 as [E3 LL]; [|lia].
      apply runs_unknown in E3 as (raws & t2 & -> & F & -> & X); [|exact U|apply Z.div_pos; [apply Z.mod_pos_bound|]; lia].
      injection X as -> -> X. rewrite len_map in LL. pose proof (len_concat _ _ F) as LC.
      exists fl, raws, ((L - 8) mod 4294967296 / cnt), t2. subst cnt.
      split; [exact F|]. split; [exact HF|]. split; [lia|].
      split; [rewrite LC, P1 in P; lia|]. split; [reflexivity|]. split; [reflexivity|]. f_equal. lia.
    + assert (cnt = 0) by lia. subst cnt. injection E as <- X1 X2 X3. subst.
      exists fl, [], 0, t1. cbn [List.concat app map]. change (@len (list byte) []) with 0. change (@len byte []) with 0.
      split; [constructor|]. split; [lia|]. split; [lia|]. split; [lia|]. split; [reflexivity|]. split; [reflexivity|]. f_equal. lia.
  - intros (fl & raws & k & t & F & HF & HN & -> & -> & -> & ->). eexists _, t. split; [|reflexivity].
    apply headed_iff. eexists _, ty, e, _. split; [exact HL|]. split; [exact He|]. split; [reflexivity|].
    pose proof (len_concat _ _ F) as LC. pose proof (len_nonneg raws).
    split; [|cbn [pos]; lia]. unfold r_set. unfold bind at 1. rewrite u32_at_front by lia.
    unfold bind at 1. rewrite u32_at_front by lia.
    destruct (Z.ltb_spec 0 (len raws)) as [H0|H0].
    + assert (Hk : 0 <= k). { destruct raws as [|r rs]; [discriminate H0|]. apply Forall_inv in F. pose proof (len_nonneg r). lia. }
      destruct (Z.ltb_spec (8 + len raws * k) 8) as [H8|H8]; [nia|]. cbn [andb].
      replace ((8 + len raws * k - 8) mod 4294967296 / len raws) with k.
      2:{ rewrite Z.mod_small by lia. apply Z.div_unique_exact; lia. }
      assert (RUN : rep (len raws) (r_prop (S n) o vs ty false (Some k))
          (Cur (p + 9 + len e + 4 + 4) (List.concat raws ++ t) (s2z "SetProperty" :: st))
        = Ok (map (PUnknown ty) raws, Cur (p + 17 + len e + len (List.concat raws)) t (s2z "SetProperty" :: st))).
      { apply runs_rep; [lia|]. split; [|apply len_map].
        apply runs_unknown; [exact U|exact Hk|]. exists raws, t. split; [reflexivity|]. split; [exact F|]. split; [reflexivity|]. f_equal. lia. }
      unfold bind at 1. rewrite RUN. reflexivity.
    + destruct raws; [|rewrite len_cons in H0; pose proof (len_nonneg raws); lia]. cbn [map List.concat app]. change (@len (list byte) []) with 0. change (@len byte []) with 0.
      unfold ret. do 3 f_equal. lia.
Qed.
(** Maps have no element sizes: only empty ones are accepted. *)
Lemma entries_unknown n o vs kt vt l c c' : unknown kt \/ unknown vt ->
  runs (r_entry (r_prop (S n) o vs) kt vt) c l c' -> l = [] /\ c' = c.
Proof.
  intros U H. inversion H as [|x l' c1 c2 c3 H1 H2]; subst; [auto|exfalso].
  assert (FAIL : forall ty s c0 y, unknown ty -> scoped s (r_prop (S n) o vs ty false None) c0 <> Ok y).
  { intros ty s c0 y V. apply unknown_kind in V. cbn [r_prop]. unfold scoped, bind, push, r_body. rewrite V. discriminate. }
  unfold r_entry in H1. apply bind_ok in H1 as (k & c8 & E1 & H1). apply bind_ok in H1 as (v & c9 & E2 & H1).
  destruct U as [U|U]; [exact (FAIL _ _ _ _ U E1)|exact (FAIL _ _ _ _ U E2)].
Qed.
Lemma unknown_map n o vs kt vt sug p L ek ev t0 st x c :
  unknown kt \/ unknown vt -> stored (Some kt) ek -> stored (Some vt) ev -> 0 <= L < 4294967296 ->
  r_prop (S (S n)) o vs (s2z "MapProperty") true sug (Cur p (le_bytes 4 L ++ le_bytes 4 0 ++ ek ++ ev ++ [Byte.x00] ++ t0) st) = Ok (x, c) <->
  exists flags t, 0 <= flags < 4294967296 /\ L = 8 /\ t0 = le_bytes 4 flags ++ le_bytes 4 0 ++ t
    /\ x = PMap (map_new kt vt flags []) /\ c = Cur (p + 17 + len ek + len ev) t st.
Proof.
  intros U Hk Hv HL. change (r_prop (S (S n)) o vs (s2z "MapProperty") true sug)
    with (scoped (s2z "MapProperty") (headed (a <- r_string ;; b <- r_string ;; ret (a, b)) (fun _ kv => r_map o (r_prop (S n) o vs) (fst kv) (snd kv)))).
  rewrite scoped_iff by (apply prim_any, q_headed; [auto|apply p_bind; [apply q_string; auto|intros; apply p_bind; [apply q_string; auto|intros; apply p_ret]]
    |intros; apply q_map; auto; intros; apply q_prop; auto]).
  split.
  - intros (p' & t1 & E & ->). unfold headed in E. unfold bind at 1 in E. rewrite u32_at_front in E by exact HL.
    unfold bind at 1 in E. rewrite index0_at in E. unfold bind at 1 in E. unfold bind at 1 in E. rewrite string_at with (s := kt) in E by exact Hk.
    unfold bind at 1 in E. rewrite string_at with (s := vt) in E by exact Hv. unfold ret at 1 in E.
    unfold bind at 1 in E. cbn [app] in E. rewrite term_at in E. apply sized_ok in E as [E P]. cbn [fst snd pos] in *.
    unfold r_map in E. apply bind_ok in E as (fl & c1 & E1 & E). apply eats_u32 in E1 as [(R1 & P1 & K1) HF].
    apply bind_ok in E as (cnt & c2 & E2 & E). apply eats_u32 in E2 as [(R2 & P2 & K2) HC].
    apply bind_ok in E as (l & c3 & E3 & E). injection E as <- ->. apply runs_rep in E3 as [E3 LL]; [|lia].
    apply entries_unknown in E3 as [-> E3]; [|exact U]. change (@len (property * property * Z) []) with 0 in LL. subst cnt.
    cbn [rest pos stk] in *. rewrite len_le_bytes in P1, P2. destruct c2 as [p2 b2 s2]. injection E3 as -> -> _. cbn [rest pos stk] in *.
    exists fl, b2. split; [exact HF|]. split; [lia|]. split; [now rewrite R1, R2|]. split; [reflexivity|]. f_equal. lia.
  - intros (fl & t & HF & -> & -> & -> & ->). eexists _, t. split; [|reflexivity].
    unfold headed. unfold bind at 1. rewrite u32_at_front by lia. unfold bind at 1. rewrite index0_at. unfold bind at 1. unfold bind at 1.
    rewrite string_at with (s := kt) by exact Hk. unfold bind at 1. rewrite string_at with (s := vt) by exact Hv. unfold ret at 1.
    unfold bind at 1. cbn [app]. rewrite term_at. cbn [fst snd]. unfold sized, r_map, bind, position. rewrite u32_at_front by exact HF.
    rewrite u32_at_front by lia. cbn [rep]. unfold ret. cbn [pos].
    destruct (Z.eqb_spec (p + 4 + 4 + len ek + len ev + 1 + 4 + 4 - (p + 4 + 4 + len ek + len ev + 1)) 8); [|lia]. do 3 f_equal. lia.
Qed.
(** Writing. *)
Lemma unknown_written vs ty raw : w_prop vs true (PUnknown ty raw)
  = Ok (str_bytes ty ++ le_bytes 4 (len raw) ++ le_bytes 4 0 ++ [Byte.x00] ++ raw,
        2 * ((if is_ascii ty then len ty else len (utf16_enc ty)) + 1) + 4 + (4 + (4 + (0 + (1 + len raw))))).
Proof. reflexivity. Qed.
Lemma written_of (o : out) bs : (exists n, o = Ok (bs, n)) <-> match o with Ok (b, _) => b = bs | Fail _ => False end.
Proof. destruct o as [[b n]|]; split; [intros [m H]; congruence|intros ->; eauto|intros [m H]; discriminate|contradiction]. Qed.
Lemma unknown_array_written vs ty raws : exists n,
  w_prop vs true (PArray (AProps ty (map (PUnknown ty) raws)))
  = Ok (str_bytes (s2z "ArrayProperty") ++ le_bytes 4 (4 + len (List.concat raws)) ++ le_bytes 4 0 ++ str_bytes ty ++ [Byte.x00]
        ++ le_bytes 4 (len raws) ++ List.concat raws, n).
Proof.
  apply written_of. cbn [w_prop with_header w_array array_type]. rewrite seqs_raws, len_map. unfold w_u32, w_int, emit, seq at 1.
  cbn [Z.to_nat Pos.to_nat Pos.iter_op Nat.add]. rewrite len_app, len_le_bytes.
  unfold w_string, w_u8, w_int, emit, skip, seq. now rewrite ?app_assoc.
Qed.
Lemma unknown_set_written vs ty flags raws : exists n,
  w_prop vs true (PSet ty flags (map (PUnknown ty) raws))
  = Ok (str_bytes (s2z "SetProperty") ++ le_bytes 4 (8 + len (List.concat raws)) ++ le_bytes 4 0 ++ str_bytes ty ++ [Byte.x00]
        ++ le_bytes 4 flags ++ le_bytes 4 (len raws) ++ List.concat raws, n).
Proof.
  apply written_of. cbn [w_prop with_header]. rewrite seqs_raws, len_map. unfold w_u32, w_int, emit. unfold seq at 1 2.
  rewrite !len_app, !len_le_bytes. change (Z.of_nat (Z.to_nat 4)) with 4.
  replace (4 + (4 + len (List.concat raws))) with (8 + len (List.concat raws)) by lia.
  unfold w_string, w_u8, w_int, emit, skip, seq. now rewrite ?app_assoc.
Qed.
