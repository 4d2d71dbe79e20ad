(** Headers: round trip, acceptance window, repeated custom versions (C10, C11, C25). *)
From Coq Require Import ZArith List Bool String Lia ZifyBool ZifyNat.
From Verif Require Import Base Str Types Versions Text Props File Spec BaseFacts StrFacts Decode KindFacts
  DecodeProp DecodeMain DecodeAll DecodeFile Accept AcceptFile StrThm MapFacts VersionThm.
Import ListNotations.
Open Scope Z_scope.

(** ** Specification: the fixed layout *)
(** The little-endian number in four bytes at offset [i]. *)
Definition u32_at (b : list byte) (i : nat) : Z := le_val (firstn 4 (skipn i b)).
(** The first bytes of a header up to and including the package versions;
    [k] is their number. *)
Definition window (b : list byte) (k : Z) : Prop :=
  k <= len b /\ u32_at b 0 = 0x53415647 /\ 0x205 <= u32_at b 8 <= 0x20D
  /\ (u32_at b 4 = 2 /\ k = 12 \/ u32_at b 4 = 3 /\ k = 16 /\ 1000 <= u32_at b 12 <= 1009).
(** An engine version: four numbers and a branch name. *)
Definition engine_coded (v : fengine) (e : list byte) : Prop :=
  exists s, stored (Some (fe_branch v)) s
    /\ e = le_bytes 2 (fe_major v) ++ le_bytes 2 (fe_minor v) ++ le_bytes 2 (fe_patch v)
           ++ le_bytes 4 (fe_change v) ++ s
    /\ 0 <= fe_major v < 65536 /\ 0 <= fe_minor v < 65536 /\ 0 <= fe_patch v < 65536
    /\ 0 <= fe_change v < 4294967296.
Definition engine_bytes (e : list byte) : Prop := exists v, engine_coded v e.
(** A custom version: 16 bytes of GUID and a number. *)
Definition entry_bytes (e : guid * Z) : list byte := fst e ++ le_bytes 4 (snd e).
Definition entries_bytes (l : list (guid * Z)) : list byte := flat_map entry_bytes l.
Definition entry_fits (e : guid * Z) : Prop := len (fst e) = 16 /\ 0 <= snd e < 4294967296.
(** A whole header: bytes [b] hold [h] with the raw custom version list [l]. *)
Definition header_coded (h : header) (l : list (guid * Z)) (b : list byte) : Prop :=
  exists k e cb,
    window b k /\ engine_coded (h_engine h) e /\ stored (Some (h_class h)) cb
    /\ len l < 4294967296 /\ Forall entry_fits l
    /\ skipn (Z.to_nat k) b = e ++ le_bytes 4 3 ++ le_bytes 4 (len l) ++ entries_bytes l ++ cb
    /\ h_package h = u32_at b 8
    /\ h_ue5 h = (if u32_at b 4 =? 3 then Some (u32_at b 12) else None)
    /\ h_format h = 3.

(** ** Proofs *)
Lemma u32_read p b st : r_u32 (Cur p b st)
  = if 4 <=? len b then Ok (u32_at b 0, Cur (p + 4) (skipn 4 b) st) else Fail (Err EEof).
Proof. unfold r_u32, r_uint, take, bind, ret. cbn [rest pos stk]. destruct (4 <=? len b); reflexivity. Qed.
Lemma skip_skip {A} i j (b : list A) : skipn i (skipn j b) = skipn (j + i) b.
Proof. revert j. induction b as [|a b IH]; intros [|j]; cbn [skipn Nat.add]; rewrite ?skipn_nil; auto. Qed.
Lemma u32_skip b i j : u32_at (skipn i b) j = u32_at b (i + j).
Proof. unfold u32_at. now rewrite skip_skip. Qed.
Lemma len_skip {A} n (b : list A) : len (skipn n b) = Z.max 0 (len b - Z.of_nat n).
Proof. unfold len. rewrite skipn_length. lia. Qed.
Lemma u32_range b i : 0 <= u32_at b i < 4294967296.
Proof.
  unfold u32_at. pose proof (le_val_range (firstn 4 (skipn i b))) as H.
  assert (len (firstn 4 (skipn i b)) <= 4) by (unfold len; rewrite firstn_length; lia).
  pose proof (len_nonneg (firstn 4 (skipn i b))).
  assert (2 ^ (8 * len (firstn 4 (skipn i b))) <= 2 ^ 32) by (apply Z.pow_le_mono_r; lia).
  change (2 ^ 32) with 4294967296 in *. lia.
Qed.

(** Everything after the package versions. *)
Definition r_tail (package : Z) (ue5 : option Z) : reader header :=
  engine <- r_fengine ;;
  format <- r_checked HCustomFormat (fun v => v =? 3) ;;
  n <- r_u32 ;;
  l <- rep n r_version ;;
  class <- r_string ;;
  ret (Header package ue5 engine format (ins_all guid_eqb l) class).

Lemma header_eval p b st : r_header (Cur p b st) =
  if len b <? 4 then Fail (Err EEof)
  else if negb (u32_at b 0 =? gvas_magic) then Fail (Err (EHeader HFileType (u32_at b 0)))
  else if len b <? 8 then Fail (Err EEof)
  else if negb (inr 2 3 (u32_at b 4)) then Fail (Err (EHeader HSaveVersion (u32_at b 4)))
  else if len b <? 12 then Fail (Err EEof)
  else if negb (inr 0x205 0x20D (u32_at b 8)) then Fail (Err (EHeader HPackage (u32_at b 8)))
  else if 3 <=? u32_at b 4 then
    if len b <? 16 then Fail (Err EEof)
    else if negb (inr 1000 1009 (u32_at b 12)) then Fail (Err (EHeader HPackageUE5 (u32_at b 12)))
    else r_tail (u32_at b 8) (Some (u32_at b 12)) (Cur (p + 16) (skipn 16 b) st)
  else r_tail (u32_at b 8) None (Cur (p + 12) (skipn 12 b) st).
Proof.
  pose proof (len_nonneg b) as HL.
  unfold r_header, r_checked. unfold bind at 1 2. rewrite u32_read.
  destruct (Z.leb_spec 4 (len b)) as [L4|L4]; destruct (Z.ltb_spec (len b) 4); try lia; [|reflexivity].
  destruct (u32_at b 0 =? gvas_magic); cbn [negb]; [unfold ret at 1|reflexivity].
  unfold bind at 1 2. rewrite u32_read, u32_skip, len_skip, skip_skip. change (4 + 0)%nat with 4%nat.
  destruct (Z.leb_spec 4 (Z.max 0 (len b - Z.of_nat 4))); destruct (Z.ltb_spec (len b) 8); try lia; [|reflexivity].
  destruct (inr 2 3 (u32_at b 4)); cbn [negb]; [unfold ret at 1|reflexivity].
  unfold bind at 1 2. change (4 + 4)%nat with 8%nat. rewrite u32_read, u32_skip, len_skip, skip_skip.
  change (8 + 0)%nat with 8%nat.
  destruct (Z.leb_spec 4 (Z.max 0 (len b - Z.of_nat 8))); destruct (Z.ltb_spec (len b) 12); try lia; [|reflexivity].
  destruct (inr 517 525 (u32_at b 8)); cbn [negb]; [unfold ret at 1|reflexivity].
  change (8 + 4)%nat with 12%nat. unfold bind at 1. destruct (3 <=? u32_at b 4).
  - unfold bind at 1 2. rewrite u32_read, u32_skip, len_skip, skip_skip. change (12 + 0)%nat with 12%nat.
    destruct (Z.leb_spec 4 (Z.max 0 (len b - Z.of_nat 12))); destruct (Z.ltb_spec (len b) 16); try lia; [|reflexivity].
    destruct (inr 1000 1009 (u32_at b 12)); cbn [negb]; [unfold ret at 1|reflexivity].
    unfold ret at 1. change (12 + 4)%nat with 16%nat. replace (p + 4 + 4 + 4 + 4) with (p + 16) by lia. reflexivity.
  - unfold ret at 1. replace (p + 4 + 4 + 4) with (p + 12) by lia. reflexivity.
Qed.

(** Readers that never report a header error. *)
Definition no_hdr {A} (r : reader A) : Prop := forall c f v, r c <> Fail (Err (EHeader f v)).
Lemma nh_bind {A B} (r : reader A) (k : A -> reader B) : no_hdr r -> (forall a, no_hdr (k a)) -> no_hdr (bind r k).
Proof.
  intros H K c f v. unfold bind. destruct (r c) as [[a c1]|x] eqn:E; [apply K|]. intros X. injection X as ->.
  exact (H _ _ _ E).
Qed.
Lemma nh_ret {A} (a : A) : no_hdr (ret a). Proof. intros c f v. discriminate. Qed.
Lemma nh_take n : no_hdr (take n).
Proof. intros c f v. unfold take. destruct (n <=? len (rest c)); discriminate. Qed.
Lemma nh_uint w : no_hdr (r_uint w). Proof. apply nh_bind; [apply nh_take|intros; apply nh_ret]. Qed.
Lemma nh_string : no_hdr r_string.
Proof.
  unfold r_string. apply nh_bind; [intros c f v; discriminate|intros start].
  apply nh_bind; [|intros []; [apply nh_ret|intros c f v; discriminate]].
  unfold r_fstring. apply nh_bind; [intros c f v; discriminate|intros s].
  apply nh_bind; [apply nh_bind; [apply nh_uint|intros; apply nh_ret]|intros n].
  repeat match goal with |- no_hdr (if ?x then _ else _) => destruct x end;
    repeat first [apply nh_ret | intros c f v; discriminate
      | apply nh_bind; [first [apply nh_take|apply nh_uint|intros c f v; discriminate]|intros ?]
      | match goal with |- no_hdr (if ?x then _ else _) => destruct x | |- no_hdr (match ?x with _ => _ end) => destruct x end].
Qed.
Lemma nh_rep {A} n (r : reader A) : no_hdr r -> no_hdr (rep n r).
Proof.
  intros H. assert (G : forall m, no_hdr (repn m r)).
  { induction m as [|m IH]; cbn [repn]; [apply nh_ret|].
    apply nh_bind; [exact H|intros a]. apply nh_bind; [exact IH|intros; apply nh_ret]. }
  intros c f v. rewrite rep_repn. apply G.
Qed.
Lemma nh_fengine : no_hdr r_fengine.
Proof.
  unfold r_fengine. repeat (apply nh_bind; [first [apply nh_uint|apply nh_string]|intros ?]). apply nh_ret.
Qed.

(** The engine version in the input. *)
Lemma string_iff' p b st s c : r_string (Cur p b st) = Ok (s, c) <->
  exists bs t, stored (Some s) bs /\ b = bs ++ t /\ c = Cur (p + len bs) t st.
Proof.
  unfold r_string, bind, position, ret, fail. split.
  - destruct (r_fstring (Cur p b st)) as [[o c1]|] eqn:E; [|discriminate]. destruct o as [x|]; [|discriminate].
    intros X. injection X as -> ->. now apply fstring_iff.
  - intros H. apply fstring_iff in H. rewrite H. reflexivity.
Qed.
Lemma fengine_inv p b st v c : r_fengine (Cur p b st) = Ok (v, c) ->
  exists e t, engine_coded v e /\ b = e ++ t /\ c = Cur (p + len e) t st.
Proof.
  unfold r_fengine. unfold bind, ret.
  destruct (r_u16 (Cur p b st)) as [[a c1]|] eqn:E1; [|discriminate].
  destruct (r_u16 c1) as [[a2 c2]|] eqn:E2; [|discriminate].
  destruct (r_u16 c2) as [[a3 c3]|] eqn:E3; [|discriminate].
  destruct (r_u32 c3) as [[a4 c4]|] eqn:E4; [|discriminate].
  destruct (r_string c4) as [[s c5]|] eqn:E5; [|discriminate].
  intros X. injection X as <- <-.
  apply (uint_inv 2) in E1 as (R1 & B1 & P1 & S1). apply (uint_inv 2) in E2 as (R2 & B2 & P2 & S2).
  apply (uint_inv 2) in E3 as (R3 & B3 & P3 & S3). apply (uint_inv 4) in E4 as (R4 & B4 & P4 & S4).
  destruct c4 as [p4 b4 st4]. apply string_iff' in E5 as (bs & t & HS & -> & ->).
  cbn [rest pos stk] in *. rewrite R1, R2, R3, R4.
  exists (le_bytes 2 a ++ le_bytes 2 a2 ++ le_bytes 2 a3 ++ le_bytes 4 a4 ++ bs), t.
  rewrite !len_app, !len_le_bytes. split.
  { exists bs. cbn [fe_branch fe_major fe_minor fe_patch fe_change]. repeat split; auto; lia. }
  split; [now rewrite <- !app_assoc|]. f_equal; [lia|congruence].
Qed.
Lemma u16_ok z : 0 <= z < 65536 -> u_ok 2 z = true.
Proof. intros. unfold u_ok, in_range. rewrite andb_true_iff, !Z.leb_le. change (2 ^ (8 * 2)) with 65536. lia. Qed.
Lemma dec_stored st s bs : stored (Some s) bs -> decodes st r_string bs s.
Proof. intros H p t. apply string_iff'. eauto. Qed.
Lemma dec_fengine st v e : engine_coded v e -> decodes st r_fengine e v.
Proof.
  intros (s & HS & -> & B1 & B2 & B3 & B4). unfold r_fengine.
  eapply dec_bind; [now apply (dec_uint st 2), u16_ok|].
  eapply dec_bind; [now apply (dec_uint st 2), u16_ok|].
  eapply dec_bind; [now apply (dec_uint st 2), u16_ok|].
  eapply dec_bind; [now apply dec_u32|].
  eapply dec_bind_last; [apply dec_stored; eassumption|]. destruct v. apply dec_ret.
Qed.
Lemma fengine_ok e p t st : engine_bytes e -> exists v,
  r_fengine (Cur p (e ++ t) st) = Ok (v, Cur (p + len e) t st).
Proof. intros (v & H). exists v. now apply dec_fengine. Qed.
Lemma tail_format package ue5 p b st f v : r_tail package ue5 (Cur p b st) = Fail (Err (EHeader f v)) <->
  f = HCustomFormat /\ exists e t, engine_bytes e /\ b = e ++ le_bytes 4 v ++ t /\ 0 <= v < 4294967296 /\ v <> 3.
Proof.
  unfold r_tail, r_checked. split.
  - unfold bind at 1. destruct (r_fengine (Cur p b st)) as [[g c]|x] eqn:E.
    2:{ intros X. injection X as ->. now apply nh_fengine in E. }
    apply fengine_inv in E as (e & t & HE & -> & ->).
    unfold bind at 1 2. destruct (r_u32 (Cur (p + len e) t st)) as [[w c]|y] eqn:E.
    2:{ intros X. injection X as ->. now apply nh_uint in E. }
    apply (uint_inv 4) in E as (R & B & _). cbn [rest] in R. destruct (Z.eqb_spec w 3) as [->|N].
    + unfold ret at 1. intros X. exfalso. revert X.
      match goal with |- ?r ?c = _ -> _ => assert (NH : no_hdr r); [|intros X; exact (NH c f v X)] end.
      apply nh_bind; [apply nh_uint|intros n]. apply nh_bind; [apply nh_rep|intros l].
      * unfold r_version. apply nh_bind; [apply nh_take|intros ?]. apply nh_bind; [apply nh_uint|intros ?; apply nh_ret].
      * apply nh_bind; [apply nh_string|intros ?; apply nh_ret].
    + unfold fail. intros X. injection X as <- <-. split; [reflexivity|]. exists e, (rest c).
      split; [now exists g|]. rewrite R. auto.
  - intros (-> & e & t & HE & -> & B & N). destruct (fengine_ok e p (le_bytes 4 v ++ t) st HE) as (g & Eg).
    unfold bind at 1. rewrite Eg. unfold bind at 1 2.
    rewrite (dec_u32 st v B).
    destruct (Z.eqb_spec v 3); [contradiction|]. reflexivity.
Qed.

Ltac hdr_cases :=
  repeat match goal with
  | |- context [if ?x then _ else _] =>
      match type of x with bool => let E := fresh "C" in destruct x eqn:E end
  end.
Lemma inr_true a b z : inr a b z = true <-> a <= z <= b.
Proof. apply inr_iff. Qed.
Lemma inr_false a b z : inr a b z = false <-> ~ (a <= z <= b).
Proof. rewrite <- inr_iff. destruct (inr a b z); split; congruence. Qed.
Ltac hdr_facts :=
  repeat match goal with
  | H : negb _ = true |- _ => apply negb_true_iff in H
  | H : negb _ = false |- _ => apply negb_false_iff in H
  | H : inr _ _ _ = true |- _ => apply inr_iff in H
  | H : inr _ _ _ = false |- _ => apply inr_false in H
  | H : (_ =? _) = true |- _ => apply Z.eqb_eq in H
  | H : (_ =? _) = false |- _ => apply Z.eqb_neq in H
  | H : (_ <? _) = true |- _ => apply Z.ltb_lt in H
  | H : (_ <? _) = false |- _ => apply Z.ltb_ge in H
  | H : (_ <=? _) = true |- _ => apply Z.leb_le in H
  | H : (_ <=? _) = false |- _ => apply Z.leb_gt in H
  end; change gvas_magic with 0x53415647 in *.

Lemma header_file_type p b st v :
  r_header (Cur p b st) = Fail (Err (EHeader HFileType v))
  <-> 4 <= len b /\ u32_at b 0 = v /\ v <> 0x53415647.
Proof.
  rewrite header_eval. hdr_cases; hdr_facts; try rewrite tail_format;
    (split; [intros H; try discriminate; try (injection H as <-); try (destruct H as [H _]; discriminate)
            |intros (A & B & N)]); try lia; repeat split; try lia.
  f_equal. f_equal. f_equal. lia.
Qed.
Lemma header_save_version p b st v :
  r_header (Cur p b st) = Fail (Err (EHeader HSaveVersion v))
  <-> 8 <= len b /\ u32_at b 0 = 0x53415647 /\ u32_at b 4 = v /\ v <> 2 /\ v <> 3.
Proof.
  rewrite header_eval. hdr_cases; hdr_facts; try rewrite tail_format;
    (split; [intros H; try discriminate; try (injection H as <-); try (destruct H as [H _]; discriminate)
            |intros (A & B & N & N1 & N2)]); try lia; repeat split; try lia.
  f_equal. f_equal. f_equal. lia.
Qed.
Lemma header_package p b st v :
  r_header (Cur p b st) = Fail (Err (EHeader HPackage v))
  <-> 12 <= len b /\ u32_at b 0 = 0x53415647 /\ (u32_at b 4 = 2 \/ u32_at b 4 = 3)
      /\ u32_at b 8 = v /\ ~ (0x205 <= v <= 0x20D).
Proof.
  rewrite header_eval. hdr_cases; hdr_facts; try rewrite tail_format;
    (split; [intros H; try discriminate; try (injection H as <-); try (destruct H as [H _]; discriminate)
            |intros (A & B & N & N1 & N2)]); try lia; repeat split; try lia.
  f_equal. f_equal. f_equal. lia.
Qed.
Lemma header_ue5 p b st v :
  r_header (Cur p b st) = Fail (Err (EHeader HPackageUE5 v))
  <-> 16 <= len b /\ u32_at b 0 = 0x53415647 /\ u32_at b 4 = 3 /\ 0x205 <= u32_at b 8 <= 0x20D
      /\ u32_at b 12 = v /\ ~ (1000 <= v <= 1009).
Proof.
  rewrite header_eval. hdr_cases; hdr_facts; try rewrite tail_format;
    (split; [intros H; try discriminate; try (injection H as <-); try (destruct H as [H _]; discriminate)
            |intros (A & B & N & N1 & N2 & N3)]); try lia; repeat split; try lia.
  f_equal. f_equal. f_equal. lia.
Qed.
Lemma header_custom_format p b st v :
  r_header (Cur p b st) = Fail (Err (EHeader HCustomFormat v))
  <-> exists k e t, window b k /\ skipn (Z.to_nat k) b = e ++ le_bytes 4 v ++ t
      /\ engine_bytes e /\ 0 <= v < 4294967296 /\ v <> 3.
Proof.
  rewrite header_eval. unfold window. hdr_cases; hdr_facts; try rewrite tail_format.
  all: try (split; [discriminate|]; intros (k & e & t & W & _); lia).
  - split.
    + intros (_ & e & t & HE & E & B & N). exists 16, e, t. repeat split; try lia; try exact HE; exact E.
    + intros (k & e & t & W & E & HE & B & N). split; [reflexivity|]. exists e, t.
      replace (Z.to_nat k) with 16%nat in E by lia. auto.
  - split.
    + intros (_ & e & t & HE & E & B & N). exists 12, e, t. repeat split; try lia; try exact HE; exact E.
    + intros (k & e & t & W & E & HE & B & N). split; [reflexivity|]. exists e, t.
      replace (Z.to_nat k) with 12%nat in E by lia. auto.
Qed.

(** ** What follows the engine version *)
Lemma version_inv c e c' : r_version c = Ok (e, c') ->
  entry_fits e /\ rest c = entry_bytes e ++ rest c' /\ pos c' = pos c + len (entry_bytes e) /\ stk c' = stk c.
Proof.
  unfold r_version, bind, ret. destruct (r_guid c) as [[g c1]|] eqn:E1; [|discriminate].
  destruct (r_u32 c1) as [[v c2]|] eqn:E2; [|discriminate]. intros X. injection X as <- <-.
  apply take_inv in E1 as (R1 & L1 & P1 & S1); [|lia]. apply (uint_inv 4) in E2 as (R2 & B2 & P2 & S2).
  unfold entry_fits, entry_bytes. cbn [fst snd]. rewrite len_app, len_le_bytes, R1, R2, <- app_assoc.
  repeat split; try congruence; try lia.
Qed.
Lemma versions_inv n : forall c l c', repn n r_version c = Ok (l, c') ->
  List.length l = n /\ Forall entry_fits l /\ rest c = entries_bytes l ++ rest c'
  /\ pos c' = pos c + len (entries_bytes l) /\ stk c' = stk c.
Proof.
  induction n as [|n IH]; intros c l c'; cbn [repn]; unfold bind, ret.
  - intros X. injection X as <- <-. cbn. repeat split; auto; lia.
  - destruct (r_version c) as [[e c1]|] eqn:E1; [|discriminate].
    destruct (repn n r_version c1) as [[l1 c2]|] eqn:E2; [|discriminate]. intros X. injection X as <- <-.
    apply version_inv in E1 as (F1 & R1 & P1 & S1). apply IH in E2 as (L2 & F2 & R2 & P2 & S2).
    cbn [List.length entries_bytes flat_map]. fold (entries_bytes l1). rewrite len_app, R1, R2, <- app_assoc.
    repeat split; try congruence; try lia. constructor; auto.
Qed.
Lemma dec_version st e : entry_fits e -> decodes st r_version (entry_bytes e) e.
Proof.
  intros [H1 H2]. unfold r_version, entry_bytes. destruct e as [g v]. cbn [fst snd] in *.
  eapply dec_bind; [now apply dec_take_n|].
  eapply dec_bind_last; [now apply dec_u32|apply dec_ret].
Qed.
Lemma dec_versions st l : Forall entry_fits l -> decodes st (rep (len l) r_version) (entries_bytes l) l.
Proof.
  intros F. assert (G : decodes st (repn (List.length l) r_version) (entries_bytes l) l).
  { induction F as [|e l He F IH]; cbn [List.length repn entries_bytes flat_map]; [apply dec_ret|].
    eapply dec_bind; [now apply dec_version|]. fold (entries_bytes l).
    eapply dec_bind_last; [exact IH|apply dec_ret]. }
  intros p t. rewrite rep_repn. unfold len at 1. rewrite Nat2Z.id. apply G.
Qed.
Lemma tail_inv package ue5 p b st h c : r_tail package ue5 (Cur p b st) = Ok (h, c) ->
  exists e l cb t, b = (e ++ le_bytes 4 3 ++ le_bytes 4 (len l) ++ entries_bytes l ++ cb) ++ t
    /\ engine_coded (h_engine h) e /\ len l < 4294967296 /\ Forall entry_fits l
    /\ stored (Some (h_class h)) cb /\ c = Cur (p + (len b - len t)) t st
    /\ h = Header package ue5 (h_engine h) 3 (ins_all guid_eqb l) (h_class h).
Proof.
  unfold r_tail, r_checked. unfold bind at 1. destruct (r_fengine (Cur p b st)) as [[g c1]|] eqn:E1; [|discriminate].
  apply fengine_inv in E1 as (e & t1 & HE & -> & ->).
  unfold bind at 1 2. destruct (r_u32 (Cur (p + len e) t1 st)) as [[w c2]|] eqn:E2; [|discriminate].
  apply (uint_inv 4) in E2 as (R2 & B2 & P2 & S2). cbn [rest pos stk] in *.
  destruct (Z.eqb_spec w 3) as [->|]; [|discriminate]. unfold ret at 1.
  unfold bind at 1. destruct (r_u32 c2) as [[n c3]|] eqn:E3; [|discriminate].
  apply (uint_inv 4) in E3 as (R3 & B3 & P3 & S3).
  unfold bind at 1. rewrite rep_repn. destruct (repn (Z.to_nat n) r_version c3) as [[l c4]|] eqn:E4; [|discriminate].
  apply versions_inv in E4 as (L4 & F4 & R4 & P4 & S4).
  unfold bind at 1. destruct c4 as [p4 b4 st4]. destruct (r_string (Cur p4 b4 st4)) as [[cls c5]|] eqn:E5; [|discriminate].
  apply string_iff' in E5 as (cb & t & HC & -> & ->). cbn [rest pos stk] in *.
  unfold ret. intros X. injection X as <- <-. cbn [h_engine h_class].
  assert (Hn : n = len l) by (unfold len; lia). subst n.
  exists e, l, cb, t. rewrite R2, R3, R4, <- !app_assoc. split; [reflexivity|]. split; [exact HE|].
  change (2 ^ (8 * Z.of_nat 4)) with 4294967296 in B3. split; [lia|]. split; [exact F4|]. split; [exact HC|].
  split; [|reflexivity]. rewrite !len_app, !len_le_bytes. f_equal; [lia|congruence].
Qed.
Lemma dec_tail st package ue5 v e l cls cb : engine_coded v e -> len l < 4294967296 -> Forall entry_fits l ->
  stored (Some cls) cb ->
  decodes st (r_tail package ue5) (e ++ le_bytes 4 3 ++ le_bytes 4 (len l) ++ entries_bytes l ++ cb)
    (Header package ue5 v 3 (ins_all guid_eqb l) cls).
Proof.
  intros HE L F HC. unfold r_tail. pose proof (len_nonneg l).
  eapply dec_bind; [apply dec_fengine; eassumption|].
  eapply dec_bind; [unfold r_checked; eapply dec_bind_last; [apply dec_u32; lia|apply dec_ret]|].
  eapply dec_bind; [apply dec_u32; lia|].
  eapply dec_bind; [apply dec_versions; eassumption|].
  eapply dec_bind_last; [apply dec_stored; eassumption|]. apply dec_ret.
Qed.
Lemma u32_app b t i : Z.of_nat i + 4 <= len b -> u32_at (b ++ t) i = u32_at b i.
Proof.
  intros L. unfold u32_at, len in *. rewrite skipn_app, firstn_app, skipn_length.
  replace (4 - (List.length b - i))%nat with 0%nat by lia. cbn [firstn]. now rewrite app_nil_r.
Qed.
(** A header is accepted exactly when the input starts with its bytes. *)
Lemma header_iff p b st h c : r_header (Cur p b st) = Ok (h, c) <->
  exists l x t, b = x ++ t /\ header_coded h l x /\ h_versions h = ins_all guid_eqb l
    /\ c = Cur (p + len x) t st.
Proof.
  rewrite header_eval. unfold header_coded, window. split.
  - assert (G : forall k ue5, 0 <= k <= len b ->
        r_tail (u32_at b 8) ue5 (Cur (p + k) (skipn (Z.to_nat k) b) st) = Ok (h, c) ->
        exists l x t e cb, b = x ++ t /\ k <= len x /\ engine_coded (h_engine h) e
          /\ stored (Some (h_class h)) cb /\ len l < 4294967296 /\ Forall entry_fits l
          /\ skipn (Z.to_nat k) x = e ++ le_bytes 4 3 ++ le_bytes 4 (len l) ++ entries_bytes l ++ cb
          /\ h_package h = u32_at b 8 /\ h_ue5 h = ue5 /\ h_format h = 3
          /\ h_versions h = ins_all guid_eqb l /\ c = Cur (p + len x) t st).
    { intros k ue5 Hk H. apply tail_inv in H as (e & l & cb & t & E & HE & L & F & HC & Ec & Eh).
      set (y := e ++ le_bytes 4 3 ++ le_bytes 4 (len l) ++ entries_bytes l ++ cb) in *.
      exists l, (firstn (Z.to_nat k) b ++ y), t, e, cb.
      assert (EB : b = (firstn (Z.to_nat k) b ++ y) ++ t) by (rewrite <- app_assoc, <- E; symmetry; apply firstn_skipn).
      assert (LF : List.length (firstn (Z.to_nat k) b) = Z.to_nat k) by (rewrite firstn_length; unfold len in Hk; lia).
      assert (LB : len b = k + len y + len t) by (rewrite EB, !len_app; unfold len at 1; rewrite LF; lia).
      assert (LX : len (firstn (Z.to_nat k) b ++ y) = k + len y) by (rewrite len_app; unfold len at 1; rewrite LF; lia).
      pose proof (len_nonneg y). pose proof (len_nonneg t). rewrite LX.
      split; [exact EB|]. split; [lia|]. split; [exact HE|]. split; [exact HC|]. split; [exact L|]. split; [exact F|].
      split. { rewrite skipn_app, LF, Nat.sub_diag. rewrite skipn_all2 by lia. reflexivity. }
      rewrite Eh. cbn [h_package h_ue5 h_format h_versions]. repeat (split; [reflexivity|]).
      rewrite Ec. f_equal. rewrite len_skip. lia. }
    hdr_cases; hdr_facts; try discriminate.
    + change 16%nat with (Z.to_nat 16). intros H.
      destruct (G 16 _ ltac:(lia) H) as (l & x & t & e & cb & -> & Lx & HE & HC & L & F & Sk & A1 & A2 & A3 & A4 & A5).
      exists l, x, t. rewrite !u32_app in * by lia. split; [reflexivity|]. split; [|auto].
      exists 16, e, cb. assert (u32_at x 4 = 3) by lia. replace (u32_at x 4 =? 3) with true by lia.
      split; [repeat split; try lia|]. auto 10.
    + change 12%nat with (Z.to_nat 12). intros H.
      destruct (G 12 _ ltac:(lia) H) as (l & x & t & e & cb & -> & Lx & HE & HC & L & F & Sk & A1 & A2 & A3 & A4 & A5).
      exists l, x, t. rewrite !u32_app in * by lia. split; [reflexivity|]. split; [|auto].
      exists 12, e, cb. assert (u32_at x 4 = 2) by lia. replace (u32_at x 4 =? 3) with false by lia.
      split; [repeat split; try lia|]. auto 10.
  - intros (l & x & t & -> & (k & e & cb & (W1 & W2 & W3 & W4) & HE & HC & L & F & Sk & A1 & A2 & A3) & A4 & ->).
    pose proof (len_nonneg t). rewrite len_app.
    assert (H4 : k = 12 \/ k = 16) by lia. rewrite (u32_app x t 0), (u32_app x t 4), (u32_app x t 8) by lia.
    assert (T : forall p', p' + (len x - k) = p + len x ->
      r_tail (h_package h) (h_ue5 h) (Cur p' (skipn (Z.to_nat k) (x ++ t)) st) = Ok (h, Cur (p + len x) t st)).
    { intros p' Hp. rewrite skipn_app. replace (Z.to_nat k - List.length x)%nat with 0%nat by (unfold len in W1; lia).
      cbn [skipn]. rewrite Sk. rewrite (dec_tail st _ _ _ _ _ _ _ HE L F HC). f_equal. f_equal.
      - destruct h as [a1 a2 a3 a4 a5 a6]. cbn [h_package h_ue5 h_engine h_format h_versions h_class] in *. congruence.
      - f_equal. rewrite <- Sk, len_skip. lia. }
    hdr_cases; hdr_facts; try (exfalso; lia).
    + rewrite u32_app in C7 by lia. lia.
    + assert (k = 16) by lia. subst k. rewrite (u32_app x t 12) by lia.
      replace (u32_at x 4 =? 3) with true in A2 by lia. rewrite <- A1, <- A2. apply T. lia.
    + assert (k = 12) by lia. subst k.
      replace (u32_at x 4 =? 3) with false in A2 by lia. rewrite <- A1, <- A2. apply T. lia.
Qed.

(** ** Round trip *)
Lemma header_written h bs n p t st : header_ok h = true -> w_header h = Ok (bs, n) ->
  r_header (Cur p (bs ++ t) st) = Ok (h, Cur (p + len bs) t st).
Proof.
  intros H W. eapply enc_dec with (M := 1 + len bs); [apply (e_header _ st _ H)|exact W|lia].
Qed.
Lemma header_read_ok c h c' : r_header c = Ok (h, c') -> header_ok h = true.
Proof. intros E. exact (proj2 (a_header (stk c) c h c' eq_refl E)). Qed.
Lemma header_round_trip h p t st : exists bs n, w_header h = Ok (bs, n)
  /\ (r_header (Cur p (bs ++ t) st) = Ok (h, Cur (p + len bs) t st) <-> header_ok h = true).
Proof.
  destruct (w_header_ok h) as (bs & n & W). exists bs, n. split; [exact W|]. split.
  - apply header_read_ok.
  - intros H. now apply (header_written h bs n).
Qed.
Lemma header_reread c h c' : r_header c = Ok (h, c') ->
  exists bs n, w_header h = Ok (bs, n)
    /\ forall p t st, r_header (Cur p (bs ++ t) st) = Ok (h, Cur (p + len bs) t st).
Proof.
  intros E. apply header_read_ok in E. destruct (w_header_ok h) as (bs & n & W). exists bs, n.
  split; [exact W|]. intros p t st. now apply (header_written h bs n).
Qed.
(** Repeated custom versions: the last one counts. *)
Lemma header_versions p b st h c : r_header (Cur p b st) = Ok (h, c) ->
  exists l x t, b = x ++ t /\ header_coded h l x
    /\ forall g n, supports (h_versions h) g n = true <-> n <= last_version g l.
Proof.
  intros H. apply header_iff in H as (l & x & t & E & HC & V & _). exists l, x, t.
  split; [exact E|]. split; [exact HC|]. intros g n. rewrite V. apply supports_last.
Qed.
