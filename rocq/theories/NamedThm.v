(** Named property lists of a whole file and of a struct, for the reader that is
    really used (C21, C38). *)
From Coq Require Import ZArith List Bool String Lia ZifyBool ZifyNat.
From Verif Require Import Base Str Types Versions Text Props File Spec BaseFacts StrFacts ReaderFacts Sane ReadThm
  Decode KindFacts DecodeProp DecodeMain DecodeFile EqFacts EqSym RoundTrip MapFacts CtorThm OrderThm.
Import ListNotations.
Open Scope Z_scope.

(** Every entry takes more than one byte, so a list is shorter than the input. *)
Lemma named_short n o vs c l c' : named (r_prop n o vs) c l c' -> len (rest c) < Z.of_nat n ->
  len l < len (rest c) /\ len (rest c') <= len (rest c).
Proof.
  induction 1 as [c c' H|c name c1 ty c2 p c3 l c' H1 Hn H2 H3 H IH]; intros L.
  - pose proof (s_string (fun _ => True) (Z.of_nat n) c L) as S1. rewrite H in S1. destruct S1 as (b & E & _ & Lb & _).
    rewrite E, len_app, len_nil in *. pose proof (len_nonneg (rest c')). lia.
  - pose proof (s_string (fun _ => True) (Z.of_nat n) c L) as S1. rewrite H1 in S1. destruct S1 as (b & E & _ & Lb & _).
    rewrite E, len_app in *.
    assert (L1 : len (rest c1) < Z.of_nat n) by lia.
    pose proof (s_string (fun _ => True) (Z.of_nat n) c1 L1) as S1. rewrite H2 in S1. destruct S1 as (b1 & E1 & _ & Lb1 & _).
    rewrite E1, len_app in *.
    assert (L2 : len (rest c2) < Z.of_nat n) by lia.
    pose proof (sane_scoped _ _ _ name _ (s_prop o vs n ty true None) c2 L2) as S2. rewrite H3 in S2.
    destruct S2 as (b2 & E2 & _ & Lb2 & _). rewrite E2, len_app in *.
    destruct IH as [I1 I2]; [lia|]. rewrite len_cons. lia.
Qed.
Lemma len_lt_nat {A} (l : list A) n : len l < Z.of_nat n <-> (List.length l < n)%nat.
Proof. unfold len. lia. Qed.
(** The whole file. *)
Lemma parse_iff o b h ps c : parse o b = Ok ((h, ps), c) <->
  exists c1 l, r_header (start b) = Ok (h, c1)
    /\ named (r_prop (S (List.length b)) o (h_versions h)) c1 l c /\ collapsed str_eqb l ps.
Proof.
  unfold parse, r_file, bind, ret. fold (start b). split.
  - destruct (r_header (start b)) as [[h' c1]|] eqn:E1; [|discriminate].
    destruct (r_entries _ _ o (h_versions h') c1) as [[l c2]|] eqn:E2; [|discriminate].
    intros X. injection X as <- <- <-. exists c1, l. split; [reflexivity|].
    split; [now apply entries_named in E2|]. apply ins_all_collapsed; [apply str_rf|apply str_sy|apply str_tr].
  - intros (c1 & l & E1 & E2 & C). rewrite E1.
    pose proof (s_header (fun _ => True) (len b + 1) (start b)) as S1. cbn [rest start] in S1.
    specialize (S1 ltac:(lia)). rewrite E1 in S1. destruct S1 as (bs & Eb & _ & _ & _).
    assert (Lb : len (rest c1) <= len b) by (rewrite Eb, len_app; pose proof (len_nonneg bs); lia).
    destruct (named_short _ _ _ _ _ _ E2) as [N _]; [unfold len in *; lia|].
    rewrite (named_entries _ _ _ _ _ _ E2) by (unfold len in *; lia).
    do 3 f_equal. eapply (collapsed_unique str_eqb); [|exact C].
    apply ins_all_collapsed; [apply str_rf|apply str_sy|apply str_tr].
Qed.
(** The fields of a struct. *)
Lemma fields_iff n o vs c g c' : len (rest c) < Z.of_nat n ->
  r_custom n o (r_prop n o vs) [] c = Ok (g, c') <->
  exists l, named (r_prop n o vs) c l c' /\ (dbg o = true -> indexed l) /\ g = grouped l.
Proof.
  intros L. rewrite custom_iff. split.
  - intros (l & H & _ & I & G). eauto.
  - intros (l & H & I & G). exists l. split; [exact H|]. split; [|auto].
    destruct (named_short _ _ _ _ _ _ H L) as [N _]. apply len_lt_nat. lia.
Qed.
Lemma fields_panic n o vs c l c' : len (rest c) < Z.of_nat n -> named (r_prop n o vs) c l c' ->
  dbg o = true -> ~ indexed l -> r_custom n o (r_prop n o vs) [] c = Fail (Panic PStructIndex).
Proof.
  intros L H D N. eapply custom_panics; eauto.
  destruct (named_short _ _ _ _ _ _ H L) as [M _]. apply len_lt_nat. lia.
Qed.
(** Without repeated names a group holds one value. *)
Lemma all_of_apart l : apart_keys str_eqb (map fst l) -> grouped l = map (fun e => (fst e, [snd e])) l.
Proof.
  intros HA. unfold grouped. rewrite firsts_id by (try apply str_sy; auto). rewrite map_map.
  assert (G : forall pre, apart_keys str_eqb (map fst (pre ++ l)) ->
    map (fun x => (fst x, all_of str_eqb (fst x) (pre ++ l))) l = map (fun e : str * property => (fst e, [snd e])) l).
  2:{ exact (G [] HA). }
  assert (Z0 : forall k (r : list (str * property)), existsb (str_eqb k) (map fst r) = false -> all_of str_eqb k r = []).
  { intros k r. induction r as [|[a v] r IH]; cbn [map existsb all_of fst]; [reflexivity|].
    intros H. apply orb_false_iff in H as [-> H]. auto. }
  clear HA. induction l as [|[k v] l IH]; intros pre HA; cbn [map fst snd]; [reflexivity|]. f_equal.
  - f_equal. clear IH. induction pre as [|[a w] pre IHp]; cbn [app map fst all_of] in *.
    + inversion HA; subst. rewrite str_eqb_refl. f_equal. now apply Z0.
    + inversion HA as [|? ? H1 H2]; subst. destruct (str_eqb k a) eqn:E; [|auto].
      apply str_eqb_eq in E. subst a. rewrite map_app, existsb_app in H1. cbn [map fst existsb] in H1.
      rewrite str_eqb_refl in H1. rewrite orb_true_r in H1. discriminate.
  - specialize (IH (pre ++ [(k, v)])). rewrite <- app_assoc in IH. exact (IH HA).
Qed.
(** What is written: name, property, name, property, ..., "None", the values of one
    name next to each other. *)
Definition field_bytes (vs : list (guid * Z)) (e : str * property) (bs : list byte) : Prop :=
  exists x q, w_prop vs true (snd e) = Ok (x, q) /\ bs = str_bytes (fst e) ++ x.
Lemma seqs_fields vs l : forall b,
  (exists q, seqs (fun '(k, p) => w_string k +> w_prop vs true p) l = Ok (b, q))
  <-> exists bss, Forall2 (field_bytes vs) l bss /\ b = List.concat bss.
Proof.
  induction l as [|[k p] l IH]; intros b; cbn [seqs].
  - split.
    + intros [q E]. injection E as <- <-. exists []. split; [constructor|reflexivity].
    + intros (bss & F & ->). inversion F; subst. exists 0. reflexivity.
  - split.
    + intros [q E]. apply seq_ok in E as (y & m1 & y2 & m2 & E1 & E2 & -> & ->).
      apply seq_ok in E1 as (y0 & m0 & y1 & m3 & E0 & E1 & -> & ->).
      unfold w_string, emit in E0. injection E0 as <- <-.
      destruct (proj1 (IH y2) (ex_intro _ _ E2)) as (bss & F & ->).
      exists ((str_bytes k ++ y1) :: bss). split; [|reflexivity]. constructor; [|exact F].
      exists y1, m3. auto.
    + intros (bss & F & ->). inversion F as [|? ? ? bs' (x & q & E & ->) F']; subst. cbn [fst snd] in *.
      destruct (proj2 (IH (List.concat bs')) (ex_intro _ _ (conj F' eq_refl))) as [q' ->].
      rewrite E. unfold w_string, emit. cbn [seq]. eexists. reflexivity.
Qed.
Lemma seqs_flatten_iff (f : str -> property -> out) l x :
  (exists n, seqs (fun '(k, ps) => seqs (fun p => f k p) ps) l = Ok (x, n)) <->
  (exists n, seqs (fun '(k, p) => f k p) (flatten l) = Ok (x, n)).
Proof.
  split; [intros [n H]; exists n; now apply seqs_flatten|]. revert x.
  induction l as [|[k ps] l IH]; intros x [n E]; cbn [flatten flat_map seqs] in *; [eauto|].
  fold (flatten l) in E. apply seqs_app in E as (y1 & m1 & y2 & m2 & E1 & E2 & -> & ->).
  rewrite seqs_map in E1. rewrite E1. destruct (IH y2 (ex_intro _ _ E2)) as [n ->]. cbn [seq]. eauto.
Qed.
Lemma custom_bytes vs g b :
  (exists q, w_sval vs (SCustom g) = Ok (b, q)) <->
  exists bss, Forall2 (field_bytes vs) (flatten g) bss /\ b = List.concat bss ++ str_bytes s_none.
Proof.
  cbn [w_sval]. split.
  - intros [q E]. apply seq_ok in E as (y & m1 & y2 & m2 & E1 & E2 & -> & ->).
    unfold w_string, emit in E2. injection E2 as <- <-.
    destruct (proj1 (seqs_flatten_iff _ _ _) (ex_intro _ _ E1)) as [n E].
    destruct (proj1 (seqs_fields _ _ _) (ex_intro _ _ E)) as (bss & F & ->). eauto.
  - intros (bss & F & ->).
    destruct (proj2 (seqs_fields vs _ _) (ex_intro _ _ (conj F eq_refl))) as [n E].
    destruct (proj2 (seqs_flatten_iff (fun k p => w_string k +> w_prop vs true p) g _) (ex_intro _ _ E)) as [m ->].
    unfold w_string, emit. cbn [seq]. eauto.
Qed.
Lemma written_collapsed o h l b q t : (forall p i, probe o p i = false) -> header_ok h = true ->
  forallb (fun '(name, p) => str_ok name && negb (str_eqb name (s2z "None"))
                             && wf_prop o (h_versions h) same true [name] p) l = true ->
  w_file (h, l) = Ok (b, q) -> len b < 4294967296 ->
  exists ps, load_plain o (b ++ t) = Ok (h, ps) /\ collapsed str_eqb l ps.
Proof.
  intros P Hh Hf E L. exists (ins_all str_eqb l). split.
  - unfold load_plain. rewrite (parse_entries o same (fun k k' => apart_same o k k' P) h l b q t Hh Hf E L). reflexivity.
  - apply ins_all_collapsed; [apply str_rf|apply str_sy|apply str_tr].
Qed.
