(** Version gating: struct precision and text arguments (C16, C17). *)
From Coq Require Import ZArith List Bool String Lia ZifyBool ZifyNat.
From Verif Require Import Base Str Types Versions VersionTables Text Props File Spec BaseFacts ReaderFacts Prim StrFacts
  StrThm Decode KindFacts DecodeProp DecodeFile Induct OrderThm FrameThm UnknownThm RoundTrip.
Import ListNotations.
Open Scope Z_scope.

(** ** Specification *)

(** The file lists version [v] or a later one for [g]. *)
Definition at_least (g : guid) (v : Z) (vs : list (guid * Z)) : Prop := exists n, In (g, n) vs /\ v <= n.

(** What makes writing depend on the versions: every struct value of fixed layout,
    every integer argument of a text ([true]: 64 bits), and every struct value that
    is written with a header it does not have, in the order of writing. *)
Inductive leaf := LFixed (x : fixed) | LArg (wide : bool) | LBare.
Fixpoint text_leaves (t : ftext) : list leaf := match t with FText _ h => hist_leaves h end
with hist_leaves (h : fhist) : list leaf :=
  match h with
  | HNamed t l | HArgument t l => text_leaves t ++ flat_map (fun e => arg_leaves (snd e)) l
  | HOrdered t l => text_leaves t ++ flat_map arg_leaves l
  | HNumber v _ _ | HPercent v _ _ | HCurrency _ v _ _ => arg_leaves v
  | HTransform t _ => text_leaves t
  | _ => []
  end
with arg_leaves (a : farg) : list leaf :=
  match a with
  | AInt _ | AUInt _ => [LArg false]
  | AInt64 _ | AUInt64 _ => [LArg true]
  | AText t => text_leaves t
  | _ => []
  end.
Fixpoint leaves (hdr : bool) (p : property) : list leaf :=
  match p with
  | PText t => text_leaves t
  | PArray a => array_leaves a
  | PSet _ _ l => flat_map (leaves false) l
  | PMap m => map_leaves m
  | PStruct _ _ v => sval_leaves v
  | PSValue v => (if hdr then [LBare] else []) ++ sval_leaves v
  | _ => []
  end
with sval_leaves (v : svalue) : list leaf :=
  match v with
  | SFixed x _ => [LFixed x]
  | SCustom l => flat_map (fun e => flat_map (leaves true) (snd e)) l
  | _ => []
  end
with array_leaves (a : arrayp) : list leaf :=
  match a with
  | AStructs _ _ _ l => flat_map sval_leaves l
  | AProps _ l => flat_map (leaves false) l
  | _ => []
  end
with map_leaves (m : mapp) : list leaf :=
  match m with
  | MProp _ _ l => flat_map (fun e => leaves false (snd e)) l
  | MGen _ _ _ l => flat_map (fun e => leaves false (fst e) ++ leaves false (snd e)) l
  | _ => []
  end.
Definition file_leaves (f : header * list (str * property)) : list leaf :=
  flat_map (fun e => leaves true (snd e)) (snd f).
(** The objection to a leaf in a file with or without large world coordinates and
    64 bit arguments. *)
Definition objection (lwc arg64 : bool) (l : leaf) : list fault :=
  match l with
  | LFixed x => if precision_ok lwc x then [] else [Err (ESerialize (SLwc x))]
  | LArg wide => if Bool.eqb arg64 wide then [] else [Panic PArgWidth]
  | LBare => [Err (ESerialize SStructHeader)]
  end.

(** A text as a file without culture-invariant strings keeps it. *)
Fixpoint strip_text (culture : bool) (t : ftext) : ftext := match t with FText f h => FText f (strip_hist culture h) end
with strip_hist (culture : bool) (h : fhist) : fhist :=
  match h with
  | HNone s => if culture then HNone s else HEmpty
  | HNamed t l => HNamed (strip_text culture t) (map (fun '(k, v) => (k, strip_arg culture v)) l)
  | HOrdered t l => HOrdered (strip_text culture t) (map (strip_arg culture) l)
  | HArgument t l => HArgument (strip_text culture t) (map (fun '(k, v) => (k, strip_arg culture v)) l)
  | HNumber v o c => HNumber (strip_arg culture v) o c
  | HPercent v o c => HPercent (strip_arg culture v) o c
  | HCurrency d v o c => HCurrency d (strip_arg culture v) o c
  | HTransform t x => HTransform (strip_text culture t) x
  | h => h
  end
with strip_arg (culture : bool) (a : farg) : farg := match a with AText t => AText (strip_text culture t) | a => a end.
Fixpoint strip (culture : bool) (p : property) : property :=
  match p with
  | PText t => PText (strip_text culture t)
  | PArray a => PArray (strip_array culture a)
  | PSet t f l => PSet t f (map (strip culture) l)
  | PMap m => PMap (strip_map culture m)
  | PStruct g t v => PStruct g t (strip_sval culture v)
  | PSValue v => PSValue (strip_sval culture v)
  | p => p
  end
with strip_sval (culture : bool) (v : svalue) : svalue :=
  match v with SCustom l => SCustom (map (fun '(k, ps) => (k, map (strip culture) ps)) l) | v => v end
with strip_array (culture : bool) (a : arrayp) : arrayp :=
  match a with
  | AStructs f t g l => AStructs f t g (map (strip_sval culture) l)
  | AProps t l => AProps t (map (strip culture) l)
  | a => a
  end
with strip_map (culture : bool) (m : mapp) : mapp :=
  match m with
  | MProp k vt l => MProp k vt (map (fun '(k, v) => (k, strip culture v)) l)
  | MGen kt vt f l => MGen kt vt f (map (fun '(k, v) => (strip culture k, strip culture v)) l)
  | m => m
  end.
Definition strip_file (f : header * list (str * property)) : header * list (str * property) :=
  (fst f, map (fun '(k, p) => (k, strip (has_culture (h_versions (fst f))) p)) (snd f)).

(** ** Versions *)
Lemma lookup_in (vs : list (guid * Z)) g n : distinct guid_eqb vs = true -> In (g, n) vs -> lookup guid_eqb g vs = Some n.
Proof.
  induction vs as [|[g' n'] vs IH]; intros D H; [destruct H|]. cbn [distinct] in D. andbs. cbn [lookup].
  destruct H as [X|H].
  - injection X as -> ->. now rewrite guid_eqb_refl.
  - destruct (guid_eqb g g') eqn:E; [|now apply IH].
    match goal with F : forallb _ vs = true |- _ => pose proof (forallb_in _ _ (g, n) F H) as HH end.
    cbv beta in HH. cbn [fst] in HH. rewrite E in HH. discriminate.
Qed.
Lemma in_lookup (vs : list (guid * Z)) g n : lookup guid_eqb g vs = Some n -> In (g, n) vs.
Proof.
  induction vs as [|[g' n'] vs IH]; cbn [lookup]; [discriminate|]. destruct (guid_eqb g g') eqn:E.
  - apply guid_eqb_eq in E as ->. intros X. injection X as ->. now left.
  - intros H. right. auto.
Qed.
Lemma supports_iff vs g v : distinct guid_eqb vs = true -> 0 < v -> supports vs g v = true <-> at_least g v vs.
Proof.
  intros D V. unfold supports, get_version, at_least. rewrite Z.leb_le. split.
  - destruct (lookup guid_eqb g vs) as [n|] eqn:E; [|lia]. intros H. exists n. split; [now apply in_lookup|exact H].
  - intros (n & H & L). now rewrite (lookup_in _ _ _ D H).
Qed.

(** ** Writing: the first objection decides *)
Definition judged (w : out) (fs : list fault) : Prop :=
  match w with Ok _ => fs = [] | Fail f => exists r, fs = f :: r end.
Lemma j_emit b n : judged (emit b n) []. Proof. reflexivity. Qed.
Lemma j_seq a b fa fb : judged a fa -> judged b fb -> judged (a +> b) (fa ++ fb).
Proof.
  destruct a as [[x n]|f]; cbn [judged seq].
  - intros ->. destruct b as [[y m]|g]; cbn [judged app]; auto.
  - intros [r ->] _. cbn [app]. eauto.
Qed.
Lemma j_seq0 a b fb : judged a [] -> judged b fb -> judged (a +> b) fb.
Proof. apply j_seq. Qed.
Lemma j_seq1 a b fa : judged a fa -> judged b [] -> judged (a +> b) fa.
Proof. intros. rewrite <- (app_nil_r fa). now apply j_seq. Qed.
Lemma j_wrote w : wrote w -> judged w []. Proof. intros (b & n & ->). reflexivity. Qed.
Lemma j_seqs {A} (f : A -> out) (g : A -> list fault) l : Forall (fun a => judged (f a) (g a)) l -> judged (seqs f l) (flat_map g l).
Proof. induction 1; cbn [seqs flat_map]; [reflexivity|]. now apply j_seq. Qed.
Lemma j_header hdr name c i e b fs : wrote e -> judged b fs -> judged (with_header hdr name c i e b) fs.
Proof.
  intros He. unfold with_header. destruct hdr; [|auto]. destruct b as [[x n]|f]; [|auto]. intros H. cbn [judged] in H. subst fs.
  apply j_wrote. destruct c; wr.
Qed.
Lemma flat_map_map {A B C} (g : A -> B) (f : B -> list C) l : flat_map f (map g l) = flat_map (fun a => f (g a)) l.
Proof. induction l; cbn; [reflexivity|]. now rewrite IHl. Qed.
Lemma flat_map_flat {A B C} (g : A -> list B) (f : B -> list C) l : flat_map f (flat_map g l) = flat_map (fun a => flat_map f (g a)) l.
Proof. induction l; cbn; [reflexivity|]. now rewrite flat_map_app, IHl. Qed.

Section Write.
Context (vs : list (guid * Z)).
Notation obj := (flat_map (objection (has_lwc vs) (has_arg64 vs))).
Ltac js := repeat first [apply j_seq0; [apply j_wrote; solve [wr; auto using wrote_key]|]].
Lemma j_argint w t v : judged (w_argint vs w t v) (obj [LArg w]).
Proof. unfold w_argint. cbn [flat_map objection]. destruct (Bool.eqb _ _); cbn [app]; [apply j_wrote; wr|cbn; eauto]. Qed.
Lemma judged_text_all :
  (forall t, judged (w_text vs t) (obj (text_leaves t)))
  /\ (forall h, judged (w_hist vs h) (obj (hist_leaves h)))
  /\ (forall a, judged (w_farg vs a) (obj (arg_leaves a))).
Proof.
  apply text_all; cbn [text_leaves hist_leaves arg_leaves w_text w_hist w_farg]; intros; rewrite ?flat_map_app, ?flat_map_flat;
    try (js; auto; fail); try (apply j_wrote; wr; destruct (has_culture vs); wr; fail); try apply j_argint.
  1-3: apply j_seq0; [apply j_wrote; wr|]; apply j_seq; [assumption|]; js; apply j_seqs;
    match goal with H : Forall _ _ |- _ => eapply Forall_impl; [|exact H] end.
  - intros [k v] HH. cbn [snd] in *. js. exact HH.
  - auto.
  - intros [k v] HH. cbn [snd] in *. js. exact HH.
  - js. apply j_seq1; [assumption|apply j_wrote; wr].
  - js. apply j_seq1; [assumption|apply j_wrote; wr].
  - js. apply j_seq1; [assumption|apply j_wrote; wr].
  - js. apply j_seq1; [assumption|apply j_wrote; wr].
Qed.
Lemma judged_all :
  (forall p hdr, judged (w_prop vs hdr p) (obj (leaves hdr p)))
  /\ (forall v, judged (w_sval vs v) (obj (sval_leaves v)))
  /\ (forall a, judged (w_array vs a) (obj (array_leaves a)))
  /\ (forall m, judged (w_map vs m) (obj (map_leaves m))).
Proof.
  apply prop_all; cbn [leaves sval_leaves array_leaves map_leaves w_prop w_sval w_array w_map];
    intros; rewrite ?flat_map_flat;
    try (apply j_header; [wr; fail|]);
    try (apply j_wrote; wr; fail);
    try (apply j_wrote; wr; apply wrote_seqs'; intros; wr; fail);
    try (apply j_wrote; wr; apply wrote_seqs'; intros [? ?]; wr; auto using wrote_key; fail); auto.
  - apply j_wrote. unfold w_pbool. destruct hdr; wr.
  - apply j_wrote. unfold w_pbyte. destruct hdr; [|apply wrote_bytev]. destruct (wrote_bytev v) as (b & q & ->). wr.
  - apply judged_text_all.
  - js. apply j_seqs. eapply Forall_impl; [|eassumption]. cbv beta. auto.
  - destruct hdr; cbn [app flat_map objection]; [cbn; eauto|auto].
  - cbn [flat_map objection]. rewrite app_nil_r. unfold w_fixed.
    destruct x; cbn [fixed_lwc precision_ok]; destruct (has_lwc vs); cbn [Bool.eqb negb]; try apply (j_wrote _ (wrote_nums _ _)); cbn; eauto.
  - apply j_seq1; [|apply j_wrote; wr]. apply j_seqs. eapply Forall_impl; [|eassumption]. cbv beta. intros [k ps] HH. cbn [snd] in *.
    rewrite flat_map_flat. apply j_seqs. eapply Forall_impl; [|exact HH]. cbv beta. intros p HP. js. apply HP.
  - assert (J : judged (seqs (w_sval vs) l) (flat_map (fun a => obj (sval_leaves a)) l)) by (apply j_seqs; eapply Forall_impl; [|eassumption]; auto).
    destruct (seqs (w_sval vs) l) as [[b q]|f']; [|exact J]. cbn [judged] in J. rewrite J. apply j_wrote. wr.
  - js. apply j_seqs. eapply Forall_impl; [|eassumption]. cbv beta. auto.
  - js. apply j_seqs. eapply Forall_impl; [|eassumption]. cbv beta. intros [kk v] HP. cbn [snd] in *. js. auto.
  - js. apply j_seqs. eapply Forall_impl; [|eassumption]. cbv beta. intros [kk v] [HP HQ]. cbn [fst snd] in *.
    rewrite flat_map_app. apply j_seq; auto.
Qed.
End Write.

(** ** Whole files *)
Lemma judged_file f : judged (w_file f) (flat_map (objection (has_lwc (h_versions (fst f))) (has_arg64 (h_versions (fst f)))) (file_leaves f)).
Proof.
  unfold w_file, file_leaves. rewrite flat_map_flat.
  apply j_seq0. { apply j_wrote. unfold w_header, w_fengine. wr; [destruct (h_ue5 (fst f)); wr|]. apply wrote_seqs'. intros [? ?]. unfold w_version. wr. }
  apply j_seq1; [|apply j_wrote; wr]. apply j_seqs, Forall_forall. intros [k p] _. cbn [snd].
  apply j_seq0; [apply j_wrote; wr|]. apply (proj1 (judged_all _)).
Qed.
Lemma saved_iff f : match save_plain f with
  | Ok _ => flat_map (objection (has_lwc (h_versions (fst f))) (has_arg64 (h_versions (fst f)))) (file_leaves f) = []
  | Fail e => hd_error (flat_map (objection (has_lwc (h_versions (fst f))) (has_arg64 (h_versions (fst f)))) (file_leaves f)) = Some e
  end.
Proof.
  pose proof (judged_file f) as J. unfold save_plain. destruct (w_file f) as [[b n]|e]; cbn [judged] in J; [exact J|].
  destruct J as [r ->]. reflexivity.
Qed.
Lemma objection_cases lwc a l e : In e (objection lwc a l) ->
  (exists x, e = Err (ESerialize (SLwc x)) /\ l = LFixed x /\ precision_ok lwc x = false)
  \/ e = Panic PArgWidth /\ l = LArg (negb a)
  \/ e = Err (ESerialize SStructHeader) /\ l = LBare.
Proof.
  destruct l as [x|w|]; cbn [objection].
  - destruct (precision_ok lwc x) eqn:E; intros H; [destruct H|]. destruct H as [<-|[]]. left. eauto.
  - destruct (Bool.eqb a w) eqn:E; intros H; [destruct H|]. destruct H as [<-|[]]. right. left. split; [reflexivity|]. destruct a, w; (discriminate || reflexivity).
  - intros [<-|[]]. auto.
Qed.
Lemma first_objection lwc a ls e : hd_error (flat_map (objection lwc a) ls) = Some e ->
  (exists x, e = Err (ESerialize (SLwc x)) /\ In (LFixed x) ls /\ precision_ok lwc x = false)
  \/ e = Panic PArgWidth /\ In (LArg (negb a)) ls
  \/ e = Err (ESerialize SStructHeader) /\ In LBare ls.
Proof.
  intros H. assert (I : In e (flat_map (objection lwc a) ls)) by (destruct (flat_map _ _); [discriminate|injection H as ->; now left]).
  apply in_flat_map in I as (l & I & J). apply objection_cases in J as [(x & -> & -> & P)|[[-> ->]|[-> ->]]]; eauto 7.
Qed.
Lemma no_objection lwc a ls : flat_map (objection lwc a) ls = [] <->
  (forall x, In (LFixed x) ls -> precision_ok lwc x = true) /\ ~ In (LArg (negb a)) ls /\ ~ In LBare ls.
Proof.
  split.
  - intros H. assert (N : forall l e, In l ls -> ~ In e (objection lwc a l)).
    { intros l e I J. assert (In e (flat_map (objection lwc a) ls)) as X by (apply in_flat_map; eauto). rewrite H in X. destruct X. }
    split; [|split].
    + intros x I. destruct (precision_ok lwc x) eqn:E; [reflexivity|]. exfalso. apply (N _ (Err (ESerialize (SLwc x))) I). cbn [objection]. rewrite E. now left.
    + intros I. apply (N _ (Panic PArgWidth) I). cbn [objection]. destruct a; now left.
    + intros I. apply (N _ (Err (ESerialize SStructHeader)) I). now left.
  - intros (A & B & C). destruct (flat_map (objection lwc a) ls) as [|e r] eqn:E; [reflexivity|exfalso].
    destruct (first_objection lwc a ls e) as [(x & _ & I & P)|[[_ I]|[_ I]]]; [now rewrite E| | |]; auto.
    rewrite (A x I) in P. discriminate.
Qed.
Lemma save_ok_iff f : (exists b, save_plain f = Ok b) <->
  (forall x, In (LFixed x) (file_leaves f) -> precision_ok (has_lwc (h_versions (fst f))) x = true)
  /\ ~ In (LArg (negb (has_arg64 (h_versions (fst f))))) (file_leaves f) /\ ~ In LBare (file_leaves f).
Proof.
  rewrite <- no_objection. pose proof (saved_iff f) as J. destruct (save_plain f) as [b|e].
  - split; eauto.
  - split; [intros [b X]; discriminate|]. intros X. rewrite X in J. discriminate.
Qed.
Lemma save_wrong_precision f x : In (LFixed x) (file_leaves f) -> precision_ok (has_lwc (h_versions (fst f))) x = false ->
  exists e, save_plain f = Fail e
    /\ ((exists y, e = Err (ESerialize (SLwc y))) \/ e = Panic PArgWidth \/ e = Err (ESerialize SStructHeader))
    /\ (~ In (LArg (negb (has_arg64 (h_versions (fst f))))) (file_leaves f) -> ~ In LBare (file_leaves f) -> exists y, e = Err (ESerialize (SLwc y))).
Proof.
  intros I P. pose proof (saved_iff f) as J. destruct (save_plain f) as [b|e].
  - apply no_objection in J as (A & _). rewrite (A x I) in P. discriminate.
  - apply first_objection in J. exists e. split; [reflexivity|]. split; [firstorder|]. intros A B. destruct J as [(y & E & _)|[[_ X]|[_ X]]]; [eauto|contradiction..].
Qed.
Lemma save_wrong_width f : In (LArg (negb (has_arg64 (h_versions (fst f))))) (file_leaves f) ->
  exists e, save_plain f = Fail e
    /\ ((exists y, e = Err (ESerialize (SLwc y))) \/ e = Panic PArgWidth \/ e = Err (ESerialize SStructHeader))
    /\ ((forall x, In (LFixed x) (file_leaves f) -> precision_ok (has_lwc (h_versions (fst f))) x = true) ->
        ~ In LBare (file_leaves f) -> e = Panic PArgWidth).
Proof.
  intros I. pose proof (saved_iff f) as J. destruct (save_plain f) as [b|e].
  - apply no_objection in J as (_ & A & _). contradiction.
  - apply first_objection in J. exists e. split; [reflexivity|]. split; [firstorder|]. intros A B.
    destruct J as [(x & -> & Ix & Px)|[[-> _]|[-> J]]]; [|reflexivity|contradiction]. rewrite (A x Ix) in Px. discriminate.
Qed.

(** ** Reading *)
Lemma eats_dec {A} (r : reader A) bs a c c' : decodes (stk c) r bs a -> eats c bs c' -> r c = Ok (a, c').
Proof.
  intros D (R & P & K). destruct c as [p b st], c' as [p' b' st']. cbn [rest pos stk] in *. subst. apply D.
Qed.
Lemma uint_iff w c z c' : r_uint (Z.of_nat w) c = Ok (z, c') <-> u_ok (Z.of_nat w) z = true /\ eats c (le_bytes w z) c'.
Proof.
  split.
  - intros E. apply uint_inv in E as (R & L & P & K). split; [unfold u_ok, in_range; lia|]. repeat split; auto. now rewrite len_le_bytes.
  - intros [U E]. eapply eats_dec; [|exact E]. now apply dec_uint.
Qed.
Lemma sint_iff w c z c' : (0 < w)%nat -> r_sint (Z.of_nat w) c = Ok (z, c') <-> s_ok (Z.of_nat w) z = true /\ eats c (le_bytes w z) c'.
Proof.
  intros W. split.
  - intros E. apply sint_inv in E as (R & L & P & K); [|exact W]. split; [assumption|]. repeat split; auto. now rewrite len_le_bytes.
  - intros [U E]. eapply eats_dec; [|exact E]. now apply dec_sint.
Qed.
Lemma eats_split c a b c' : eats c (a ++ b) c' <-> exists c1, eats c a c1 /\ eats c1 b c'.
Proof.
  split.
  - intros (R & P & K). exists (Cur (pos c + len a) (b ++ rest c') (stk c)). unfold eats. cbn [rest pos stk].
    rewrite len_app in P. rewrite R, app_assoc. repeat split; auto; lia.
  - intros (c1 & E1 & E2). eapply eats_app; eauto.
Qed.
Lemma eats_nil_iff c c' : eats c [] c' <-> c' = c.
Proof.
  split; [|intros ->; apply eats_nil]. intros (R & P & K). destruct c as [p b st], c' as [p' b' st']. cbn [rest pos stk app] in *.
  change (@len byte []) with 0 in P. subst; f_equal; lia.
Qed.
Definition floats (k : num) : bool := match k with F32 | F64 => true | _ => false end.
Lemma float_iff k c z c' : floats k = true -> r_num k c = Ok (z, c') <-> u_ok (num_width k) z = true /\ eats c (le_bytes (Z.to_nat (num_width k)) z) c'.
Proof. destruct k; intros F; try discriminate; [exact (uint_iff 4 c z c')|exact (uint_iff 8 c z c')]. Qed.
Lemma cells_iff k n : floats k = true -> forall c l c',
  mapM r_num (repeat k n) c = Ok (l, c') <->
  List.length l = n /\ Forall (fun z => u_ok (num_width k) z = true) l /\ eats c (flat_map (le_bytes (Z.to_nat (num_width k))) l) c'.
Proof.
  intros F. induction n as [|n IH]; intros c l c'; cbn [repeat mapM].
  - unfold ret. split.
    + intros E. injection E as <- <-. split; [reflexivity|]. split; [constructor|apply eats_nil].
    + intros (L & _ & E). destruct l; [|discriminate]. cbn in E. apply eats_nil_iff in E as ->. reflexivity.
  - split.
    + intros E. apply bind_ok in E as (z & c1 & E1 & E). apply bind_ok in E as (r & c2 & E2 & E). injection E as <- <-.
      apply float_iff in E1 as [U E1]; [|exact F]. apply IH in E2 as (L & G & E2).
      split; [cbn; now rewrite L|]. split; [now constructor|]. cbn [flat_map]. eapply eats_app; eauto.
    + intros (L & G & E). destruct l as [|z r]; [discriminate|]. inversion G; subst. cbn [flat_map] in E.
      apply eats_split in E as (c1 & E1 & E2). unfold bind.
      rewrite (proj2 (float_iff k c z c1 F)) by auto. rewrite (proj2 (IH c1 r c')) by auto. reflexivity.
Qed.
Definition vector_types : list (str * nat * fixed * fixed) :=
  [(s2z "Vector", 3%nat, XVectorF, XVectorD); (s2z "Vector2D", 2%nat, XVector2F, XVector2D);
   (s2z "Rotator", 3%nat, XRotatorF, XRotatorD); (s2z "Quat", 4%nat, XQuatF, XQuatD)].
Lemma read_vector m o vs rp ty n xf xd wide : In (ty, n, xf, xd) vector_types ->
  distinct guid_eqb vs = true -> (wide = true <-> at_least ue5_guid 28 vs) -> forall c v c',
  r_sval m o vs rp ty c = Ok (v, c') <->
  exists l, List.length l = n /\ v = SFixed (if wide then xd else xf) l
    /\ Forall (fun z => 0 <= z < (if wide then 18446744073709551616 else 4294967296)) l
    /\ eats c (flat_map (le_bytes (if wide then 8 else 4)) l) c'.
Proof.
  intros I D W c v c'. assert (HW : has_lwc vs = wide).
  { unfold has_lwc. pose proof (supports_iff vs ue5_guid v_lwc D ltac:(reflexivity)) as S. change v_lwc with 28 in *.
    destruct (supports vs ue5_guid 28), wide; try reflexivity; intuition congruence. }
  unfold vector_types in I. cbn [In] in I.
  repeat (destruct I as [X|I]; [injection X as <- <- <- <-|]); [..|destruct I];
    (unfold r_sval; match goal with |- context [skind_of (s2z ?t)] => let k := eval vm_compute in (skind_of (s2z t)) in change (skind_of (s2z t)) with k end;
     cbn [fixed_of]; rewrite HW; destruct wide; cbn [layout];
     (match goal with |- context [mapM r_num ?l] => let k := eval cbn in (hd I8 l) in let n := eval cbn in (List.length l) in
        change l with (repeat k n); pose proof (cells_iff k n eq_refl c) as CELL end);
     (split;
      [intros E; apply bind_ok in E as (l & c1 & E1 & E); injection E as <- <-; apply CELL in E1 as (L & G & E1); exists l;
       split; [exact L|]; split; [reflexivity|]; split; [|exact E1];
       eapply Forall_impl; [|exact G]; cbv beta; unfold u_ok, in_range; cbn [num_width]; intros; lia
      |intros (l & L & -> & G & E); unfold bind; rewrite (proj2 (CELL l c')); [reflexivity|]; split; [exact L|]; split; [|exact E];
       eapply Forall_impl; [|exact G]; cbv beta; unfold u_ok, in_range; cbn [num_width]; intros; lia])).
Qed.
Lemma read_unversioned m o vs vs' rp ty c : In ty (map s2z ["DateTime"; "Timespan"; "LinearColor"; "IntPoint"; "Guid"; "GameplayTagContainer"]%string) ->
  r_sval m o vs rp ty c = r_sval m o vs' rp ty c.
Proof. cbn [map In]. intros H. repeat (destruct H as [<-|H]; [reflexivity|]). destruct H. Qed.

(** ** Texts *)
Lemma seqs_map {A B} (g : A -> B) (f : B -> out) l : seqs f (map g l) = seqs (fun a => f (g a)) l.
Proof. induction l as [|a l IH]; cbn [map seqs]; [reflexivity|]. now rewrite IH. Qed.
Lemma seqs_ext {A} (f g : A -> out) l : Forall (fun a => f a = g a) l -> seqs f l = seqs g l.
Proof. induction 1 as [|a l H F IH]; cbn [seqs]; [reflexivity|]. now rewrite H, IH. Qed.
Section StripWrite.
Context (vs : list (guid * Z)).
Notation cu := (has_culture vs).
Lemma strip_text_all :
  (forall t, w_text vs (strip_text cu t) = w_text vs t)
  /\ (forall h, w_hist vs (strip_hist cu h) = w_hist vs h)
  /\ (forall a, w_farg vs (strip_arg cu a) = w_farg vs a).
Proof.
  apply text_all; cbn [strip_text strip_hist strip_arg]; intros; try reflexivity; cbn [w_text w_hist w_farg];
    rewrite ?len_map, ?seqs_map; try congruence.
  - destruct cu eqn:C; cbn [w_hist]; rewrite ?C; reflexivity.
  - rewrite H. do 3 f_equal. apply seqs_ext. eapply Forall_impl; [|exact H0]. intros [k v] E. cbn [snd] in E. now rewrite E.
  - rewrite H. do 3 f_equal. apply seqs_ext. exact H0.
  - rewrite H. do 3 f_equal. apply seqs_ext. eapply Forall_impl; [|exact H0]. intros [k v] E. cbn [snd] in E. now rewrite E.
Qed.
Lemma strip_types : (forall p, type_of (strip cu p) = type_of p) /\ (forall a, array_type (strip_array cu a) = array_type a)
  /\ (forall m, map_key_type (strip_map cu m) = map_key_type m) /\ (forall m, map_value_type (strip_map cu m) = map_value_type m).
Proof. split; [|split; [|split]]; intros x; destruct x; reflexivity. Qed.
Lemma strip_all :
  (forall p hdr, w_prop vs hdr (strip cu p) = w_prop vs hdr p)
  /\ (forall v, w_sval vs (strip_sval cu v) = w_sval vs v)
  /\ (forall a, w_array vs (strip_array cu a) = w_array vs a)
  /\ (forall m, w_map vs (strip_map cu m) = w_map vs m).
Proof.
  destruct strip_types as (_ & TA & TK & TV).
  apply prop_all; cbn [strip strip_sval strip_array strip_map]; intros; try reflexivity; cbn [w_prop w_sval w_array w_map];
    rewrite ?len_map, ?seqs_map, ?TA, ?TK, ?TV; try congruence.
  - now rewrite (proj1 strip_text_all).
  - f_equal. do 2 f_equal. apply seqs_ext. eapply Forall_impl; [|exact H]. auto.
  - rewrite H. reflexivity.
  - f_equal. apply seqs_ext. eapply Forall_impl; [|exact H]. intros [k ps] HP. cbn [snd] in HP. rewrite seqs_map.
    apply seqs_ext. eapply Forall_impl; [|exact HP]. cbv beta. intros p E. now rewrite E.
  - rewrite (seqs_ext _ (w_sval vs) l); [reflexivity|exact H].
  - f_equal. apply seqs_ext. eapply Forall_impl; [|exact H]. auto.
  - do 2 f_equal. apply seqs_ext. eapply Forall_impl; [|exact H]. intros [k' v] E. cbn [snd] in E. now rewrite E.
  - do 2 f_equal. apply seqs_ext. eapply Forall_impl; [|exact H]. intros [k' v] [E E']. cbn [fst snd] in *. now rewrite E, E'.
Qed.
End StripWrite.
Lemma strip_saved f : save_plain (strip_file f) = save_plain f.
Proof.
  unfold save_plain, w_file, strip_file. cbn [fst snd]. rewrite seqs_map.
  rewrite (seqs_ext _ (fun '(name, p) => w_string name +> w_prop (h_versions (fst f)) true p)); [reflexivity|].
  apply Forall_forall. intros [k p] _. now rewrite (proj1 (strip_all _)).
Qed.
Lemma map_same {A} (g : A -> A) l : Forall (fun a => g a = a) l -> map g l = l.
Proof. induction 1 as [|a l H F IH]; cbn [map]; [reflexivity|]. now rewrite H, IH. Qed.
Lemma strip_text_id : (forall t, strip_text true t = t) /\ (forall h, strip_hist true h = h) /\ (forall a, strip_arg true a = a).
Proof.
  apply text_all; cbn [strip_text strip_hist strip_arg]; intros; try reflexivity; try congruence;
    rewrite map_same; try congruence; eapply Forall_impl; try eassumption; try (intros [k v] E; cbn [snd] in E; congruence); auto.
Qed.
Lemma strip_id_all : (forall p, strip true p = p) /\ (forall v, strip_sval true v = v)
  /\ (forall a, strip_array true a = a) /\ (forall m, strip_map true m = m).
Proof.
  apply prop_all; cbn [strip strip_sval strip_array strip_map]; intros; try reflexivity; try congruence;
    try (rewrite map_same; [reflexivity|]; eapply Forall_impl; [|eassumption]; cbv beta; auto; fail).
  - now rewrite (proj1 strip_text_id).
  - rewrite map_same; [reflexivity|]. eapply Forall_impl; [|eassumption]. intros [k ps] E. cbn [snd] in E. now rewrite map_same.
  - rewrite map_same; [reflexivity|]. eapply Forall_impl; [|eassumption]. intros [k' v] E. cbn [snd] in E. congruence.
  - rewrite map_same; [reflexivity|]. eapply Forall_impl; [|eassumption]. intros [k' v] [E E']. cbn [fst snd] in *. congruence.
Qed.
Lemma strip_file_id f : has_culture (h_versions (fst f)) = true -> strip_file f = f.
Proof.
  destruct f as [h l]. unfold strip_file. cbn [fst snd]. intros ->. f_equal. apply map_same, Forall_forall. intros [k p] _.
  now rewrite (proj1 strip_id_all).
Qed.

(** Integer arguments. *)
Lemma enum_iff {A} t (f : Z -> option A) c a c' : r_enum t f c = Ok (a, c') <-> exists z, s_ok 1 z = true /\ f z = Some a /\ eats c (le_bytes 1 z) c'.
Proof.
  unfold r_enum. split.
  - intros E. apply bind_ok in E as (z & c1 & E1 & E). destruct (f z) as [a'|] eqn:F; [|discriminate]. injection E as <- <-.
    apply (sint_iff 1) in E1 as [U E1]; [|lia]. eauto.
  - intros (z & U & F & E). unfold bind. unfold r_i8. change 1 with (Z.of_nat 1) at 1. rewrite (proj2 (sint_iff 1 c z c' ltac:(lia))) by auto.
    rewrite F. reflexivity.
Qed.
Lemma read_int_arg vs rt wide (signed : bool) : distinct guid_eqb vs = true -> (wide = true <-> at_least ue5_guid 12 vs) -> forall p t st a c,
  r_farg vs rt (Cur p ((if signed then Byte.x00 else Byte.x01) :: t) st) = Ok (a, c) <->
  exists z, (if signed then s_ok else u_ok) (if wide then 8 else 4) z = true
    /\ a = (if signed then if wide then AInt64 z else AInt z else if wide then AUInt64 z else AUInt z)
    /\ eats (Cur (p + 1) t st) (le_bytes (if wide then 8 else 4) z) c.
Proof.
  intros D W p t st a c. assert (HW : has_arg64 vs = wide).
  { unfold has_arg64. pose proof (supports_iff vs ue5_guid v_arg64 D ltac:(reflexivity)) as S. change v_arg64 with 12 in *.
    destruct (supports vs ue5_guid 12), wide; try reflexivity; intuition congruence. }
  assert (EN : r_enum ETArgument (enum_of atype_z atypes) (Cur p ((if signed then Byte.x00 else Byte.x01) :: t) st)
               = Ok (if signed then TyInt else TyUInt, Cur (p + 1) t st)).
  { apply enum_iff. exists (if signed then 0 else 1). destruct signed; (split; [reflexivity|]; split; [reflexivity|]; repeat split). }
  unfold r_farg. unfold bind at 1. rewrite EN. rewrite HW.
  destruct signed, wide; (split;
    [intros E; apply bind_ok in E as (z & c1 & E1 & E); injection E as <- <-;
     (first [apply (sint_iff 8) in E1; [|lia]|apply (sint_iff 4) in E1; [|lia]|apply (uint_iff 8) in E1|apply (uint_iff 4) in E1]); destruct E1 as [U E1]; eauto
    |intros (z & U & -> & E); unfold bind, ret;
     first [rewrite (proj2 (sint_iff 8 _ z c ltac:(lia))) by auto; reflexivity
           |rewrite (proj2 (sint_iff 4 _ z c ltac:(lia))) by auto; reflexivity
           |rewrite (proj2 (uint_iff 8 _ z c)) by auto; reflexivity
           |rewrite (proj2 (uint_iff 4 _ z c)) by auto; reflexivity]]).
Qed.
(** Culture-invariant strings. *)
Lemma b32_iff c b c' : r_b32 c = Ok (b, c') <-> eats c (le_bytes 4 (if b : bool then 1 else 0)) c'.
Proof.
  unfold r_b32, r_boolw. split.
  - intros E. apply bind_ok in E as (z & c1 & E1 & E). apply (uint_iff 4) in E1 as [U E1].
    destruct (Z.eqb_spec z 0) as [->|]; [injection E as <- <-; exact E1|]. destruct (Z.eqb_spec z 1) as [->|]; [injection E as <- <-; exact E1|]. discriminate.
  - intros E. unfold bind. change 4 with (Z.of_nat 4) at 1. rewrite (proj2 (uint_iff 4 c (if b then 1 else 0) c')); [destruct b; reflexivity|].
    split; [destruct b; reflexivity|exact E].
Qed.
Lemma fstring_eats c s c' : r_fstring c = Ok (s, c') <-> exists e, stored s e /\ eats c e c'.
Proof.
  split; [intros E; now apply eats_fstring in E|]. intros (e & S & R & P & K). destruct c as [p b st], c' as [p' b' st'].
  cbn [rest pos stk] in *. apply fstring_iff. exists e, b'. subst. auto.
Qed.
Lemma read_plain_text n vs culture : distinct guid_eqb vs = true -> (culture = true <-> at_least editor_guid 32 vs) -> forall f p t st x c,
  0 <= f < 4294967296 ->
  r_text (S n) vs (Cur p (le_bytes 4 f ++ Byte.xff :: t) st) = Ok (x, c) <->
  if culture then
    (x = FText f HEmpty /\ eats (Cur (p + 5) t st) (le_bytes 4 0) c)
    \/ exists s e, stored s e /\ x = FText f (HNone s) /\ eats (Cur (p + 5) t st) (le_bytes 4 1 ++ e) c
  else x = FText f HEmpty /\ c = Cur (p + 5) t st.
Proof.
  intros D W f p t st x c HF. assert (HW : has_culture vs = culture).
  { unfold has_culture. pose proof (supports_iff vs editor_guid v_culture D ltac:(reflexivity)) as S. change v_culture with 32 in *.
    destruct (supports vs editor_guid 32), culture; try reflexivity; intuition congruence. }
  assert (EN : r_enum ETHistory (enum_of htype_z htypes) (Cur (p + 4) (Byte.xff :: t) st) = Ok (TNone, Cur (p + 4 + 1) t st)).
  { apply enum_iff. exists (-1). split; [reflexivity|]. split; [reflexivity|]. repeat split. }
  cbn [r_text]. unfold bind at 1. rewrite u32_at_front by exact HF. unfold bind at 1. unfold r_hist. unfold bind at 1. rewrite EN.
  rewrite HW. replace (p + 4 + 1) with (p + 5) by lia. destruct culture.
  - split.
    + unfold bind, ret. destruct (r_b32 (Cur (p + 5) t st)) as [[b c1]|] eqn:E1; [|discriminate]. apply b32_iff in E1. destruct b.
      * destruct (r_fstring c1) as [[s c2]|] eqn:E2; [|discriminate]. apply fstring_eats in E2 as (e & S & E2).
        intros X. injection X as <- <-. right. exists s, e. split; [exact S|]. split; [reflexivity|]. eapply eats_app; eauto.
      * intros X. injection X as <- <-. auto.
    + unfold bind, ret. intros [[-> E]|(s & e & S & -> & E)].
      * rewrite (proj2 (b32_iff _ false _) E). reflexivity.
      * apply eats_split in E as (c1 & E1 & E2). rewrite (proj2 (b32_iff _ true _) E1).
        rewrite (proj2 (fstring_eats c1 s c)) by eauto. reflexivity.
  - unfold ret. split; [intros X; injection X as <- <-; auto|]. intros [-> ->]. reflexivity.
Qed.

(** ** The verdict on a value, in terms of the version table alone *)
Definition singles : list fixed := [XVector2F; XVectorF; XRotatorF; XQuatF].
Definition doubles : list fixed := [XVector2D; XVectorD; XRotatorD; XQuatD].
Inductive complaint (vs : list (guid * Z)) : leaf -> fault -> Prop :=
| CSingle x : In x singles -> at_least ue5_guid 28 vs -> complaint vs (LFixed x) (Err (ESerialize (SLwc x)))
| CDouble x : In x doubles -> ~ at_least ue5_guid 28 vs -> complaint vs (LFixed x) (Err (ESerialize (SLwc x)))
| CNarrow : at_least ue5_guid 12 vs -> complaint vs (LArg false) (Panic PArgWidth)
| CWide : ~ at_least ue5_guid 12 vs -> complaint vs (LArg true) (Panic PArgWidth)
| CBare : complaint vs LBare (Err (ESerialize SStructHeader)).
(** Nothing to complain about, or the failure is the first complaint. *)
Definition verdict {A} (vs : list (guid * Z)) (r : outcome A) (ls : list leaf) : Prop :=
  match r with
  | Ok _ => forall l e, In l ls -> ~ complaint vs l e
  | Fail e => exists ls1 l ls2, ls = ls1 ++ l :: ls2 /\ complaint vs l e
                /\ forall l' e', In l' ls1 -> ~ complaint vs l' e'
  end.
Lemma complaint_iff vs l e : distinct guid_eqb vs = true -> In e (objection (has_lwc vs) (has_arg64 vs) l) <-> complaint vs l e.
Proof.
  intros D. pose proof (supports_iff vs ue5_guid v_lwc D ltac:(reflexivity)) as S1.
  pose proof (supports_iff vs ue5_guid v_arg64 D ltac:(reflexivity)) as S2. fold (has_lwc vs) in S1. fold (has_arg64 vs) in S2.
  change v_lwc with 28 in S1. change v_arg64 with 12 in S2.
  split.
  - destruct l as [x|w|]; cbn [objection].
    + destruct (has_lwc vs); destruct x; cbn [precision_ok In]; intros H;
        first [destruct H as [<-|[]]|destruct H];
        first [apply CSingle; [cbn; tauto|tauto]|apply CDouble; [cbn; tauto|rewrite <- S1; discriminate]].
    + destruct (has_arg64 vs), w; cbn [Bool.eqb In]; intros H; first [destruct H as [<-|[]]|destruct H];
        constructor; [tauto|rewrite <- S2; discriminate].
    + intros [<-|[]]. constructor.
  - intros H. destruct H as [x I A|x I A|A|A|]; cbn [objection].
    + rewrite (proj2 S1 A). cbn [singles In] in I. intuition (subst; now left).
    + destruct (has_lwc vs); [tauto|]. cbn [doubles In] in I. intuition (subst; now left).
    + rewrite (proj2 S2 A). now left.
    + destruct (has_arg64 vs); [tauto|]. now left.
    + now left.
Qed.
Lemma objection_one lwc a l : objection lwc a l = [] \/ exists e, objection lwc a l = [e].
Proof. destruct l; cbn [objection]; repeat match goal with |- context [if ?b then _ else _] => destruct b end; eauto. Qed.
Lemma judged_verdict {A} vs (r : outcome A) ls : distinct guid_eqb vs = true ->
  match r with Ok _ => flat_map (objection (has_lwc vs) (has_arg64 vs)) ls = []
             | Fail e => hd_error (flat_map (objection (has_lwc vs) (has_arg64 vs)) ls) = Some e end -> verdict vs r ls.
Proof.
  intros D. destruct r as [a|e]; cbn [verdict].
  - intros H l e I C. apply complaint_iff in C; [|exact D]. assert (In e (flat_map (objection (has_lwc vs) (has_arg64 vs)) ls)) as X by (apply in_flat_map; eauto).
    rewrite H in X. destruct X.
  - induction ls as [|l ls IH]; cbn [flat_map]; [discriminate|]. intros H.
    destruct (objection_one (has_lwc vs) (has_arg64 vs) l) as [E|[e' E]]; rewrite E in H; cbn [app hd_error] in H.
    + destruct (IH H) as (l1 & x & l2 & -> & C & N). exists (l :: l1), x, l2. split; [reflexivity|]. split; [exact C|].
      intros l' e' [<-|I]; [|now apply N]. intros Q. apply complaint_iff in Q; [|exact D]. rewrite E in Q. destruct Q.
    + injection H as ->. exists [], l, ls. split; [reflexivity|]. split; [apply complaint_iff; [exact D|]; rewrite E; now left|]. intros ? ? [].
Qed.
Lemma file_verdict f : distinct guid_eqb (h_versions (fst f)) = true -> verdict (h_versions (fst f)) (save_plain f) (file_leaves f).
Proof. intros D. apply judged_verdict; [exact D|]. apply saved_iff. Qed.
Lemma verdict_judged vs w ls : distinct guid_eqb vs = true -> judged w (flat_map (objection (has_lwc vs) (has_arg64 vs)) ls) -> verdict vs w ls.
Proof. intros D J. apply judged_verdict; [exact D|]. destruct w; cbn [judged] in J; [exact J|]. destruct J as [r ->]. reflexivity. Qed.
Lemma prop_verdict vs hdr p : distinct guid_eqb vs = true -> verdict vs (w_prop vs hdr p) (leaves hdr p).
Proof. intros D. apply verdict_judged; [exact D|]. apply (proj1 (judged_all vs)). Qed.
Lemma sval_verdict vs v : distinct guid_eqb vs = true -> verdict vs (w_sval vs v) (sval_leaves v).
Proof. intros D. apply verdict_judged; [exact D|]. apply (proj1 (proj2 (judged_all vs))). Qed.
Lemma text_verdict vs t : distinct guid_eqb vs = true -> verdict vs (w_text vs t) (text_leaves t).
Proof. intros D. apply verdict_judged; [exact D|]. apply (proj1 (judged_text_all vs)). Qed.

(** ** What becomes of a text that is written *)
(** The values of the library's text types: no condition on versions. *)
Fixpoint text_fits (t : ftext) : bool :=
  match t with FText f h => u_ok 4 f && hist_fits h end
with hist_fits (h : fhist) : bool :=
  match h with
  | HEmpty => true
  | HNone s => ostr_ok s
  | HBase a b c => ostr_ok a && ostr_ok b && ostr_ok c
  | HNamed t l | HArgument t l =>
    text_fits t && count31 l && distinct str_eqb l && forallb (fun '(k, v) => str_ok k && arg_fits v) l
  | HOrdered t l => text_fits t && count31 l && forallb arg_fits l
  | HNumber v o c | HPercent v o c => arg_fits v && onumfmt_ok o && ostr_ok c
  | HCurrency d v o c => ostr_ok d && arg_fits v && onumfmt_ok o && ostr_ok c
  | HDate t s c => u_ok 8 t && in_range 0 4 s && str_ok c
  | HTime t s z c => u_ok 8 t && in_range 0 4 s && str_ok z && str_ok c
  | HDateTime t s u z c => u_ok 8 t && in_range 0 4 s && in_range 0 4 u && str_ok z && str_ok c
  | HTransform t x => text_fits t && in_range 0 1 x
  | HTable a b => str_ok a && str_ok b
  end
with arg_fits (a : farg) : bool :=
  match a with
  | AInt z => s_ok 4 z
  | AUInt z => u_ok 4 z
  | AInt64 z => s_ok 8 z
  | AUInt64 z => u_ok 8 z
  | AFloat z => u_ok 4 z
  | ADouble z => u_ok 8 z
  | AText t => text_fits t
  end.
Lemma distinct_map {V W} (g : V -> W) (l : list (str * V)) : distinct str_eqb (map (fun '(k, v) => (k, g v)) l) = distinct str_eqb l.
Proof.
  induction l as [|[k v] l IH]; cbn [map distinct]; [reflexivity|]. rewrite IH. f_equal.
  clear IH. induction l as [|[k' v'] l IH]; cbn [map forallb fst]; [reflexivity|]. now rewrite IH.
Qed.
Section Fits.
Context (vs : list (guid * Z)).
Notation cu := (has_culture vs).
Notation widths ls := (forall w, In (LArg w) ls -> has_arg64 vs = w).
Lemma forallb_map_of {A B} (P : A -> bool) (Q : B -> bool) (g : A -> B) (R : A -> Prop) l :
  forallb P l = true -> (forall a, In a l -> R a) -> Forall (fun a => P a = true -> R a -> Q (g a) = true) l -> forallb Q (map g l) = true.
Proof.
  intros HP HR F. apply forallb_forall. intros b I. apply in_map_iff in I as (a & <- & I).
  rewrite Forall_forall in F. apply F; auto. rewrite forallb_forall in HP. auto.
Qed.
Lemma fits_ok_all :
  (forall t, text_fits t = true -> widths (text_leaves t) -> text_ok vs (strip_text cu t) = true)
  /\ (forall h, hist_fits h = true -> widths (hist_leaves h) -> hist_ok vs (strip_hist cu h) = true)
  /\ (forall a, arg_fits a = true -> widths (arg_leaves a) -> arg_ok vs (strip_arg cu a) = true).
Proof.
  apply text_all; cbn [text_fits hist_fits arg_fits text_leaves hist_leaves arg_leaves strip_text strip_hist strip_arg];
    intros; andbs; cbn [text_ok hist_ok arg_ok];
    repeat match goal with H : _ -> widths _ -> ?b = true |- _ => rewrite H by (auto; intros w0 I0; eauto using in_or_app); clear H end;
    repeat match goal with H : ?b = true |- context [?b] => rewrite H end; try reflexivity.
  all: try (rewrite (H0 _ (or_introl eq_refl)) || rewrite (H1 _ (or_introl eq_refl)); reflexivity).
  all: try (destruct cu eqn:C; cbn [hist_ok]; rewrite ?C; auto; fail).
  all: unfold count31 in *; rewrite ?len_map, ?distinct_map; repeat match goal with H : ?b = true |- context [?b] => rewrite H end; cbn [andb].
  all: match goal with F : Forall _ ?l, P : forallb _ ?l = true, W : widths _ |- forallb _ _ = true =>
         eapply (forallb_map_of _ _ _ _ l P); [intros a I; exact (conj I W)|]; eapply Forall_impl; [|exact F] end.
  - intros [k v] IH P [I W]. cbn [snd] in IH. andbs. match goal with H : str_ok k = true |- _ => rewrite H end. cbn [andb]. apply IH; [assumption|].
    intros w J. apply W. apply in_or_app. right. apply in_flat_map. exists (k, v). auto.
  - intros v IH P [I W]. apply IH; [assumption|].
    intros w J. apply W. apply in_or_app. right. apply in_flat_map. exists v. auto.
  - intros [k v] IH P [I W]. cbn [snd] in IH. andbs. match goal with H : str_ok k = true |- _ => rewrite H end. cbn [andb]. apply IH; [assumption|].
    intros w J. apply W. apply in_or_app. right. apply in_flat_map. exists (k, v). auto.
Qed.
End Fits.
Lemma text_rereads vs culture t b k : distinct guid_eqb vs = true -> (culture = true <-> at_least editor_guid 32 vs) ->
  text_fits t = true -> w_text vs t = Ok (b, k) -> forall n p t' st, len b < Z.of_nat n ->
  r_text n vs (Cur p (b ++ t') st) = Ok (strip_text culture t, Cur (p + len b) t' st).
Proof.
  intros D W F E n p t' st L. assert (HW : has_culture vs = culture).
  { unfold has_culture. pose proof (supports_iff vs editor_guid v_culture D ltac:(reflexivity)) as S. change v_culture with 32 in *.
    destruct (supports vs editor_guid 32), culture; try reflexivity; intuition congruence. }
  subst culture. assert (O : text_ok vs (strip_text (has_culture vs) t) = true).
  { apply (proj1 (fits_ok_all vs)); [exact F|]. pose proof (proj1 (judged_text_all vs) t) as J. rewrite E in J. cbn [judged] in J.
    apply no_objection in J as (_ & N & _). intros w I. destruct (has_arg64 vs), w; cbn [negb] in N; tauto. }
  rewrite <- (proj1 (strip_text_all vs)) in E.
  destruct (e_text vs st n _ O b k E L) as [_ DEC]. apply DEC.
Qed.
Lemma text_args_all :
  (forall t l, In l (text_leaves t) -> exists w, l = LArg w)
  /\ (forall h l, In l (hist_leaves h) -> exists w, l = LArg w)
  /\ (forall a l, In l (arg_leaves a) -> exists w, l = LArg w).
Proof.
  apply text_all; cbn [text_leaves hist_leaves arg_leaves]; intros; try (match goal with H : In _ [] |- _ => destruct H end); eauto.
  1-3: match goal with H : In _ (_ ++ _) |- _ => apply in_app_or in H as [H|H]; [eauto|] end;
    match goal with F : Forall _ _, I : In _ (flat_map _ _) |- _ => rewrite Forall_forall in F; apply in_flat_map in I as (x & Ix & I); apply (F x Ix); exact I end.
  all: match goal with H : In _ [_] |- _ => destruct H as [<-|[]]; eauto end.
Qed.
Lemma text_args t l : In l (text_leaves t) -> exists w, l = LArg w.
Proof. apply (proj1 text_args_all). Qed.
