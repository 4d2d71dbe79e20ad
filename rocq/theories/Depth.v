(** Nesting depth of what is read: at most one level for every six bytes, and
    nothing else limits it. *)
From Coq Require Import ZArith List Bool String Lia ZifyBool ZifyNat.
From Verif Require Import Base Str Types Versions Text Props File Spec BaseFacts StrFacts Decode Induct KindFacts
  AcceptProp AcceptFile RoundTrip ReadThm SizeThm BoundThm.
Import ListNotations.
Open Scope Z_scope.

(** * Specification: nesting depth *)
Section Deepest.
  Context {A : Type} (f : A -> Z).
  Fixpoint deepest (l : list A) : Z := match l with [] => 0 | a :: r => Z.max (f a) (deepest r) end.
End Deepest.
(** The number of texts inside one another. *)
Fixpoint text_depth (t : ftext) : Z := match t with FText _ h => 1 + hist_depth h end
with hist_depth (h : fhist) : Z :=
  match h with
  | HNamed t l | HArgument t l => Z.max (text_depth t) (deepest (fun e => arg_depth (snd e)) l)
  | HOrdered t l => Z.max (text_depth t) (deepest arg_depth l)
  | HNumber v _ _ | HPercent v _ _ | HCurrency _ v _ _ => arg_depth v
  | HTransform t _ => text_depth t
  | _ => 0
  end
with arg_depth (a : farg) : Z := match a with AText t => text_depth t | _ => 0 end.
(** The number of properties and texts inside one another. *)
Fixpoint depth (p : property) : Z :=
  1 + match p with
      | PText t => text_depth t
      | PArray a => array_depth a
      | PSet _ _ l => deepest depth l
      | PMap m => map_depth m
      | PStruct _ _ v | PSValue v => sval_depth v
      | _ => 0
      end
with sval_depth (v : svalue) : Z :=
  match v with SCustom l => deepest (fun e => deepest depth (snd e)) l | _ => 0 end
with array_depth (a : arrayp) : Z :=
  match a with
  | AStructs _ _ _ l => deepest sval_depth l
  | AProps _ l => deepest depth l
  | _ => 0
  end
with map_depth (m : mapp) : Z :=
  match m with
  | MProp _ _ l => deepest (fun e => depth (snd e)) l
  | MGen _ _ _ l => deepest (fun e => Z.max (depth (fst e)) (depth (snd e))) l
  | _ => 0
  end.
Definition file_depth (f : header * list (str * property)) : Z := deepest (fun e => depth (snd e)) (snd f).

(** * Proofs *)
Lemma deepest_le {A} (f g : A -> Z) k l : 0 <= k -> (forall a, 0 <= g a) ->
  Forall (fun a => 6 * f a <= g a + k) l -> 6 * deepest f l <= sum g l + k.
Proof.
  intros K G F. induction F as [|a l H _ IH]; cbn [deepest sum]; [lia|].
  pose proof (sum_nonneg' g l G). specialize (G a). lia.
Qed.
Lemma text_depth_least cu : (forall t, 6 * text_depth t <= text_l cu t + 1)
  /\ (forall h, 6 * hist_depth h <= hist_l cu h - 1) /\ (forall a, 6 * arg_depth a <= arg_l cu a).
Proof.
  assert (N : forall l, Forall (fun e : str * farg => 6 * arg_depth (snd e) <= arg_l cu (snd e)) l ->
    6 * deepest (fun e => arg_depth (snd e)) l <= sum (fun e => sl (fst e) + arg_l cu (snd e)) l /\
    0 <= sum (fun e : str * farg => sl (fst e) + arg_l cu (snd e)) l).
  { intros l F. assert (G : forall e : str * farg, 0 <= sl (fst e) + arg_l cu (snd e)).
    { intros e. pose proof (arg_pos cu (snd e)). pose proof (sl_nonneg (fst e)). lia. }
    split; [|now apply sum_nonneg'].
    pose proof (deepest_le (fun e => arg_depth (snd e)) (fun e => sl (fst e) + arg_l cu (snd e)) 0 l ltac:(lia) G) as D.
    rewrite Z.add_0_r in D. apply D. eapply Forall_impl; [|exact F]. intros e He. cbv beta in *.
    pose proof (sl_nonneg (fst e)). lia. }
  apply text_all; cbn [text_depth hist_depth arg_depth text_l hist_l arg_l]; intros;
    repeat match goal with
    | |- context [fmt_l ?o] => pose proof (fmt_l_pos o); generalize dependent (fmt_l o); intros
    | |- context [text_l cu ?t] => lazymatch goal with H : 5 <= text_l cu t |- _ => fail | _ => pose proof (text_pos cu t) end
    end; nn; try lia; try (destruct cu; lia).
  all: first [apply N in H0; lia|idtac].
  pose proof (deepest_le arg_depth (arg_l cu) 0 l ltac:(lia)
      ltac:(intros a; pose proof (arg_pos cu a); lia)) as D;
    rewrite Z.add_0_r in D; pose proof (sum_nonneg' (arg_l cu) l ltac:(intros a; pose proof (arg_pos cu a); lia));
    enough (6 * deepest arg_depth l <= sum (arg_l cu) l) by lia; apply D;
    eapply Forall_impl; [|exact H0]; intros a Ha; cbv beta in *; lia.
Qed.

Lemma deepest_fields cu l : (forall p, In p l -> 6 * depth p <= least cu true p) -> forall k,
  6 * deepest depth l <= sum (fun p => sl k + least cu true p) l.
Proof.
  intros H k. pose proof (deepest_le depth (fun p => sl k + least cu true p) 0 l ltac:(lia)
    ltac:(intros p; pose proof (least_pos cu true p); nn; lia)) as D. rewrite Z.add_0_r in D. apply D.
  apply Forall_forall. intros p Hp. specialize (H p Hp). nn. lia.
Qed.
Lemma depth_wf o vs sep cu :
  (forall p hdr path, wf_prop o vs sep hdr path p = true -> 6 * depth p <= least cu hdr p + (if hdr then 0 else 7))
  /\ (forall v path ty, wf_sval o vs sep path ty v = true -> 6 * sval_depth v <= sval_l cu v)
  /\ (forall a path, wf_array o vs sep path a = true -> 6 * array_depth a <= array_l cu a + 7)
  /\ (forall m path, wf_map o vs sep path m = true -> 6 * map_depth m <= map_l cu m + 7).
Proof.
  assert (NW : forall k, 1 <= num_width k) by apply num_width_pos.
  assert (BV : forall k, 1 <= bytev_l k) by apply bytev_l_pos.
  assert (TX : forall t, 6 * text_depth t <= text_l cu t + 1) by apply text_depth_least.
  assert (HL : forall path ty l, forallb (fun p => str_eqb ty (type_of p) && wf_prop o vs sep false path p) l = true ->
    Forall (fun p => forall hdr path, wf_prop o vs sep hdr path p = true -> 6 * depth p <= least cu hdr p + (if hdr then 0 else 7)) l ->
    6 * deepest depth l <= sum (least cu false) l + 7).
  { intros path ty l W F. apply deepest_le; [lia|apply least_pos|]. rewrite forallb_forall in W. rewrite Forall_forall in *.
    intros p Hp. specialize (W p Hp). andbs. eapply (F p Hp false); eassumption. }
  assert (LP : forall l, 0 <= sum (least cu false) l) by (intros; apply sum_nonneg', least_pos).
  apply prop_all; intros;
    try (cbn [depth]; destruct hdr; cbn [least hd_l];
      try match goal with |- context [num_width ?k] => pose proof (NW k) end;
      try match goal with |- context [bytev_l ?k] => pose proof (BV k) end;
      try match goal with |- context [text_l _ ?k] => pose proof (TX k) end;
      try match goal with |- context [sum ?f ?xs] => assert (0 <= sum f xs) by (apply sum_nonneg'; intros; nn; lia) end;
      nn; lia);
    cbn [wf_prop wf_sval wf_array wf_map] in *; andbs; cbn [depth sval_depth array_depth map_depth least sval_l array_l map_l].
  - subst hdr. cbn [hd_l]. apply H in H1. nn. lia.
  - subst hdr. cbn [hd_l]. eapply HL in H; [|eassumption]. nn. lia.
  - subst hdr. cbn [hd_l]. apply H in H1. nn. lia.
  - subst hdr. cbn [hd_l]. apply H in H1. nn. lia.
  - apply negb_true_iff in H0. subst hdr. destruct (hints o _); [|discriminate]. apply H in H1. lia.
  - pose proof (layout_pos x). lia.
  - nn. lia.
  - pose proof (sum_nonneg' sl l ltac:(intros; cbv beta; nn; lia)). lia.
  - assert (6 * deepest (fun e => deepest depth (snd e)) l <= sum (fun e => sum (fun p => sl (fst e) + least cu true p) (snd e)) l); [|nn; lia].
    pose proof (deepest_le (fun e => deepest depth (snd e)) (fun e => sum (fun p => sl (fst e) + least cu true p) (snd e)) 0 l ltac:(lia)
      ltac:(intros e; apply fields_nonneg)) as D. rewrite Z.add_0_r in D. apply D. rewrite forallb_forall in *. rewrite Forall_forall in *.
    intros [k ps] He. specialize (H _ He). match goal with W : forall x, In x l -> _ |- _ => specialize (W _ He) end. cbv beta iota in *. cbn [fst snd] in *. andbs.
    rewrite Z.add_0_r. apply deepest_fields. rewrite forallb_forall in *. rewrite Forall_forall in *. intros p Hp.
    assert (6 * depth p <= least cu true p + 0) by (eapply (H p Hp true (k :: path)); eauto). lia.
  - pose proof (sum_nonneg' (fun _ : bool => 1) l ltac:(intros; lia)). lia.
  - pose proof (sum_nonneg' (fun _ : byte => 1) l ltac:(intros; lia)). lia.
  - pose proof (sum_nonneg' sl l ltac:(intros; cbv beta; nn; lia)). lia.
  - pose proof (sum_nonneg' (fun _ : Z => 4) l ltac:(intros; lia)). lia.
  - pose proof (sum_nonneg' (fun _ : Z => 4) l ltac:(intros; lia)). lia.
  - pose proof (sum_nonneg' ol l ltac:(intros; cbv beta; nn; lia)). lia.
  - pose proof (sum_nonneg' ol l ltac:(intros; cbv beta; nn; lia)). lia.
  - pose proof (deepest_le sval_depth (sval_l cu) 0 l ltac:(lia) ltac:(intros v; pose proof (sval_pos cu v); lia)) as D.
    assert (6 * deepest sval_depth l <= sum (sval_l cu) l + 0).
    { apply D. rewrite forallb_forall in *. rewrite Forall_forall in *. intros v Hv. pose proof (H _ Hv _ _ ltac:(eauto)). lia. }
    nn. lia.
  - eapply HL in H; [|eassumption]. lia.
  - pose proof (sum_nonneg' (fun e : str * bool => sl (fst e) + 1) l ltac:(intros; cbv beta; nn; lia)). lia.
  - pose proof (sum_nonneg' (fun e : str * Z => sl (fst e) + 4) l ltac:(intros; cbv beta; nn; lia)). lia.
  - assert (6 * deepest (fun e => depth (snd e)) l <= sum (fun e => sl (fst e) + least cu false (snd e)) l + 7); [|lia].
    apply deepest_le; [lia|intros e; pose proof (least_pos cu false (snd e)); nn; lia|].
    rewrite forallb_forall in *. rewrite Forall_forall in *. intros [ke v] He. specialize (H _ He).
    match goal with W : forall x, In x l -> _ |- _ => specialize (W _ He) end. cbv beta iota in *. cbn [fst snd] in *. andbs.
    pose proof (H false _ ltac:(eassumption)). cbv beta iota in *. nn. lia.
  - pose proof (sum_nonneg' (fun e : str * option str => sl (fst e) + ol (snd e)) l ltac:(intros; cbv beta; nn; lia)). lia.
  - assert (6 * deepest (fun e => Z.max (depth (fst e)) (depth (snd e))) l <= sum (fun e => least cu false (fst e) + least cu false (snd e)) l + 7); [|lia].
    apply deepest_le; [lia|intros e; pose proof (least_pos cu false (snd e)); pose proof (least_pos cu false (fst e)); lia|].
    rewrite forallb_forall in *. rewrite Forall_forall in *. intros [k v] He. specialize (H _ He).
    match goal with W : forall x, In x l -> _ |- _ => specialize (W _ He) end. cbv beta iota in *. cbn [fst snd] in *. andbs.
    destruct H as [HK HV]. pose proof (HK false _ ltac:(eassumption)). pose proof (HV false _ ltac:(eassumption)). cbv beta iota in *.
    pose proof (least_pos cu false k). pose proof (least_pos cu false v). lia.
Qed.

Lemma depth_file o b f c : parse o b = Ok (f, c) -> 6 * file_depth f <= pos c <= len b.
Proof.
  intros E. pose proof (parse_pos _ _ _ _ E) as P. split; [|lia].
  assert (L : load_plain o b = Ok f) by (unfold load_plain; now rewrite E).
  apply load_ok in L. unfold parse in E. apply u_file in E. cbn [pos] in E.
  destruct f as [h l]. cbn [fst snd] in *. unfold header_l, file_l in E. unfold file_depth. cbn [snd].
  set (cu := has_culture (h_versions h)) in *.
  assert (6 * deepest (fun e => depth (snd e)) l <= sum (fun e => sl (fst e) + least cu true (snd e)) l + 0).
  { apply deepest_le; [lia|intros e; pose proof (least_pos cu true (snd e)); nn; lia|].
    unfold file_ok, props_ok in L. cbn [fst snd] in L. andbs. rewrite forallb_forall in *. apply Forall_forall. intros [k p] He.
    match goal with W : forall x, In x l -> _ |- _ => specialize (W _ He) end. cbv beta iota in *. andbs. cbn [fst snd].
    match goal with W : wf_prop _ _ _ _ _ _ = true |- _ => apply (depth_wf _ _ _ cu) in W end. cbv iota in *. nn. lia. }
  pose proof (sum_nonneg' ver_l (h_versions h) ltac:(unfold ver_l; intros; lia)).
  pose proof (sl_nonneg (fe_branch (h_engine h))). pose proof (sl_nonneg (h_class h)). pose proof (sl_nonneg s_none).
  destruct (h_ue5 h); lia.
Qed.

(** ** Deep files *)
Fixpoint nest (n : nat) : ftext := match n with O => FText 0 HEmpty | S m => FText 0 (HTransform (nest m) 0) end.
Definition nested (n : nat) : header * list (str * property) := (tiny, [(s2z "a", PText (nest n))]).
Lemma nest_depth n : text_depth (nest n) = Z.of_nat n + 1.
Proof. induction n as [|n IH]; [reflexivity|]. cbn [nest text_depth hist_depth]. lia. Qed.
Lemma nest_ok n : text_ok [] (nest n) = true.
Proof. induction n as [|n IH]; [reflexivity|]. cbn [nest text_ok hist_ok]. now rewrite IH. Qed.
Lemma nested_depth n : file_depth (nested n) = Z.of_nat n + 2.
Proof.
  unfold file_depth, nested. cbn [fst snd deepest depth]. rewrite nest_depth. lia.
Qed.
Lemma nested_ok o n : file_ok o eqv (nested n) = true.
Proof.
  unfold nested, file_ok, props_ok. cbn [fst snd forallb h_versions tiny wf_prop]. rewrite nest_ok. reflexivity.
Qed.
Lemma nest_bytes n : exists b k, w_text [] (nest n) = Ok (b, k) /\ len b = 6 * Z.of_nat n + 5.
Proof.
  induction n as [|n (b & k & E & L)]; [eexists; eexists; split; [vm_compute; reflexivity|reflexivity]|].
  cbn [nest w_text w_hist]. rewrite E. unfold w_u32, w_enum, w_int, emit, seq. eexists. eexists. split; [reflexivity|].
  rewrite !len_app, !len_le_bytes, L. cbn [Z.to_nat Pos.to_nat Pos.iter_op Nat.add]. rewrite !len_cons || idtac.
  unfold len. cbn [List.length]. lia.
Qed.
Lemma nested_bytes n : exists b, save_plain (nested n) = Ok b /\ len b = 6 * Z.of_nat n + 90.
Proof.
  destruct (nest_bytes n) as (b & k & E & L).
  unfold save_plain, w_file, nested. cbn [fst snd h_versions tiny seqs w_prop with_header]. rewrite E.
  destruct (w_header tiny) as [[h hn]|] eqn:H; [|discriminate H].
  assert (len h = 40) by (vm_compute in H; injection H as <- <-; reflexivity).
  unfold w_string, w_u32, w_u8, w_int, emit, seq, skip. cbv iota beta. cbn [Z.to_nat Pos.to_nat Pos.iter_op Nat.add].
  eexists; split; [reflexivity|]. rewrite ?len_app, ?len_le_bytes.
    change (len (str_bytes (kind_name KText))) with 17; change (len (str_bytes (s2z "a"))) with 6; change (len (str_bytes s_none)) with 9;
    rewrite ?len_nil; lia.
Qed.
Lemma deep_file o n : 6 * Z.of_nat n + 90 < 4294967296 ->
  exists b f, len b = 6 * Z.of_nat n + 90 /\ load_plain o b = Ok f /\ file_depth f = Z.of_nat n + 2.
Proof.
  intros K. destruct (nested_bytes n) as (b & S & L). exists b, (nested n). split; [exact L|]. split; [|apply nested_depth].
  pose proof (reload_any o (probe o) _ b [] (nested_ok o n) S ltac:(lia)) as R. rewrite app_nil_r in R. destruct o; exact R.
Qed.
