(** Bounds on elements and on saved sizes. *)
From Coq Require Import ZArith List Bool String Lia ZifyBool ZifyNat.
From Verif Require Import Base Str Types Versions Text Props File Spec BaseFacts StrFacts Decode Induct KindFacts
  AcceptProp AcceptFile RoundTrip ReadThm UnknownThm SizeThm.
Import ListNotations.
Open Scope Z_scope.

(** * Specification: the number of elements *)

Section Total.
  Context {A : Type} (f : A -> Z).
  Fixpoint total (l : list A) : Z := match l with [] => 0 | a :: r => f a + total r end.
End Total.
(** A value of unknown type without any content. *)
Definition hollow (p : property) : bool := match p with PUnknown _ [] => true | _ => false end.
Definition one (p : property) : Z := if hollow p then 0 else 1.

(** Elements of containers at any depth, hollow ones not counted: array and set elements,
    keys and values of maps, fields of structs, tags, delegates, path names, arguments. *)
Fixpoint text_elems (t : ftext) : Z := match t with FText _ h => hist_elems h end
with hist_elems (h : fhist) : Z :=
  match h with
  | HNamed t l | HArgument t l => text_elems t + total (fun e => 2 + arg_elems (snd e)) l
  | HOrdered t l => text_elems t + total (fun a => 1 + arg_elems a) l
  | HNumber v _ _ | HPercent v _ _ | HCurrency _ v _ _ => arg_elems v
  | HTransform t _ => text_elems t
  | _ => 0
  end
with arg_elems (a : farg) : Z := match a with AText t => text_elems t | _ => 0 end.
Fixpoint elems (p : property) : Z :=
  match p with
  | PText t => text_elems t
  | PMulti _ l => len l
  | PFieldPath l _ => len l
  | PArray a => array_elems a
  | PSet _ _ l => total (fun e => one e + elems e) l
  | PMap m => map_elems m
  | PStruct _ _ v | PSValue v => sval_elems v
  | PNum _ _ | PBool _ | PByte _ _ | PEnum _ _ | PStr _ | PName _ _ | PObject _ | PDelegate _ _ | PUnknown _ _ => 0
  end
with sval_elems (v : svalue) : Z :=
  match v with
  | SFixed _ _ | SGuid _ => 0
  | STags l => len l
  | SCustom l => total (fun e => total (fun p => 1 + elems p) (snd e)) l
  end
with array_elems (a : arrayp) : Z :=
  match a with
  | ABools l => len l | ABytes l => len l | AEnums l => len l | AFloats l => len l | AInts l => len l
  | ANames l => len l | AStrings l => len l
  | AStructs _ _ _ l => total (fun v => 1 + sval_elems v) l
  | AProps _ l => total (fun e => one e + elems e) l
  end
with map_elems (m : mapp) : Z :=
  match m with
  | MBool _ l => 2 * len l | MInt _ l => 2 * len l | MStrStr l => 2 * len l
  | MProp _ _ l => total (fun e => 1 + (one (snd e) + elems (snd e))) l
  | MGen _ _ _ l => total (fun e => (one (fst e) + elems (fst e)) + (one (snd e) + elems (snd e))) l
  end.
Definition file_elems (f : header * list (str * property)) : Z :=
  len (h_versions (fst f)) + total (fun e => 1 + elems (snd e)) (snd f).

(** No key or value of a map, and no field of a struct, is hollow without its size in the
    file; only arrays and sets of unknown type can have hollow elements. *)
Fixpoint hollow_ok (p : property) : bool :=
  match p with
  | PArray (AProps ty l) => (negb (existsb hollow l) || negb (mem ty known_types)) && forallb hollow_ok l
  | PArray (AStructs _ _ _ l) => forallb sval_hollow_ok l
  | PSet ty _ l => (negb (existsb hollow l) || negb (mem ty known_types)) && forallb hollow_ok l
  | PMap (MProp _ _ l) => forallb (fun e => negb (hollow (snd e)) && hollow_ok (snd e)) l
  | PMap (MGen _ _ _ l) => forallb (fun e => negb (hollow (fst e)) && hollow_ok (fst e) && (negb (hollow (snd e)) && hollow_ok (snd e))) l
  | PStruct _ _ v | PSValue v => sval_hollow_ok v
  | _ => true
  end
with sval_hollow_ok (v : svalue) : bool :=
  match v with
  | SCustom l => forallb (fun e => forallb hollow_ok (snd e)) l
  | _ => true
  end.

(** * Proofs *)
Lemma total_sum {A} (f g : A -> Z) l : Forall (fun a => f a <= g a) l -> total f l <= sum g l.
Proof. induction 1; cbn [total sum]; lia. Qed.
Lemma total_sum' {A} (f g : A -> Z) l : (forall a, f a <= g a) -> total f l <= sum g l.
Proof. intros H. apply total_sum, Forall_forall. auto. Qed.
Lemma len_sum {A} (g : A -> Z) l : (forall a, 1 <= g a) -> len l <= sum g l.
Proof. intros H. induction l as [|a l IH]; [cbn; lia|]. rewrite len_cons. cbn [sum]. specialize (H a). lia. Qed.
Lemma len_sum2 {A} (g : A -> Z) l : (forall a, 2 <= g a) -> 2 * len l <= sum g l.
Proof. intros H. induction l as [|a l IH]; [cbn; lia|]. rewrite len_cons. cbn [sum]. specialize (H a). lia. Qed.

Ltac sub := match goal with
  | F : Forall _ ?l |- context [total ?f ?l] => match goal with |- context [sum ?g l] =>
      assert (total f l <= sum g l) by (apply total_sum; eapply Forall_impl; [|exact F]; cbv beta; intros; nn; lia) end end.
Lemma text_elems_least cu : (forall t, 1 + text_elems t <= text_l cu t) /\ (forall h, hist_elems h <= hist_l cu h) /\ (forall a, 1 + arg_elems a <= arg_l cu a).
Proof.
  apply text_all; cbn [text_elems hist_elems arg_elems text_l hist_l arg_l]; intros;
    repeat match goal with |- context [fmt_l ?o] => pose proof (fmt_l_pos o); generalize dependent (fmt_l o); intros end;
    try sub; nn; try lia; destruct cu; lia.
Qed.
Lemma one_le p : 0 <= one p <= 1. Proof. unfold one. destruct (hollow p); lia. Qed.
Lemma elems_least cu : (forall p hdr, one p + elems p <= least cu hdr p) /\ (forall v, 1 + sval_elems v <= sval_l cu v)
  /\ (forall a, 1 + array_elems a <= array_l cu a) /\ (forall m, 1 + map_elems m <= map_l cu m).
Proof.
  assert (HN : forall hdr ty e, 0 <= e -> 0 <= hd_l hdr ty e) by apply hd_l_nonneg.
  assert (NW : forall k, 1 <= num_width k) by apply num_width_pos.
  assert (BV : forall k, 1 <= bytev_l k) by apply bytev_l_pos.
  assert (TX : forall t, 1 + text_elems t <= text_l cu t) by apply text_elems_least.
  assert (ON : forall a, 4 <= ol a) by apply ol_nonneg.
  assert (SN : forall a, 5 <= sl a) by apply sl_nonneg.
  apply prop_all; cbn [least sval_l array_l map_l elems sval_elems array_elems map_elems]; intros;
    try match goal with |- one ?p + _ <= _ => pose proof (one_le p) end;
    try match goal with |- context [hd_l ?h ?t ?e] => assert (0 <= hd_l h t e) by (apply HN; nn; lia) end.
  - specialize (NW k). lia.
  - lia.
  - specialize (BV v). lia.
  - nn. lia.
  - nn. lia.
  - specialize (TX t). lia.
  - nn. lia.
  - nn. lia.
  - nn. lia.
  - pose proof (len_sum (fun e => sl (fst e) + sl (snd e)) l ltac:(intros e; pose proof (SN (fst e)); pose proof (SN (snd e)); lia)). lia.
  - pose proof (len_sum sl l ltac:(intros e; pose proof (SN e); lia)). nn. lia.
  - unfold one in *. cbn [hollow] in *. destruct r; [nn; lia|]. rewrite len_cons. nn. lia.
  - lia.
  - assert (total (fun e => one e + elems e) l <= sum (least cu false) l)
      by (apply total_sum; eapply Forall_impl; [|eassumption]; cbv beta; auto). lia.
  - lia.
  - lia.
  - lia.
  - pose proof (layout_pos x). lia.
  - nn. lia.
  - pose proof (len_sum sl l ltac:(intros e; pose proof (SN e); lia)). lia.
  - assert (total (fun e => total (fun p => 1 + elems p) (snd e)) l <= sum (fun e => sum (fun p => sl (fst e) + least cu true p) (snd e)) l); [|nn; lia].
    apply total_sum. eapply Forall_impl; [|eassumption]. intros [k ps] F. cbn [fst snd] in *. apply total_sum.
    eapply Forall_impl; [|exact F]. intros p Hp. cbv beta. specialize (Hp true). pose proof (one_le p). nn. lia.
  - pose proof (len_sum (fun _ => 1) l ltac:(intros; lia)). lia.
  - pose proof (len_sum (fun _ => 1) l ltac:(intros; lia)). lia.
  - pose proof (len_sum sl l ltac:(intros e; pose proof (SN e); lia)). lia.
  - pose proof (len_sum (fun _ => 4) l ltac:(intros; lia)). lia.
  - pose proof (len_sum (fun _ => 4) l ltac:(intros; lia)). lia.
  - pose proof (len_sum ol l ltac:(intros e; pose proof (ON e); lia)). lia.
  - pose proof (len_sum ol l ltac:(intros e; pose proof (ON e); lia)). lia.
  - assert (total (fun v => 1 + sval_elems v) l <= sum (sval_l cu) l) by (apply total_sum; assumption). nn. lia.
  - assert (total (fun e => one e + elems e) l <= sum (least cu false) l)
      by (apply total_sum; eapply Forall_impl; [|eassumption]; cbv beta; auto). lia.
  - pose proof (len_sum2 (fun e => sl (fst e) + 1) l ltac:(intros e; pose proof (SN (fst e)); lia)). lia.
  - pose proof (len_sum2 (fun e => sl (fst e) + 4) l ltac:(intros e; pose proof (SN (fst e)); lia)). lia.
  - assert (total (fun e => 1 + (one (snd e) + elems (snd e))) l <= sum (fun e => sl (fst e) + least cu false (snd e)) l); [|lia].
    apply total_sum. eapply Forall_impl; [|eassumption]. intros [x y] F. cbn [fst snd] in *. specialize (F false). nn. lia.
  - pose proof (len_sum2 (fun e => sl (fst e) + ol (snd e)) l ltac:(intros e; pose proof (SN (fst e)); pose proof (ON (snd e)); lia)). lia.
  - assert (total (fun e => (one (fst e) + elems (fst e)) + (one (snd e) + elems (snd e))) l
      <= sum (fun e => least cu false (fst e) + least cu false (snd e)) l); [|lia].
    apply total_sum. eapply Forall_impl; [|eassumption]. intros [x y] [F G]. cbn [fst snd] in *. specialize (F false). specialize (G false). lia.
Qed.

(** The type of the result is the type asked for. *)
Definition gives {A} (P : A -> Prop) (r : reader A) : Prop := forall c a c', r c = Ok (a, c') -> P a.
Lemma g_bind {A B} (P : B -> Prop) (r : reader A) k : (forall a, gives P (k a)) -> gives P (bind r k).
Proof. intros H c b c' E. unfold bind in E. destruct (r c) as [[a c1]|]; [|discriminate]. eapply H; eauto. Qed.
Lemma g_ret {A} (P : A -> Prop) a : P a -> gives P (ret a).
Proof. intros H c x c' E. injection E as <- _. exact H. Qed.
Lemma g_fail {A} (P : A -> Prop) f : gives P (fail f).
Proof. intros c x c' E. discriminate E. Qed.
Lemma g_sized {A} (P : A -> Prop) n r : gives P r -> gives P (sized n r).
Proof.
  intros H. unfold sized. apply g_bind. intros s c a c' E. unfold bind in E at 1. destruct (r c) as [[x c1]|] eqn:R; [|discriminate].
  apply H in R. unfold bind, position, ret, fail in E. destruct (_ =? n); [|discriminate]. now injection E as <- _.
Qed.
Lemma g_headed {V A} (P : A -> Prop) (v : reader V) b : (forall n x, gives P (b n x)) -> gives P (headed v b).
Proof. intros H. unfold headed. do 4 (apply g_bind; intros ?). apply g_sized, H. Qed.
Lemma g_headed_index {A} (P : A -> Prop) b : (forall n, gives P (b n)) -> gives (A := A) P (headed_index b).
Proof. intros H. unfold headed_index. do 3 (apply g_bind; intros ?). apply g_sized, H. Qed.
Lemma g_plain {A} (P : A -> Prop) hdr r : gives P r -> gives P (plain hdr r).
Proof. intros H. unfold plain. destruct hdr; [apply g_headed; intros; exact H|exact H]. Qed.
Definition typed (hdr : bool) (ty : str) (p : property) : Prop :=
  type_of p = ty /\ (hdr = true -> match p with PSValue _ => False | _ => True end).
Lemma g_body n o vs rp ty hdr sug : gives (typed hdr ty) (r_body n o vs rp ty hdr sug).
Proof.
  assert (T : kind_of ty <> KOther -> ty = kind_name (kind_of ty)) by apply kind_of_name.
  unfold r_body. destruct (kind_of ty) eqn:EK; try specialize (T ltac:(discriminate)); try subst ty;
    unfold r_pnum, r_pbyte, r_pbool, r_penum, r_pstr, r_ptext, r_pname, r_pobject, r_pdelegate, r_pmulti, r_pfieldpath, r_pstruct, r_hinted,
      r_unknown_header, r_unknown, in_array;
    try apply g_plain; try destruct hdr; try (apply g_headed; intros); try (apply g_headed_index; intros);
    try (unfold r_array); try (unfold r_set); try (unfold r_map);
    repeat (apply g_bind; intros ?); try apply g_fail; try (apply g_ret; now split).
  all: try (destruct inline; apply g_ret; now split).
  all: try (destruct (hints o _); [apply g_bind; intros; apply g_ret; split; [reflexivity|discriminate]|apply g_fail]).
  all: try (match goal with |- gives _ (match kind_of ?x with _ => _ end) => destruct (kind_of x) end; repeat (apply g_bind; intros ?); apply g_ret; now split).
  all: try (destruct (0 <? _); [destruct (_ && _); [apply g_fail|apply g_bind; intros]|]; apply g_ret; now split).
  all: try (destruct sug; repeat (apply g_bind; intros ?); first [apply g_fail|apply g_ret; now split]).
Qed.
Lemma g_prop n o vs ty hdr sug : gives (typed hdr ty) (r_prop n o vs ty hdr sug).
Proof.
  destruct n; cbn [r_prop]; [apply g_fail|]. unfold scoped. apply g_bind. intros ? c a c' E.
  unfold bind, pop, ret in E. destruct (r_body _ _ _ _ _ _ _ c) as [[p c1]|] eqn:R; [|discriminate].
  injection E as <- _. eapply g_body; exact R.
Qed.
Lemma least_header cu p : match p with PSValue _ => True | _ => least cu false p + sl (type_of p) + 9 <= least cu true p end.
Proof.
  destruct p; try destruct inline; cbn [least hd_l type_of kind_name]; trivial; nn; lia.
Qed.

Lemma elems_prop n o vs ty hdr sug c p c' : r_prop n o vs ty hdr sug c = Ok (p, c') -> one p + elems p <= pos c' - pos c.
Proof.
  intros E. pose proof (g_prop _ _ _ _ _ _ _ _ _ E) as [T N]. apply u_prop in E. unfold after in E.
  destruct (elems_least (has_culture vs)) as [L _]. specialize (L p false).
  destruct hdr; [|lia]. pose proof (least_header (has_culture vs) p) as D. subst ty.
  destruct p; lia.
Qed.
Lemma elems_sval n o vs ty c v c' : r_sval n o vs (r_prop n o vs) ty c = Ok (v, c') -> 1 + sval_elems v <= pos c' - pos c.
Proof.
  intros E. apply u_sval in E; [|intros; apply u_prop]. destruct (elems_least (has_culture vs)) as [_ [L _]]. specialize (L v). lia.
Qed.
Lemma elems_text n vs c t c' : r_text n vs c = Ok (t, c') -> 1 + text_elems t <= pos c' - pos c.
Proof. intros E. apply u_text in E. destruct (text_elems_least (has_culture vs)) as [L _]. specialize (L t). lia. Qed.
Lemma parse_pos o b f c : parse o b = Ok (f, c) -> 0 <= pos c <= len b.
Proof.
  intros E. apply parse_consumed in E as (bs & -> & -> & _). rewrite len_app. pose proof (len_nonneg bs). pose proof (len_nonneg (rest c)). lia.
Qed.
Lemma elems_file o b f c : parse o b = Ok (f, c) -> file_elems f <= pos c <= len b.
Proof.
  intros E. pose proof (parse_pos _ _ _ _ E) as P. split; [|lia]. unfold parse in E. apply u_file in E. cbn [pos] in E.
  unfold file_elems. destruct f as [h l]. cbn [fst snd] in *. unfold header_l, file_l in E.
  pose proof (len_sum ver_l (h_versions h) ltac:(unfold ver_l; intros; lia)).
  assert (total (fun e => 1 + elems (snd e)) l <= sum (fun e => sl (fst e) + least (has_culture (h_versions h)) true (snd e)) l).
  { apply total_sum'. intros [k p]. cbn [fst snd]. destruct (elems_least (has_culture (h_versions h))) as [L _].
    specialize (L p true). pose proof (one_le p). nn. lia. }
  pose proof (sl_nonneg (fe_branch (h_engine h))). pose proof (sl_nonneg (h_class h)). pose proof (sl_nonneg s_none).
  destruct (h_ue5 h); lia.
Qed.

(** ** Hollow elements *)
Lemma hollow_wf o vs sep :
  (forall p hdr path, wf_prop o vs sep hdr path p = true -> hollow_ok p = true)
  /\ (forall v path ty, wf_sval o vs sep path ty v = true -> sval_hollow_ok v = true)
  /\ (forall a path, wf_array o vs sep path a = true -> hollow_ok (PArray a) = true)
  /\ (forall m path, wf_map o vs sep path m = true -> hollow_ok (PMap m) = true).
Proof.
  assert (HL : forall path ty l, forallb (fun p => str_eqb ty (type_of p) && wf_prop o vs sep false path p) l = true ->
    Forall (fun p => forall hdr path, wf_prop o vs sep hdr path p = true -> hollow_ok p = true) l ->
    (negb (existsb hollow l) || negb (mem ty known_types)) && forallb hollow_ok l = true).
  { intros path ty l W F. rewrite forallb_forall in W. rewrite Forall_forall in F. apply andb_true_iff. split.
    - destruct (existsb hollow l) eqn:E; [|reflexivity]. apply existsb_exists in E as (p & Hp & E). specialize (W p Hp). andbs.
      destruct p; try discriminate E. cbn [wf_prop type_of] in *. apply str_eqb_eq in H as ->. andbs. assumption.
    - apply forallb_forall. intros p Hp. specialize (W p Hp). andbs. eapply F; eauto. }
  apply prop_all; intros; cbn [hollow_ok sval_hollow_ok]; try reflexivity; cbn [wf_prop wf_sval wf_array wf_map] in *; andbs.
  - eapply H; eassumption.
  - eapply HL; eassumption.
  - eapply H; eassumption.
  - eapply H; eassumption.
  - destruct (hints o _); [|discriminate]. eapply H; eassumption.
  - rewrite forallb_forall in *. intros [k ps] He. match goal with W : forall x, In x l -> _ |- _ => specialize (W _ He) end. cbv beta iota in *. cbn [snd]. andbs.
    rewrite forallb_forall in *. intros p Hp. rewrite Forall_forall in H. specialize (H _ He). rewrite Forall_forall in H.
    eapply H; eauto.
  - rewrite forallb_forall in *. intros v Hv. rewrite Forall_forall in H. eapply H; eauto.
  - eapply HL; eassumption.
  - rewrite forallb_forall in *. intros [k0 v] He. rewrite Forall_forall in H. specialize (H _ He). cbn [snd] in *.
    match goal with W : forall x, In x l -> _ |- _ => specialize (W _ He) end. cbv beta iota in *. andbs.
    apply andb_true_iff. split; [destruct v; try reflexivity; discriminate|eapply H; eassumption].
  - rewrite forallb_forall in *. intros [k v] He. rewrite Forall_forall in H. specialize (H _ He). cbn [fst snd] in *. destruct H as [HK HV].
    match goal with W : forall x, In x l -> _ |- _ => specialize (W _ He) end. cbv beta iota in *. andbs.
    rewrite (HK _ _ ltac:(eassumption)), (HV _ _ ltac:(eassumption)). destruct k, v; try reflexivity; discriminate.
Qed.
Lemma hollow_file o b f : load_plain o b = Ok f -> Forall (fun e => hollow_ok (snd e) = true) (snd f).
Proof.
  intros E. apply load_ok in E. unfold file_ok, props_ok in E. andbs. rewrite forallb_forall in *.
  apply Forall_forall. intros [k p] He. match goal with W : forall x, In x _ -> _ |- _ => specialize (W _ He) end. cbv beta iota in *. andbs.
  cbn [snd]. eapply hollow_wf. eassumption.
Qed.

(** ** Amplification *)
Definition tiny : header := Header 0x20A None (FEngine 4 27 0 0 []) 3 [] [].
Definition puffed (k : nat) : header * list (str * property) :=
  (tiny, [(s2z "a", PArray (AProps (s2z "X") (repeat (PUnknown (s2z "X") []) k)))]).
Definition puffed_set (k : nat) : header * list (str * property) :=
  (tiny, [(s2z "a", PSet (s2z "X") 0 (repeat (PUnknown (s2z "X") []) k))]).
Lemma repeat_map {A B} (f : A -> B) a k : repeat (f a) k = map f (repeat a k).
Proof. induction k; cbn; congruence. Qed.
Lemma concat_nils {A} k : List.concat (repeat (@nil A) k) = [].
Proof. induction k; cbn; auto. Qed.
Lemma uniform_hollow k : uniform (repeat (PUnknown (s2z "X") []) k) = true.
Proof. destruct k; [reflexivity|]. cbn [uniform repeat]. apply forallb_forall. intros p Hp.
  change (In p (repeat (PUnknown (s2z "X") []) (S k))) in Hp. apply repeat_spec in Hp as ->. reflexivity. Qed.
Lemma len_repeat {A} (a : A) k : len (repeat a k) = Z.of_nat k.
Proof. unfold len. now rewrite repeat_length. Qed.
Lemma puffed_ok o k : Z.of_nat k < 4294967296 -> file_ok o eqv (puffed k) = true /\ file_ok o eqv (puffed_set k) = true.
Proof.
  intros K.
  assert (E : forall path, forallb (fun p => str_eqb (s2z "X") (type_of p) && wf_prop o [] eqv false path p) (repeat (PUnknown (s2z "X") []) k) = true).
  { intros path. apply forallb_forall. intros p Hp. apply repeat_spec in Hp as ->. reflexivity. }
  assert (C : count32 (repeat (PUnknown (s2z "X") []) k) = true) by (unfold count32; rewrite len_repeat; lia).
  pose proof (uniform_hollow k) as U.
  unfold puffed, puffed_set, file_ok, props_ok. cbn [fst snd forallb h_versions tiny wf_prop wf_array distinct].
  rewrite C, U, !E. split; reflexivity.
Qed.
Lemma puffed_small k : (exists b, save_plain (puffed k) = Ok b /\ len b < 200) /\ (exists b, save_plain (puffed_set k) = Ok b /\ len b < 200).
Proof.
  destruct (unknown_array_written [] (s2z "X") (repeat [] k)) as [n N].
  destruct (unknown_set_written [] (s2z "X") 0 (repeat [] k)) as [m M].
  rewrite concat_nils in *. rewrite <- repeat_map in N, M.
  unfold save_plain, w_file, puffed, puffed_set. cbn [fst snd h_versions tiny seqs].
  rewrite N, M. destruct (w_header tiny) as [[h hn]|] eqn:H; [|discriminate H].
  assert (len h = 40) by (vm_compute in H; injection H as <- <-; reflexivity).
  unfold w_string, w_int, emit, seq, skip. cbv iota beta. cbn [Z.to_nat Pos.to_nat Pos.iter_op Nat.add].
  split; eexists; (split; [reflexivity|]); rewrite ?len_app, ?len_le_bytes;
    change (len (str_bytes (s2z "ArrayProperty"))) with 18; change (len (str_bytes (s2z "SetProperty"))) with 16;
    change (len (str_bytes (s2z "X"))) with 6; change (len (str_bytes (s2z "a"))) with 6; change (len (str_bytes s_none)) with 9;
    change (len [Byte.x00]) with 1; rewrite ?len_nil; lia.
Qed.
Lemma amplified o k : Z.of_nat k < 4294967296 ->
  (exists b h, len b < 200 /\ load_plain o b = Ok (h, [(s2z "a", PArray (AProps (s2z "X") (repeat (PUnknown (s2z "X") []) k)))]))
  /\ (exists b h, len b < 200 /\ load_plain o b = Ok (h, [(s2z "a", PSet (s2z "X") 0 (repeat (PUnknown (s2z "X") []) k))])).
Proof.
  intros K. destruct (puffed_ok o k K) as [O1 O2]. destruct (puffed_small k) as [(b1 & S1 & L1) (b2 & S2 & L2)].
  split; [exists b1|exists b2]; exists tiny; (split; [assumption|]).
  - pose proof (reload_any o (probe o) _ b1 [] O1 S1 ltac:(lia)) as R. rewrite app_nil_r in R. destruct o; exact R.
  - pose proof (reload_any o (probe o) _ b2 [] O2 S2 ltac:(lia)) as R. rewrite app_nil_r in R. destruct o; exact R.
Qed.

(** ** Saved size *)
Lemma saved_size o b f c : parse o b = Ok (f, c) -> exists b', save_plain f = Ok b' /\ len b' <= 2 * pos c + 4 /\ pos c <= len b.
Proof.
  intros E. pose proof (parse_pos _ _ _ _ E) as P.
  assert (L : load_plain o b = Ok f) by (unfold load_plain; now rewrite E).
  destruct (load_save_load o (probe o) b f L) as (b' & S & _). exists b'. split; [exact S|]. split; [|lia].
  unfold parse in E. apply u_file in E. cbn [pos] in E. unfold save_plain in S. destruct (w_file f) as [[x n]|] eqn:W; [|discriminate].
  injection S as <-. apply f_file in W. lia.
Qed.
Lemma saved_reload o b f c : (forall p i, probe o p i = false) -> parse o b = Ok (f, c) -> pos c < 2147483646 ->
  exists b', save_plain f = Ok b' /\ load_plain o b' = Ok f.
Proof.
  intros Q E L. destruct (saved_size _ _ _ _ E) as (b' & S & B & _). exists b'. split; [exact S|].
  assert (H : load_plain o b = Ok f) by (unfold load_plain; now rewrite E). apply load_ok in H.
  apply (save_load_iff o f b' Q S); [lia|exact H].
Qed.
