(** Reading from a source that delivers in pieces, or fails (C53). *)
From Coq Require Import ZArith List Bool String Lia ZifyBool ZifyNat.
From Verif Require Import Base Str Types Versions Text Props File Spec BaseFacts Shift ShiftThm ShortWrite Source.
Import ListNotations.
Open Scope Z_scope.

(** ** Specification *)

(** No call fails, and each delivers at least a byte if there is one. *)
Definition always (s : schedule) : Prop := forall i, exists k, s i = Some (S k).
(** A call may fail, but delivers nothing only at the end of the data. *)
Definition honest (s : schedule) : Prop := forall i, s i <> Some O.
(** Some call between two states of the source failed. *)
Definition failing (s : schedule) (d d' : src) : Prop :=
  exists i, (r_calls d <= i < r_calls d')%nat /\ s i = None.
(** The source is only ever read forwards: [d'] is [d] some bytes later. *)
Definition later (d d' : src) : Prop :=
  exists bs, r_left d = bs ++ r_left d' /\ r_pos d' = r_pos d + len bs /\ (r_calls d <= r_calls d')%nat.
(** [r] is [r0], the result for data at the start of its stream, when the data starts
    at position [p]: the header and the properties are read from a buffer of their own,
    so [p] only shows if the compression type, byte 12 of the container, is unknown. *)
Definition placed (p : Z) (r0 r : outcome gfile) : Prop :=
  r = r0 \/ exists v, r0 = Fail (Err (EEnum ETCompression v 12)) /\ r = Fail (Err (EEnum ETCompression v (p + 12))).

(** What a failing call does to a result [r]: it becomes an I/O error, or if only the
    position of the unknown compression type was asked for, the position is lost. *)
Definition spoilt {A B} (r : outcome A) (x : outcome B) : Prop :=
  x = Fail (Err EIo)
  \/ exists v p, r = Fail (Err (EEnum ETCompression v p)) /\ x = Fail (Err (EEnum ETCompression v 0)).

(** ** Proofs *)
Section Thm.
Context (s : schedule) (Hs : honest s) (buf : nat -> nat) (Hb : forall i, (0 < buf i)%nat).
Context (z : zlib) (enough : list byte -> nat).

Definition quiet (d d' : src) : Prop := forall i, (r_calls d <= i < r_calls d')%nat -> s i <> None.
(** [x] started in [d]: either a call failed and the result is spoilt, or none
    did and the result is [r]; on success the state is as [P] says. *)
Definition tells {A} (d : src) (x : outcome A * src) (r : outcome A) (P : A -> src -> Prop) : Prop :=
  later d (snd x)
  /\ ((failing s d (snd x) /\ spoilt r (fst x))
      \/ (quiet d (snd x) /\ fst x = r /\ (forall a, r = Ok a -> P a (snd x)))).

Lemma later_refl d : later d d.
Proof. exists []. cbn. repeat split; lia. Qed.
Lemma later_trans a b c : later a b -> later b c -> later a c.
Proof.
  intros (x & E & P & L) (y & E' & P' & L'). exists (x ++ y). rewrite E, E', <- app_assoc, len_app. repeat split; lia.
Qed.
Lemma later_calls d d' : later d d' -> (r_calls d <= r_calls d')%nat.
Proof. now intros (? & ? & ? & ?). Qed.
Lemma quiet_refl d : quiet d d.
Proof. intros i ?. lia. Qed.
Lemma quiet_trans a b c : quiet a b -> quiet b c -> quiet a c.
Proof.
  intros H G i L. destruct (Nat.lt_ge_cases i (r_calls b)); [apply H|apply G]; lia.
Qed.
Lemma failing_right a b c : later a b -> failing s b c -> failing s a c.
Proof. intros L (i & I & N). pose proof (later_calls _ _ L). exists i. split; [lia|assumption]. Qed.
Lemma failing_left a b c : later b c -> failing s a b -> failing s a c.
Proof. intros L (i & I & N). pose proof (later_calls _ _ L). exists i. split; [lia|assumption]. Qed.

Lemma tells_pure {A} d (r : outcome A) (P : A -> src -> Prop) : (forall a, r = Ok a -> P a d) -> tells d (r, d) r P.
Proof. intros H. split; [apply later_refl|]. right. split; [apply quiet_refl|]. auto. Qed.
Lemma tells_then {A B} d x r P (k : A -> src -> outcome B * src) (f : A -> outcome B) Q :
  tells d x r P ->
  (forall a d', r = Ok a -> later d d' -> P a d' -> tells d' (k a d') (f a) Q) ->
  tells d (thenr x k) (match r with Ok a => f a | Fail e => Fail e end) Q.
Proof.
  intros (L & H) K. destruct x as [[a|e] d']; cbn [fst snd thenr] in *.
  - destruct H as [[_ [H|(v & p & _ & H)]]|(N & E & PP)]; [discriminate|discriminate|]. subst r.
    destruct (K a d' eq_refl L (PP a eq_refl)) as (L' & H').
    split; [eapply later_trans; eassumption|].
    destruct H' as [[F E]|(N' & E & PP')]; [left|right].
    + split; [eapply failing_right; eassumption|assumption].
    + split; [eapply quiet_trans; eassumption|]. auto.
  - split; [assumption|]. destruct H as [[F [E|(v & p & -> & E)]]|(N & E & PP)];
      [injection E as ->; left; split; [exact F|now left]|left; split; [exact F|right; exists v, p; split; [reflexivity|injection E as ->; reflexivity]]|right].
    subst r. split; [assumption|]. split; [reflexivity|]. discriminate.
Qed.
Lemma tells_weaken {A} d x (r : outcome A) (P Q : A -> src -> Prop) : (forall a d', P a d' -> Q a d') -> tells d x r P -> tells d x r Q.
Proof. intros I (L & [H|(N & E & G)]); (split; [assumption|]); [left; auto|right]. split; [assumption|]. split; eauto. Qed.

(** One call. *)
Lemma read1_spec n d : let '(r, d') := read1 s n d in
  later d d' /\ r_calls d' = S (r_calls d)
  /\ ((s (r_calls d) = None /\ r = Fail (Err EIo))
      \/ (s (r_calls d) <> None /\ exists bs, r = Ok bs /\ r_left d = bs ++ r_left d'
            /\ r_pos d' = r_pos d + len bs /\ (List.length bs <= n)%nat
            /\ (bs = [] -> n = O \/ r_left d = []))).
Proof.
  unfold read1. destruct (s (r_calls d)) as [k|] eqn:E; cbn [r_calls r_left r_pos].
  - split; [|split; [reflexivity|right; split; [congruence|]]].
    + exists (firstn (Nat.min n k) (r_left d)). cbn [r_left r_pos r_calls]. rewrite firstn_skipn. repeat split; lia.
    + eexists. split; [reflexivity|]. rewrite firstn_skipn. split; [reflexivity|]. split; [reflexivity|]. split.
      * rewrite firstn_length. lia.
      * intros G. destruct k as [|k]; [now destruct (Hs (r_calls d))|]. destruct n as [|n]; [now left|].
        destruct (r_left d); [now right|]. discriminate.
  - split; [|split; [reflexivity|left; auto]]. exists []. cbn. repeat split; lia.
Qed.

Lemma one_failed d d' : r_calls d' = S (r_calls d) -> s (r_calls d) = None -> failing s d d'.
Proof. intros C N. exists (r_calls d). split; [lia|assumption]. Qed.
Lemma one_quiet d d' : r_calls d' = S (r_calls d) -> s (r_calls d) <> None -> quiet d d'.
Proof. intros C N i I. now replace i with (r_calls d) by lia. Qed.

(** [read_exact] is [take]. *)
Definition after (d : src) (n : nat) (d' : src) : Prop :=
  r_left d' = skipn n (r_left d) /\ r_pos d' = r_pos d + Z.of_nat n.
Lemma exactly_spec f : forall n d, (n <= f)%nat ->
  tells d (exactly s f n d)
    (if (n <=? List.length (r_left d))%nat then Ok (firstn n (r_left d)) else Fail (Err EEof)) (fun _ => after d n).
Proof.
  induction f as [|f IH]; intros [|n] d L; try lia.
  - cbn [exactly Nat.leb]. apply tells_pure. intros _ _. split; [reflexivity|]. cbn. lia.
  - cbn [exactly Nat.leb]. apply tells_pure. intros _ _. split; [reflexivity|]. cbn. lia.
  - cbn [exactly]. pose proof (read1_spec (S n) d) as R. destruct (read1 s (S n) d) as [r d'].
    destruct R as (La & C & [[N ->]|(N & bs & -> & E & P & Le & Em)]).
    + split; [exact La|]. left. split; [now apply one_failed|now left].
    + destruct bs as [|b bs].
      * split; [exact La|]. right. split; [now apply one_quiet|].
        destruct (Em eq_refl) as [G|G]; [discriminate|]. rewrite G. split; [reflexivity|]. discriminate.
      * assert (G : (S n - List.length (b :: bs) <= f)%nat) by (cbn [List.length]; lia).
        specialize (IH _ d' G). remember (b :: bs) as c eqn:Ec.
        assert (X : (S n <=? List.length (r_left d))%nat = (S n - List.length c <=? List.length (r_left d'))%nat)
          by (rewrite E, app_length; lia).
        destruct IH as (L' & H'). destruct (exactly s f (S n - List.length c) d') as [[r|e] d''].
        -- cbn [fst snd] in *. split; [eapply later_trans; eassumption|]. rewrite X.
           destruct H' as [[_ [?|(? & ? & _ & ?)]]|(Q & H & PP)]; [discriminate|discriminate|].
           destruct (S n - List.length c <=? List.length (r_left d'))%nat eqn:Y; [|discriminate].
           right. split; [eapply quiet_trans; [apply one_quiet|]; eassumption|].
           injection H as ->. rewrite E. split.
           ++ now rewrite (firstn_app (S n)), (firstn_all2 c) by lia.
           ++ intros _ _. destruct (PP _ eq_refl) as (A & B). split.
              ** rewrite E, skipn_app, (skipn_all2 c) by lia. exact A.
              ** cbn [snd]. rewrite B, P. unfold len. lia.
        -- cbn [fst snd] in *. split; [eapply later_trans; eassumption|]. rewrite X.
           destruct H' as [[F [?|(? & ? & H & _)]]|(Q & H & PP)].
           ++ left. split; [eapply failing_right; eassumption|now left].
           ++ destruct (_ <=? _)%nat; discriminate.
           ++ right. split; [eapply quiet_trans; [apply one_quiet|]; eassumption|].
              destruct (S n - List.length c <=? List.length (r_left d'))%nat; [discriminate|]. split; [assumption|]. discriminate.
Qed.
Lemma read_exact_spec n d : 0 <= n ->
  tells d (read_exact s n d)
    (if n <=? len (r_left d) then Ok (firstn (Z.to_nat n) (r_left d)) else Fail (Err EEof)) (fun _ => after d (Z.to_nat n)).
Proof.
  intros N. replace (n <=? len (r_left d)) with (Z.to_nat n <=? List.length (r_left d))%nat by (unfold len; lia).
  now apply exactly_spec.
Qed.

(** [read_to_end] returns everything. *)
Lemma to_end_spec f : forall d, (List.length (r_left d) < f)%nat ->
  tells d (to_end s buf f d) (Ok (r_left d)) (fun _ d' => r_left d' = [] /\ r_pos d' = r_pos d + len (r_left d)).
Proof.
  induction f as [|f IH]; intros d L; [lia|]. cbn [to_end].
  pose proof (read1_spec (buf (r_calls d)) d) as R. destruct (read1 s (buf (r_calls d)) d) as [r d'].
  destruct R as (La & C & [[N ->]|(N & bs & -> & E & P & Le & Em)]).
  - split; [exact La|]. left. split; [now apply one_failed|now left].
  - destruct bs as [|b bs].
    + split; [exact La|]. right. split; [now apply one_quiet|]. cbn [app] in E. cbn [fst snd].
      specialize (Hb (r_calls d)). destruct (Em eq_refl) as [G|G]; [lia|]. rewrite <- E, G. split; [reflexivity|].
      intros _ _. split; [reflexivity|]. rewrite P. reflexivity.
    + remember (b :: bs) as c eqn:Ec. assert (G : (List.length (r_left d') < f)%nat).
      { rewrite E, app_length in L. subst c. cbn [List.length] in L. lia. }
      destruct (IH d' G) as (L' & H'). destruct (to_end s buf f d') as [[r|e] d'']; cbn [fst snd] in *.
      * destruct c as [|c0 c]; [discriminate|]. split; [eapply later_trans; eassumption|]. destruct H' as [[_ [?|(? & ? & _ & ?)]]|(Q & H & PP)]; [discriminate|discriminate|].
        right. split; [eapply quiet_trans; [apply one_quiet|]; eassumption|]. injection H as ->. rewrite E.
        split; [reflexivity|]. intros _ _. destruct (PP _ eq_refl) as (A & B). split; [exact A|]. cbn [snd]. rewrite B, P, len_app. lia.
      * destruct c as [|c0 c]; [discriminate|]. split; [eapply later_trans; eassumption|]. destruct H' as [[F [?|(? & ? & H & _)]]|(Q & H & PP)]; [|discriminate|discriminate].
        left. split; [eapply failing_right; eassumption|now left].
Qed.
Lemma fill_spec f : forall want d, (List.length (r_left d) < f)%nat ->
  tells d (fill s buf f want d) (Ok tt) (fun _ _ => True).
Proof.
  induction f as [|f IH]; intros [|want] d L; try lia.
  - cbn [fill]. now apply tells_pure.
  - cbn [fill].
    pose proof (read1_spec (buf (r_calls d)) d) as R. destruct (read1 s (buf (r_calls d)) d) as [r d'].
    destruct R as (La & C & [[N ->]|(N & bs & -> & E & P & Le & Em)]).
    + split; [exact La|]. left. split; [now apply one_failed|now left].
    + destruct bs as [|b bs].
      * split; [exact La|]. right. split; [now apply one_quiet|]. auto.
      * remember (b :: bs) as c eqn:Ec. assert (G : (List.length (r_left d') < f)%nat).
        { rewrite E, app_length in L. subst c. cbn [List.length] in L. lia. }
        destruct c as [|c0 c]; [discriminate|]. destruct (IH (S want - List.length (c0 :: c))%nat d' G) as (L' & H').
        split; [eapply later_trans; eassumption|]. destruct H' as [[F [?|(? & ? & H & _)]]|(Q & H & PP)].
        -- left. split; [eapply failing_right; eassumption|now left].
        -- discriminate.
        -- right. split; [eapply quiet_trans; [apply one_quiet|]; eassumption|]. auto.
Qed.

Lemma take_after d n c' bs : take n (Cur (r_pos d) (r_left d) []) = Ok (bs, c') -> 0 <= n ->
  forall d', after d (Z.to_nat n) d' -> c' = Cur (r_pos d') (r_left d') [].
Proof.
  unfold take. cbn [rest pos stk]. destruct (_ <=? _); [|discriminate]. intros H N d' (A & B). injection H as <- <-.
  rewrite A, B. f_equal. lia.
Qed.
Lemma read_take n d : 0 <= n ->
  tells d (read_exact s n d)
    (match take n (Cur (r_pos d) (r_left d) []) with Ok (bs, _) => Ok bs | Fail f => Fail f end)
    (fun _ d' => r_pos d' = r_pos d + n
      /\ forall bs c', take n (Cur (r_pos d) (r_left d) []) = Ok (bs, c') -> c' = Cur (r_pos d') (r_left d') []).
Proof.
  intros N. eapply tells_weaken; [|unfold take; cbn [rest]; pose proof (read_exact_spec n d N) as R;
    destruct (n <=? len (r_left d)); exact R].
  intros a d' A. split; [destruct A as (_ & ->); lia|]. intros bs c' E. eapply take_after; eassumption.
Qed.
(** Reading on with a reader of the model. *)
Lemma tells_take {A B} n d (k : list byte -> src -> outcome A * src) (f : list byte -> reader B) (g : outcome (B * cur) -> outcome A) Q :
  0 <= n -> (forall e, g (Fail e) = Fail e) ->
  (forall bs d', r_pos d' = r_pos d + n -> tells d' (k bs d') (g (f bs (Cur (r_pos d') (r_left d') []))) Q) ->
  tells d (thenr (read_exact s n d) k) (g (bind (take n) f (Cur (r_pos d) (r_left d) []))) Q.
Proof.
  intros N G K. pose proof (read_take n d N) as R. unfold bind.
  destruct (take n (Cur (r_pos d) (r_left d) [])) as [[bs c']|e] eqn:E.
  - eapply (tells_then _ _ (Ok bs) _ k (fun bs => g (f bs c'))) in R; [exact R|].
    intros a d' Ea _ [P P']. injection Ea as <-. rewrite (P' _ _ eq_refl). now apply K.
  - rewrite G. eapply (tells_then _ _ (Fail e) _ k (fun _ => Fail e)) in R; [exact R|]. discriminate.
Qed.

Lemma palworld_steps c : r_palworld z c =
  bind (take 4) (fun bn => bind (take 4) (fun _ => bind (take 3) (fun magic =>
    if negb (list_eqb Byte.eqb magic plz_magic) then fail (Err (EMagic magic))
    else bind (take 1) (fun m =>
      let v := to_signed 1 (le_val m) in
      match enum_of ctype_z ctypes v with
      | None => fun k => Fail (Err (EEnum ETCompression v (pos k)))
      | Some c => fun k =>
        match
          match c with
          | CNone => match take (le_val bn) k with Ok (d, _) => Ok d | Fail f => Fail f end
          | CZlib => zread_exact (le_val bn) (inflate z (rest k))
          | CTwice => zread_to_end (zagain z (inflate z (rest k)))
          end
        with
        | Ok d => Ok ((c, d), k)
        | Fail f => Fail f
        end
      end)))) c.
Proof.
  unfold r_palworld, r_u32, r_uint, r_enum, r_i8, r_sint, r_uint, position, bind, ret, fail. cbv zeta.
  destruct (take 4 c) as [[a c1]|]; [|reflexivity]. destruct (take 4 c1) as [[a2 c2]|]; [|reflexivity].
  destruct (take 3 c2) as [[a3 c3]|]; [|reflexivity]. destruct (negb _); [reflexivity|].
  destruct (take 1 c3) as [[a4 c4]|]; [|reflexivity]. now destruct (enum_of _ _ _).
Qed.
Definition unpacked (x : outcome (ctype * list byte * cur)) : outcome (dversion * list byte) :=
  match x with Ok ((c, b), _) => Ok (DPalworld c, b) | Fail f => Fail f end.
(** Where the source is left. *)
Definition left_at (d : src) (x : dversion * list byte) (d' : src) : Prop :=
  match x with
  | (DDefault, b) => r_left d' = [] /\ b = r_left d
  | (DPalworld CNone, b) => r_pos d' = r_pos d + 12 + len b
  | _ => True
  end.
Lemma inflated_spec k d : tells d (inflated s buf z enough k d) (k (inflate z (r_left d))) (fun _ _ => True).
Proof.
  unfold inflated. apply (tells_then _ _ (Ok tt) (fun _ _ => True) _ (fun _ => k (inflate z (r_left d)))).
  - apply fill_spec. lia.
  - intros a d' _ _ _. now apply tells_pure.
Qed.
Lemma asked_spec d v P :
  tells d (Fail (Err (EEnum ETCompression v (position_or_default s d))), asked_position d)
    (unpacked (Fail (Err (EEnum ETCompression v (r_pos d))))) P.
Proof.
  split; [exists []; cbn; repeat split; lia|]. cbn [fst snd unpacked].
  unfold position_or_default. destruct (s (r_calls d)) eqn:E; [right|left].
  - split; [apply one_quiet; [reflexivity|congruence]|]. split; [reflexivity|discriminate].
  - split; [now apply one_failed|]. right. exists v, (r_pos d). auto.
Qed.
Lemma unpack_palworld d :
  tells d (unpack_src s buf z enough GPalworld d) (unpacked (r_palworld z (Cur (r_pos d) (r_left d) []))) (left_at d).
Proof.
  rewrite palworld_steps. cbn [unpack_src].
  apply tells_take; [lia|reflexivity|]. intros bn d1 P1.
  apply tells_take; [lia|reflexivity|]. intros _ d2 P2.
  apply tells_take; [lia|reflexivity|]. intros mg d3 P3.
  destruct (negb _); [now apply tells_pure|].
  apply tells_take; [lia|reflexivity|]. intros m d4 P4. cbv zeta.
  destruct (enum_of ctype_z ctypes (to_signed 1 (le_val m))) as [c|]; [|apply asked_spec].
  assert (Nn : 0 <= le_val bn) by (pose proof (le_val_range bn); lia).
  destruct c; cbn [unpacked].
  - pose proof (read_take (le_val bn) d4 Nn) as R.
    destruct (take (le_val bn) (Cur (r_pos d4) (r_left d4) [])) as [[b c']|e] eqn:E.
    + apply (tells_then _ _ (Ok b) _ (fun b d => (Ok (DPalworld CNone, b), d)) (fun b => Ok (DPalworld CNone, b)) (left_at d)) in R; [exact R|].
      intros a d' Ea _ [P _]. injection Ea as <-. apply tells_pure. intros x Ex. injection Ex as <-. cbn [left_at].
      unfold take in E. cbn [rest] in E. destruct (le_val bn <=? len (r_left d4)) eqn:L; [|discriminate].
      injection E as <- _. unfold len in *. rewrite firstn_length. lia.
    + apply (tells_then _ _ (Fail e) _ (fun b d => (Ok (DPalworld CNone, b), d)) (fun b => Ok (DPalworld CNone, b)) (left_at d)) in R; [exact R|]. discriminate.
  - cbn [rest]. pose proof (inflated_spec (zread_exact (le_val bn)) d4) as R.
    eapply (tells_then _ _ _ _ (fun b d => (Ok (DPalworld CZlib, b), d)) (fun b => Ok (DPalworld CZlib, b)) (left_at d)) in R.
    + destruct (zread_exact _ _) in *; exact R.
    + intros b d' _ _ _. apply tells_pure. intros x Ex. injection Ex as <-. exact I.
  - cbn [rest]. pose proof (inflated_spec (fun p => zread_to_end (zagain z p)) d4) as R.
    eapply (tells_then _ _ _ _ (fun b d => (Ok (DPalworld CTwice, b), d)) (fun b => Ok (DPalworld CTwice, b)) (left_at d)) in R.
    + cbv beta in R. destruct (zread_to_end _) in *; exact R.
    + intros b d' _ _ _. apply tells_pure. intros x Ex. injection Ex as <-. exact I.
Qed.
Lemma unpack_default d :
  tells d (unpack_src s buf z enough GDefault d) (Ok (DDefault, r_left d)) (left_at d).
Proof.
  cbn [unpack_src]. apply (tells_then _ _ (Ok (r_left d)) _ _ (fun b => Ok (DDefault, b)) (left_at d)
    (to_end_spec _ d (Nat.lt_succ_diag_r _))).
  intros b d' E _ [P _]. injection E as <-. apply tells_pure. intros x Ex. injection Ex as <-. split; [exact P|reflexivity].
Qed.

Definition finish (o : opts) (x : dversion * list byte) : outcome gfile :=
  match load_plain o (snd x) with Ok (h, ps) => Ok (GFile (fst x) h ps) | Fail f => Fail f end.
Lemma palworld_placed b p : r_palworld z (Cur p b []) = moved_result p (r_palworld z (Cur 0 b [])).
Proof. rewrite <- shifted_palworld. reflexivity. Qed.
Lemma palworld_faults b f : r_palworld z (Cur 0 b []) = Fail f ->
  (forall p, moved_fault p f = f) \/ exists v, f = Err (EEnum ETCompression v 12).
Proof.
  rewrite palworld_steps. unfold bind, take. cbn [rest pos stk].
  destruct (4 <=? len b); [|intros H; injection H as <-; now left]. cbn [rest pos stk].
  destruct (4 <=? _); [|intros H; injection H as <-; now left]. cbn [rest pos stk].
  destruct (3 <=? _); [|intros H; injection H as <-; now left]. cbn [rest pos stk].
  destruct (negb _); [intros H; injection H as <-; now left|]. cbn [rest pos stk].
  destruct (1 <=? _); [|intros H; injection H as <-; now left]. cbv zeta.
  destruct (enum_of _ _ _) as [c|]; [|intros H; injection H as <-; right; eexists; reflexivity].
  intros H. left. intros p. destruct c; cbn [rest] in H.
  - destruct (le_val _ <=? _); [discriminate|]. injection H as <-. reflexivity.
  - unfold zread_exact in H. destruct (_ <=? _); [discriminate|]. injection H as <-. now destruct (snd _).
  - unfold zread_to_end in H. destruct (snd _); try discriminate. injection H as <-. reflexivity.
Qed.

Lemma load_src_spec o v d :
  exists r, placed (r_pos d) (load z o v (r_left d)) r
  /\ tells d (load_src s buf z enough o v d) r (fun g d' => exists b, load_plain o b = Ok (g_header g, g_props g) /\ left_at d (g_version g, b) d').
Proof.
  assert (K : forall x d', left_at d x d' ->
    tells d' ((fun '(g, b) d => (match load_plain o b with Ok (h, ps) => Ok (GFile g h ps) | Fail f => Fail f end, d)) x d')
      (finish o x) (fun g d' => exists b, load_plain o b = Ok (g_header g, g_props g) /\ left_at d (g_version g, b) d')).
  { intros [g b] d' L. apply tells_pure. intros a E. unfold finish in E. cbn [fst snd] in E.
    destruct (load_plain o b) as [[h ps]|] eqn:F; [|discriminate]. injection E as <-. cbn [g_version]. eauto. }
  unfold load_src. destruct v; cbn [load].
  - eexists. split; [left; reflexivity|].
    pose proof (tells_then _ _ _ _ _ _ _ (unpack_default d) (fun x d' _ _ L => K x d' L)) as R. exact R.
  - pose proof (tells_then _ _ _ _ _ _ _ (unpack_palworld d) (fun x d' _ _ L => K x d' L)) as R.
    eexists. split; [|exact R]. rewrite (palworld_placed (r_left d) (r_pos d)).
    destruct (r_palworld z (Cur 0 (r_left d) [])) as [[[c b] k]|f] eqn:E; cbn [moved_result unpacked].
    + left. reflexivity.
    + destruct (palworld_faults _ _ E) as [H|[v ->]]; [left; now rewrite H|right].
      exists v. split; [reflexivity|]. cbn [moved_fault moved_err]. do 3 f_equal. lia.
Qed.
End Thm.

(** Loading is the same for every way of delivering the data. *)
Lemma any_source s buf z enough o v d : always s -> (forall i, (0 < buf i)%nat) ->
  placed (r_pos d) (load z o v (r_left d)) (fst (load_src s buf z enough o v d)).
Proof.
  intros P B. assert (Hs : honest s). { intros i E. destruct (P i) as [k F]. congruence. }
  destruct (load_src_spec s Hs buf B z enough o v d) as (r & R & (_ & [[(i & _ & N) _]|(_ & E & _)])).
  - destruct (P i) as [k F]. congruence.
  - now rewrite E.
Qed.
Lemma any_source_start s buf z enough o v b c : always s -> (forall i, (0 < buf i)%nat) ->
  fst (load_src s buf z enough o v (Src b 0 c)) = load z o v b.
Proof.
  intros P B. destruct (any_source s buf z enough o v (Src b 0 c) P B) as [H|(t & H & G)]; [exact H|].
  cbn [r_left r_pos] in *. now rewrite G, H.
Qed.
(** A call that fails makes loading fail, and otherwise failures change nothing. *)
Lemma failing_source s buf z enough o v d : honest s -> (forall i, (0 < buf i)%nat) ->
  let '(r, d') := load_src s buf z enough o v d in
  (failing s d d' -> spoilt (load z o v (r_left d)) r)
  /\ (~ failing s d d' -> placed (r_pos d) (load z o v (r_left d)) r).
Proof.
  intros Hs B. destruct (load_src_spec s Hs buf B z enough o v d) as (r & R & T).
  destruct (load_src s buf z enough o v d) as [x d']. destruct T as (_ & [[F E]|(Q & E & _)]); cbn [fst snd] in *.
  - split; [intros _|intros N; contradiction]. destruct E as [E|(t & p & E & G)]; [now left|right].
    exists t. destruct R as [R|(t' & R & R')]; [exists p|exists 12]; (split; [|exact G]); [congruence|].
    rewrite E in R'. injection R' as <- _. exact R.
  - subst x. split; [|intros _; exact R]. intros (i & I & N). now destruct (Q i I).
Qed.
(** The source is only read forwards; how far for the two kinds without compression. *)
Lemma consumed s buf z enough o v d : honest s -> (forall i, (0 < buf i)%nat) ->
  let '(r, d') := load_src s buf z enough o v d in
  later d d'
  /\ forall g, r = Ok g ->
     match g_version g with
     | DDefault => r_left d' = []
     | DPalworld CNone => exists b, r_pos d' = r_pos d + 12 + len b /\ load_plain o b = Ok (g_header g, g_props g)
     | _ => True
     end.
Proof.
  intros Hs B. destruct (load_src_spec s Hs buf B z enough o v d) as (r & R & T).
  destruct (load_src s buf z enough o v d) as [x d']. destruct T as (L & T). cbn [fst snd] in *. split; [exact L|].
  intros g G. destruct T as [[_ [E|(? & ? & _ & E)]]|(_ & E & H)]; [congruence|congruence|].
  destruct (H g) as (b & P & A); [congruence|]. destruct (g_version g) as [|[]]; cbn [left_at] in A; auto.
  - now destruct A.
  - eauto.
Qed.
