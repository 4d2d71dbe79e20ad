(** The decoder of Inflate.v accepts exactly the streams of InflateSpec.v. *)
From Coq Require Import ZArith List Bool Lia.
From Coq Require Import ZifyBool ZifyNat.
From Verif Require Import Base BaseFacts Str Types Versions Text Props File Spec Device Whole WholeSave Inflate InflateSpec InflateCode.
Import ListNotations.
Open Scope Z_scope.

(** ** Lengths and distances *)
Lemma len_rows s : 257 <= s <= 285 ->
  zextra len_table (s - 257) = (v <& zbits (Z.to_nat (length_extra s)) ;; zret (length_base s + v)).
Proof.
  intros S. unfold zextra.
  assert (nth_error len_table (Z.to_nat (s - 257)) = Some (length_base s, length_extra s)) as ->; [|reflexivity].
  replace s with (257 + Z.of_nat (Z.to_nat (s - 257))) at 2 3 by lia.
  assert (Z.to_nat (s - 257) < 29)%nat as L by lia. revert L. generalize (Z.to_nat (s - 257)). clear. intros n L.
  do 29 (destruct n as [|n]; [reflexivity|]). lia.
Qed.
Lemma len_beyond s : 285 < s -> zextra len_table (s - 257) = zstop ZBad.
Proof. intros S. unfold zextra. rewrite (proj2 (nth_error_None _ _)) by (cbn; lia). reflexivity. Qed.
Lemma dist_rows s : 0 <= s <= 29 ->
  zextra dist_table s = (v <& zbits (Z.to_nat (dist_extra s)) ;; zret (dist_base s + v)).
Proof.
  intros S. unfold zextra.
  assert (nth_error dist_table (Z.to_nat s) = Some (dist_base s, dist_extra s)) as ->; [|reflexivity].
  replace s with (Z.of_nat (Z.to_nat s)) at 2 3 by lia.
  assert (Z.to_nat s < 30)%nat as L by lia. revert L. generalize (Z.to_nat s). clear. intros n L.
  do 30 (destruct n as [|n]; [reflexivity|]). lia.
Qed.
Lemma dist_beyond s : 29 < s -> zextra dist_table s = zstop ZBad.
Proof. intros S. unfold zextra. rewrite (proj2 (nth_error_None _ _)) by (cbn; lia). reflexivity. Qed.
Lemma length_extra_nonneg s : 257 <= s -> 0 <= length_extra s.
Proof. intros H. unfold length_extra. destruct (_ || _) eqn:E; [lia|]. apply Z.div_pos; lia. Qed.
Lemma dist_extra_nonneg s : 0 <= s -> 0 <= dist_extra s.
Proof. intros H. unfold dist_extra. destruct (s <? 4) eqn:E; [lia|]. assert (2 <= s / 2) by (apply Z.div_le_lower_bound; lia). lia. Qed.
Lemma dist_base_pos s : 0 <= s -> 1 <= dist_base s.
Proof.
  intros H. unfold dist_base. destruct (s <? 4); [lia|]. pose proof (Z.pow_nonneg 2 (s / 2 - 1) ltac:(lia)).
  pose proof (Z.mod_pos_bound s 2 ltac:(lia)). nia.
Qed.
Lemma based_taking b n : taking (v <& zbits n ;; zret (b + v))
  (fun w y => exists x, 0 <= x < 2 ^ Z.of_nat n /\ w = low_first n x /\ y = b + x).
Proof. intros w y r o (x & X & -> & ->). unfold zbind. now rewrite (zbits_taking n _ x) by auto. Qed.
Lemma based_taken b n : taken_by (v <& zbits n ;; zret (b + v))
  (fun w y => exists x, 0 <= x < 2 ^ Z.of_nat n /\ w = low_first n x /\ y = b + x).
Proof.
  intros s y s' E. unfold zbind in E. destruct (zbits n s) as [x s1|] eqn:E1; [|discriminate].
  apply zbits_taken in E1. destruct E1 as (w & I & O & X & ->). unfold zret in E.
  assert (y = b + x) as -> by congruence. assert (s' = s1) as -> by congruence.
  exists (low_first n x). split; [exact I|]. split; [exact O|]. exists x. auto.
Qed.

(** ** Repetitions *)
Lemma back_split (o : list byte) k b : nth_error o k = Some b ->
  exists c a, rev o = a ++ b :: c /\ len c = Z.of_nat k.
Proof.
  intros N. apply nth_error_split in N. destruct N as (c & a & -> & L). exists (rev c), (rev a).
  rewrite rev_app_distr. cbn [rev]. rewrite <- app_assoc. split; [reflexivity|]. unfold len. rewrite rev_length. lia.
Qed.
Lemma zcopy_sound k n : 1 <= k -> forall s u s', zcopy n k s = ZVal u s' ->
  zin s' = zin s /\ copied k (rev (zout s)) n (rev (zout s')).
Proof.
  intros K. induction n as [|n IH]; intros s u s' E; cbn [zcopy] in E.
  - injection E as <- <-. split; [reflexivity|constructor].
  - destruct (nth_error (zout s) (Z.to_nat (k - 1))) as [b|] eqn:N; [|discriminate].
    unfold zbind, zput in E. apply IH in E. cbn [zin zout rev] in E. destruct E as [I C]. split; [exact I|].
    apply back_split in N. destruct N as (c & a & R & L). rewrite R in *. constructor; [lia|exact C].
Qed.
Lemma zcopy_complete k d n e : copied k d n e -> forall r, zcopy n k (Zst r (rev d)) = ZVal tt (Zst r (rev e)).
Proof.
  induction 1 as [d|a b c n e L C IH]; intros r; [reflexivity|]. cbn [zcopy zout].
  replace (nth_error (rev (a ++ b :: c)) (Z.to_nat (k - 1))) with (Some b).
  - unfold zbind, zput. cbn [zin zout]. rewrite <- (IH r). rewrite (rev_app_distr (a ++ b :: c) [b]). reflexivity.
  - symmetry. rewrite rev_app_distr. cbn [rev]. rewrite <- app_assoc.
    rewrite nth_error_app2; rewrite rev_length; unfold len in L; [|lia].
    replace (Z.to_nat (k - 1) - List.length c)%nat with O by lia. reflexivity.
Qed.

(** ** The body of a block *)
Definition writing (m : zm unit) (R : list bool -> list byte -> list byte -> Prop) : Prop :=
  forall w d e r, R w d e -> m (Zst (w ++ r) (rev d)) = ZVal tt (Zst r (rev e)).
Definition written_by (m : zm unit) (R : list bool -> list byte -> list byte -> Prop) : Prop :=
  forall s u s', m s = ZVal u s' -> exists w, zin s = w ++ zin s' /\ R w (rev (zout s)) (rev (zout s')).

Lemma spells_nonempty lens w s : spells lens w s -> (0 < List.length w)%nat.
Proof.
  intros (b & l & a & _ & _ & L & ->). unfold high_first. rewrite rev_length, low_first_length. lia.
Qed.
Lemma spells_range lens w s : spells lens w s -> 0 <= s < len lens.
Proof.
  intros (b & l & a & -> & -> & _). rewrite len_app, len_cons. pose proof (len_nonneg a). pose proof (len_nonneg b). lia.
Qed.
Lemma zcodes_complete ll dl w l : taken ll <= 2 ^ 15 -> taken dl <= 2 ^ 15 -> items ll dl w l ->
  forall d e, does d l e -> forall n r, (List.length w < n)%nat ->
  zcodes n (words ll) (words dl) (Zst (w ++ r) (rev d)) = ZVal tt (Zst r (rev e)).
Proof.
  intros TL TD. induction 1 as [w S|w b r0 l S _ IH|w s x w' t y r0 l S SR X D DR Y _ IH]; intros d e DO n r N;
    (destruct n as [|n]; [lia|]); cbn [zcodes]; unfold zbind at 1.
  - rewrite (zsymbol_taking ll TL w 256) by exact S. inversion DO; subst. reflexivity.
  - rewrite <- app_assoc. rewrite (zsymbol_taking ll TL w (b2z b)) by exact S. pose proof (b2z_range b).
    replace (b2z b <? 256) with true by lia. unfold zbind, zput. cbn [zin zout]. rewrite z2b_b2z.
    inversion DO; subst. rewrite app_length in N. pose proof (spells_nonempty _ _ _ S).
    rewrite <- (IH (d ++ [b]) e) with (n := n); [rewrite rev_app_distr; reflexivity|assumption|lia].
  - rewrite <- !app_assoc. rewrite (zsymbol_taking ll TL w s) by exact S.
    replace (s <? 256) with false by lia. replace (s =? 256) with false by lia.
    rewrite len_rows by lia. unfold zbind at 1. pose proof (length_extra_nonneg s ltac:(lia)) as LE.
    rewrite (based_taking (length_base s) _ _ (length_base s + x)) by (exists x; rewrite Z2Nat.id by lia; auto).
    unfold zbind at 1. rewrite (zsymbol_taking dl TD w' t) by exact D. rewrite dist_rows by lia.
    pose proof (dist_extra_nonneg t ltac:(lia)) as DE. unfold zbind at 1.
    rewrite (based_taking (dist_base t) _ _ (dist_base t + y)) by (exists y; rewrite Z2Nat.id by lia; auto).
    inversion DO; subst. unfold zbind. rewrite (zcopy_complete _ _ _ _ ltac:(eassumption)).
    apply IH; [assumption|]. rewrite !app_length in N. pose proof (spells_nonempty _ _ _ S). lia.
Qed.
Lemma zcodes_sound ll dl n : written_by (zcodes n (words ll) (words dl))
  (fun w d e => exists l, items ll dl w l /\ does d l e).
Proof.
  induction n as [|n IH]; intros s u s' E; cbn [zcodes] in E; [discriminate|]. unfold zbind at 1 in E.
  destruct (zsymbol (words ll) s) as [c s1|] eqn:E1; [|discriminate]. apply zsymbol_taken in E1.
  destruct E1 as (w1 & I1 & O1 & S). pose proof (spells_range _ _ _ S) as CR.
  destruct (Z.ltb_spec c 256) as [L|L].
  - unfold zbind, zput in E. apply IH in E. cbn [zin zout rev] in E. destruct E as (w & I & l & IT & DO).
    exists (w1 ++ w). split; [rewrite I1, I, app_assoc; reflexivity|]. exists (Lit (z2b c) :: l). split.
    + apply items_lit; [|exact IT]. rewrite b2z_z2b, Z.mod_small by lia. exact S.
    + rewrite O1 in DO. constructor. exact DO.
  - destruct (Z.eqb_spec c 256) as [->|C].
    + injection E as <- <-. exists w1. split; [exact I1|]. exists []. rewrite O1. split; constructor. exact S.
    + destruct (Z.le_gt_cases c 285) as [B|B].
      2:{ rewrite len_beyond in E by lia. discriminate. }
      rewrite len_rows in E by lia. unfold zbind at 1 in E.
      match type of E with match ?m with _ => _ end = _ => destruct m as [x s2|] eqn:E2; [|discriminate] end.
      apply based_taken in E2. destruct E2 as (w2 & I2 & O2 & lx & X & -> & ->).
      unfold zbind at 1 in E. destruct (zsymbol (words dl) s2) as [t s3|] eqn:E3; [|discriminate].
      apply zsymbol_taken in E3. destruct E3 as (w3 & I3 & O3 & D). pose proof (spells_range _ _ _ D) as TR.
      destruct (Z.le_gt_cases t 29) as [B2|B2].
      2:{ rewrite dist_beyond in E by lia. discriminate. }
      rewrite dist_rows in E by lia. unfold zbind at 1 in E.
      match type of E with match ?m with _ => _ end = _ => destruct m as [y s4|] eqn:E4; [|discriminate] end.
      apply based_taken in E4. destruct E4 as (w4 & I4 & O4 & dy & Y & -> & ->).
      unfold zbind in E. destruct (zcopy _ _ s4) as [v s5|] eqn:E5; [|discriminate].
      pose proof (dist_base_pos t ltac:(lia)). apply zcopy_sound in E5; [|lia]. destruct E5 as [I5 C5].
      apply IH in E. destruct E as (w & I & l & IT & DO).
      pose proof (length_extra_nonneg c ltac:(lia)). pose proof (dist_extra_nonneg t ltac:(lia)).
      rewrite Z2Nat.id in X, Y by lia.
      exists (w1 ++ low_first (Z.to_nat (length_extra c)) lx ++ w3 ++ low_first (Z.to_nat (dist_extra t)) dy ++ w).
      split; [rewrite I1, I2, I3, I4, <- I5, I, <- !app_assoc; reflexivity|].
      exists (Copy (length_base c + lx) (dist_base t + dy) :: l). split.
      * apply items_copy; auto; lia.
      * rewrite O4, O3, O2, O1 in C5. econstructor; eassumption.
Qed.

(** ** Code lengths *)
Lemma runs_grow cl a w e : runs cl a w e -> exists t, e = a ++ t.
Proof.
  induction 1 as [a|a w s r e _ _ _ (t & ->)|a p w x r e _ _ _ (t & ->)|a w x r e _ _ _ (t & ->)|a w x r e _ _ _ (t & ->)];
    [exists []; now rewrite app_nil_r|..]; eexists; rewrite <- !app_assoc; reflexivity.
Qed.
Lemma runs_ok cl a w e : runs cl a w e -> lens_ok a -> lens_ok e.
Proof.
  assert (forall n, lens_ok (repeat 0 n)) as R0.
  { intros n. induction n; constructor; [lia|assumption]. }
  induction 1 as [a|a w s r e S L _ IH|a p w x r e S X _ IH|a w x r e S X _ IH|a w x r e S X _ IH]; intros K; try exact K; apply IH.
  - apply Forall_app. split; [exact K|]. pose proof (spells_range _ _ _ S). repeat constructor; lia.
  - apply Forall_app in K. destruct K as [K P]. inversion P; subst. apply Forall_app. split; [exact K|].
    constructor; [assumption|]. clear - H1. induction (Z.to_nat (3 + x)); constructor; assumption.
  - apply Forall_app. split; [exact K|apply R0].
  - apply Forall_app. split; [exact K|apply R0].
Qed.
Lemma len_rev {A} (l : list A) : len (rev l) = len l.
Proof. unfold len. now rewrite rev_length. Qed.
Lemma len_repeat {A} (x : A) n : len (repeat x n) = Z.of_nat n.
Proof. unfold len. now rewrite repeat_length. Qed.
Lemma rev_repeat {A} (x : A) n : rev (repeat x n) = repeat x n.
Proof.
  induction n as [|n IH]; [reflexivity|]. cbn [repeat rev]. rewrite IH. clear. induction n; [reflexivity|]. cbn. now f_equal.
Qed.
Lemma zlens_complete cl a w e want : taken cl <= 2 ^ 15 -> len cl <= 19 -> runs cl a w e -> len e = want ->
  forall n r o, want - len a <= Z.of_nat n ->
  zlens n (words cl) want (rev a) (Zst (w ++ r) o) = ZVal e (Zst r o).
Proof.
  intros T CL R E. induction R as [a|a w s r0 e S L R IH|a p w x r0 e S X R IH|a w x r0 e S X R IH|a w x r0 e S X R IH];
    intros n r o N.
  - assert (len (rev a) =? want = true) as Q by (rewrite len_rev; lia).
    destruct n; cbn [zlens]; rewrite len_rev in *; rewrite Q; [now rewrite rev_involutive|].
    replace (want <=? len a) with true by lia. now rewrite rev_involutive.
  - destruct (runs_grow _ _ _ _ R) as (t & Ht). assert (len a + 1 <= want) by (rewrite <- E, Ht, !len_app; cbn; pose proof (len_nonneg t); unfold len; cbn; lia).
    destruct n as [|n]; [lia|]. cbn [zlens]. rewrite len_rev. replace (want <=? len a) with false by lia. unfold zbind.
    rewrite <- app_assoc, (zsymbol_taking cl T w s) by exact S. replace (s <? 16) with true by lia.
    specialize (IH E n r o). rewrite rev_app_distr in IH. apply IH. rewrite len_app. change (len [s]) with 1. lia.
  - destruct (runs_grow _ _ _ _ R) as (t & Ht).
    assert (len (a ++ [p]) + (3 + x) <= want) by (rewrite <- E, Ht, !len_app, len_repeat; pose proof (len_nonneg t); lia).
    destruct n as [|n]; [lia|]. cbn [zlens]. rewrite len_rev. replace (want <=? len (a ++ [p])) with false by lia. unfold zbind at 1.
    rewrite <- !app_assoc, (zsymbol_taking cl T w 16) by exact S. cbn [Z.ltb Z.compare Pos.compare Pos.compare_cont Z.eqb Pos.eqb].
    rewrite rev_app_distr. cbn [rev app]. unfold zbind. rewrite (zbits_taking 2 _ x) by (cbn; auto).
    specialize (IH E n r o). rewrite !rev_app_distr, rev_repeat in IH. cbn [rev app] in IH.
    rewrite <- ?app_assoc in IH. apply IH.
    rewrite ?len_app, ?len_cons, ?len_repeat in *. change (len (@nil Z)) with 0 in *. lia.
  - destruct (runs_grow _ _ _ _ R) as (t & Ht).
    assert (len a + (3 + x) <= want) by (rewrite <- E, Ht, !len_app, len_repeat; pose proof (len_nonneg t); lia).
    destruct n as [|n]; [lia|]. cbn [zlens]. rewrite len_rev. replace (want <=? len a) with false by lia. unfold zbind at 1.
    rewrite <- !app_assoc, (zsymbol_taking cl T w 17) by exact S. cbn [Z.ltb Z.compare Pos.compare Pos.compare_cont Z.eqb Pos.eqb].
    unfold zbind. rewrite (zbits_taking 3 _ x) by (cbn; auto).
    specialize (IH E n r o). rewrite !rev_app_distr, rev_repeat in IH. apply IH.
    rewrite ?len_app, ?len_repeat in *. lia.
  - destruct (runs_grow _ _ _ _ R) as (t & Ht).
    assert (len a + (11 + x) <= want) by (rewrite <- E, Ht, !len_app, len_repeat; pose proof (len_nonneg t); lia).
    destruct n as [|n]; [lia|]. cbn [zlens]. rewrite len_rev. replace (want <=? len a) with false by lia. unfold zbind at 1.
    rewrite <- !app_assoc, (zsymbol_taking cl T w 18) by exact S. cbn [Z.ltb Z.compare Pos.compare Pos.compare_cont Z.eqb Pos.eqb].
    unfold zbind. rewrite (zbits_taking 7 _ x) by (cbn; auto).
    specialize (IH E n r o). rewrite !rev_app_distr, rev_repeat in IH. apply IH.
    rewrite ?len_app, ?len_repeat in *. lia.
Qed.
Lemma zlens_sound cl want n : len cl <= 19 -> forall acc s all s',
  zlens n (words cl) want acc s = ZVal all s' ->
  exists w, zin s = w ++ zin s' /\ zout s' = zout s /\ runs cl (rev acc) w all /\ len all = want.
Proof.
  intros CL. induction n as [|n IH]; intros acc s all s' E; cbn [zlens] in E.
  - destruct (Z.eqb_spec (len acc) want) as [Q|Q]; [|discriminate]. injection E as <- <-. exists [].
    split; [reflexivity|]. split; [reflexivity|]. split; [constructor|now rewrite len_rev].
  - destruct (Z.leb_spec want (len acc)) as [L|L].
    { destruct (Z.eqb_spec (len acc) want) as [Q|Q]; [|discriminate]. injection E as <- <-. exists [].
      split; [reflexivity|]. split; [reflexivity|]. split; [constructor|now rewrite len_rev]. }
    unfold zbind at 1 in E. destruct (zsymbol (words cl) s) as [c s1|] eqn:E1; [|discriminate].
    apply zsymbol_taken in E1. destruct E1 as (w1 & I1 & O1 & S). pose proof (spells_range _ _ _ S) as CR.
    destruct (Z.ltb_spec c 16) as [B|B].
    { apply IH in E. destruct E as (w & I & O & R & W). exists (w1 ++ w).
      split; [rewrite I1, I, app_assoc; reflexivity|]. split; [congruence|]. split; [|exact W].
      eapply runs_one; [exact S|lia|exact R]. }
    destruct (Z.eqb_spec c 16) as [->|C].
    { destruct acc as [|p acc]; [discriminate|]. unfold zbind in E. destruct (zbits 2 s1) as [x s2|] eqn:E2; [|discriminate].
      apply zbits_taken in E2. destruct E2 as (w2 & I2 & O2 & X & ->). apply IH in E. destruct E as (w & I & O & R & W).
      exists (w1 ++ low_first 2 x ++ w). split; [rewrite I1, I2, I, <- !app_assoc; reflexivity|]. split; [congruence|]. split; [|exact W].
      rewrite rev_app_distr, rev_repeat in R. cbn [rev] in R |- *. apply runs_same; [exact S|exact X|]. rewrite <- app_assoc in R. exact R. }
    destruct (Z.eqb_spec c 17) as [->|C'].
    { unfold zbind in E. destruct (zbits 3 s1) as [x s2|] eqn:E2; [|discriminate].
      apply zbits_taken in E2. destruct E2 as (w2 & I2 & O2 & X & ->). apply IH in E. destruct E as (w & I & O & R & W).
      exists (w1 ++ low_first 3 x ++ w). split; [rewrite I1, I2, I, <- !app_assoc; reflexivity|]. split; [congruence|]. split; [|exact W].
      rewrite rev_app_distr, rev_repeat in R. apply runs_few; [exact S|exact X|exact R]. }
    assert (c = 18) as -> by lia.
    unfold zbind in E. destruct (zbits 7 s1) as [x s2|] eqn:E2; [|discriminate].
    apply zbits_taken in E2. destruct E2 as (w2 & I2 & O2 & X & ->). apply IH in E. destruct E as (w & I & O & R & W).
    exists (w1 ++ low_first 7 x ++ w). split; [rewrite I1, I2, I, <- !app_assoc; reflexivity|]. split; [congruence|]. split; [|exact W].
    rewrite rev_app_distr, rev_repeat in R. apply runs_many; [exact S|exact X|exact R].
Qed.

(** ** The code of the code lengths *)
Lemma find_at (ks : list Z) (vs : list Z) : NoDup ks -> forall i k, nth_error ks i = Some k ->
  match find (fun e => fst e =? k) (combine ks vs) with Some e => snd e | None => 0 end = nth i vs 0.
Proof.
  intros ND. revert vs. induction ND as [|k0 ks NI ND IH]; intros vs i k N; [destruct i; discriminate|].
  destruct vs as [|v vs]; [destruct i; reflexivity|]. cbn [combine find fst].
  destruct i as [|i]; cbn [nth_error nth] in N |- *.
  - injection N as ->. rewrite Z.eqb_refl. reflexivity.
  - destruct (Z.eqb_spec k0 k) as [->|D]; [|apply IH; exact N]. exfalso. apply NI. eapply nth_error_In. exact N.
Qed.
Lemma placed_nth i given : (i < 19)%nat ->
  nth i (placed given) 0 = match find (fun e => fst e =? Z.of_nat i) (combine order given) with Some e => snd e | None => 0 end.
Proof. intros I. do 19 (destruct i as [|i]; [reflexivity|]). lia. Qed.
Lemma order_nodup : NoDup order.
Proof. unfold order. repeat (constructor; [cbn; intuition discriminate|]). constructor. Qed.
Lemma placed_code given : length_code given (placed given).
Proof.
  split; [reflexivity|]. intros i I.
  assert (nth i places 0 < 19 /\ nth_error order i = Some (Z.of_nat (nth i places 0%nat)))%nat as [A B].
  { do 19 (destruct i as [|i]; [cbn; split; [lia|reflexivity]|]). lia. }
  rewrite placed_nth by exact A. apply find_at; [apply order_nodup|exact B].
Qed.
Lemma length_code_placed given cl : length_code given cl -> cl = placed given.
Proof.
  intros [L H]. destruct (placed_code given) as [L' H']. apply (nth_ext _ _ 0 0); [congruence|]. intros j J. rewrite L in J.
  assert (exists i, (i < 19)%nat /\ nth i places 0%nat = j) as (i & I & <-).
  { do 19 (destruct j as [|j]; [match goal with |- exists i, _ /\ _ = ?j =>
      first [exists 0%nat; split; [lia|reflexivity]|exists 1%nat; split; [lia|reflexivity]|exists 2%nat; split; [lia|reflexivity]
            |exists 3%nat; split; [lia|reflexivity]|exists 4%nat; split; [lia|reflexivity]|exists 5%nat; split; [lia|reflexivity]
            |exists 6%nat; split; [lia|reflexivity]|exists 7%nat; split; [lia|reflexivity]|exists 8%nat; split; [lia|reflexivity]
            |exists 9%nat; split; [lia|reflexivity]|exists 10%nat; split; [lia|reflexivity]|exists 11%nat; split; [lia|reflexivity]
            |exists 12%nat; split; [lia|reflexivity]|exists 13%nat; split; [lia|reflexivity]|exists 14%nat; split; [lia|reflexivity]
            |exists 15%nat; split; [lia|reflexivity]|exists 16%nat; split; [lia|reflexivity]|exists 17%nat; split; [lia|reflexivity]
            |exists 18%nat; split; [lia|reflexivity]] end|]). lia. }
  now rewrite H, H'.
Qed.
Lemma placed_ok given : Forall (fun x => 0 <= x < 8) given -> lens_ok (placed given).
Proof.
  intros G. apply Forall_forall. intros x X. apply in_map_iff in X. destruct X as (i & <- & _).
  destruct (find _ _) as [[k v]|] eqn:F; [|lia]. apply find_some in F. destruct F as [F _].
  apply in_combine_r in F. rewrite Forall_forall in G. specialize (G _ F). cbn. lia.
Qed.

(** ** Alignment *)
Lemma zalign_complete p pad r o : padding p pad -> (p + len pad + len r) mod 8 = 0 ->
  zalign (Zst (pad ++ r) o) = ZVal tt (Zst r o).
Proof.
  intros [L P] R. unfold zalign. cbn [zin zout]. rewrite len_app. pose proof (len_nonneg pad).
  replace ((len pad + len r) mod 8) with (len pad).
  - unfold len at 1. rewrite Nat2Z.id, skipn_app, skipn_all, Nat.sub_diag. reflexivity.
  - assert (len r mod 8 = 0) as R0.
    { replace (len r) with ((p + len pad + len r) - (p + len pad)) by lia. rewrite Zminus_mod, R, P. reflexivity. }
    rewrite Z.add_mod, R0, Z.add_0_r, Z.mod_mod, Z.mod_small by lia. reflexivity.
Qed.
Lemma zalign_sound p s u s' : zalign s = ZVal u s' -> (p + len (zin s)) mod 8 = 0 ->
  exists pad, zin s = pad ++ zin s' /\ zout s' = zout s /\ padding p pad /\ len (zin s') mod 8 = 0.
Proof.
  unfold zalign. intros E P. injection E as _ <-. cbn [zin zout].
  pose proof (Z.mod_pos_bound (len (zin s)) 8 ltac:(lia)) as B. pose proof (len_nonneg (zin s)) as N.
  pose proof (Z.mod_le (len (zin s)) 8 N ltac:(lia)) as LE.
  set (k := Z.to_nat (len (zin s) mod 8)). exists (firstn k (zin s)).
  assert (len (firstn k (zin s)) = len (zin s) mod 8) as L.
  { unfold len at 1. rewrite firstn_length. unfold k. unfold len in *. lia. }
  assert (len (skipn k (zin s)) mod 8 = 0) as Q.
  { assert (len (skipn k (zin s)) = len (zin s) - len (zin s) mod 8) as ->.
    { unfold len at 1. rewrite skipn_length. unfold k. unfold len in *. lia. }
    rewrite Zminus_mod, Z.mod_mod, Z.sub_diag by lia. reflexivity. }
  split; [symmetry; apply firstn_skipn|]. split; [reflexivity|]. split; [|exact Q]. split; [lia|].
  rewrite L, Z.add_mod, Z.mod_mod, <- Z.add_mod by lia. exact P.
Qed.

(** ** Stored bytes *)
Lemma byte_low b : 0 <= b2z b < 2 ^ Z.of_nat 8.
Proof. pose proof (b2z_range b). cbn. lia. Qed.
Lemma zstored_complete x : forall r d,
  zstored (List.length x) (Zst (stream_bits x ++ r) (rev d)) = ZVal tt (Zst r (rev (d ++ x))).
Proof.
  induction x as [|b x IH]; intros r d; [now rewrite app_nil_r|]. cbn [List.length zstored stream_bits flat_map].
  unfold zbind at 1. rewrite <- app_assoc, (zbits_taking 8 _ (b2z b)) by (split; [apply byte_low|reflexivity]).
  unfold zbind, zput. cbn [zin zout]. rewrite z2b_b2z. specialize (IH r (d ++ [b])). rewrite rev_app_distr in IH.
  cbn [rev app] in IH. rewrite <- app_assoc in IH. exact IH.
Qed.
Lemma byte_of v : 0 <= v < 2 ^ Z.of_nat 8 -> low_first 8 (b2z (z2b v)) = low_first 8 v.
Proof. intros V. rewrite b2z_z2b, Z.mod_small by (change (2 ^ Z.of_nat 8) with 256 in V; lia). reflexivity. Qed.
Lemma zstored_sound n : written_by (zstored n) (fun w d e => exists x, List.length x = n /\ w = stream_bits x /\ e = d ++ x).
Proof.
  induction n as [|n IH]; intros s u s' E; cbn [zstored] in E.
  - injection E as _ <-. exists []. split; [reflexivity|]. exists []. rewrite app_nil_r. auto.
  - unfold zbind at 1 in E. destruct (zbits 8 s) as [v s1|] eqn:E1; [|discriminate].
    apply zbits_taken in E1. destruct E1 as (w1 & I1 & O1 & V & ->). unfold zbind, zput in E. apply IH in E.
    cbn [zin zout rev] in E. destruct E as (w & I & x & L & -> & R). exists (low_first 8 v ++ stream_bits x).
    split; [rewrite I1, I, app_assoc; reflexivity|]. exists (z2b v :: x). cbn [List.length stream_bits flat_map].
    rewrite byte_of by exact V. split; [now rewrite L|]. split; [reflexivity|]. rewrite R, O1, <- app_assoc. reflexivity.
Qed.
Lemma stream_bits_length l : List.length (stream_bits l) = (8 * List.length l)%nat.
Proof.
  induction l as [|b l IH]; [reflexivity|]. cbn [stream_bits flat_map]. rewrite app_length, low_first_length.
  fold (stream_bits l). rewrite IH. cbn [List.length]. lia.
Qed.
Lemma stream_bits_len l : len (stream_bits l) = 8 * len l.
Proof. unfold len. rewrite stream_bits_length. lia. Qed.
Lemma low_first_len n v : len (low_first n v) = Z.of_nat n.
Proof. unfold len. now rewrite low_first_length. Qed.

(** ** Blocks *)
Lemma zplain_complete p pad x d r : padding p pad -> len x <= 65535 ->
  (p + len pad + 32 + 8 * len x + len r) mod 8 = 0 ->
  zplain (Zst (pad ++ low_first 16 (len x) ++ low_first 16 (65535 - len x) ++ stream_bits x ++ r) (rev d))
  = ZVal tt (Zst r (rev (d ++ x))).
Proof.
  intros P L R. pose proof (len_nonneg x). unfold zplain. unfold zbind at 1.
  rewrite (zalign_complete p) by (try exact P; rewrite !len_app, !low_first_len, stream_bits_len; rewrite <- R; f_equal; lia).
  unfold zbind at 1. rewrite (zbits_taking 16 _ (len x)) by (split; [change (2 ^ Z.of_nat 16) with 65536; lia|reflexivity]).
  unfold zbind at 1. rewrite (zbits_taking 16 _ (65535 - len x)) by (split; [change (2 ^ Z.of_nat 16) with 65536; lia|reflexivity]).
  replace (len x + (65535 - len x) =? 65535) with true by lia. unfold len at 1. rewrite Nat2Z.id. apply zstored_complete.
Qed.
Lemma zplain_sound p s u s' : zplain s = ZVal u s' -> (p + len (zin s)) mod 8 = 0 ->
  exists pad x, padding p pad /\ len x <= 65535
  /\ zin s = (pad ++ low_first 16 (len x) ++ low_first 16 (65535 - len x) ++ stream_bits x) ++ zin s'
  /\ rev (zout s') = rev (zout s) ++ x.
Proof.
  unfold zplain. intros E P. unfold zbind at 1 in E. destruct (zalign s) as [v s1|] eqn:E1; [|discriminate].
  apply (zalign_sound p) in E1; [|exact P]. destruct E1 as (pad & I1 & O1 & PD & _).
  unfold zbind at 1 in E. destruct (zbits 16 s1) as [l s2|] eqn:E2; [|discriminate].
  apply zbits_taken in E2. destruct E2 as (w2 & I2 & O2 & L & ->).
  unfold zbind at 1 in E. destruct (zbits 16 s2) as [c s3|] eqn:E3; [|discriminate].
  apply zbits_taken in E3. destruct E3 as (w3 & I3 & O3 & C & ->).
  destruct (Z.eqb_spec (l + c) 65535) as [Q|Q]; [|discriminate]. apply zstored_sound in E.
  destruct E as (w & I & x & LX & -> & R). exists pad, x. assert (len x = l) as <- by (unfold len; lia).
  change (2 ^ Z.of_nat 16) with 65536 in *. replace (65535 - len x) with c by lia.
  split; [exact PD|]. split; [lia|]. split; [rewrite I1, I2, I3, I, <- !app_assoc; reflexivity|]. rewrite R, O3, O2, O1. reflexivity.
Qed.
Lemma fixed_same : fixed_lens = fixed_code /\ fixed_dists = fixed_distances.
Proof. split; reflexivity. Qed.
Lemma fixed_taken : taken fixed_code <= 2 ^ 15 /\ taken fixed_distances <= 2 ^ 15.
Proof. split; vm_compute; discriminate. Qed.
Lemma given_taking n : taking (zrep n (zbits 3))
  (fun w l => List.length l = n /\ Forall (fun x => 0 <= x < 8) l /\ w = flat_map (low_first 3) l).
Proof. exact (zrep_taking _ _ n _ (zbits_taking 3)). Qed.
Lemma given_taken n : taken_by (zrep n (zbits 3))
  (fun w l => List.length l = n /\ Forall (fun x => 0 <= x < 8) l /\ w = flat_map (low_first 3) l).
Proof. exact (zrep_taken _ _ n _ (zbits_taken 3)). Qed.
Lemma zdynamic_complete n hc given cl w ll dl bits l d e r :
  0 <= hc < 16 -> len given = hc + 4 -> Forall (fun x => 0 <= x < 8) given -> length_code given cl -> full cl ->
  runs cl [] w (ll ++ dl) -> 257 <= len ll <= 286 -> 1 <= len dl <= 30 ->
  nth 256 ll 0 <> 0 -> usable ll -> usable dl -> items ll dl bits l -> does d l e -> (List.length bits < n)%nat ->
  zdynamic n (Zst (low_first 5 (len ll - 257) ++ low_first 5 (len dl - 1) ++ low_first 4 hc
                   ++ flat_map (low_first 3) given ++ w ++ bits ++ r) (rev d)) = ZVal tt (Zst r (rev e)).
Proof.
  intros HC LG G LC FU RU LL DL N256 UL UD IT DO N. unfold zdynamic.
  unfold zbind at 1. rewrite (zbits_taking 5 _ (len ll - 257)) by (split; [change (2 ^ Z.of_nat 5) with 32; lia|reflexivity]).
  unfold zbind at 1. rewrite (zbits_taking 5 _ (len dl - 1)) by (split; [change (2 ^ Z.of_nat 5) with 32; lia|reflexivity]).
  unfold zbind at 1. rewrite (zbits_taking 4 _ hc) by (split; [change (2 ^ Z.of_nat 4) with 16; lia|reflexivity]).
  replace (286 <? len ll - 257 + 257) with false by lia. replace (30 <? len dl - 1 + 1) with false by lia. cbn [orb].
  unfold zbind at 1. rewrite (given_taking _ _ given) by (split; [unfold len in LG; lia|auto]).
  pose proof (placed_ok given G) as PO. apply length_code_placed in LC. subst cl.
  assert (code_full (placed given) = true) as -> by (apply code_full_spec; assumption). cbn [negb].
  assert (lens_ok (ll ++ dl)) as OK by (eapply runs_ok; [exact RU|constructor]). apply Forall_app in OK. destruct OK as [OL OD].
  replace (len ll - 257 + 257 + (len dl - 1 + 1)) with (len (ll ++ dl)) by (rewrite len_app; lia).
  unfold zbind at 1. change (@nil Z) with (rev (@nil Z)).
  rewrite (zlens_complete (placed given) [] w (ll ++ dl) (len (ll ++ dl)));
    [|apply full_taken; exact FU|change (19 <= 19); lia|exact RU|reflexivity|change (len (@nil Z)) with 0; lia].
  cbv zeta. replace (Z.to_nat (len ll - 257 + 257)) with (List.length ll) by (unfold len; lia).
  rewrite firstn_app, firstn_all, Nat.sub_diag, firstn_O, app_nil_r.
  rewrite skipn_app, skipn_all, Nat.sub_diag. cbn [skipn app].
  replace (nth 256 ll 0 =? 0) with false by lia.
  assert (code_ok ll = true) as -> by (apply code_ok_spec; assumption).
  assert (code_ok dl = true) as -> by (apply code_ok_spec; assumption). cbn [negb orb].
  eapply zcodes_complete; eauto using usable_taken.
Qed.
Lemma zdynamic_sound n s u s' : zdynamic n s = ZVal u s' ->
  exists hc given cl w ll dl bits l,
  0 <= hc < 16 /\ len given = hc + 4 /\ Forall (fun x => 0 <= x < 8) given /\ length_code given cl /\ full cl /\
  runs cl [] w (ll ++ dl) /\ 257 <= len ll <= 286 /\ 1 <= len dl <= 30 /\
  nth 256 ll 0 <> 0 /\ usable ll /\ usable dl /\ items ll dl bits l /\ does (rev (zout s)) l (rev (zout s')) /\
  zin s = (low_first 5 (len ll - 257) ++ low_first 5 (len dl - 1) ++ low_first 4 hc
                   ++ flat_map (low_first 3) given ++ w ++ bits) ++ zin s'.
Proof.
  intros E. unfold zdynamic in E.
  unfold zbind at 1 in E. destruct (zbits 5 s) as [hl s1|] eqn:E1; [|discriminate].
  apply zbits_taken in E1. destruct E1 as (w1 & I1 & O1 & HL & ->).
  unfold zbind at 1 in E. destruct (zbits 5 s1) as [hd s2|] eqn:E2; [|discriminate].
  apply zbits_taken in E2. destruct E2 as (w2 & I2 & O2 & HD & ->).
  unfold zbind at 1 in E. destruct (zbits 4 s2) as [hc s3|] eqn:E3; [|discriminate].
  apply zbits_taken in E3. destruct E3 as (w3 & I3 & O3 & HC & ->).
  destruct (Z.ltb_spec 286 (hl + 257)) as [B1|B1]; [discriminate|].
  destruct (Z.ltb_spec 30 (hd + 1)) as [B2|B2]; [discriminate|]. cbn [orb] in E.
  unfold zbind at 1 in E. destruct (zrep _ (zbits 3) s3) as [given s4|] eqn:E4; [|discriminate].
  apply given_taken in E4. destruct E4 as (w4 & I4 & O4 & LG & G & ->).
  destruct (code_full (placed given)) eqn:CF; [|discriminate]. cbn [negb] in E.
  apply code_full_spec in CF; [|now apply placed_ok].
  unfold zbind at 1 in E.
  match type of E with match ?m with _ => _ end = _ => destruct m as [all s5|] eqn:E5; [|discriminate] end.
  apply zlens_sound in E5; [|change (19 <= 19); lia]. destruct E5 as (w5 & I5 & O5 & RU & LA). cbn [rev] in RU.
  cbv zeta in E. set (k := Z.to_nat (hl + 257)) in E.
  change (2 ^ Z.of_nat 5) with 32 in *. change (2 ^ Z.of_nat 4) with 16 in *.
  assert (len (firstn k all) = hl + 257) as L1 by (unfold len in *; rewrite firstn_length; unfold k; lia).
  assert (len (skipn k all) = hd + 1) as L2 by (unfold len in *; rewrite skipn_length; unfold k; lia).
  assert (lens_ok all) as OK by (eapply runs_ok; [exact RU|constructor]).
  rewrite <- (firstn_skipn k all) in OK, RU. pose proof (proj1 (Forall_app _ _ _) OK) as [OL OD].
  remember (firstn k all) as ll. remember (skipn k all) as dl.
  destruct (Z.eqb_spec (nth 256 ll 0) 0) as [Z0|Z0]; [discriminate|].
  destruct (code_ok ll) eqn:C1; [|discriminate]. destruct (code_ok dl) eqn:C2; [|discriminate]. cbn [negb orb] in E.
  apply code_ok_spec in C1; [|exact OL]. apply code_ok_spec in C2; [|exact OD].
  apply zcodes_sound in E. destruct E as (bits & I & l & IT & DO).
  exists hc, given, (placed given), w5, ll, dl, bits, l.
  split; [lia|]. split; [unfold len; lia|]. split; [exact G|]. split; [apply placed_code|]. split; [exact CF|].
  split; [exact RU|]. split; [lia|]. split; [lia|]. split; [exact Z0|]. split; [exact C1|]. split; [exact C2|].
  split; [exact IT|]. split; [rewrite <- O1, <- O2, <- O3, <- O4, <- O5; exact DO|].
  replace (len ll - 257) with hl by lia. replace (len dl - 1) with hd by lia.
  rewrite I1, I2, I3, I4, I5, I, <- !app_assoc. reflexivity.
Qed.

Lemma kind_taking a b : low_first 2 (Z.b2z a + 2 * Z.b2z b) = [a; b].
Proof. destruct a, b; reflexivity. Qed.
Lemma zblock_complete n p final d bits e r : block p final d bits e -> (p + len bits + len r) mod 8 = 0 ->
  (List.length bits < n)%nat -> zblock n (Zst (bits ++ r) (rev d)) = ZVal final (Zst r (rev e)).
Proof.
  intros B P N.
  assert (forall a b m rest t, (if Z.b2z a + 2 * Z.b2z b =? 0 then zplain
         else if Z.b2z a + 2 * Z.b2z b =? 1 then zcodes n (words fixed_lens) (words fixed_dists)
         else if Z.b2z a + 2 * Z.b2z b =? 2 then zdynamic n
         else zstop ZBad) = m -> m (Zst (rest ++ r) (rev d)) = ZVal tt t ->
     zblock n (Zst (([final; a; b] ++ rest) ++ r) (rev d)) = ZVal final t) as HEAD.
  { intros a b m rest t M H. unfold zblock. unfold zbind at 1. cbn [app zbit zin zout].
    unfold zbind at 1. change (a :: b :: rest ++ r) with ([a; b] ++ rest ++ r).
    rewrite (zbits_taking 2 _ (Z.b2z a + 2 * Z.b2z b)) by (split; [destruct a, b; cbn; lia|now rewrite kind_taking]).
    rewrite M. unfold zbind. now rewrite H. }
  destruct B as [pad x PD L|bits l e IT DO|hc given cl w ll dl bits l e HC LG G LC FU RU LL DL N256 UL UD IT DO].
  - eapply HEAD; [reflexivity|]. rewrite <- !app_assoc. apply (zplain_complete (p + 3)); [exact PD|exact L|].
    rewrite <- P, !len_app, !low_first_len, stream_bits_len. change (len [final; false; false]) with 3. f_equal. lia.
  - eapply HEAD; [reflexivity|]. destruct fixed_same as [-> ->]. destruct fixed_taken as [T1 T2].
    eapply zcodes_complete; eauto. rewrite app_length in N. lia.
  - eapply HEAD; [reflexivity|]. rewrite <- !app_assoc. rewrite !app_length in N.
    eapply zdynamic_complete; eauto. lia.
Qed.
Lemma zblock_sound n p s final s' : zblock n s = ZVal final s' -> (p + len (zin s)) mod 8 = 0 ->
  exists bits, zin s = bits ++ zin s' /\ block p final (rev (zout s)) bits (rev (zout s')).
Proof.
  intros E P. unfold zblock in E. unfold zbind at 1 in E. destruct (zbit s) as [f s1|] eqn:E1; [|discriminate].
  apply zbit_taken in E1. destruct E1 as (w1 & I1 & O1 & ->).
  unfold zbind at 1 in E. destruct (zbits 2 s1) as [k s2|] eqn:E2; [|discriminate].
  apply zbits_taken in E2. destruct E2 as (w2 & I2 & O2 & K & ->). change (2 ^ Z.of_nat 2) with 4 in K.
  unfold zbind in E.
  match type of E with match ?m with _ => _ end = _ => destruct m as [u s3|] eqn:E3; [|discriminate] end.
  injection E as -> ->.
  assert (zin s = [final] ++ low_first 2 k ++ zin s2) as I by (rewrite I1, I2; reflexivity).
  assert (zout s2 = zout s) as O by congruence. clear I1 I2 O1 O2.
  destruct (Z.eqb_spec k 0) as [->|K0].
  { apply (zplain_sound (p + 3)) in E3.
    - destruct E3 as (pad & x & PD & L & I3 & R). exists ([final; false; false] ++ pad ++ low_first 16 (len x) ++ low_first 16 (65535 - len x) ++ stream_bits x).
      split; [rewrite I, I3, <- !app_assoc; reflexivity|]. rewrite R, O. now constructor.
    - rewrite <- P, I, !len_app, low_first_len. change (len [final]) with 1. f_equal. lia. }
  destruct (Z.eqb_spec k 1) as [->|K1].
  { destruct fixed_same as [F1 F2]. rewrite F1, F2 in E3. apply zcodes_sound in E3. destruct E3 as (bits & I3 & l & IT & DO).
    exists ([final; true; false] ++ bits). split; [rewrite I, I3, <- !app_assoc; reflexivity|]. rewrite O in DO. econstructor; eassumption. }
  destruct (Z.eqb_spec k 2) as [->|K2]; [|discriminate].
  apply zdynamic_sound in E3.
  destruct E3 as (hc & given & cl & w & ll & dl & bits & l & HC & LG & G & LC & FU & RU & LL & DL & N256 & UL & UD & IT & DO & I3).
  rewrite O in DO.
  exists ([final; false; true] ++ low_first 5 (len ll - 257) ++ low_first 5 (len dl - 1) ++ low_first 4 hc
                     ++ flat_map (low_first 3) given ++ w ++ bits).
  split; [rewrite I, I3, <- !app_assoc; reflexivity|]. eapply block_own; eassumption.
Qed.
Lemma block_nonempty p final d bits e : block p final d bits e -> (0 < List.length bits)%nat.
Proof. destruct 1; rewrite app_length; cbn [List.length]; lia. Qed.
Lemma zblocks_complete p d bits e : blocks p d bits e -> forall k n r, (p + len bits + len r) mod 8 = 0 ->
  (List.length bits < k)%nat -> (List.length bits < n)%nat -> zblocks k n (Zst (bits ++ r) (rev d)) = ZVal tt (Zst r (rev e)).
Proof.
  induction 1 as [p d bits e B|p d bits e r0 f B _ IH]; intros k n r P K N; (destruct k as [|k]; [lia|]);
    cbn [zblocks]; unfold zbind.
  - now rewrite (zblock_complete n p true d bits e r B P N).
  - rewrite app_length in K, N. rewrite len_app in P. pose proof (block_nonempty _ _ _ _ _ B). rewrite <- app_assoc.
    rewrite (zblock_complete n p false d bits e (r0 ++ r) B); [|rewrite <- P, len_app; f_equal; lia|lia].
    apply IH; [rewrite <- P; f_equal; lia|lia|lia].
Qed.
Lemma zblocks_sound n k : forall p s u s', zblocks k n s = ZVal u s' -> (p + len (zin s)) mod 8 = 0 ->
  exists bits, zin s = bits ++ zin s' /\ blocks p (rev (zout s)) bits (rev (zout s')).
Proof.
  induction k as [|k IH]; intros p s u s' E P; cbn [zblocks] in E; [discriminate|]. unfold zbind in E.
  destruct (zblock n s) as [f s1|] eqn:E1; [|discriminate]. apply (zblock_sound n p) in E1; [|exact P].
  destruct E1 as (bits & I & B). destruct f.
  - injection E as _ <-. exists bits. split; [exact I|]. now constructor.
  - apply (IH (p + len bits)) in E; [|rewrite <- P, I, len_app; f_equal; lia]. destruct E as (r & I' & BS).
    exists (bits ++ r). split; [rewrite I, I', app_assoc; reflexivity|]. econstructor; eassumption.
Qed.

(** ** The stream *)
Lemma adler_fold l : forall A B, fold_left (fun '(a, b) x => let a' := (a + b2z x) mod 65521 in (a', (b + a') mod 65521)) l (A mod 65521, B mod 65521)
  = ((A + sum (map b2z l)) mod 65521, (B + sums A (map b2z l)) mod 65521).
Proof.
  induction l as [|x l IH]; intros A B; cbn [fold_left map sum sums]; [now rewrite !Z.add_0_r|]. cbv zeta.
  rewrite Z.add_mod_idemp_l by lia. rewrite <- Z.add_mod by lia. rewrite IH. f_equal; f_equal; lia.
Qed.
Lemma adler_sums d : adler d = 65536 * (sums 1 (map b2z d) mod 65521) + (1 + sum (map b2z d)) mod 65521.
Proof.
  unfold adler. change (1, 0) with (1 mod 65521, 0 mod 65521). rewrite adler_fold. now rewrite Z.add_0_l.
Qed.
Definition four (a b c d : Z) : Z := ((a * 256 + b) * 256 + c) * 256 + d.
Lemma four_inj a b c d a' b' c' d' : 0 <= b < 256 -> 0 <= c < 256 -> 0 <= d < 256 -> 0 <= b' < 256 -> 0 <= c' < 256 -> 0 <= d' < 256 ->
  four a b c d = four a' b' c' d' -> a = a' /\ b = b' /\ c = c' /\ d = d'.
Proof. unfold four. lia. Qed.
Lemma checksum_four d : exists a b c e, 0 <= a < 256 /\ 0 <= b < 256 /\ 0 <= c < 256 /\ 0 <= e < 256
  /\ checksum d = map z2b [a; b; c; e] /\ adler d = four a b c e.
Proof.
  unfold checksum. cbv zeta. rewrite adler_sums. set (A := (1 + _) mod _). set (B := sums _ _ mod _).
  assert (0 <= A < 65521) by (apply Z.mod_pos_bound; lia). assert (0 <= B < 65521) by (apply Z.mod_pos_bound; lia).
  exists (B / 256), (B mod 256), (A / 256), (A mod 256).
  pose proof (Z.div_mod A 256 ltac:(lia)). pose proof (Z.div_mod B 256 ltac:(lia)).
  pose proof (Z.mod_pos_bound A 256 ltac:(lia)). pose proof (Z.mod_pos_bound B 256 ltac:(lia)).
  unfold four. repeat match goal with |- _ /\ _ => split end; try reflexivity; lia.
Qed.
Lemma stream_bits_app a b : stream_bits (a ++ b) = stream_bits a ++ stream_bits b.
Proof. unfold stream_bits. apply flat_map_app. Qed.
Lemma low8_inj u v : 0 <= u < 256 -> 0 <= v < 256 -> low_first 8 u = low_first 8 v -> u = v.
Proof.
  intros U V E. pose proof (zbits_taking 8 (low_first 8 u) u [] [] (conj U eq_refl)) as H1.
  rewrite E, (zbits_taking 8 (low_first 8 v) v [] [] (conj V eq_refl)) in H1. congruence.
Qed.
Lemma stream_split l : forall u v, stream_bits l = u ++ v -> len u mod 8 = 0 ->
  exists a b, l = a ++ b /\ stream_bits a = u /\ stream_bits b = v.
Proof.
  intros u v E M. exists (firstn (Z.to_nat (len u / 8)) l), (skipn (Z.to_nat (len u / 8)) l).
  pose proof (Z.div_mod (len u) 8 ltac:(lia)) as D. pose proof (len_nonneg u).
  assert (len u <= 8 * len l) by (rewrite <- stream_bits_len, E, len_app; pose proof (len_nonneg v); lia).
  assert (0 <= len u / 8) by (apply Z.div_pos; lia).
  set (k := Z.to_nat (len u / 8)) in *.
  assert (List.length (stream_bits (firstn k l)) = List.length u) as L.
  { rewrite stream_bits_length, firstn_length. unfold len in *. lia. }
  split; [symmetry; apply firstn_skipn|].
  rewrite <- (firstn_skipn k l) in E. rewrite stream_bits_app in E.
  assert (firstn (List.length u) (stream_bits (firstn k l) ++ stream_bits (skipn k l)) = u) as F1.
  { rewrite E, firstn_app, firstn_all, Nat.sub_diag, firstn_O, app_nil_r. reflexivity. }
  rewrite <- L, firstn_app, firstn_all, Nat.sub_diag, firstn_O, app_nil_r in F1.
  split; [exact F1|]. rewrite F1 in E. now apply app_inv_head in E.
Qed.
Lemma stream_byte l v r : 0 <= v < 256 -> stream_bits l = low_first 8 v ++ r ->
  exists t, l = z2b v :: t /\ stream_bits t = r.
Proof.
  intros V E. destruct l as [|b l]; [discriminate|]. exists l. change (stream_bits (b :: l)) with (low_first 8 (b2z b) ++ stream_bits l) in E.
  pose proof (b2z_range b).
  assert (firstn 8 (low_first 8 (b2z b) ++ stream_bits l) = firstn 8 (low_first 8 v ++ r)) as F by now rewrite E.
  change (low_first 8 (b2z b) = low_first 8 v) in F. rewrite F in E. apply app_inv_head in E.
  apply low8_inj in F; [|lia|exact V]. rewrite <- F, z2b_b2z. auto.
Qed.

Definition tail_check : zm unit :=
  a <& zbits 8 ;; b <& zbits 8 ;; c <& zbits 8 ;; d <& zbits 8 ;;
  fun s => if ((a * 256 + b) * 256 + c) * 256 + d =? adler (rev (zout s)) then ZVal tt s else ZStop ZBad (zout s).
Lemma tail_complete d r : tail_check (Zst (stream_bits (checksum d) ++ r) (rev d)) = ZVal tt (Zst r (rev d)).
Proof.
  destruct (checksum_four d) as (a & b & c & e & A & B & C & E & -> & AD). cbn [map].
  change (stream_bits [z2b a; z2b b; z2b c; z2b e]) with
    (low_first 8 (b2z (z2b a)) ++ low_first 8 (b2z (z2b b)) ++ low_first 8 (b2z (z2b c)) ++ low_first 8 (b2z (z2b e)) ++ []).
  rewrite app_nil_r, !byte_of by assumption. rewrite <- !app_assoc. unfold tail_check.
  unfold zbind at 1. rewrite (zbits_taking 8 _ a) by (split; [assumption|reflexivity]).
  unfold zbind at 1. rewrite (zbits_taking 8 _ b) by (split; [assumption|reflexivity]).
  unfold zbind at 1. rewrite (zbits_taking 8 _ c) by (split; [assumption|reflexivity]).
  unfold zbind at 1. rewrite (zbits_taking 8 _ e) by (split; [assumption|reflexivity]).
  cbn [zout]. rewrite rev_involutive, AD. unfold four. now rewrite Z.eqb_refl.
Qed.
Lemma tail_sound s u s' l : tail_check s = ZVal u s' -> zin s = stream_bits l ->
  exists t, l = checksum (rev (zout s)) ++ t /\ stream_bits t = zin s' /\ zout s' = zout s.
Proof.
  intros E L. unfold tail_check in E.
  unfold zbind at 1 in E. destruct (zbits 8 s) as [a s1|] eqn:E1; [|discriminate].
  apply zbits_taken in E1. destruct E1 as (w1 & I1 & O1 & A & ->).
  unfold zbind at 1 in E. destruct (zbits 8 s1) as [b s2|] eqn:E2; [|discriminate].
  apply zbits_taken in E2. destruct E2 as (w2 & I2 & O2 & B & ->).
  unfold zbind at 1 in E. destruct (zbits 8 s2) as [c s3|] eqn:E3; [|discriminate].
  apply zbits_taken in E3. destruct E3 as (w3 & I3 & O3 & C & ->).
  unfold zbind at 1 in E. destruct (zbits 8 s3) as [d s4|] eqn:E4; [|discriminate].
  apply zbits_taken in E4. destruct E4 as (w4 & I4 & O4 & D & ->).
  change (2 ^ Z.of_nat 8) with 256 in *.
  match type of E with (if ?x =? ?y then _ else _) = _ => destruct (Z.eqb_spec x y) as [Q|Q]; [|discriminate] end.
  injection E as _ <-. assert (zout s4 = zout s) as O by congruence. rewrite O in Q.
  destruct (checksum_four (rev (zout s))) as (a' & b' & c' & d' & A' & B' & C' & D' & CK & AD). rewrite AD in Q.
  apply (four_inj a b c d) in Q; try assumption. destruct Q as (-> & -> & -> & ->). rewrite CK.
  rewrite L in I1. apply stream_byte in I1; [|exact A]. destruct I1 as (l1 & -> & I1).
  rewrite I2 in I1. apply stream_byte in I1; [|exact B]. destruct I1 as (l2 & -> & I1').
  rewrite I3 in I1'. apply stream_byte in I1'; [|exact C]. destruct I1' as (l3 & -> & I2').
  rewrite I4 in I2'. apply stream_byte in I2'; [|exact D]. destruct I2' as (l4 & -> & I3').
  exists l4. auto.
Qed.
Lemma header_window cmf flg : 0 <= cmf < 256 -> 0 <= flg < 256 ->
  header_ok cmf flg = true <->
  (exists window, cmf = 8 + 16 * window /\ 0 <= window <= 7) /\ (256 * cmf + flg) mod 31 = 0 /\ Z.testbit flg 5 = false.
Proof.
  intros C F. unfold header_ok. rewrite Z.testbit_eqb by lia. change (2 ^ 5) with 32.
  pose proof (Z.div_mod cmf 16 ltac:(lia)) as D. pose proof (Z.mod_pos_bound cmf 16 ltac:(lia)) as M.
  pose proof (Z.mod_pos_bound (flg / 32) 2 ltac:(lia)) as M2. rewrite !andb_true_iff. split.
  - intros [[[H1 H2] H3] H4]. split; [exists (cmf / 16); lia|]. split; lia.
  - intros ((w & -> & W) & H3 & H4).
    assert ((8 + 16 * w) / 16 = w) by (rewrite Z.mul_comm, Z.div_add by lia; change (8 / 16) with 0; lia).
    repeat split; lia.
Qed.
Lemma zstream_complete x d t : stream x d -> forall n, (List.length (stream_bits x) <= n)%nat ->
  zstream n (Zst (stream_bits (x ++ t)) []) = ZVal tt (Zst (stream_bits t) (rev d)).
Proof.
  intros (cmf & flg & mid & body & pad & window & -> & CW & W & M & T & SB & PL & BS) n N0.
  pose proof (b2z_range cmf) as RC. pose proof (b2z_range flg) as RF.
  assert (header_ok (b2z cmf) (b2z flg) = true) as HO by (apply header_window; eauto).
  assert (forall t, stream_bits ((cmf :: flg :: mid ++ checksum d) ++ t)
          = low_first 8 (b2z cmf) ++ low_first 8 (b2z flg) ++ body ++ pad ++ stream_bits (checksum d) ++ stream_bits t) as SE.
  { intros t0. replace ((cmf :: flg :: mid ++ checksum d) ++ t0) with ([cmf] ++ [flg] ++ mid ++ checksum d ++ t0) by (cbn [app]; now rewrite <- app_assoc).
    rewrite !stream_bits_app, SB, <- !app_assoc. unfold stream_bits at 1 2. cbn [flat_map]. now rewrite !app_nil_r. }
  assert (List.length body < n)%nat as N.
  { rewrite <- (app_nil_r (cmf :: _)), SE, !app_length, !low_first_length in N0. lia. }
  rewrite SE. unfold zstream. unfold zbind at 1. rewrite (zbits_taking 8 _ (b2z cmf)) by (split; [apply byte_low|reflexivity]).
  unfold zbind at 1. rewrite (zbits_taking 8 _ (b2z flg)) by (split; [apply byte_low|reflexivity]). rewrite HO. cbn [negb].
  unfold zbind at 1. change (@nil byte) with (rev (@nil byte)).
  assert (len body + len pad = 8 * len mid) as LM by (rewrite <- stream_bits_len, SB, len_app; lia).
  assert ((16 + (len body + len pad)) mod 8 = 0) as P0.
  { rewrite LM. replace (16 + 8 * len mid) with ((2 + len mid) * 8) by lia. apply Z_mod_mult. }
  rewrite (zblocks_complete 16 [] body d BS n n); [|rewrite !len_app, !stream_bits_len|exact N|exact N].
  2:{ replace (16 + len body + (len pad + (8 * len (checksum d) + 8 * len t)))
        with ((16 + (len body + len pad)) + (len (checksum d) + len t) * 8) by lia. rewrite Z_mod_plus_full. exact P0. }
  unfold zbind at 1. rewrite (zalign_complete (16 + len body)).
  - apply tail_complete.
  - split; [exact PL|]. rewrite <- P0. f_equal. lia.
  - rewrite len_app, !stream_bits_len. replace (16 + len body + len pad + (8 * len (checksum d) + 8 * len t))
        with ((16 + (len body + len pad)) + (len (checksum d) + len t) * 8) by lia. rewrite Z_mod_plus_full. exact P0.
Qed.
Lemma rfc_complete x d t : stream x d -> rfc_inflate (x ++ t) = (d, ZDone).
Proof.
  intros S. unfold rfc_inflate, fuel_for. rewrite bits_same.
  rewrite (zstream_complete x d t S) by (rewrite stream_bits_app, app_length; lia). cbn [zout]. now rewrite rev_involutive.
Qed.
(** A stream says where it ends, and stands for one thing. *)
Lemma stream_one x d t x' d' t' : stream x d -> stream x' d' -> x ++ t = x' ++ t' -> x = x' /\ t = t' /\ d = d'.
Proof.
  intros S S' E. set (n := (List.length (stream_bits x) + List.length (stream_bits x'))%nat).
  pose proof (zstream_complete x d t S n ltac:(lia)) as H. rewrite E, (zstream_complete x' d' t' S' n ltac:(lia)) in H.
  injection H as SB R. apply (f_equal (@rev byte)) in R. rewrite !rev_involutive in R.
  apply (f_equal (@List.length bool)) in SB. rewrite !stream_bits_length in SB.
  assert (List.length t = List.length t') as LT by lia.
  assert (List.length x = List.length x') as LX by (apply (f_equal (@List.length byte)) in E; rewrite !app_length in E; lia).
  apply app_eq_app in E. destruct E as (m & [[-> ->]|[-> ->]]); rewrite app_length in LX;
    (destruct m; [|cbn in LX; lia]); rewrite ?app_nil_r; auto.
Qed.

(** ** More input

    What has been delivered stays; a result, or an error in the data, does not change when
    more bytes follow and the loops get more fuel. *)
Definition out {A} (r : zres A) : list byte := match r with ZVal _ s => zout s | ZStop _ d => d end.
Definition grows {A} (m : zm A) : Prop := forall s, exists c, out (m s) = c ++ zout s.
Definition more {A} (m m' : zm A) : Prop := grows m' /\ forall i o t, len t mod 8 = 0 ->
  match m (Zst i o) with
  | ZVal a s => m' (Zst (i ++ t) o) = ZVal a (Zst (zin s ++ t) (zout s))
  | ZStop ZDone _ => False
  | ZStop ZBad d => m' (Zst (i ++ t) o) = ZStop ZBad d
  | ZStop ZShort d => exists c, out (m' (Zst (i ++ t) o)) = c ++ d
  end.
Lemma grows_bind {A B} (m : zm A) (k : A -> zm B) : grows m -> (forall a, grows (k a)) -> grows (zbind m k).
Proof.
  intros M K s. unfold zbind. destruct (M s) as [c C]. destruct (m s) as [a s'|e d]; cbn [out] in C; [|exists c; exact C].
  destruct (K a s') as [c' C']. exists (c' ++ c). rewrite C', C, app_assoc. reflexivity.
Qed.
Lemma more_bind {A B} (m m' : zm A) (k k' : A -> zm B) : more m m' -> (forall a, more (k a) (k' a)) -> more (zbind m k) (zbind m' k').
Proof.
  intros [G M] K. split; [apply grows_bind; [exact G|intros a; apply K]|]. intros i o t T. specialize (M i o t T).
  unfold zbind. destruct (m (Zst i o)) as [a [i1 o1]|e d].
  - cbn [zin zout] in M. rewrite M. apply (K a); exact T.
  - destruct e; [contradiction| |rewrite M; reflexivity]. destruct M as [c C].
    destruct (m' (Zst (i ++ t) o)) as [a s'|e' d']; cbn [out] in C; [|exists c; exact C].
    destruct (proj1 (K a) s') as [c' C']. exists (c' ++ c). rewrite C', C, app_assoc. reflexivity.
Qed.
Lemma more_ret {A} (a : A) : more (zret a) (zret a).
Proof. split; [intros s; exists []; reflexivity|]. intros i o t _. reflexivity. Qed.
Lemma more_bad {A} : more (@zstop A ZBad) (zstop ZBad).
Proof. split; [intros s; exists []; reflexivity|]. intros i o t _. reflexivity. Qed.
Lemma more_short {A} (m : zm A) : grows m -> more (zstop ZShort) m.
Proof. intros G. split; [exact G|]. intros i o t _. cbn. destruct (G (Zst (i ++ t) o)) as [c C]. exists c. exact C. Qed.
Lemma more_put b : more (zput b) (zput b).
Proof. split; [intros s; exists [b]; reflexivity|]. intros i o t _. reflexivity. Qed.
Lemma more_bit : more zbit zbit.
Proof.
  split; [intros [[|b i] o]; exists []; reflexivity|]. intros [|b i] o t _; [|reflexivity]. cbn [zbit zin zout app].
  exists []. now destruct t.
Qed.
Lemma more_bits n : more (zbits n) (zbits n).
Proof. induction n as [|n IH]; [apply more_ret|]. apply more_bind; [apply more_bit|]. intros b. apply more_bind; [exact IH|]. intros v. apply more_ret. Qed.
Lemma more_align : more zalign zalign.
Proof.
  split; [intros s; exists []; reflexivity|]. intros i o t T. unfold zalign. cbn [zin zout].
  rewrite len_app, Z.add_mod, T, Z.add_0_r, Z.mod_mod by lia. do 2 f_equal. rewrite skipn_app. f_equal.
  pose proof (Z.mod_le (len i) 8 (len_nonneg i) ltac:(lia)). pose proof (Z.mod_pos_bound (len i) 8 ltac:(lia)). unfold len in *.
  replace (_ - _)%nat with O by lia. reflexivity.
Qed.
Lemma more_sym gs : forall code first, more (zsym gs code first) (zsym gs code first).
Proof.
  induction gs as [|g gs IH]; intros code first; [apply more_bad|]. cbn [zsym]. apply more_bind; [apply more_bit|].
  intros b. cbv zeta. destruct (_ <? _); [apply more_ret|apply IH].
Qed.
Lemma more_extra t i : more (zextra t i) (zextra t i).
Proof.
  unfold zextra. destruct (nth_error t (Z.to_nat i)) as [[b n]|]; [|apply more_bad].
  apply more_bind; [apply more_bits|]. intros v. apply more_ret.
Qed.
Lemma more_copy n d : more (zcopy n d) (zcopy n d).
Proof.
  induction n as [|n IH]; [apply more_ret|]. split.
  - intros s. cbn [zcopy]. destruct (nth_error (zout s) _) as [b|]; [|exists []; reflexivity].
    apply (grows_bind (zput b)); [apply more_put|]. intros _. apply IH.
  - intros i o t T. cbn [zcopy zout]. destruct (nth_error o _) as [b|]; [|reflexivity].
    apply (more_bind (zput b) (zput b) (fun _ => zcopy n d) (fun _ => zcopy n d)); [apply more_put|intros _; exact IH|exact T].
Qed.
Lemma more_codes ll dl n : forall n', (n <= n')%nat -> more (zcodes n ll dl) (zcodes n' ll dl).
Proof.
  assert (forall n n', more (zcodes n ll dl) (zcodes n' ll dl) ->
    more (s <& zsymbol ll ;;
    if s <? 256 then _u <& zput (z2b s) ;; zcodes n ll dl
    else if s =? 256 then zret tt
    else
      l <& zextra len_table (s - 257) ;;
      x <& zsymbol dl ;;
      d <& zextra dist_table x ;;
      _u <& zcopy (Z.to_nat l) d ;; zcodes n ll dl) (zcodes (S n') ll dl)) as STEP.
  { intros k k' M. cbn [zcodes]. apply more_bind; [apply more_sym|]. intros s. destruct (s <? 256).
    - apply more_bind; [apply more_put|]. intros _. exact M.
    - destruct (s =? 256); [apply more_ret|]. apply more_bind; [apply more_extra|]. intros l.
      apply more_bind; [apply more_sym|]. intros x. apply more_bind; [apply more_extra|]. intros d.
      apply more_bind; [apply more_copy|]. intros _. exact M. }
  assert (forall n', grows (zcodes n' ll dl)) as G.
  { intros n'. assert (more (zcodes n' ll dl) (zcodes n' ll dl)) as [G _]; [|exact G].
    induction n' as [|n' IH]; [apply more_short; intros s; exists []; reflexivity|]. apply (STEP n' n' IH). }
  induction n as [|n IH]; intros n' L; [apply more_short; apply G|].
  destruct n' as [|n']; [lia|]. apply (STEP n n'). apply IH. lia.
Qed.
Lemma more_stored n : more (zstored n) (zstored n).
Proof. induction n as [|n IH]; [apply more_ret|]. apply more_bind; [apply more_bits|]. intros v. apply more_bind; [apply more_put|]. intros _. exact IH. Qed.
Lemma more_rep {A} (m : zm A) n : more m m -> more (zrep n m) (zrep n m).
Proof. intros M. induction n as [|n IH]; [apply more_ret|]. apply more_bind; [exact M|]. intros a. apply more_bind; [exact IH|]. intros l. apply more_ret. Qed.
Lemma more_lens cl want n : forall acc, more (zlens n cl want acc) (zlens n cl want acc).
Proof.
  induction n as [|n IH]; intros acc; cbn [zlens].
  - destruct (_ =? _); [apply more_ret|apply more_bad].
  - destruct (want <=? len acc); [destruct (_ =? _); [apply more_ret|apply more_bad]|].
    apply more_bind; [apply more_sym|]. intros s. destruct (s <? 16); [apply IH|].
    destruct (s =? 16); [destruct acc; [apply more_bad|apply more_bind; [apply more_bits|]; intros v; apply IH]|].
    destruct (s =? 17); (apply more_bind; [apply more_bits|]; intros v; apply IH).
Qed.
Lemma more_dynamic n n' : (n <= n')%nat -> more (zdynamic n) (zdynamic n').
Proof.
  intros L. unfold zdynamic. apply more_bind; [apply more_bits|]. intros hl. apply more_bind; [apply more_bits|]. intros hd.
  apply more_bind; [apply more_bits|]. intros hc. destruct (_ || _); [apply more_bad|].
  apply more_bind; [apply more_rep; apply more_bits|]. intros given. destruct (negb _); [apply more_bad|].
  apply more_bind; [apply more_lens|]. intros all. cbv zeta. destruct (_ || _); [apply more_bad|]. apply more_codes; exact L.
Qed.
Lemma more_plain : more zplain zplain.
Proof.
  unfold zplain. apply more_bind; [apply more_align|]. intros _. apply more_bind; [apply more_bits|]. intros l.
  apply more_bind; [apply more_bits|]. intros c. destruct (_ =? _); [apply more_stored|apply more_bad].
Qed.
Lemma more_block n n' : (n <= n')%nat -> more (zblock n) (zblock n').
Proof.
  intros L. unfold zblock. apply more_bind; [apply more_bit|]. intros f. apply more_bind; [apply more_bits|]. intros k.
  apply more_bind; [|intros _; apply more_ret]. destruct (k =? 0); [apply more_plain|].
  destruct (k =? 1); [apply more_codes; exact L|]. destruct (k =? 2); [apply more_dynamic; exact L|apply more_bad].
Qed.
Lemma more_blocks n n' k : (n <= n')%nat -> forall k', (k <= k')%nat -> more (zblocks k n) (zblocks k' n').
Proof.
  intros L.
  assert (forall k, grows (zblocks k n')) as G.
  { intros k0. induction k0 as [|k0 IH]; [intros s; exists []; reflexivity|]. cbn [zblocks].
    apply grows_bind; [apply (more_block n' n'); lia|]. intros f. destruct f; [apply (more_ret tt)|exact IH]. }
  induction k as [|k IH]; intros k' K; [apply more_short; apply G|]. destruct k' as [|k']; [lia|]. cbn [zblocks].
  apply more_bind; [apply more_block; exact L|]. intros f. destruct f; [apply more_ret|]. apply IH. lia.
Qed.
Lemma more_stream n n' : (n <= n')%nat -> more (zstream n) (zstream n').
Proof.
  intros L. unfold zstream. apply more_bind; [apply more_bits|]. intros cmf. apply more_bind; [apply more_bits|]. intros flg.
  destruct (negb _); [apply more_bad|]. apply more_bind; [apply more_blocks; exact L|]. intros _.
  apply more_bind; [apply more_align|]. intros _. do 4 (apply more_bind; [apply more_bits|]; intros ?).
  split; [intros s; destruct (_ =? _); exists []; reflexivity|]. intros i o t _. cbn [zout]. destruct (_ =? _); reflexivity.
Qed.
Lemma rfc_more x t :
  (snd (rfc_inflate x) <> ZShort -> rfc_inflate (x ++ t) = rfc_inflate x)
  /\ exists s, fst (rfc_inflate (x ++ t)) = fst (rfc_inflate x) ++ s.
Proof.
  unfold rfc_inflate. rewrite !bits_same, stream_bits_app.
  assert (fuel_for x <= fuel_for (x ++ t))%nat as L.
  { unfold fuel_for. rewrite !bits_same, stream_bits_app, app_length. lia. }
  destruct (more_stream _ _ L) as [_ M]. specialize (M (stream_bits x) [] (stream_bits t)).
  rewrite stream_bits_len, Z.mul_comm, Z_mod_mult in M. specialize (M eq_refl).
  destruct (zstream (fuel_for x) (Zst (stream_bits x) [])) as [u s'|e d].
  - rewrite M. cbn. split; [reflexivity|exists []; now rewrite app_nil_r].
  - destruct e; [contradiction| |rewrite M; cbn; split; [reflexivity|exists []; now rewrite app_nil_r]].
    cbn [snd fst]. split; [intros H; now contradiction H|]. destruct M as [c C]. exists (rev c). rewrite <- rev_app_distr, <- C.
    now destruct (zstream _ _).
Qed.

(** ** What is accepted is a stream *)
Lemma rfc_sound z d : rfc_inflate z = (d, ZDone) -> exists x t, z = x ++ t /\ stream x d.
Proof.
  unfold rfc_inflate. rewrite bits_same. generalize (fuel_for z). intros n E.
  destruct (more_stream n n (le_n n)) as [_ M]. specialize (M (stream_bits z) [] [] eq_refl).
  destruct (zstream n (Zst (stream_bits z) [])) as [u s'|e o] eqn:S.
  2:{ exfalso. injection E as _ ->. exact M. }
  clear M. injection E as <-. unfold zstream in S.
  unfold zbind at 1 in S. destruct (zbits 8 _) as [cmf s1|] eqn:E1; [|discriminate].
  apply zbits_taken in E1. destruct E1 as (w1 & I1 & O1 & C & ->). cbn [zin zout] in I1, O1.
  unfold zbind at 1 in S. destruct (zbits 8 s1) as [flg s2|] eqn:E2; [|discriminate].
  apply zbits_taken in E2. destruct E2 as (w2 & I2 & O2 & F & ->).
  change (2 ^ Z.of_nat 8) with 256 in *.
  destruct (header_ok cmf flg) eqn:HO; [|discriminate]. cbn [negb] in S. apply header_window in HO; [|exact C|exact F].
  destruct HO as ((window & CW & W) & M31 & T5).
  apply stream_byte in I1; [|exact C]. destruct I1 as (z1 & -> & I1).
  rewrite I2 in I1. apply stream_byte in I1; [|exact F]. destruct I1 as (z2 & -> & I1').
  unfold zbind at 1 in S. destruct (zblocks n n s2) as [v s3|] eqn:E3; [|discriminate].
  assert ((16 + len (zin s2)) mod 8 = 0) as P.
  { rewrite <- I1', stream_bits_len. replace (16 + 8 * len z2) with ((2 + len z2) * 8) by lia. apply Z_mod_mult. }
  apply (zblocks_sound n n 16) in E3; [|exact P]. destruct E3 as (body & I3 & BS).
  unfold zbind at 1 in S. destruct (zalign s3) as [v' s4|] eqn:E4; [|discriminate].
  apply (zalign_sound (16 + len body)) in E4; [|rewrite <- P, I3, len_app; f_equal; lia].
  destruct E4 as (pad & I4 & O4 & (PL & PM) & _).
  rewrite I3, I4, app_assoc in I1'. apply stream_split in I1'.
  2:{ rewrite len_app. replace (len body + len pad) with ((16 + len body + len pad) - 2 * 8) by lia. rewrite Zminus_mod, PM. reflexivity. }
  destruct I1' as (mid & rest & -> & SB & SR). fold tail_check in S.
  apply (tail_sound _ _ _ rest) in S; [|now symmetry]. destruct S as (t & -> & _ & O5).
  rewrite O5, O4 in *. clear O5. rewrite O2, O1 in BS. cbn [rev] in BS.
  exists (z2b cmf :: z2b flg :: mid ++ checksum (rev (zout s3))), t. split; [cbn [app]; now rewrite <- app_assoc|].
  exists (z2b cmf), (z2b flg), mid, body, pad, window.
  assert (forall v, 0 <= v < 256 -> b2z (z2b v) = v) as BV by (intros v0 V; rewrite b2z_z2b; apply Z.mod_small; exact V).
  rewrite (BV cmf C), (BV flg F).
  repeat match goal with |- _ /\ _ => split end; try assumption; try reflexivity; lia.
Qed.

(** ** Fuel

    The loops never run out of fuel: with more of it the result is the same. *)
Definition shrinks {A} (m : zm A) : Prop := forall s a s', m s = ZVal a s' -> (List.length (zin s') <= List.length (zin s))%nat.
Definition eats {A} (m : zm A) : Prop := forall s a s', m s = ZVal a s' -> (List.length (zin s') < List.length (zin s))%nat.
Definition same_on {A} (b : nat) (m m' : zm A) : Prop := forall s, (List.length (zin s) < b)%nat -> m s = m' s.
Lemma shrinks_bind {A B} (m : zm A) (k : A -> zm B) : shrinks m -> (forall a, shrinks (k a)) -> shrinks (zbind m k).
Proof.
  intros M K s b s' E. unfold zbind in E. destruct (m s) as [a s1|] eqn:E1; [|discriminate]. apply M in E1. apply K in E. lia.
Qed.
Lemma eats_bind {A B} (m : zm A) (k : A -> zm B) : eats m -> (forall a, shrinks (k a)) -> eats (zbind m k).
Proof.
  intros M K s b s' E. unfold zbind in E. destruct (m s) as [a s1|] eqn:E1; [|discriminate]. apply M in E1. apply K in E. lia.
Qed.
Lemma eats_shrinks {A} (m : zm A) : eats m -> shrinks m.
Proof. intros M s a s' E. apply M in E. lia. Qed.
Lemma shrinks_ret {A} (a : A) : shrinks (zret a).
Proof. intros s b s' E. injection E as _ <-. lia. Qed.
Lemma shrinks_stop {A} e : shrinks (@zstop A e).
Proof. intros s b s' E. discriminate. Qed.
Lemma shrinks_put b : shrinks (zput b).
Proof. intros s u s' E. injection E as _ <-. cbn. lia. Qed.
Lemma eats_bit : eats zbit.
Proof. intros [[|b i] o] a s' E; [discriminate|]. injection E as _ <-. cbn. lia. Qed.
Lemma shrinks_bits n : shrinks (zbits n).
Proof.
  induction n as [|n IH]; [apply shrinks_ret|]. apply shrinks_bind; [apply eats_shrinks, eats_bit|]. intros b.
  apply shrinks_bind; [exact IH|]. intros v. apply shrinks_ret.
Qed.
Lemma shrinks_align : shrinks zalign.
Proof. intros s u s' E. injection E as _ <-. cbn [zin]. rewrite skipn_length. lia. Qed.
Lemma eats_sym gs : forall code first, eats (zsym gs code first).
Proof.
  induction gs as [|g gs IH]; intros code first; [intros s a s' E; discriminate|]. cbn [zsym].
  apply eats_bind; [apply eats_bit|]. intros b. cbv zeta. destruct (_ <? _); [apply shrinks_ret|]. apply eats_shrinks, IH.
Qed.
Lemma shrinks_extra t i : shrinks (zextra t i).
Proof.
  unfold zextra. destruct (nth_error t _) as [[b n]|]; [|apply shrinks_stop]. apply shrinks_bind; [apply shrinks_bits|].
  intros v. apply shrinks_ret.
Qed.
Lemma shrinks_copy n d : shrinks (zcopy n d).
Proof.
  induction n as [|n IH]; [apply shrinks_ret|]. intros s u s' E. cbn [zcopy] in E.
  destruct (nth_error _ _) as [b|]; [|discriminate].
  exact (shrinks_bind (zput b) (fun _ => zcopy n d) (shrinks_put b) (fun _ => IH) _ _ _ E).
Qed.
Lemma shrinks_codes ll dl n : shrinks (zcodes n ll dl).
Proof.
  induction n as [|n IH]; [apply shrinks_stop|]. cbn [zcodes]. apply shrinks_bind; [apply eats_shrinks, eats_sym|]. intros s.
  destruct (s <? 256); [apply shrinks_bind; [apply shrinks_put|intros _; exact IH]|]. destruct (s =? 256); [apply shrinks_ret|].
  apply shrinks_bind; [apply shrinks_extra|]. intros l. apply shrinks_bind; [apply eats_shrinks, eats_sym|]. intros x.
  apply shrinks_bind; [apply shrinks_extra|]. intros d. apply shrinks_bind; [apply shrinks_copy|]. intros _. exact IH.
Qed.
Lemma shrinks_stored n : shrinks (zstored n).
Proof. induction n as [|n IH]; [apply shrinks_ret|]. apply shrinks_bind; [apply shrinks_bits|]. intros v. apply shrinks_bind; [apply shrinks_put|]. intros _. exact IH. Qed.
Lemma shrinks_rep {A} (m : zm A) n : shrinks m -> shrinks (zrep n m).
Proof. intros M. induction n as [|n IH]; [apply shrinks_ret|]. apply shrinks_bind; [exact M|]. intros a. apply shrinks_bind; [exact IH|]. intros l. apply shrinks_ret. Qed.
Lemma shrinks_lens cl want n : forall acc, shrinks (zlens n cl want acc).
Proof.
  induction n as [|n IH]; intros acc; cbn [zlens]; [destruct (_ =? _); [apply shrinks_ret|apply shrinks_stop]|].
  destruct (want <=? len acc); [destruct (_ =? _); [apply shrinks_ret|apply shrinks_stop]|].
  apply shrinks_bind; [apply eats_shrinks, eats_sym|]. intros s. destruct (s <? 16); [apply IH|].
  destruct (s =? 16); [destruct acc; [apply shrinks_stop|apply shrinks_bind; [apply shrinks_bits|]; intros v; apply IH]|].
  destruct (s =? 17); (apply shrinks_bind; [apply shrinks_bits|]; intros v; apply IH).
Qed.
Lemma shrinks_dynamic n : shrinks (zdynamic n).
Proof.
  unfold zdynamic. do 3 (apply shrinks_bind; [apply shrinks_bits|]; intros ?). destruct (_ || _); [apply shrinks_stop|].
  apply shrinks_bind; [apply shrinks_rep, shrinks_bits|]. intros given. destruct (negb _); [apply shrinks_stop|].
  apply shrinks_bind; [apply shrinks_lens|]. intros all. cbv zeta. destruct (_ || _); [apply shrinks_stop|apply shrinks_codes].
Qed.
Lemma shrinks_plain : shrinks zplain.
Proof.
  unfold zplain. apply shrinks_bind; [apply shrinks_align|]. intros _. do 2 (apply shrinks_bind; [apply shrinks_bits|]; intros ?).
  destruct (_ =? _); [apply shrinks_stored|apply shrinks_stop].
Qed.
Lemma eats_block n : eats (zblock n).
Proof.
  unfold zblock. apply eats_bind; [apply eats_bit|]. intros f. apply shrinks_bind; [apply shrinks_bits|]. intros k.
  apply shrinks_bind; [|intros _; apply shrinks_ret]. destruct (k =? 0); [apply shrinks_plain|].
  destruct (k =? 1); [apply shrinks_codes|]. destruct (k =? 2); [apply shrinks_dynamic|apply shrinks_stop].
Qed.
Lemma same_refl {A} b (m : zm A) : same_on b m m.
Proof. intros s _. reflexivity. Qed.
Lemma same_bind {A B} b (m m' : zm A) (k k' : A -> zm B) : same_on b m m' -> shrinks m' -> (forall a, same_on b (k a) (k' a)) ->
  same_on b (zbind m k) (zbind m' k').
Proof.
  intros M SH K s L. unfold zbind. rewrite (M s L). destruct (m' s) as [a s1|] eqn:E; [|reflexivity]. apply SH in E. apply K. lia.
Qed.
Lemma same_eats {A B} b (m : zm A) (k k' : A -> zm B) : eats m -> (forall a, same_on b (k a) (k' a)) ->
  same_on (S b) (zbind m k) (zbind m k').
Proof.
  intros SH K s L. unfold zbind. destruct (m s) as [a s1|] eqn:E; [|reflexivity]. apply SH in E. apply K. lia.
Qed.
Lemma same_codes ll dl b : forall n n', (b <= n)%nat -> (b <= n')%nat -> same_on b (zcodes n ll dl) (zcodes n' ll dl).
Proof.
  induction b as [|b IH]; intros n n' N N'; [intros s L; lia|]. destruct n as [|n]; [lia|]. destruct n' as [|n']; [lia|].
  cbn [zcodes]. apply same_eats; [apply eats_sym|]. intros s.
  assert (same_on b (zcodes n ll dl) (zcodes n' ll dl)) as H by (apply IH; lia).
  destruct (s <? 256); [apply same_bind; [apply same_refl|apply shrinks_put|intros _; exact H]|].
  destruct (s =? 256); [apply same_refl|].
  apply same_bind; [apply same_refl|apply shrinks_extra|]. intros l.
  apply same_bind; [apply same_refl|apply eats_shrinks, eats_sym|]. intros x.
  apply same_bind; [apply same_refl|apply shrinks_extra|]. intros d.
  apply same_bind; [apply same_refl|apply shrinks_copy|]. intros _. exact H.
Qed.
Lemma same_block b n n' : (b <= n)%nat -> (b <= n')%nat -> same_on b (zblock n) (zblock n').
Proof.
  intros N N'. unfold zblock. apply same_bind; [apply same_refl|apply eats_shrinks, eats_bit|]. intros f.
  apply same_bind; [apply same_refl|apply shrinks_bits|]. intros k.
  apply same_bind; [|destruct (k =? 0); [apply shrinks_plain|]; destruct (k =? 1); [apply shrinks_codes|];
                     destruct (k =? 2); [apply shrinks_dynamic|apply shrinks_stop]|intros _; apply same_refl].
  destruct (k =? 0); [apply same_refl|]. destruct (k =? 1); [apply same_codes; assumption|].
  destruct (k =? 2); [|apply same_refl]. unfold zdynamic.
  do 3 (apply same_bind; [apply same_refl|apply shrinks_bits|]; intros ?). destruct (_ || _); [apply same_refl|].
  apply same_bind; [apply same_refl|apply shrinks_rep, shrinks_bits|]. intros given. destruct (negb _); [apply same_refl|].
  apply same_bind; [apply same_refl|apply shrinks_lens|]. intros all. cbv zeta. destruct (_ || _); [apply same_refl|].
  apply same_codes; assumption.
Qed.
Lemma same_blocks b : forall k k' n n', (b <= k)%nat -> (b <= k')%nat -> (b <= n)%nat -> (b <= n')%nat ->
  same_on b (zblocks k n) (zblocks k' n').
Proof.
  induction b as [|b IH]; intros k k' n n' K K' N N'; [intros s L; lia|]. destruct k as [|k]; [lia|]. destruct k' as [|k']; [lia|].
  cbn [zblocks]. intros s L. unfold zbind. rewrite (same_block (S b) n n' N N' s L).
  destruct (zblock n' s) as [f s1|] eqn:E; [|reflexivity]. apply eats_block in E. destruct f; [reflexivity|]. apply IH; lia.
Qed.
Lemma same_stream b n n' : (b <= n)%nat -> (b <= n')%nat -> same_on b (zstream n) (zstream n').
Proof.
  intros N N'. unfold zstream. do 2 (apply same_bind; [apply same_refl|apply shrinks_bits|]; intros ?).
  destruct (negb _); [apply same_refl|]. apply same_bind; [apply same_blocks; assumption| |intros _; apply same_refl].
  clear. generalize n' at 1. intros k. induction k as [|k IH]; [apply shrinks_stop|]. cbn [zblocks].
  apply shrinks_bind; [apply eats_shrinks, eats_block|]. intros f. destruct f; [apply shrinks_ret|exact IH].
Qed.
Lemma rfc_fuel l n : (fuel_for l <= n)%nat ->
  rfc_inflate l = match zstream n (Zst (bits_of l) []) with ZVal _ s => (rev (zout s), ZDone) | ZStop e d => (rev d, e) end.
Proof.
  intros N. unfold rfc_inflate. rewrite (same_stream (fuel_for l) (fuel_for l) n (le_n _) N); [reflexivity|].
  unfold fuel_for. cbn [zin]. lia.
Qed.

(** ** Stored blocks *)
Lemma low_first_app a : forall b v, low_first (a + b) v = low_first a v ++ low_first b (v / 2 ^ Z.of_nat a).
Proof.
  induction a as [|a IH]; intros b v; cbn [Nat.add low_first app]; [now rewrite Z.div_1_r|]. rewrite IH. do 2 f_equal.
  rewrite Zdiv.Zdiv_Zdiv by lia. f_equal. rewrite two_pow. lia.
Qed.
Lemma low8_byte v : low_first 8 (b2z (z2b v)) = low_first 8 v.
Proof.
  rewrite b2z_z2b. enough (forall n u, 0 <= n -> low_first (Z.to_nat n) (u mod 2 ^ n) = low_first (Z.to_nat n) u) as H by exact (H 8 v ltac:(lia)).
  intros n u N. rewrite <- (Z2Nat.id n N) at 2. generalize (Z.to_nat n). clear. intros k. revert u.
  induction k as [|k IH]; intros u; [reflexivity|]. cbn [low_first]. rewrite two_pow.
  rewrite Z.rem_mul_r by lia. rewrite Z.odd_add_mul_2. f_equal; [rewrite Zmod_odd; now destruct (Z.odd u)|].
  rewrite <- (IH (u / 2)). f_equal. rewrite (Z.mul_comm 2 _), Z.div_add by lia. rewrite Z.div_small by (apply Z.mod_pos_bound; lia). lia.
Qed.
Lemma le_bytes_bits n : forall v, stream_bits (le_bytes n v) = low_first (8 * n) v.
Proof.
  induction n as [|n IH]; intros v; [reflexivity|]. cbn [le_bytes]. change (stream_bits (z2b v :: le_bytes n (v / 256)))
    with (low_first 8 (b2z (z2b v)) ++ stream_bits (le_bytes n (v / 256))). rewrite IH, low8_byte.
  replace (8 * S n)%nat with (8 + 8 * n)%nat by lia. rewrite low_first_app. reflexivity.
Qed.
Lemma stored_block_ok p final d x : p mod 8 = 0 -> len x <= 65535 -> block p final d (stream_bits (stored_block final x)) (d ++ x).
Proof.
  intros P L. replace (stream_bits (stored_block final x)) with
    ([final; false; false] ++ [false; false; false; false; false] ++ low_first 16 (len x) ++ low_first 16 (65535 - len x) ++ stream_bits x).
  - constructor; [|exact L]. split; [reflexivity|]. change (len [false; false; false; false; false]) with 5.
    replace (p + 3 + 5) with (p + 1 * 8) by lia. rewrite Z_mod_plus_full. exact P.
  - unfold stored_block. change (stream_bits (?b :: ?l)) with (low_first 8 (b2z b) ++ stream_bits l).
    rewrite !stream_bits_app, !le_bytes_bits. rewrite low8_byte. destruct final; reflexivity.
Qed.
Lemma stored_blocks_ok n : forall p d l, p mod 8 = 0 -> (List.length l <= n)%nat ->
  blocks p d (stream_bits (stored_blocks n l)) (d ++ l).
Proof.
  induction n as [|n IH]; intros p d l P L; cbn [stored_blocks].
  - destruct l; [|cbn in L; lia]. constructor. apply stored_block_ok; [exact P|reflexivity || (cbn; lia)].
  - destruct (Z.leb_spec (len l) 65535) as [B|B]; [constructor; apply stored_block_ok; assumption|].
    rewrite stream_bits_app. rewrite <- (firstn_skipn (Z.to_nat 65535) l) at 3. rewrite app_assoc.
    eapply blocks_more; [apply stored_block_ok; [exact P|]|].
    + unfold len. rewrite firstn_length. lia.
    + apply IH; [|rewrite skipn_length; lia]. rewrite stream_bits_len, (Z.mul_comm 8), Z_mod_plus_full. exact P.
Qed.
Lemma checksum_big d : checksum d = big 4 (adler d).
Proof.
  destruct (checksum_four d) as (a & b & c & e & A & B & C & E & -> & ->). unfold big, four. cbn [le_bytes rev app map].
  assert (forall v q r, 0 <= r < 256 -> v = q * 256 + r -> z2b r = z2b v /\ v / 256 = q) as D.
  { intros v q r R ->. split; [|rewrite Z.div_add_l, Z.div_small by lia; lia].
    rewrite <- (z2b_b2z (z2b (q * 256 + r))), b2z_z2b. rewrite Z.add_comm, Z_mod_plus_full, Z.mod_small by lia. reflexivity. }
  set (v := _ + e). destruct (D v ((a * 256 + b) * 256 + c) e E eq_refl) as [-> ->].
  set (v1 := _ + c). destruct (D v1 (a * 256 + b) c C eq_refl) as [-> ->].
  set (v2 := _ + b). destruct (D v2 a b B eq_refl) as [-> ->]. reflexivity.
Qed.
Lemma rfc_store_stream d : stream (rfc_store d) d.
Proof.
  exists (z2b 120), (z2b 1), (stored_blocks (List.length d) d), (stream_bits (stored_blocks (List.length d) d)), [], 7.
  split; [unfold rfc_store; rewrite checksum_big; reflexivity|]. split; [reflexivity|]. split; [lia|]. split; [reflexivity|].
  split; [reflexivity|]. split; [now rewrite app_nil_r|]. split; [reflexivity|]. apply (stored_blocks_ok _ 16 [] d); [reflexivity|lia].
Qed.

(** ** What the rest of the model assumes of zlib *)
Lemma rfc_any (c : list byte -> list byte) : (forall x, stream (c x) x) ->
  zlib_ok (Zlib c rfc_inflate) /\ zlib_more (Zlib c rfc_inflate).
Proof.
  intros C. split; [intros x t; apply rfc_complete; apply C|]. intros x t. cbn [inflate]. destruct (rfc_more x t) as [A B].
  split; [|exact B]. intros D. apply A. rewrite D. discriminate.
Qed.
(** A decoder that takes an end of input for an error in the data. *)
Definition strict_inflate (x : list byte) : list byte * zend :=
  (fst (rfc_inflate x), match snd (rfc_inflate x) with ZDone => ZDone | _ => ZBad end).
Lemma strict_any (c : list byte -> list byte) : (forall x, stream (c x) x) ->
  zlib_ok (Zlib c strict_inflate) /\ zlib_more (Zlib c strict_inflate) /\ zlib_strict (Zlib c strict_inflate).
Proof.
  intros C. split; [intros x t; cbn; unfold strict_inflate; rewrite (rfc_complete _ x) by apply C; reflexivity|]. split.
  - intros x t. cbn [inflate]. unfold strict_inflate. cbn [fst snd]. destruct (rfc_more x t) as [A B]. split; [|exact B].
    intros D. destruct (snd (rfc_inflate x)) eqn:E; try discriminate. rewrite A by discriminate. now rewrite E.
  - intros x. cbn. destruct (snd (rfc_inflate x)); discriminate.
Qed.
Lemma rfc_exact z d : inflate rfc_zlib z = (d, ZDone) <-> exists x t, z = x ++ t /\ stream x d.
Proof. split; [apply rfc_sound|]. intros (x & t & -> & S). now apply rfc_complete. Qed.
Lemma rfc_contract c : (forall x, stream (c x) x) ->
  zlib_ok (Zlib c rfc_inflate) /\ zlib_more (Zlib c rfc_inflate)
  /\ zlib_ok (Zlib c strict_inflate) /\ zlib_more (Zlib c strict_inflate) /\ zlib_strict (Zlib c strict_inflate).
Proof. intros C. split; [now apply rfc_any|]. split; [now apply rfc_any|]. now apply strict_any. Qed.
Lemma rfc_container c o g d d' b : (forall x, stream (c x) x) ->
  (forall p i, probe o p i = false) -> file_ok o same (file_of g) = true ->
  save_plain (file_of g) = Ok b -> len b < 4294967296 -> save (Zlib c rfc_inflate) g d = (Ok tt, d') ->
  load (Zlib c rfc_inflate) o (match g_version g with DDefault => GDefault | DPalworld _ => GPalworld end)
       (skipn (at_ d) (content d')) = Ok g.
Proof. intros C. apply container_round_trip. now apply rfc_any. Qed.
