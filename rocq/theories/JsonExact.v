(** Reading JSON follows the rules of JsonDoc.v exactly: combinators, values and texts. *)
From Coq Require Import ZArith List Bool String Lia ZifyBool ZifyNat QArith.
From Verif Require Import Base Str Types Versions Text Props File Spec BaseFacts MapFacts
  Guid Json JsonSpec JsonText JsonProp JsonBack JsonPanic Nearest GrammarText GrammarFile JsonForm JsonDoc.
Import ListNotations.
Open Scope Z_scope.

Definition exactly {A} (n : nat) (d : json -> jres A) (R : A -> json -> Prop) : Prop :=
  forall j, (jsize j < n)%nat -> mild j -> forall a, d j = JOk a <-> R a j.

Lemma jbind_iff {A B} (r : jres A) (k : A -> jres B) b :
  jbind r k = JOk b <-> exists a, r = JOk a /\ k a = JOk b.
Proof.
  split; [apply jbind_ok|]. intros (a & -> & E). exact E.
Qed.

(** ** Members *)
Lemma times_in k o : times k o = O <-> forall j, ~ In (k, j) o.
Proof.
  induction o as [|[k' v] o IH]; cbn [times].
  - split; [intros _ j []|reflexivity].
  - destruct (str_eqb k k') eqn:E.
    + apply str_eqb_eq in E. subst k'. split; [discriminate|]. intros H. exfalso. apply (H v). now left.
    + rewrite IH. split; intros H j.
      * intros [X|X]; [|now apply (H j)]. injection X as <- <-. rewrite str_eqb_refl in E. discriminate.
      * intros X. apply (H j). now right.
Qed.
Lemma times_app k a b : times k (a ++ b) = (times k a + times k b)%nat.
Proof. induction a as [|[k' v] a IH]; cbn [times app]; [reflexivity|]. destruct (str_eqb k k'); lia. Qed.
Lemma times_one k o : (times k o <= 1)%nat <-> forall a b c v w, o <> a ++ (k, v) :: b ++ (k, w) :: c.
Proof.
  split.
  - intros H a b c v w ->. rewrite times_app in H. cbn [times] in H. rewrite str_eqb_refl, times_app in H. cbn [times] in H.
    rewrite str_eqb_refl in H. lia.
  - induction o as [|[k' v] o IH]; intros H; cbn [times]; [lia|].
    destruct (str_eqb k k') eqn:E.
    + apply str_eqb_eq in E. subst k'. enough (times k o = O) by lia. apply times_in. intros j I.
      apply in_split in I as (b & c & ->). now apply (H [] b c v j).
    + apply IH. intros a b c x w ->. now apply (H ((k', v) :: a) b c x w).
Qed.
Lemma once_iff names o : once names o <-> unrepeated (map s2z names) o = true.
Proof.
  unfold once, unrepeated. rewrite forallb_forall. split.
  - intros H k I. apply in_map_iff in I as (s & <- & I). apply Nat.leb_le, times_one. intros. now apply H.
  - intros H k a b c v w I. apply times_one. apply Nat.leb_le, H. now apply in_map.
Qed.
Lemma unrepeated_in names o k : unrepeated names o = true -> In k names -> (times k o <= 1)%nat.
Proof. unfold unrepeated. rewrite forallb_forall. intros H I. now apply Nat.leb_le, H. Qed.
Lemma get_iff {A} (f : json -> A) k o r : (times k o <= 1)%nat ->
  get f k o = Some r <-> exists j, In (k, j) o /\ f j = r.
Proof.
  intros H. split; [apply get_in|]. intros (j & I & <-). induction o as [|[k' v] o IH]; [easy|].
  cbn [get times] in *. destruct (str_eqb k k') eqn:E.
  - apply str_eqb_eq in E. subst k'. destruct I as [I|I]; [now injection I as <-|]. exfalso.
    assert (Z : times k o = O) by lia. apply (proj1 (times_in k o) Z j I).
  - destruct I as [I|I]; [|now apply IH]. injection I as -> ->. rewrite str_eqb_refl in E. discriminate.
Qed.
Lemma get_none {A} (f : json -> A) k o : get f k o = None <-> forall j, ~ In (k, j) o.
Proof.
  split.
  - intros H j I. induction o as [|[k' v] o IH]; [easy|]. cbn [get] in H. destruct (str_eqb k k') eqn:E; [discriminate|].
    destruct I as [I|I]; [|now apply IH]. injection I as -> ->. rewrite str_eqb_refl in E. discriminate.
  - intros H. destruct (get f k o) eqn:E; [|reflexivity]. apply get_in in E as (j & I & _). now apply H in I.
Qed.
Lemma need_iff {A} n (d : json -> jres A) R k o a : exactly n d R -> sobj n o -> (times (s2z k) o <= 1)%nat ->
  need d (s2z k) o = JOk a <-> has R k o a.
Proof.
  intros X O T. unfold need, has. split.
  - destruct (get d (s2z k) o) as [r|] eqn:E; [|discriminate]. intros ->. apply get_in in E as (j & I & E).
    exists j. split; [exact I|]. destruct (O _ _ I) as (S & M & _). now apply X.
  - intros (j & I & H). destruct (O _ _ I) as (S & M & _). apply X in H; auto.
    assert (E : get d (s2z k) o = Some (JOk a)) by (apply get_iff; eauto). now rewrite E.
Qed.
Lemma dflt_iff {A} n (d : json -> jres A) R v k o a : exactly n d R -> sobj n o -> (times (s2z k) o <= 1)%nat ->
  dflt d v (s2z k) o = JOk a <-> has_or R v k o a.
Proof.
  intros X O T. pose proof (need_iff n d R k o a X O T) as N. unfold need in N. unfold dflt, has_or.
  destruct (get d (s2z k) o) as [r|] eqn:E.
  - rewrite N. split; [now right|]. intros [[H _]|H]; [|exact H]. apply get_in in E as (j & I & _). exfalso. exact (H j I).
  - pose proof (proj1 (get_none _ _ _) E) as E'. clear E N. split.
    + intros Y. injection Y as <-. left. now split.
    + intros [[_ ->]|(j & I & _)]; [reflexivity|]. exfalso. exact (E' j I).
Qed.
Lemma option_exact {A} n (d : json -> jres A) R : exactly n d R -> exactly n (d_option d) (nullable R).
Proof.
  intros X j S M a. specialize (X j S M). unfold d_option. split.
  - destruct j; intros H; try (apply jbind_ok in H as (x & E & H); injection H as <-; constructor; [discriminate|now apply X]).
    injection H as <-. constructor.
  - intros H. destruct H as [|x j N H]; [reflexivity|]. apply X in H. rewrite H. now destruct j.
Qed.
Lemma opt_iff {A} n (d : json -> jres A) R k o a : exactly n d R -> sobj n o -> (times (s2z k) o <= 1)%nat ->
  opt d (s2z k) o = JOk a <-> may R k o a.
Proof. intros X. apply dflt_iff. now apply option_exact. Qed.

(** Structs. *)
Lemma once_combine names l : NoDup names -> unrepeated names (combine names l) = true.
Proof.
  intros N. unfold unrepeated. apply forallb_forall. intros k _. apply Nat.leb_le.
  revert l. induction N as [|x names H N IH]; intros [|j l]; cbn [combine times]; try lia.
  specialize (IH l). destruct (str_eqb k x) eqn:E; [|exact IH]. apply str_eqb_eq in E. subst x.
  enough (Z : times k (combine names l) = O) by lia. apply times_in. intros v I. apply in_combine_l in I. contradiction.
Qed.
Lemma combine_sobj n names l : tame (map s2z names) = true -> (forall j, In j l -> (jsize j < n)%nat /\ mild j) ->
  sobj n (combine (map s2z names) l).
Proof.
  intros T L k j I. destruct (L j (in_combine_r _ _ _ _ I)) as [A1 A2]. repeat split; auto.
  apply in_combine_l in I. unfold tame in T. rewrite forallb_forall in T. specialize (T _ I).
  destruct (guid_parse k); [discriminate|discriminate|easy].
Qed.
Fixpoint unique (l : list str) : bool :=
  match l with [] => true | x :: r => negb (existsb (str_eqb x) r) && unique r end.
Lemma unique_nodup l : unique l = true -> NoDup l.
Proof.
  induction l as [|x l IH]; cbn [unique]; [constructor|]. rewrite andb_true_iff, negb_true_iff. intros [A B].
  constructor; [|now apply IH]. intros I. assert (existsb (str_eqb x) l = true); [|congruence].
  apply existsb_exists. exists x. split; [exact I|]. apply str_eqb_refl.
Qed.
Definition good_names (names : list string) : bool := tame (map s2z names) && unique (map s2z names).
Lemma listed_iff {A} n names (f : fields -> jres A) P l a : good_names names = true ->
  (forall j, In j l -> (jsize j < n)%nat /\ mild j) ->
  (forall o, sobj n o -> unrepeated (map s2z names) o = true -> f o = JOk a <-> P o) ->
  listed (map s2z names) f l = JOk a <-> List.length l = List.length names /\ P (combine (map s2z names) l).
Proof.
  unfold good_names. intros T L F. apply andb_true_iff in T as [T D]. unfold listed. rewrite map_length.
  pose proof (F _ (combine_sobj n names l T L) (once_combine _ l (unique_nodup _ D))) as G. rewrite <- G.
  destruct (Nat.eqb_spec (List.length l) (List.length names)); split; try tauto; discriminate.
Qed.
Lemma struct_exact {A} n names (f : fields -> jres A) P : good_names names = true ->
  (forall o, sobj n o -> unrepeated (map s2z names) o = true -> forall a, f o = JOk a <-> P a o) ->
  exactly n (d_struct (map s2z names) f) (fun a => record names (P a)).
Proof.
  intros T F j S M a. destruct j as [| | | | |l|o]; cbn [d_struct]; try (split; [discriminate|intros H; inversion H]).
  - rewrite (listed_iff n names f (P a)); auto; [|now apply arr_mild; auto]. split; [intros []; now constructor|].
    intros H. inversion H. now split.
  - pose proof (sobj_less _ _ S M) as O. unfold d_once. split.
    + destruct (unrepeated _ o) eqn:E; [|discriminate]. intros H. constructor; [now apply once_iff|]. now apply F.
    + intros H. inversion H as [? U K|]; subst. apply once_iff in U. rewrite U. now apply F.
Qed.

(** Lists and maps. *)
Lemma all_iff {A} n (d : json -> jres A) R l : exactly n d R -> (forall j, In j l -> (jsize j < n)%nat /\ mild j) ->
  forall r, d_all d l = JOk r <-> Forall2 R r l.
Proof.
  intros X. induction l as [|j l IH]; intros L r; cbn [d_all].
  - split; [intros H; injection H as <-; constructor|]. intros H. inversion H. reflexivity.
  - destruct (L j (or_introl eq_refl)) as [S M]. rewrite jbind_iff. split.
    + intros (a & E & H). apply jbind_ok in H as (q & Q & H). injection H as <-. constructor; [now apply X|].
      apply IH; auto. intros x I. apply L. now right.
    + intros H. inversion H as [|a ? q ? H1 H2]; subst. exists a. split; [now apply X|].
      apply jbind_iff. exists q. split; [|reflexivity]. apply IH; auto. intros x I. apply L. now right.
Qed.
Lemma list_exact {A} n (d : json -> jres A) R : exactly n d R -> exactly n (d_list d) (list_doc R).
Proof.
  intros X j S M r. destruct j as [| | | | |l|]; cbn [d_list]; try (split; [discriminate|intros (? & H & _); discriminate]).
  rewrite (all_iff n d R) by (auto; now apply arr_mild; auto). split.
  - intros H. now exists l.
  - intros (a & E & H). injection E as <-. exact H.
Qed.
Lemma entries_iff {A} n (d : json -> jres A) R o : exactly n d R -> sobj n o ->
  forall r, d_entries d o = JOk r <-> Forall2 (fun x y => fst x = fst y /\ R (snd x) (snd y)) r o.
Proof.
  intros X. induction o as [|[k j] o IH]; intros O r; cbn [d_entries].
  - split; [intros H; injection H as <-; constructor|]. intros H. inversion H. reflexivity.
  - destruct (O k j (or_introl eq_refl)) as (S & M & _). rewrite jbind_iff.
    assert (O' : sobj n o) by (intros k' j' I; apply (O k' j'); now right). split.
    + intros (a & E & H). apply jbind_ok in H as (q & Q & H). injection H as <-. constructor; [split; [reflexivity|now apply X]|].
      now apply IH.
    + intros H. inversion H as [|[k' a] ? q ? [H0 H1] H2]; subst. cbn [fst snd] in *. subst k'. exists a. split; [now apply X|].
      apply jbind_iff. exists q. split; [|reflexivity]. now apply IH.
Qed.
Lemma map_exact {A} n (d : json -> jres A) R : exactly n d R -> exactly n (d_map d) (map_doc R).
Proof.
  intros X j S M r. destruct j as [| | | | | |o]; cbn [d_map]; try (split; [discriminate|intros (? & ? & H & _); discriminate]).
  pose proof (sobj_less _ _ S M) as O. rewrite jbind_iff. split.
  - intros (l & E & H). injection H as <-. exists o, l. split; [reflexivity|]. split; [now apply (entries_iff n d)|apply collapsed_str].
  - intros (o' & l & E & F & C). injection E as <-. exists l. split; [now apply (entries_iff n d R)|].
    apply collapsed_str_eq in C. now subst r.
Qed.

(** ** Values *)
Lemma bool_exact n : exactly n d_bool bool_doc.
Proof. intros j _ _ b. destruct j; cbn [d_bool]; unfold bool_doc; split; congruence. Qed.
Lemma str_exact n : exactly n d_str is_text.
Proof. intros j _ _ b. destruct j; cbn [d_str]; unfold is_text; split; congruence. Qed.
Lemma ostr_exact n : exactly n d_ostr (nullable is_text).
Proof. apply option_exact, str_exact. Qed.
Lemma int_iff lo hi j z : d_int lo hi j = JOk z <-> j = JInt z /\ lo <= z <= hi.
Proof.
  destruct j; cbn [d_int]; try (split; [discriminate|intros [H _]; discriminate]). unfold inr.
  destruct ((lo <=? z0) && (z0 <=? hi)) eqn:E; split; try discriminate.
  - intros H. injection H as <-. split; [reflexivity|lia].
  - intros [H _]. congruence.
  - intros [H B]. injection H as ->. lia.
Qed.
Lemma u16_exact n : exactly n d_u16 (unsigned 2).
Proof. intros j _ _ z. unfold d_u16, unsigned. rewrite int_iff. change (2 ^ (8 * 2)) with 65536. split; intros []; split; auto; lia. Qed.
Lemma u32_exact n : exactly n d_u32 (unsigned 4).
Proof. intros j _ _ z. unfold d_u32, unsigned. rewrite int_iff. change (2 ^ (8 * 4)) with 4294967296. split; intros []; split; auto; lia. Qed.
Lemma u64_exact n : exactly n d_u64 (unsigned 8).
Proof.
  intros j _ _ z. unfold d_u64, unsigned. rewrite int_iff. change (2 ^ (8 * 8)) with 18446744073709551616. split; intros []; split; auto; lia.
Qed.
Lemma i32_exact n : exactly n d_i32 (signed 4).
Proof. intros j _ _ z. unfold d_i32, signed. rewrite int_iff. change (2 ^ (8 * 4 - 1)) with 2147483648. split; intros []; split; auto; lia. Qed.
Lemma i64_exact n : exactly n d_i64 (signed 8).
Proof.
  intros j _ _ z. unfold d_i64, signed. rewrite int_iff. change (2 ^ (8 * 8 - 1)) with 9223372036854775808. split; intros []; split; auto; lia.
Qed.
Lemma rounded32_unique neg x a b : rounded32 neg x a -> rounded32 neg x b -> a = b.
Proof.
  intros (a' & -> & A) (b' & -> & B). f_equal. eapply (nearest_unique 23 (-149) 2139095040 x); [lia|exact A|exact B].
Qed.
Lemma rounded64_unique neg x a b : rounded64 neg x a -> rounded64 neg x b -> a = b.
Proof.
  intros (a' & -> & A) (b' & -> & B). f_equal. eapply (nearest_unique 52 (-1074) 9218868437227405312 x); [lia|exact A|exact B].
Qed.
Lemma f32_exact n : exactly n d_f32 single_doc.
Proof.
  intros j _ _ z. split.
  - destruct j; try discriminate; intros H.
    + destruct (int32_rounded z0) as (r & E & N). rewrite E in H. injection H as <-. now constructor.
    + destruct (narrowed z0) as (r & E & N). rewrite E in H. injection H as <-. now constructor.
  - intros [b r H|i r H].
    + destruct (narrowed b) as (r' & E & N). rewrite E. f_equal. eapply rounded32_unique; eassumption.
    + destruct (int32_rounded i) as (r' & E & N). rewrite E. f_equal. eapply rounded32_unique; eassumption.
Qed.
Lemma f64_exact n : exactly n d_f64 double_doc.
Proof.
  intros j _ _ z. split.
  - destruct j; try discriminate; intros H.
    + destruct (int64_rounded z0) as (r & E & N). rewrite E in H. injection H as <-. now constructor.
    + injection H as <-. constructor.
  - intros [b|i r H]; [reflexivity|].
    destruct (int64_rounded i) as (r' & E & N). rewrite E. f_equal. eapply rounded64_unique; eassumption.
Qed.
Lemma num_exact n k : exactly n (d_num k) (num_doc k).
Proof.
  destruct k; cbn [d_num num_doc];
    first [apply i32_exact|apply i64_exact|apply u16_exact|apply u32_exact|apply u64_exact|apply f32_exact|apply f64_exact|idtac].
  - intros j _ _ z. unfold signed. rewrite int_iff. change (2 ^ (8 * 1 - 1)) with 128. split; intros []; split; auto; lia.
  - intros j _ _ z. unfold signed. rewrite int_iff. change (2 ^ (8 * 2 - 1)) with 32768. split; intros []; split; auto; lia.
Qed.
Lemma guidstr_iff s g : d_guidstr s = JOk g <-> guid_parse s = Parsed g.
Proof. unfold d_guidstr. destruct (guid_parse s); split; congruence. Qed.
Lemma guid_exact n : exactly n d_guid guid_doc.
Proof.
  intros j _ _ g. destruct j; cbn [d_guid]; try (split; [discriminate|intros (? & H & _); discriminate]).
  rewrite guidstr_iff. split; [intros H; eexists; split; [reflexivity|exact H]|]. intros (x & H & E). injection H as <-. exact E.
Qed.
Lemma byte_exact n : exactly n d_u8byte byte_doc.
Proof.
  intros j _ _ b. unfold d_u8byte, byte_doc. rewrite jbind_iff. split.
  - intros (z & E & H). injection H as <-. apply int_iff in E as [-> B]. f_equal. rewrite b2z_z2b. symmetry. apply Z.mod_small. lia.
  - intros ->. exists (b2z b). split; [apply int_iff; split; [reflexivity|]; pose proof (b2z_range b); lia|]. now rewrite z2b_b2z.
Qed.
Lemma hex_val_iff c x : hex_val c = Some x <-> In (c, x) hex_digits.
Proof.
  split.
  - intros H.
    assert (E : exists m, (m < 128)%nat /\ c = Z.of_nat m).
    { unfold hex_val, inr in H. exists (Z.to_nat c). repeat match type of H with (if ?b then _ else _) = _ => destruct b eqn:? end; try discriminate; lia. }
    destruct E as (m & B & ->). revert H.
    assert (A : forallb (fun m => match hex_val (Z.of_nat m) with
       | Some x => existsb (fun p => (fst p =? Z.of_nat m) && (snd p =? x)) hex_digits | None => true end) (List.seq 0 128) = true)
      by (vm_compute; reflexivity).
    rewrite forallb_forall in A. specialize (A m ltac:(apply in_seq; lia)). intros H. rewrite H in A.
    apply existsb_exists in A as ([a b] & I & E). cbn [fst snd] in E.
    assert (a = Z.of_nat m /\ b = x) as [-> ->] by lia. exact I.
  - assert (A : forallb (fun p => match hex_val (fst p) with Some x => x =? snd p | None => false end) hex_digits = true)
      by (vm_compute; reflexivity).
    rewrite forallb_forall in A. intros I. specialize (A _ I). cbn [fst snd] in A. destruct (hex_val c); [|discriminate].
    f_equal. lia.
Qed.
Lemma hex_small c x : In (c, x) hex_digits -> 0 <= x < 16.
Proof.
  assert (A : forallb (fun p => (0 <=? snd p) && (snd p <? 16)) hex_digits = true) by (vm_compute; reflexivity).
  rewrite forallb_forall in A. intros I. specialize (A _ I). cbn [snd] in A. lia.
Qed.
Lemma hex_iff s : forall l, hex_bytes s = JOk l <-> hex_pairs l s.
Proof.
  assert (W : forall m s, (List.length s <= m)%nat -> forall l, hex_bytes s = JOk l <-> hex_pairs l s).
  { induction m as [|m IH]; intros [|a [|b r]] L l; cbn [hex_bytes List.length] in *; try lia.
    1,2: split; [intros H; injection H as <-; constructor|intros H; inversion H; reflexivity].
    - split; [discriminate|]. intros H. inversion H.
    - split.
      + destruct (hex_val a) as [x|] eqn:A; [|discriminate]. destruct (hex_val b) as [y|] eqn:B; [|discriminate].
        intros H. apply jbind_ok in H as (q & Q & H). injection H as <-. apply hex_val_iff in A, B.
        pose proof (hex_small _ _ A). pose proof (hex_small _ _ B).
        econstructor; eauto; [rewrite b2z_z2b; apply Z.mod_small; lia|]. apply IH; [lia|exact Q].
      + intros H. inversion H as [|bb q ? ? x y ? A B E Q]; subst. apply hex_val_iff in A, B. rewrite A, B.
        apply IH in Q; [|lia]. rewrite Q. cbn [jbind]. do 2 f_equal. rewrite <- E. apply z2b_b2z. }
  apply (W (List.length s)). reflexivity.
Qed.
Lemma hex_exact n : exactly n d_hex hex_doc.
Proof.
  intros j _ _ l. destruct j; cbn [d_hex]; try (split; [discriminate|intros (? & H & _); discriminate]).
  rewrite hex_iff. split; [intros H; eexists; split; [reflexivity|exact H]|]. intros (x & H & E). injection H as <-. exact E.
Qed.

(** ** Enumerators *)
Fixpoint counted (i : Z) (tbl : list (Z * string)) : bool :=
  match tbl with [] => true | (z, _) :: r => (z =? i) && counted (i + 1) r end.
Definition words (tbl : list (Z * string)) : list str := map (fun e => s2z (snd e)) tbl.
Lemma index_iff s z : forall tbl i, unique (words tbl) = true -> counted i tbl = true ->
  index_of s (words tbl) i = JOk z <-> exists n, In (z, n) tbl /\ s = s2z n.
Proof.
  induction tbl as [|[y n] tbl IH]; intros i U C; cbn [words map index_of unique counted snd] in *.
  - split; [discriminate|]. intros (n & [] & _).
  - apply andb_true_iff in U as [N U]. apply andb_true_iff in C as [E C]. apply Z.eqb_eq in E. subst y.
    apply negb_true_iff in N. fold (words tbl) in *. destruct (str_eqb s (s2z n)) eqn:E.
    + apply str_eqb_eq in E. subst s. split.
      * intros H. injection H as <-. exists n. split; [now left|reflexivity].
      * intros (m & [I|I] & E); [congruence|]. exfalso. assert (existsb (str_eqb (s2z n)) (words tbl) = true); [|congruence].
        apply existsb_exists. exists (s2z m). split; [apply (in_map (fun e => s2z (snd e)) _ _ I)|]. rewrite E. apply str_eqb_refl.
    + rewrite IH by auto. split.
      * intros (m & I & X). exists m. split; [now right|exact X].
      * intros (m & [I|I] & X); [|exists m; now split]. injection I as <- <-. subst s. rewrite str_eqb_refl in E. discriminate.
Qed.
Lemma counted_iff z : forall tbl i, counted i tbl = true -> (i <= z < i + len tbl) <-> exists n, In (z, n) tbl.
Proof.
  induction tbl as [|[y n] tbl IH]; intros i C; cbn [counted] in *.
  - rewrite len_nil. split; [lia|]. intros (n & []).
  - apply andb_true_iff in C as [E C]. apply Z.eqb_eq in E. subst y. rewrite len_cons. specialize (IH _ C). split.
    + intros B. destruct (Z.eq_dec z i) as [->|N]; [exists n; now left|]. destruct (proj1 IH) as [m I]; [lia|]. exists m. now right.
    + intros (m & [I|I]); [injection I as <- <-; pose proof (len_nonneg tbl); lia|]. assert (i + 1 <= z < i + 1 + len tbl); [|lia]. apply IH. now exists m.
Qed.
Lemma name_iff tbl j z : unique (words tbl) = true -> counted 0 tbl = true ->
  d_name (words tbl) j = JOk z <-> exists s, In (z, s) tbl /\ j = txt s.
Proof.
  intros U C. destruct j; cbn [d_name]; try (split; [discriminate|intros (? & _ & H); discriminate]).
  rewrite (index_iff _ _ tbl 0 U C). unfold txt. split; intros (n & I & E); exists n; (split; [exact I|congruence]).
Qed.
Lemma tag_exact n tbl : unique (words tbl) = true -> counted 0 tbl = true -> exactly n (d_tag (words tbl)) (tag_doc tbl).
Proof.
  intros U C j _ _ z. unfold tag_doc.
  assert (W : (forall i, j <> JInt i) -> d_name (words tbl) j = JOk z <-> exists s, In (z, s) tbl /\ (j = txt s \/ j = JInt z)).
  { intros N. rewrite name_iff by auto. split; intros (s & I & H); exists s; (split; [exact I|]); [now left|].
    destruct H as [H|H]; [exact H|]. now apply N in H. }
  destruct j as [| |i| | | |]; cbn [d_tag]; try (apply W; intros; discriminate).
  replace (len (words tbl)) with (len tbl) by (unfold words, len; now rewrite map_length).
  pose proof (counted_iff i tbl 0 C) as K. unfold inr. destruct ((0 <=? i) && (i <=? len tbl - 1)) eqn:E; split; try discriminate.
  - intros H. injection H as <-. destruct (proj1 K) as [m I]; [lia|]. exists m. split; [exact I|now right].
  - intros (m & I & [H|H]); [discriminate|congruence].
  - intros (m & I & [H|H]); [discriminate|]. injection H as ->. assert (0 <= z < 0 + len tbl) by (apply K; now exists m). lia.
Qed.
Lemma unit_exact n tbl : unique (words tbl) = true -> counted 0 tbl = true ->
  exactly n (d_unit false (words tbl)) (unit_doc tbl) /\ exactly n (d_unit true (words tbl)) (unit_doc' tbl).
Proof.
  intros U C. enough (W : forall b j z, d_unit b (words tbl) j = JOk z <->
    (exists s, In (z, s) tbl /\ (j = txt s \/ j = JObj [s ↦ JNull] \/ (b = true /\ j = JObj [s ↦ JObj []])))).
  { split; intros j _ _ z; rewrite W; unfold unit_doc', unit_doc.
    - split; intros (s & I & H); exists s; (split; [exact I|]); [|tauto]. destruct H as [H|[H|[H _]]]; [auto..|discriminate].
    - split.
      + intros (s & I & [H|[H|[_ H]]]); [left|left|right]; exists s; auto.
      + intros [(s & I & [H|H])|(s & I & H)]; exists s; auto. }
  intros b j z.
  assert (N : (forall s, j <> JObj [s ↦ JNull]) -> (forall s, b = true -> j <> JObj [s ↦ JObj []]) -> d_name (words tbl) j = JOk z
    <-> (exists s, In (z, s) tbl /\ (j = txt s \/ j = JObj [s ↦ JNull] \/ (b = true /\ j = JObj [s ↦ JObj []])))).
  { intros A B. rewrite name_iff by auto. split; intros (s & I & H); exists s; (split; [exact I|]); [now left|].
    destruct H as [H|[H|[H1 H2]]]; [exact H|now apply A in H|now apply B in H2]. }
  destruct j as [| | | | | |[|[k [| | | | | |[|e' o']]] [|e o]]]; cbn [d_unit]; try (apply N; intros; discriminate).
  - rewrite (index_iff _ _ tbl 0 U C). split.
    + intros (m & I & ->). exists m. split; [exact I|]. right. now left.
    + intros (s & I & [H|[H|[_ H]]]); try discriminate. exists s. split; [exact I|]. congruence.
  - destruct b.
    + rewrite (index_iff _ _ tbl 0 U C). split.
      * intros (m & I & ->). exists m. split; [exact I|]. right. right. now split.
      * intros (s & I & [H|[H|[_ H]]]); try discriminate. exists s. split; [exact I|]. congruence.
    + split; [discriminate|]. intros (s & I & [H|[H|[H _]]]); discriminate.
Qed.
Lemma style_exact n : exactly n d_style style_doc.
Proof. apply (unit_exact n styles); vm_compute; reflexivity. Qed.
Lemma rounding_exact n : exactly n (d_tag rounding_names) (tag_doc roundings).
Proof. apply (tag_exact n roundings); vm_compute; reflexivity. Qed.
Lemma transform_exact n : exactly n (d_tag transform_names) (tag_doc transforms).
Proof. apply (tag_exact n transforms); vm_compute; reflexivity. Qed.
(** ** Sequences of members *)
Section Steps.
Context {A B : Type} (n : nat) (d : json -> jres A) (R : A -> json -> Prop) (k : string) (o : fields) (f : A -> jres B) (r : jres B).
Lemma step_need a : exactly n d R -> sobj n o -> (times (s2z k) o <= 1)%nat -> has R k o a -> f a = r ->
  jbind (need d (s2z k) o) f = r.
Proof. intros X O T H E. apply (need_iff n d R k o a X O T) in H. now rewrite H. Qed.
Lemma step_dflt v a : exactly n d R -> sobj n o -> (times (s2z k) o <= 1)%nat -> has_or R v k o a -> f a = r ->
  jbind (dflt d v (s2z k) o) f = r.
Proof. intros X O T H E. apply (dflt_iff n d R v k o a X O T) in H. now rewrite H. Qed.
Lemma step_opt (g : option A -> jres B) a : exactly n d R -> sobj n o -> (times (s2z k) o <= 1)%nat -> may R k o a -> g a = r ->
  jbind (opt d (s2z k) o) g = r.
Proof. intros X O T H E. apply (opt_iff n d R k o a X O T) in H. now rewrite H. Qed.
End Steps.
(** The rules of a decoder, by its name. *)
Ltac leaf_exactly := idtac; lazymatch goal with
  | |- exactly _ d_bool _ => apply bool_exact
  | |- exactly _ d_str _ => apply str_exact
  | |- exactly _ d_ostr _ => apply ostr_exact
  | |- exactly _ d_u16 _ => apply u16_exact
  | |- exactly _ d_u32 _ => apply u32_exact
  | |- exactly _ d_u64 _ => apply u64_exact
  | |- exactly _ d_i32 _ => apply i32_exact
  | |- exactly _ d_i64 _ => apply i64_exact
  | |- exactly _ d_f32 _ => apply f32_exact
  | |- exactly _ d_f64 _ => apply f64_exact
  | |- exactly _ (d_num _) _ => apply num_exact
  | |- exactly _ d_guid _ => apply guid_exact
  | |- exactly _ d_u8byte _ => apply byte_exact
  | |- exactly _ d_hex _ => apply hex_exact
  | |- exactly _ d_style _ => apply style_exact
  | |- exactly _ (d_tag rounding_names) _ => apply rounding_exact
  | |- exactly _ (d_tag transform_names) _ => apply transform_exact
  | H : exactly _ ?d _ |- exactly _ ?d _ => exact H
  end.
Ltac exactly_by leaf := lazymatch goal with
  | |- exactly _ (d_option _) _ => apply option_exact; exactly_by leaf
  | |- exactly _ (d_list _) _ => apply list_exact; exactly_by leaf
  | |- exactly _ (d_map _) _ => apply map_exact; exactly_by leaf
  | _ => leaf
  end.
Ltac is_among := lazymatch goal with
  | |- ?x = ?x \/ _ => left; reflexivity
  | |- _ \/ _ => right; is_among
  end.
Ltac once_in U := eapply unrepeated_in; [exact U|cbn [hist_fields numfmt_fields prop_fields map In]; is_among].
Ltac reads_by leaf O U := repeat match goal with
  | H : jbind _ _ = JOk _ |- _ => apply jbind_ok in H as (? & ? & H)
  | H : JOk _ = JOk _ |- _ => injection H as <-
  | H : JErr = JOk _ |- _ => discriminate H
  | H : need _ (s2z _) _ = JOk _ |- _ => eapply need_iff in H; [|exactly_by leaf|exact O|once_in U]
  | H : dflt _ _ (s2z _) _ = JOk _ |- _ => eapply dflt_iff in H; [|exactly_by leaf|exact O|once_in U]
  | H : opt _ (s2z _) _ = JOk _ |- _ => eapply opt_iff in H; [|exactly_by leaf|exact O|once_in U]
  end.
Ltac writes_by leaf O U := repeat match goal with
  | |- jbind (need _ (s2z _) _) _ = _ => eapply step_need; [exactly_by leaf|exact O|once_in U|eassumption|]
  | |- jbind (dflt _ _ (s2z _) _) _ = _ => eapply step_dflt; [exactly_by leaf|exact O|once_in U|eassumption|]
  | |- jbind (opt _ (s2z _) _) _ = _ => eapply step_opt; [exactly_by leaf|exact O|once_in U|eassumption|]
  end.
Ltac reads O U := reads_by leaf_exactly O U.
Ltac writes O U := writes_by leaf_exactly O U.

(** ** Texts *)
Lemma format_exact n : exactly n d_numfmt format_doc.
Proof.
  intros j S M x. destruct j as [| | | | | |o]; cbn [d_numfmt]; try (split; [discriminate|intros H; inversion H]).
  pose proof (sobj_less _ _ S M) as O. split.
  - intros H. apply d_once_ok in H as [U H]. reads O U. constructor; [apply once_iff; exact U|assumption..].
  - intros H. inversion H as [? a b r c d e f U]; subst. apply once_iff in U. unfold d_once, numfmt_fields.
    rewrite U. writes O U. reflexivity.
Qed.
Lemma ticks_exact n : exactly n d_ticks ticks_doc.
Proof.
  apply (struct_exact n ["ticks"%string]); [reflexivity|]. intros o O U a. apply (need_iff n); [apply u64_exact|exact O|once_in U].
Qed.
Ltac text_exactly := idtac; lazymatch goal with
  | |- exactly _ d_numfmt _ => apply format_exact
  | |- exactly _ d_ticks _ => apply ticks_exact
  | _ => leaf_exactly
  end.
Definition hist_word (h : hname) : string :=
  match h with
  | NEmpty => "Empty" | NNone => "None" | NBase => "Base" | NNamed => "NamedFormat"
  | NOrdered => "OrderedFormat" | NArgument => "ArgumentFormat" | NNumber => "AsNumber"
  | NPercent => "AsPercent" | NCurrency => "AsCurrency" | NDate => "AsDate"
  | NTime => "AsTime" | NDateTime => "AsDateTime" | NTransform => "Transform"
  | NTable => "StringTableEntry"
  end.
Definition hist_index (h : hname) : Z :=
  match h with
  | NEmpty => 0 | NNone => 1 | NBase => 2 | NNamed => 3 | NOrdered => 4 | NArgument => 5 | NNumber => 6
  | NPercent => 7 | NCurrency => 8 | NDate => 9 | NTime => 10 | NDateTime => 11 | NTransform => 12 | NTable => 13
  end.
Lemma hname_exact n : exactly n d_hname (fun h j => j = txt (hist_word h) \/ j = JInt (hist_index h)).
Proof.
  intros j _ _ h. split.
  - destruct j as [| |z| |s| |]; cbn [d_hname]; try discriminate; intros H.
    + right. destruct (inr 0 13 z) eqn:E; [|discriminate]. injection H as <-. f_equal. unfold inr in E.
      assert (K : (Z.to_nat z < 14)%nat) by lia. rewrite <- (Z2Nat.id z) at 1 by lia. revert K. generalize (Z.to_nat z) as m. clear.
      intros m K. do 14 (destruct m as [|m]; [reflexivity|]). lia.
    + left. destruct (find _ hnames) as [x|] eqn:E; [|discriminate]. injection H as <-. apply find_some in E as [_ E].
      apply str_eqb_eq in E. subst s. reflexivity.
  - intros [->| ->]; destruct h; vm_compute; reflexivity.
Qed.
Lemma hist_kind n o h : sobj n o -> (times (s2z "history") o <= 1)%nat ->
  need d_hname (s2z "history") o = JOk h <-> kind "history" (hist_index h) (hist_word h) o.
Proof.
  intros O T. rewrite (need_iff n d_hname _ "history" o h (hname_exact n) O T). unfold has, kind. split.
  - intros (j & I & [->| ->]); auto.
  - intros [I|I]; eexists; (split; [exact I|auto]).
Qed.
Lemma hist_iff n dt da o h : exactly n dt text_doc -> exactly n da arg_doc -> sobj n o -> unrepeated [s2z "history"] o = true ->
  d_hist dt da o = JOk h <-> hist_doc h o.
Proof.
  intros XT XA O U. pose proof (unrepeated_in _ _ _ U (or_introl eq_refl)) as T. unfold d_hist, d_once at 1. rewrite U.
  split.
  - intros H. apply jbind_ok in H as (w & K & H). apply (hist_kind n) in K; auto. apply d_once_ok in H as [V H].
    destruct w; cbn [hist_index hist_word] in K; reads_by text_exactly O V;
      econstructor; first [exact K | apply once_iff; exact V | eassumption].
  - intros H.
    assert (W : exists w, kind "history" (hist_index w) (hist_word w) o /\ once match w with
      | NEmpty => []
      | NNone => ["culture_invariant_string"]
      | NBase => ["namespace"; "key"; "source_string"]
      | NNamed | NOrdered | NArgument => ["source_format"; "arguments"]
      | NNumber | NPercent => ["source_value"; "format_options"; "target_culture"]
      | NCurrency => ["currency_code"; "source_value"; "format_options"; "target_culture"]
      | NDate => ["date_time"; "date_style"; "target_culture"]
      | NTime => ["source_date_time"; "time_style"; "time_zone"; "target_culture"]
      | NDateTime => ["source_date_time"; "date_style"; "time_style"; "time_zone"; "target_culture"]
      | NTransform => ["source_text"; "transform"]
      | NTable => ["table_id"; "key"]
      end%string o /\ match w with
      | NEmpty => h = HEmpty | NNone => exists s, h = HNone s | NBase => exists a b c, h = HBase a b c
      | NNamed => exists t l, h = HNamed t l | NOrdered => exists t l, h = HOrdered t l
      | NArgument => exists t l, h = HArgument t l | NNumber => exists a b c, h = HNumber a b c
      | NPercent => exists a b c, h = HPercent a b c | NCurrency => exists a b c d, h = HCurrency a b c d
      | NDate => exists a b c, h = HDate a b c | NTime => exists a b c d, h = HTime a b c d
      | NDateTime => exists a b c d e, h = HDateTime a b c d e | NTransform => exists a b, h = HTransform a b
      | NTable => exists a b, h = HTable a b end).
    { destruct H; [exists NEmpty; split; [assumption|]; split; [intros k a b c v w []|reflexivity]|
        exists NNone|exists NBase|exists NNamed|exists NOrdered|exists NArgument|exists NNumber|
        exists NPercent|exists NCurrency|exists NDate|exists NTime|exists NDateTime|exists NTransform|exists NTable];
        (split; [assumption|]; split; [assumption|]; repeat eexists). }
    destruct W as (w & K & V & SH). apply (hist_kind n) in K; auto. rewrite K. cbn [jbind]. apply once_iff in V.
    unfold d_once, hist_fields. rewrite V.
    destruct w; repeat match type of SH with exists _, _ => let y := fresh in destruct SH as [y SH] end; subst h; inversion H; subst;
      writes_by text_exactly O V; reflexivity.
Qed.
(** Comparisons between names. *)
Ltac key_tests := repeat match goal with
  | |- context [str_eqb (s2z ?a) (s2z ?b)] =>
    let v := eval vm_compute in (str_eqb (s2z a) (s2z b)) in change (str_eqb (s2z a) (s2z b)) with v; cbv iota
  end.
Lemma argv_iff n dt k j a : exactly n dt text_doc -> (jsize j < n)%nat -> mild j ->
  d_argv dt k j = Some (JOk a) <-> arg_doc a (JObj [(k, j)]).
Proof.
  intros XT S M. unfold d_argv. split.
  - repeat (destruct (str_eqb k _) eqn:E;
      [apply str_eqb_eq in E; subst k; intros H; injection H as H; apply jbind_ok in H as (x & E & H); injection H as <-; constructor;
       first [now apply XT|now apply (i32_exact n)|now apply (u32_exact n)|now apply (f32_exact n)|now apply (f64_exact n)
             |now apply (i64_exact n)|now apply (u64_exact n)]|clear E]). discriminate.
  - intros H. inversion H; subst; key_tests; f_equal; apply jbind_iff; eexists; (split; [|reflexivity]);
      first [now apply XT|now apply (i32_exact n)|now apply (u32_exact n)|now apply (f32_exact n)|now apply (f64_exact n)
             |now apply (i64_exact n)|now apply (u64_exact n)].
Qed.
Lemma text_exact n : exactly n d_text text_doc /\ exactly n d_arg arg_doc.
Proof.
  induction n as [|n [XT XA]]; [split; intros j S; lia|]. split; intros j S M a.
  - destruct j as [| | | | | |o]; try (split; [discriminate|intros H; inversion H]). rewrite d_text_eq.
    pose proof (sobj_from _ _ S M) as O. split.
    + intros H. apply d_once_ok in H as [U H]. apply jbind_ok in H as (f & F & H). apply jbind_ok in H as (h & G & H). injection H as <-.
      assert (V : unrepeated [s2z "history"] o = true) by (unfold d_hist in G; now apply d_once_ok in G).
      apply (hist_iff n) in G; auto. eapply (dflt_iff n) in F; [|apply u32_exact|exact O|once_in U].
      constructor; auto. apply once_iff. unfold unrepeated in *. cbn [map forallb] in *. rewrite !andb_true_iff in *. tauto.
    + intros H. inversion H as [? f h U F G]; subst.
      assert (V : unrepeated [s2z "flags"] o = true /\ unrepeated [s2z "history"] o = true).
      { apply once_iff in U. unfold unrepeated in *. cbn [map forallb] in *. rewrite !andb_true_iff in *. tauto. }
      destruct V as [V W]. unfold d_once. rewrite V. eapply (step_dflt n); [apply u32_exact|exact O|once_in V|exact F|].
      apply jbind_iff. exists h. split; [|reflexivity]. now apply (hist_iff n).
  - destruct j as [| | | | | |[|[k v] [|e o]]]; try (split; [discriminate|intros H; inversion H]). rewrite d_arg_eq. cbn [single].
    pose proof (sobj_from _ _ S M) as O. destruct (O k v (or_introl eq_refl)) as (S' & M' & _).
    rewrite <- (argv_iff n d_text) by auto. destruct (d_argv d_text k v); split; congruence.
Qed.
