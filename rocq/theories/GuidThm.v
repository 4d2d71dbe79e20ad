(** Guid views and text form (C30, C31). *)
From Coq Require Import ZArith List Bool String Lia ZifyBool ZifyNat.
From Verif Require Import Base Str Types Versions Spec BaseFacts StrFacts Decode Guid.
Import ListNotations.
Open Scope Z_scope.

(** ** Specification of the text form, on characters *)

(** Hexadecimal digits and their values. *)
Definition hexd (c v : Z) : Prop :=
  (48 <= c <= 57 /\ v = c - 48) \/ (65 <= c <= 70 /\ v = c - 65 + 10) \/ (97 <= c <= 102 /\ v = c - 97 + 10).
(** Two characters standing for a byte: two digits, or a plus sign and a digit. *)
Definition pair_val (a b v : Z) : Prop :=
  (exists x y, hexd a x /\ hexd b y /\ v = 16 * x + y) \/ (a = 43 /\ hexd b v).
Inductive groups : str -> guid -> Prop :=
| groups_nil : groups [] []
| groups_cons a b v s g : pair_val a b v -> groups s g -> groups (a :: b :: s) (z2b v :: g).
(** Number of bytes of a character in UTF-8. *)
Definition width (c : Z) : Z := if c <? 128 then 1 else if c <? 2048 then 2 else if c <? 65536 then 3 else 4.
Fixpoint widths (s : str) : Z := match s with [] => 0 | c :: r => width c + widths r end.
(** The end of the next two bytes is inside a character. *)
Definition straddles (s : str) : Prop :=
  match s with
  | [] => False
  | c :: r => 3 <= width c \/ (width c = 1 /\ match r with [] => False | d :: _ => 2 <= width d end)
  end.
(** Unicode's White_Space (PropList.txt). *)
Definition white_space : list Z :=
  [9; 10; 11; 12; 13; 32; 133; 160; 5760; 8192; 8193; 8194; 8195; 8196; 8197; 8198; 8199; 8200; 8201; 8202; 8232; 8233; 8239; 8287; 12288].
Definition white (c : Z) : bool := existsb (Z.eqb c) white_space.
(** Without dashes, white space around it, an opening and a closing brace. *)
Definition no_space_ends (m : str) : Prop :=
  m = [] \/ exists a b, white a = false /\ white b = false
                        /\ (m = [a] /\ a = b \/ exists k, m = a :: k ++ [b]).
Definition cleaned (s t : str) : Prop :=
  exists l m r m1,
    filter (fun c => negb (c =? 45)) s = l ++ m ++ r
    /\ forallb white l = true /\ forallb white r = true /\ no_space_ends m
    /\ (m = 123 :: m1 \/ m1 = m /\ (forall k, m <> 123 :: k))
    /\ (m1 = t ++ [125] \/ t = m1 /\ (forall k, m1 <> k ++ [125])).

(** ** Views *)
Lemma z2b_range_inj a b : 0 <= a < 256 -> 0 <= b < 256 -> z2b a = z2b b -> a = b.
Proof. intros Ha Hb E. apply (f_equal b2z) in E. rewrite !b2z_z2b in E. lia. Qed.
Lemma u128_of_to g : len g = 16 -> guid_of_u128 (guid_to_u128 g) = g.
Proof. intros H. unfold guid_of_u128, guid_to_u128. now apply le_bytes_val'. Qed.
Lemma u128_to_of v : 0 <= v < 2 ^ 128 -> guid_to_u128 (guid_of_u128 v) = v.
Proof.
  intros H. unfold guid_of_u128, guid_to_u128. rewrite le_val_bytes. apply Z.mod_small. exact H.
Qed.
Lemma guid_16 (g : guid) : len g = 16 -> exists a b c d e f h i j k l m n o p q,
  g = [a; b; c; d; e; f; h; i; j; k; l; m; n; o; p; q].
Proof.
  intros H. unfold len in H.
  do 16 (destruct g as [|? g]; [cbn in H; lia|]). destruct g; [|cbn in H; lia].
  repeat eexists.
Qed.
Lemma u32_of_to g : len g = 16 -> guid_of_u32 (guid_to_u32 g) = g.
Proof.
  intros H. destruct (guid_16 g H) as (a & b & c & d & e & f & h & i & j & k & l & m & n & o & p & q & ->).
  unfold guid_of_u32, guid_to_u32. cbn [firstn skipn flat_map].
  rewrite (le_bytes_val' 4 [a; b; c; d] eq_refl), (le_bytes_val' 4 [e; f; h; i] eq_refl),
    (le_bytes_val' 4 [j; k; l; m] eq_refl), (le_bytes_val' 4 [n; o; p; q] eq_refl). reflexivity.
Qed.
Lemma u32_to_of a b c d : 0 <= a < 2 ^ 32 -> 0 <= b < 2 ^ 32 -> 0 <= c < 2 ^ 32 -> 0 <= d < 2 ^ 32 ->
  guid_to_u32 (guid_of_u32 [a; b; c; d]) = [a; b; c; d].
Proof.
  intros Ha Hb Hc Hd.
  change (guid_to_u32 (guid_of_u32 [a; b; c; d]))
    with [le_val (le_bytes 4 a); le_val (le_bytes 4 b); le_val (le_bytes 4 c); le_val (le_bytes 4 d)].
  rewrite !le_val_bytes. change (2 ^ (8 * Z.of_nat 4)) with (2 ^ 32).
  rewrite !Z.mod_small by assumption. reflexivity.
Qed.
(** The views agree: the words are the digits of the 128-bit number in base 2^32,
    the bytes its digits in base 256, least significant first. *)
Lemma words_of_u128 g : len g = 16 ->
  match guid_to_u32 g with
  | [a; b; c; d] => guid_to_u128 g = a + 2 ^ 32 * b + 2 ^ 64 * c + 2 ^ 96 * d
  | _ => False
  end.
Proof.
  intros H. destruct (guid_16 g H) as (a & b & c & d & e & f & h & i & j & k & l & m & n & o & p & q & ->).
  unfold guid_to_u32, guid_to_u128. cbn [firstn skipn le_val].
  change (2 ^ 32) with 4294967296. change (2 ^ 64) with 18446744073709551616.
  change (2 ^ 96) with 79228162514264337593543950336. lia.
Qed.
Lemma le_val_digit g : forall n, (n < List.length g)%nat ->
  b2z (nth n g Byte.x00) = le_val g / 2 ^ (8 * Z.of_nat n) mod 256.
Proof.
  induction g as [|b g IH]; intros n H; [cbn in H; lia|]. destruct n as [|n].
  - cbn [nth le_val]. change (2 ^ (8 * Z.of_nat 0)) with 1. pose proof (b2z_range b). rewrite Z.div_1_r. lia.
  - cbn [nth le_val List.length] in *. rewrite IH by lia. f_equal.
    replace (8 * Z.of_nat (S n)) with (8 + 8 * Z.of_nat n) by lia.
    rewrite Z.pow_add_r by lia. rewrite <- Z.div_div by lia. f_equal.
    change (2 ^ 8) with 256. pose proof (b2z_range b). lia.
Qed.
Lemma zero_iff g : len g = 16 -> guid_is_zero g = true <-> g = repeat Byte.x00 16.
Proof.
  intros H. unfold guid_is_zero. rewrite Z.eqb_eq. split.
  - intros E. rewrite <- (u128_of_to g H), E. reflexivity.
  - intros ->. reflexivity.
Qed.

(** ** Cleaning *)
Lemma white_eq c : is_space c = white c.
Proof. unfold is_space, white, white_space, inr. cbn [existsb]. lia. Qed.
Lemma drop_step c r : drop_space (c :: r) = if white c then drop_space r else c :: r.
Proof. cbn [drop_space]. now rewrite white_eq. Qed.
Lemma drop_space_spec s : exists l, s = l ++ drop_space s /\ forallb white l = true
  /\ (drop_space s = [] \/ exists a k, drop_space s = a :: k /\ white a = false).
Proof.
  induction s as [|c s IH].
  - exists []. repeat split; auto.
  - rewrite drop_step. destruct (white c) eqn:E.
    + destruct IH as (l & E1 & E2 & E3). exists (c :: l). cbn [app forallb]. rewrite E, E2, <- E1. auto.
    + exists []. cbn [app forallb]. repeat split. right. eauto.
Qed.
Lemma forallb_rev {A} (f : A -> bool) l : forallb f (rev l) = forallb f l.
Proof.
  induction l as [|a l IH]; [reflexivity|]. cbn [rev]. rewrite forallb_app, IH. cbn [forallb].
  rewrite andb_true_r, andb_comm. reflexivity.
Qed.
Lemma trim_spec s : exists l r, s = l ++ trim s ++ r /\ forallb white l = true /\ forallb white r = true
  /\ no_space_ends (trim s).
Proof.
  unfold trim. destruct (drop_space_spec s) as (l & E1 & E2 & E3). set (u := drop_space s) in *. clearbody u.
  destruct (drop_space_spec (rev u)) as (r & F1 & F2 & F3). set (w := drop_space (rev u)) in *. clearbody w.
  assert (U : u = rev w ++ rev r) by (rewrite <- rev_app_distr, <- F1; symmetry; apply rev_involutive).
  exists l, (rev r). split; [rewrite <- U; exact E1|]. split; [exact E2|]. split; [now rewrite forallb_rev|].
  unfold no_space_ends. destruct F3 as [->|(b & k & -> & Hb)]; [now left|]. right.
  cbn [rev] in *. destruct E3 as [->|(a & k' & -> & Ha)].
  - destruct (rev k); discriminate.
  - exists a, b. split; [exact Ha|]. split; [exact Hb|]. destruct (rev k) as [|a' k'']; cbn [app] in *.
    + left. injection U as -> _. auto.
    + right. injection U as -> _. exists k''. reflexivity.
Qed.
Lemma strip_prefix_spec c m : m = c :: strip_prefix c m \/ strip_prefix c m = m /\ (forall k, m <> c :: k).
Proof.
  destruct m as [|a m]; cbn [strip_prefix]; [right; split; [reflexivity|discriminate]|].
  destruct (Z.eqb_spec a c) as [->|N]; [now left|]. right. split; [reflexivity|]. intros k E. injection E. congruence.
Qed.
Lemma strip_suffix_spec c m : m = strip_suffix c m ++ [c] \/ strip_suffix c m = m /\ (forall k, m <> k ++ [c]).
Proof.
  unfold strip_suffix. destruct (strip_prefix_spec c (rev m)) as [E|[E N]].
  - left. rewrite <- (rev_involutive m) at 1. rewrite E at 1. reflexivity.
  - right. rewrite E, rev_involutive. split; [reflexivity|]. intros k X. apply (N (rev k)).
    rewrite X, rev_app_distr. reflexivity.
Qed.
Lemma clean_spec s : cleaned s (guid_clean s).
Proof.
  unfold guid_clean. set (f := filter _ s). destruct (trim_spec f) as (l & r & E & El & Er & N).
  exists l, (trim f), r, (strip_prefix 123 (trim f)). repeat (split; [assumption|]).
  split; [apply strip_prefix_spec|apply strip_suffix_spec].
Qed.
(** Cleaning is determined. *)
Lemma lead_unique l : forall l' m m', l ++ m = l' ++ m' -> forallb white l = true -> forallb white l' = true ->
  (m = [] \/ exists a k, m = a :: k /\ white a = false) ->
  (m' = [] \/ exists a k, m' = a :: k /\ white a = false) -> l = l' /\ m = m'.
Proof.
  induction l as [|c l IH]; intros l' m m' E Hl Hl' Hm Hm'.
  - cbn [app] in E. subst m. destruct l' as [|c' l']; [split; reflexivity|]. exfalso.
    cbn [forallb] in Hl'. andbs. destruct Hm as [E|(a & k & E & X)]; [discriminate|]. injection E as -> _. congruence.
  - destruct l' as [|c' l'].
    + cbn [app] in E. subst m'. exfalso. cbn [forallb] in Hl. andbs.
      destruct Hm' as [E|(a & k & E & X)]; [discriminate|]. injection E as -> _. congruence.
    + cbn [app] in E. injection E as -> E. cbn [forallb] in *. andbs. destruct (IH l' m m') as [-> ->]; auto.
Qed.
Lemma ends_lead m r : no_space_ends m -> m <> [] -> exists a k, m ++ r = a :: k /\ white a = false.
Proof.
  intros [->|(a & b & Ha & _ & [[-> _]|(k & ->)])] N; [contradiction| |]; cbn [app]; eauto.
Qed.
Lemma ends_rev m : no_space_ends m -> rev m = [] \/ exists a k, rev m = a :: k /\ white a = false.
Proof.
  intros [->|(a & b & Ha & Hb & [[-> _]|(k & ->)])]; [now left| |]; right.
  - cbn. eauto. - cbn [rev]. rewrite rev_app_distr. cbn. eauto.
Qed.
Lemma spaces_only l : forallb white l = true -> drop_space l = [].
Proof. induction l as [|c l IH]; [reflexivity|]. rewrite drop_step. cbn [forallb]. intros H; andbs. now rewrite H, IH. Qed.
Lemma trim_unique l m r : forallb white l = true -> forallb white r = true -> no_space_ends m ->
  m = trim (l ++ m ++ r).
Proof.
  intros Hl Hr Hm. unfold trim.
  assert (D : forall l m, forallb white l = true -> (m = [] \/ exists a k, m = a :: k /\ white a = false) ->
    drop_space (l ++ m) = m).
  { clear. induction l as [|c l IH]; intros m Hl Hm.
    - destruct Hm as [->|(a & k & -> & Ha)]; cbn [app]; [reflexivity|]. now rewrite drop_step, Ha.
    - cbn [forallb] in Hl. andbs. cbn [app]. rewrite drop_step, H. auto. }
  destruct m as [|x m].
  - cbn [app]. rewrite (spaces_only (l ++ r)) by (rewrite forallb_app, Hl, Hr; reflexivity). reflexivity.
  - rewrite D; [|exact Hl|right; apply ends_lead; [exact Hm|discriminate]].
    rewrite rev_app_distr, D; [now rewrite rev_involutive|now rewrite forallb_rev|now apply ends_rev].
Qed.
Lemma cleaned_unique s t : cleaned s t -> t = guid_clean s.
Proof.
  intros (l & m & r & m1 & E & Hl & Hr & Hm & H1 & H2). unfold guid_clean. rewrite E.
  rewrite <- (trim_unique l m r Hl Hr Hm).
  assert (P : strip_prefix 123 m = m1).
  { destruct H1 as [->|[-> N]]; [cbn [strip_prefix]; now rewrite Z.eqb_refl|].
    destruct (strip_prefix_spec 123 m) as [X|[X _]]; [exfalso; eapply N; exact X|exact X]. }
  rewrite P. destruct H2 as [->|[-> N]].
  - unfold strip_suffix. rewrite rev_app_distr. cbn [rev app strip_prefix]. rewrite Z.eqb_refl. now rewrite rev_involutive.
  - destruct (strip_suffix_spec 125 m1) as [X|[X _]]; [exfalso; eapply N; exact X|now rewrite X].
Qed.

(** ** Characters and bytes *)
Lemma width_pos c : 1 <= width c.
Proof. unfold width. destruct (c <? 128), (c <? 2048), (c <? 65536); lia. Qed.
Lemma scalar_bounds c : scalar c = true -> 0 <= c <= 1114111.
Proof. unfold scalar, in_range. lia. Qed.
Lemma cont_iff x : is_cont x = true <-> 128 <= x <= 191.
Proof. unfold is_cont, inr. lia. Qed.
(** A character is a first byte that is not a continuation byte, then continuation bytes. *)
Lemma char_bytes c : scalar c = true ->
  match utf8_char c with
  | [] => False
  | a :: l => is_cont a = false /\ forallb is_cont l = true /\ 1 + len l = width c /\ (a < 128 -> c = a) /\ (128 <= a -> 2 <= width c)
              /\ 0 <= a
  end.
Proof.
  intros H. apply scalar_bounds in H. unfold utf8_char, width.
  destruct (Z.ltb_spec c 128).
  { cbn [forallb]. rewrite len_nil. repeat split; try lia. destruct (is_cont c) eqn:E; [apply cont_iff in E; lia|reflexivity]. }
  assert (F : forall a l n, 192 <= a -> Forall (fun x => 128 <= x <= 191) l -> len l = n -> 1 <= n ->
    is_cont a = false /\ forallb is_cont l = true /\ 1 + len l = 1 + n /\ (a < 128 -> c = a) /\ (128 <= a -> 2 <= 1 + n) /\ 0 <= a).
  { intros a l n Ha Hl L N. repeat split; try lia.
    - destruct (is_cont a) eqn:E; [apply cont_iff in E; lia|reflexivity].
    - apply forallb_forall. intros x Hx. rewrite Forall_forall in Hl. apply cont_iff. auto. }
  destruct (Z.ltb_spec c 2048).
  { apply (F _ _ 1); [lia|repeat constructor; lia|reflexivity|lia]. }
  destruct (Z.ltb_spec c 65536).
  { apply (F _ _ 2); [lia|repeat constructor; lia|reflexivity|lia]. }
  apply (F _ _ 3); [lia|repeat constructor; lia|reflexivity|lia].
Qed.
Lemma widths_len s : is_str s = true -> len (utf8_enc s) = widths s.
Proof.
  unfold is_str, utf8_enc. induction s as [|c s IH]; cbn [forallb flat_map widths]; [reflexivity|]. intros H. andbs.
  rewrite len_app, IH by assumption. pose proof (char_bytes c H) as X. destruct (utf8_char c); [contradiction|].
  rewrite len_cons. lia.
Qed.
Lemma starts_not s : is_str s = true -> starts_cont (utf8_enc s) = false.
Proof.
  unfold is_str, utf8_enc. destruct s as [|c s]; cbn [forallb flat_map]; [reflexivity|]. intros H. andbs.
  pose proof (char_bytes c H) as X. destruct (utf8_char c) as [|a l]; [contradiction|]. cbn [app starts_cont]. tauto.
Qed.
Lemma hexd_iff c v : hex_val c = Some v <-> hexd c v.
Proof.
  unfold hex_val, hexd, inr. destruct ((48 <=? c) && (c <=? 57)) eqn:E1.
  { split; [intros X; injection X as <-; lia|intros X; f_equal; lia]. }
  destruct ((65 <=? c) && (c <=? 70)) eqn:E2.
  { split; [intros X; injection X as <-; lia|intros X; f_equal; lia]. }
  destruct ((97 <=? c) && (c <=? 102)) eqn:E3.
  { split; [intros X; injection X as <-; lia|intros X; f_equal; lia]. }
  split; [discriminate|intros X; lia].
Qed.
Lemma hexd_range c v : hexd c v -> 48 <= c <= 102 /\ 0 <= v < 16.
Proof. unfold hexd. lia. Qed.
Lemma pair_iff a b x : parse_hex2 a b = Some x <-> exists v, pair_val a b v /\ x = z2b v.
Proof.
  unfold parse_hex2, pair_val. split.
  - destruct (hex_val b) as [y|] eqn:Eb; [|discriminate]. apply hexd_iff in Eb.
    destruct (Z.eqb_spec a 43) as [->|Na].
    + intros X. injection X as <-. exists y. auto.
    + destruct (hex_val a) as [u|] eqn:Ea; [|discriminate]. apply hexd_iff in Ea.
      intros X. injection X as <-. exists (16 * u + y). split; [left; eauto|reflexivity].
  - intros (v & [(u & y & Ha & Hb & ->)|[-> Hb]] & ->).
    + pose proof (hexd_range _ _ Ha). apply hexd_iff in Hb. rewrite Hb.
      destruct (Z.eqb_spec a 43); [lia|]. apply hexd_iff in Ha. now rewrite Ha.
    + apply hexd_iff in Hb. rewrite Hb. reflexivity.
Qed.
Lemma pair_range a b v : pair_val a b v -> 43 <= a <= 102 /\ 48 <= b <= 102 /\ 0 <= v < 256.
Proof.
  intros [(x & y & Ha & Hb & ->)|[-> Hb]].
  - apply hexd_range in Ha, Hb. lia. - apply hexd_range in Hb. lia.
Qed.

(** ** Parsing *)

(** Two whole characters, or one of two bytes, that are no group. *)
Definition bad (s : str) : Prop :=
  match s with
  | [] => False
  | c :: r => width c = 2 \/ (width c = 1 /\ match r with [] => False | d :: _ => width d = 1 /\ forall v, ~ pair_val c d v end)
  end.
Lemma groups_app a g : groups a g -> forall b h, groups b h -> groups (a ++ b) (g ++ h).
Proof. induction 1; intros; cbn [app]; [assumption|constructor; auto]. Qed.
Lemma groups_widths s g : groups s g -> widths s = 2 * len g.
Proof.
  induction 1 as [|a b v s g P G IH]; cbn [widths]; [reflexivity|]. rewrite len_cons, IH.
  apply pair_range in P. unfold width. destruct (Z.ltb_spec a 128), (Z.ltb_spec b 128); lia.
Qed.
Lemma parse_spec n : forall s, is_str s = true -> widths s = 2 * Z.of_nat n ->
  match parse_groups n (utf8_enc s) with
  | Parsed g => groups s g
  | Panicked => exists pre g r, s = pre ++ r /\ groups pre g /\ straddles r
  | Rejected => exists pre g r, s = pre ++ r /\ groups pre g /\ bad r
  end.
Proof.
  induction n as [|n IH]; intros s Hs W.
  - cbn [parse_groups]. destruct s as [|c s]; [constructor|]. exfalso. cbn [widths] in W. pose proof (width_pos c).
    assert (0 <= widths s) by (clear; induction s as [|d s IH]; cbn [widths]; [lia|pose proof (width_pos d); lia]). lia.
  - assert (W0 : forall s, 0 <= widths s) by (clear; induction s as [|d s IH]; cbn [widths]; [lia|pose proof (width_pos d); lia]).
    destruct s as [|c s]; [cbn [widths] in W; lia|].
    unfold is_str in Hs. cbn [forallb] in Hs. andbs. fold (is_str s) in *. rename H into Hc. rename H0 into Hs.
    unfold utf8_enc. cbn [flat_map]. fold (utf8_enc s).
    pose proof (char_bytes c Hc) as X. destruct (utf8_char c) as [|a l] eqn:Ec; [contradiction|].
    destruct X as (Xa & Xl & XL & Xc & Xw & X0). cbn [app].
    destruct l as [|b l].
    + (* one byte *)
      rewrite len_nil in XL. cbn [app].
      assert (Ea : a < 128) by (destruct (Z.ltb_spec a 128); [assumption|specialize (Xw ltac:(lia)); lia]).
      specialize (Xc Ea). subst c. cbn [widths] in W.
      destruct s as [|d s]; [cbn [widths] in W; lia|].
      unfold is_str in Hs. cbn [forallb] in Hs. andbs. fold (is_str s) in *. rename H into Hd. rename H0 into Hs.
      unfold utf8_enc. cbn [flat_map]. fold (utf8_enc s).
      pose proof (char_bytes d Hd) as X. destruct (utf8_char d) as [|b m] eqn:Ed; [contradiction|].
      destruct X as (Ya & Yl & YL & Yc & Yw & Y0). cbn [app parse_groups]. rewrite Xa. cbn [orb].
      destruct m as [|e m].
      * rewrite len_nil in YL. cbn [app]. rewrite (starts_not s Hs).
        assert (Eb : b < 128) by (destruct (Z.ltb_spec b 128); [assumption|specialize (Yw ltac:(lia)); lia]).
        specialize (Yc Eb). subst d.
        destruct (parse_hex2 a b) as [x|] eqn:Ep.
        -- apply pair_iff in Ep as (v & Pv & ->). specialize (IH s Hs ltac:(cbn [widths] in W; lia)).
           destruct (parse_groups n (utf8_enc s)) as [g| |].
           ++ now constructor.
           ++ destruct IH as (pre & g & r & -> & G & B). exists (a :: b :: pre), (z2b v :: g), r.
              split; [reflexivity|]. split; [now constructor|exact B].
           ++ destruct IH as (pre & g & r & -> & G & B). exists (a :: b :: pre), (z2b v :: g), r.
              split; [reflexivity|]. split; [now constructor|exact B].
        -- exists [], [], (a :: b :: s). split; [reflexivity|]. split; [constructor|]. cbn [bad]. right.
           split; [lia|]. split; [lia|]. intros v Pv.
           assert (Y : parse_hex2 a b = Some (z2b v)) by (apply pair_iff; eauto). congruence.
      * cbn [app forallb starts_cont] in *. andbs. rewrite H. exists [], [], (a :: d :: s).
        split; [reflexivity|]. split; [constructor|]. cbn [straddles]. right. split; [lia|].
        rewrite !len_cons in YL. pose proof (len_nonneg m). lia.
    + (* more bytes *)
      cbn [app parse_groups forallb] in *. andbs. rewrite Xa. cbn [orb].
      destruct l as [|e l].
      * cbn [app]. rewrite (starts_not s Hs).
        assert (Ep : parse_hex2 a b = None).
        { destruct (parse_hex2 a b) as [x|] eqn:Ep; [|reflexivity]. apply pair_iff in Ep as (v & Pv & _).
          apply pair_range in Pv. apply cont_iff in H. lia. }
        rewrite Ep. exists [], [], (c :: s). split; [reflexivity|]. split; [constructor|]. cbn [bad]. left.
        rewrite len_cons, len_nil in XL. lia.
      * cbn [app forallb starts_cont] in *. andbs. match goal with Q : is_cont e = true |- _ => rewrite Q end. exists [], [], (c :: s).
        split; [reflexivity|]. split; [constructor|]. cbn [straddles]. left.
        rewrite !len_cons in XL. pose proof (len_nonneg l). lia.
Qed.
(** The three outcomes exclude each other. *)
Lemma width_small a : 43 <= a <= 102 -> width a = 1.
Proof. intros H. unfold width. destruct (Z.ltb_spec a 128); lia. Qed.
Lemma groups_first s g : groups s g -> ~ straddles s /\ ~ bad s.
Proof.
  intros [|a b v r h P G]; [split; intros []|].
  pose proof (pair_range _ _ _ P) as R. cbn [straddles bad].
  rewrite (width_small a), (width_small b) by lia. split; [intros [|[_ H]]; lia|].
  intros [|(_ & _ & H)]; [lia|]. eapply H, P.
Qed.
Lemma straddles_not_bad s : straddles s -> ~ bad s.
Proof.
  destruct s as [|c [|d r]]; cbn [straddles bad]; [tauto|lia|lia].
Qed.
Lemma groups_cut pre g : groups pre g -> forall r h, groups (pre ++ r) h -> exists h', groups r h'.
Proof.
  induction 1 as [|a b v s g P G IH]; intros r h H; cbn [app] in H; [eauto|]. inversion H; subst. eauto.
Qed.
Lemma groups_prefix pre g : groups pre g -> forall r pre' g' r', pre ++ r = pre' ++ r' -> groups pre' g' ->
  (straddles r \/ bad r) -> (straddles r' \/ bad r') -> pre = pre' /\ r = r'.
Proof.
  induction 1 as [|a b v s g P G IH]; intros r pre' g' r' E G' B B'.
  - cbn [app] in E. subst r. destruct G' as [|a b v s' g' P' G']; [split; reflexivity|]. exfalso.
    pose proof (pair_range _ _ _ P') as R. cbn [app straddles bad] in B.
    rewrite (width_small a), (width_small b) in B by lia.
    destruct B as [[|[_ ?]]|[|(_ & _ & X)]]; try lia. eapply X, P'.
  - destruct G' as [|a' b' v' s' g' P' G'].
    + exfalso. cbn [app] in E. subst r'.
      pose proof (pair_range _ _ _ P) as R. cbn [straddles bad] in B'.
      rewrite (width_small a), (width_small b) in B' by lia.
      destruct B' as [[|[_ ?]]|[|(_ & _ & X)]]; try lia. eapply X, P.
    + cbn [app] in E. injection E as -> -> E. destruct (IH _ _ _ _ E G' B B') as [-> ->]. auto.
Qed.
Lemma is_str_rev s : is_str (rev s) = is_str s. Proof. apply forallb_rev. Qed.
Lemma clean_str s : is_str s = true -> is_str (guid_clean s) = true.
Proof.
  intros H. unfold guid_clean.
  assert (F : is_str (filter (fun c => negb (c =? 45)) s) = true).
  { unfold is_str in *. rewrite forallb_forall in *. intros x Hx. apply filter_In in Hx. apply H, Hx. }
  assert (D : forall u, is_str u = true -> is_str (drop_space u) = true).
  { induction u as [|c u IH]; [auto|]. rewrite drop_step. intros X. destruct (white c); [|exact X].
    unfold is_str in X. cbn [forallb] in X. andbs. auto. }
  assert (S1 : forall c u, is_str u = true -> is_str (strip_prefix c u) = true).
  { intros c [|a u]; cbn [strip_prefix]; [auto|]. intros X. destruct (a =? c); [|exact X].
    unfold is_str in X. cbn [forallb] in X. andbs. auto. }
  unfold strip_suffix, trim. rewrite is_str_rev. apply S1. rewrite is_str_rev. apply S1. rewrite is_str_rev.
  apply D. rewrite is_str_rev. apply D. exact F.
Qed.
Lemma parse_unfold s : is_str s = true ->
  guid_parse s = if str_eqb (guid_clean s) [48] then Parsed (repeat Byte.x00 16)
                 else if negb (widths (guid_clean s) =? 32) then Rejected
                 else parse_groups 16 (utf8_enc (guid_clean s)).
Proof. intros H. unfold guid_parse. rewrite widths_len by now apply clean_str. reflexivity. Qed.
Lemma parse_ok_iff s g : is_str s = true ->
  guid_parse s = Parsed g <->
  exists t, cleaned s t /\ ((t = [48] /\ g = repeat Byte.x00 16) \/ (groups t g /\ len g = 16)).
Proof.
  intros Hs. rewrite parse_unfold by exact Hs. pose proof (clean_str s Hs) as Ht.
  assert (C : forall P : str -> Prop, (exists t, cleaned s t /\ P t) <-> P (guid_clean s)).
  { intros P. split; [intros (t & Ct & Pt); apply cleaned_unique in Ct; now subst|]. intros HP. eexists. split; [apply clean_spec|exact HP]. }
  rewrite (C (fun t => (t = [48] /\ g = repeat Byte.x00 16) \/ (groups t g /\ len g = 16))).
  set (t := guid_clean s) in *. clearbody t.
  destruct (str_eqb t [48]) eqn:E0.
  { apply str_eqb_eq in E0. subst t. split; [intros X; injection X as <-; left; auto|].
    intros [[_ ->]|[G _]]; [reflexivity|]. inversion G. }
  assert (N : t <> [48]) by (intros ->; discriminate).
  destruct (Z.eqb_spec (widths t) 32) as [W|W]; cbn [negb].
  - pose proof (parse_spec 16 t Ht W) as P. split.
    + intros E. rewrite E in P. right. split; [exact P|]. apply groups_widths in P. lia.
    + intros [[X _]|[G L]]; [contradiction|].
      destruct (parse_groups 16 (utf8_enc t)) as [h| |].
      * f_equal. clear -P G. revert h P. induction G as [|a b v s g Pv G IH]; intros h P; inversion P; subst; [reflexivity|].
        f_equal; [|auto]. f_equal.
        assert (X : parse_hex2 a b = Some (z2b v)) by (apply pair_iff; eauto).
        assert (Y : parse_hex2 a b = Some (z2b v0)) by (apply pair_iff; eauto).
        match goal with Q : pair_val a b v0 |- _ => apply pair_range in Q end. pose proof (pair_range _ _ _ Pv).
        apply z2b_range_inj; [lia|lia|congruence].
      * exfalso. destruct P as (pre & h & r & -> & Gp & B). destruct (groups_cut _ _ Gp _ _ G) as (h' & Gr).
        apply groups_first in Gr. tauto.
      * exfalso. destruct P as (pre & h & r & -> & Gp & B). destruct (groups_cut _ _ Gp _ _ G) as (h' & Gr).
        apply groups_first in Gr. tauto.
  - split; [discriminate|]. intros [[X _]|[G L]]; [contradiction|]. apply groups_widths in G. lia.
Qed.
Lemma parse_panic_iff s : is_str s = true ->
  guid_parse s = Panicked <->
  exists t pre g r, cleaned s t /\ widths t = 32 /\ t = pre ++ r /\ groups pre g /\ straddles r.
Proof.
  intros Hs. rewrite parse_unfold by exact Hs. pose proof (clean_str s Hs) as Ht.
  assert (C : (exists t pre g r, cleaned s t /\ widths t = 32 /\ t = pre ++ r /\ groups pre g /\ straddles r)
     <-> exists pre g r, widths (guid_clean s) = 32 /\ guid_clean s = pre ++ r /\ groups pre g /\ straddles r).
  { split; [intros (t & pre & g & r & Ct & X); apply cleaned_unique in Ct; subst; eauto|].
    intros (pre & g & r & X). exists (guid_clean s), pre, g, r. split; [apply clean_spec|exact X]. }
  rewrite C. set (t := guid_clean s) in *. clearbody t.
  destruct (str_eqb t [48]) eqn:E0.
  { apply str_eqb_eq in E0. subst t. split; [discriminate|]. intros (pre & g & r & X & _). discriminate X. }
  destruct (Z.eqb_spec (widths t) 32) as [W|W]; cbn [negb].
  - pose proof (parse_spec 16 t Ht W) as P. split.
    + intros E. rewrite E in P. destruct P as (pre & g & r & X). eauto.
    + intros (pre & g & r & _ & -> & G & B). destruct (parse_groups 16 (utf8_enc (pre ++ r))) as [h| |].
      * exfalso. destruct (groups_cut _ _ G _ _ P) as (h' & Gr). apply groups_first in Gr. tauto.
      * exfalso. destruct P as (pre' & g' & r' & E & G' & B').
        destruct (groups_prefix _ _ G _ _ _ _ E G' (or_introl B) (or_intror B')) as [-> ->].
        now apply straddles_not_bad in B.
      * reflexivity.
  - split; [discriminate|]. intros (pre & g & r & X & _). contradiction.
Qed.

(** ** Printing *)
Lemma digit_hexd d : 0 <= d < 16 -> hexd (hex_digit d) d.
Proof. intros H. unfold hexd, hex_digit. destruct (Z.ltb_spec d 10); lia. Qed.
Lemma hex2_pair b : exists x y, hex2 b = [x; y] /\ pair_val x y (b2z b) /\ white x = false /\ white y = false
  /\ x <> 45 /\ y <> 45 /\ x <> 123 /\ y <> 125.
Proof.
  pose proof (b2z_range b). exists (hex_digit (b2z b / 16)), (hex_digit (b2z b mod 16)). split; [reflexivity|]. split.
  - left. exists (b2z b / 16), (b2z b mod 16). split; [apply digit_hexd; lia|]. split; [apply digit_hexd; lia|lia].
  - pose proof (hexd_range _ _ (digit_hexd (b2z b / 16) ltac:(lia))).
    pose proof (hexd_range _ _ (digit_hexd (b2z b mod 16) ltac:(lia))).
    unfold white, white_space. cbn [existsb]. lia.
Qed.
Lemma hex_groups g : groups (flat_map hex2 g) g.
Proof.
  induction g as [|b g IH]; cbn [flat_map]; [constructor|].
  destruct (hex2_pair b) as (x & y & -> & P & _). cbn [app]. rewrite <- (z2b_b2z b). now constructor.
Qed.
Lemma hex_nodash g : filter (fun c => negb (c =? 45)) (flat_map hex2 g) = flat_map hex2 g.
Proof.
  induction g as [|b g IH]; cbn [flat_map]; [reflexivity|].
  destruct (hex2_pair b) as (x & y & -> & _ & _ & _ & Nx & Ny & _). cbn [app filter].
  destruct (Z.eqb_spec x 45); [contradiction|]. destruct (Z.eqb_spec y 45); [contradiction|]. cbn [negb]. now rewrite IH.
Qed.
Lemma display_filter g : guid_is_zero g = false ->
  filter (fun c => negb (c =? 45)) (guid_display g) = flat_map hex2 g.
Proof.
  intros Z0. unfold guid_display. rewrite Z0. rewrite !filter_app, !hex_nodash.
  change (filter (fun c => negb (c =? 45)) [45]) with (@nil Z). cbn [app].
  rewrite <- !flat_map_app. f_equal.
  replace (firstn 2 (skipn 8 g) ++ skipn 10 g) with (skipn 8 g).
  2:{ rewrite <- (firstn_skipn 2 (skipn 8 g)) at 1. f_equal. clear. do 8 (destruct g as [|? g]; [reflexivity|]). reflexivity. }
  replace (firstn 2 (skipn 6 g) ++ skipn 8 g) with (skipn 6 g).
  2:{ rewrite <- (firstn_skipn 2 (skipn 6 g)) at 1. f_equal. clear. do 6 (destruct g as [|? g]; [reflexivity|]). reflexivity. }
  replace (firstn 2 (skipn 4 g) ++ skipn 6 g) with (skipn 4 g).
  2:{ rewrite <- (firstn_skipn 2 (skipn 4 g)) at 1. f_equal. clear. do 4 (destruct g as [|? g]; [reflexivity|]). reflexivity. }
  apply firstn_skipn.
Qed.
Lemma display_clean g : len g = 16 -> guid_is_zero g = false -> cleaned (guid_display g) (flat_map hex2 g).
Proof.
  intros L Z0. exists [], (flat_map hex2 g), [], (flat_map hex2 g).
  rewrite display_filter by exact Z0. rewrite app_nil_r. split; [reflexivity|]. split; [reflexivity|]. split; [reflexivity|].
  destruct g as [|b g]; [discriminate L|].
  assert (Last : exists h c, b :: g = h ++ [c]) by (destruct (@exists_last _ (b :: g)) as (h & c & ->); [discriminate|eauto]).
  destruct Last as (h & c & El).
  destruct (hex2_pair b) as (x & y & Eb & _ & Sx & _ & _ & _ & Bx & _).
  destruct (hex2_pair c) as (x' & y' & Ec & _ & _ & Sy & _ & _ & _ & By).
  assert (E1 : flat_map hex2 (b :: g) = x :: (y :: flat_map hex2 g)) by (cbn [flat_map]; now rewrite Eb).
  assert (E2 : flat_map hex2 (b :: g) = (flat_map hex2 h ++ [x']) ++ [y']).
  { rewrite El, flat_map_app. cbn [flat_map]. rewrite Ec, app_nil_r, <- app_assoc. reflexivity. }
  split; [|split].
  - right. exists x, y'. split; [exact Sx|]. split; [exact Sy|]. right.
    destruct (flat_map hex2 h ++ [x']) as [|z k] eqn:Ek; [destruct (flat_map hex2 h); discriminate|].
    rewrite E2 in *. cbn [app] in *. injection E1 as -> _. exists k. reflexivity.
  - right. split; [reflexivity|]. intros k X. rewrite E1 in X. injection X. congruence.
  - right. split; [reflexivity|]. intros k X. rewrite E2 in X. apply app_inj_tail in X as [_ X]. congruence.
Qed.
Lemma display_str g : is_str (guid_display g) = true.
Proof.
  unfold guid_display. destruct (guid_is_zero g); [reflexivity|].
  assert (H : forall l, is_str (flat_map hex2 l) = true).
  { induction l as [|b l IH]; [reflexivity|]. cbn [flat_map]. unfold is_str in *. rewrite forallb_app, IH, andb_true_r.
    unfold hex2. pose proof (b2z_range b).
    pose proof (hexd_range _ _ (digit_hexd (b2z b / 16) ltac:(lia))).
    pose proof (hexd_range _ _ (digit_hexd (b2z b mod 16) ltac:(lia))).
    cbn [forallb]. unfold scalar, in_range. lia. }
  unfold is_str in *. rewrite !forallb_app, !H. reflexivity.
Qed.
Lemma display_parse g : len g = 16 -> guid_parse (guid_display g) = Parsed g.
Proof.
  intros L. apply parse_ok_iff; [apply display_str|]. destruct (guid_is_zero g) eqn:Z0.
  - apply zero_iff in Z0 as Eg; [|exact L]. exists [48]. split; [|left; auto].
    unfold guid_display. rewrite Z0. exists [], [48], [], [48]. repeat split.
    + right. exists 48, 48. repeat split. left. auto.
    + right. split; [reflexivity|]. discriminate.
    + right. split; [reflexivity|]. intros [|a [|b k]] X; discriminate.
  - exists (flat_map hex2 g). split; [now apply display_clean|]. right. split; [apply hex_groups|exact L].
Qed.

(** The printed form: five runs of upper-case digits. *)
Definition upper (c : Z) : Prop := 48 <= c <= 57 \/ 65 <= c <= 70.
Lemma hex_upper g : Forall upper (flat_map hex2 g) /\ len (flat_map hex2 g) = 2 * len g.
Proof.
  induction g as [|b g [IH IL]]; cbn [flat_map]; [split; [constructor|reflexivity]|].
  split; [|rewrite len_app, IL, len_cons; change (len (hex2 b)) with 2; lia].
  apply Forall_app. split; [|exact IH]. unfold hex2.
  pose proof (b2z_range b). apply Forall_cons; [|apply Forall_cons; [|apply Forall_nil]]; unfold upper, hex_digit;
    match goal with |- context [if ?x <? 10 then _ else _] => destruct (Z.ltb_spec x 10) end; lia.
Qed.
Lemma display_shape g : len g = 16 -> g <> repeat Byte.x00 16 ->
  exists a b c d e, guid_display g = a ++ [45] ++ b ++ [45] ++ c ++ [45] ++ d ++ [45] ++ e
    /\ groups (a ++ b ++ c ++ d ++ e) g /\ Forall upper (a ++ b ++ c ++ d ++ e)
    /\ len a = 8 /\ len b = 4 /\ len c = 4 /\ len d = 4 /\ len e = 12.
Proof.
  intros L N. assert (Z0 : guid_is_zero g = false).
  { destruct (guid_is_zero g) eqn:E; [|reflexivity]. apply zero_iff in E; [contradiction|exact L]. }
  exists (flat_map hex2 (firstn 4 g)), (flat_map hex2 (firstn 2 (skipn 4 g))), (flat_map hex2 (firstn 2 (skipn 6 g))),
    (flat_map hex2 (firstn 2 (skipn 8 g))), (flat_map hex2 (skipn 10 g)).
  split; [unfold guid_display; now rewrite Z0|].
  assert (F : flat_map hex2 (firstn 4 g) ++ flat_map hex2 (firstn 2 (skipn 4 g)) ++ flat_map hex2 (firstn 2 (skipn 6 g))
    ++ flat_map hex2 (firstn 2 (skipn 8 g)) ++ flat_map hex2 (skipn 10 g) = flat_map hex2 g).
  { rewrite <- (display_filter g Z0). unfold guid_display. rewrite Z0, !filter_app, !hex_nodash. reflexivity. }
  rewrite F. split; [apply hex_groups|]. split; [apply hex_upper|].
  rewrite !(proj2 (hex_upper _)). destruct (guid_16 g L) as (?&?&?&?&?&?&?&?&?&?&?&?&?&?&?&?& ->). repeat split.
Qed.
Lemma display_zero g : len g = 16 -> guid_display g = [48] <-> g = repeat Byte.x00 16.
Proof.
  intros L. split; [|intros ->; reflexivity]. intros E.
  pose proof (display_parse g L) as P. rewrite E in P. vm_compute in P. injection P as <-. reflexivity.
Qed.
