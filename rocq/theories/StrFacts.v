(** The string codec. *)
From Coq Require Import ZArith List Bool String Lia ZifyBool ZifyNat.
From Verif Require Import Base Str Spec Guid BaseFacts ReaderFacts.
Import ListNotations.
Open Scope Z_scope.

(** ** Reading back a written piece *)

(** [r] turns exactly the bytes [bs] into [a], whatever follows them. *)
Definition decodes (st : list str) {A} (r : reader A) (bs : list byte) (a : A) : Prop :=
  forall p t, r (Cur p (bs ++ t) st) = Ok (a, Cur (p + len bs) t st).

Lemma dec_ret st {A} (a : A) : decodes st (ret a) [] a.
Proof. intros p t. unfold ret. cbn [app]. rewrite len_nil, Z.add_0_r. reflexivity. Qed.
Lemma dec_bind st {A B} (r : reader A) (k : A -> reader B) b1 b2 a x :
  decodes st r b1 a -> decodes st (k a) b2 x -> decodes st (bind r k) (b1 ++ b2) x.
Proof.
  intros H1 H2 p t. unfold bind. rewrite <- app_assoc, H1, H2, len_app, Z.add_assoc. reflexivity.
Qed.
(** The same when the second part reads nothing. *)
Lemma dec_bind_last st {A B} (r : reader A) (k : A -> reader B) b a x :
  decodes st r b a -> decodes st (k a) [] x -> decodes st (bind r k) b x.
Proof. intros H1 H2. rewrite <- (app_nil_r b). eapply dec_bind; eauto. Qed.
Lemma dec_take st bs : decodes st (take (len bs)) bs bs.
Proof.
  intros p t. unfold take. cbn [rest pos stk]. rewrite len_app. pose proof (len_nonneg t).
  pose proof (len_nonneg bs).
  destruct (Z.leb_spec (len bs) (len bs + len t)); [|lia].
  rewrite Z.max_r by lia.
  replace (Z.to_nat (len bs)) with (List.length bs + 0)%nat by (unfold len; lia).
  rewrite firstn_app_2, skipn_app, skipn_all2, Nat.add_0_r, Nat.sub_diag by lia.
  cbn. rewrite app_nil_r. reflexivity.
Qed.
Lemma dec_take_n st n bs : len bs = n -> decodes st (take n) bs bs.
Proof. intros <-. apply dec_take. Qed.
Lemma dec_scoped st s {A} (r : reader A) bs a :
  decodes (s :: st) r bs a -> decodes st (scoped s r) bs a.
Proof.
  intros H p t. unfold scoped, bind, push, pop, ret. cbn [pos rest stk]. rewrite H. reflexivity.
Qed.

Lemma dec_uint st w z : u_ok (Z.of_nat w) z = true ->
  decodes st (r_uint (Z.of_nat w)) (le_bytes w z) z.
Proof.
  intros H. unfold r_uint. eapply dec_bind_last.
  - apply dec_take_n, len_le_bytes.
  - replace (le_val (le_bytes w z)) with z; [apply dec_ret|].
    rewrite le_val_bytes, Z.mod_small; auto. unfold u_ok, in_range in H. lia.
Qed.
Lemma dec_sint st w z : (0 < w)%nat -> s_ok (Z.of_nat w) z = true ->
  decodes st (r_sint (Z.of_nat w)) (le_bytes w z) z.
Proof.
  intros Hw H. unfold r_sint. eapply dec_bind_last.
  - unfold r_uint. eapply dec_bind_last; [apply dec_take_n, len_le_bytes|apply dec_ret].
  - rewrite le_val_bytes. replace (to_signed _ _) with z; [apply dec_ret|].
    rewrite to_signed_mod; auto; [lia|]. unfold s_ok, in_range in H. lia.
Qed.

Lemma inr_iff a b x : inr a b x = true <-> a <= x <= b.
Proof. unfold inr. rewrite andb_true_iff, !Z.leb_le. reflexivity. Qed.
Lemma inr_out a b x : inr a b x = false <-> ~ (a <= x <= b).
Proof. rewrite <- inr_iff. destruct (inr a b x); split; congruence. Qed.
Lemma scalar_iff c : scalar c = true <-> 0 <= c <= 55295 \/ 57344 <= c <= 1114111.
Proof.
  unfold scalar, in_range. rewrite orb_true_iff, !andb_true_iff, !Z.leb_le. reflexivity.
Qed.

(** ** UTF-16 *)
Lemma words_app a b : Nat.Even (List.length a) -> words (a ++ b) = words a ++ words b.
Proof.
  intros [n H]. revert a H. induction n as [|n IH]; intros a H.
  - destruct a; [reflexivity|discriminate].
  - destruct a as [|x [|y a]]; cbn in H; try lia. cbn. rewrite IH by lia. reflexivity.
Qed.
Lemma words_bytes ws : Forall (fun w => 0 <= w < 65536) ws ->
  words (flat_map (le_bytes 2) ws) = ws.
Proof.
  induction 1 as [|w ws H _ IH]; [reflexivity|].
  change (flat_map (le_bytes 2) (w :: ws))
    with (z2b w :: z2b (w / 256) :: flat_map (le_bytes 2) ws).
  cbn [words]. rewrite IH, !b2z_z2b. f_equal. lia.
Qed.
Lemma words_range l : Forall (fun w => 0 <= w < 65536) (words l).
Proof.
  assert (H : forall n l, (List.length l < n)%nat -> Forall (fun w => 0 <= w < 65536) (words l)).
  { clear. induction n; intros l Hl; [lia|]. destruct l as [|x [|y l]]; cbn [words]; try constructor.
    - pose proof (b2z_range x). pose proof (b2z_range y). cbv beta; lia.
    - apply IHn. cbn in Hl. lia. }
  apply (H (S (List.length l))). lia.
Qed.
Lemma bytes_words l : Nat.Even (List.length l) -> flat_map (le_bytes 2) (words l) = l.
Proof.
  intros [n H]. revert l H. induction n as [|n IH]; intros l H.
  - destruct l; [reflexivity|discriminate].
  - destruct l as [|x [|y l]]; cbn in H; try lia. cbn [words].
    set (w := b2z x + 256 * b2z y).
    change (flat_map (le_bytes 2) (w :: words l))
      with (z2b w :: z2b (w / 256) :: flat_map (le_bytes 2) (words l)).
    rewrite IH by lia. pose proof (b2z_range x). pose proof (b2z_range y).
    f_equal; [|f_equal]; apply b2z_inj; rewrite b2z_z2b; lia.
Qed.
Lemma len_words l : Nat.Even (List.length l) -> 2 * len (words l) = len l.
Proof.
  intros [n H]. revert l H. induction n as [|n IH]; intros l H.
  - destruct l; [reflexivity|discriminate].
  - destruct l as [|x [|y l]]; cbn in H; try lia. cbn [words]. rewrite !len_cons.
    specialize (IH l ltac:(lia)). lia.
Qed.

Lemma len_utf16 s : len (utf16_enc s) = units s.
Proof.
  induction s as [|c s IH]; [reflexivity|]. cbn [utf16_enc units]. rewrite len_app, IH.
  unfold utf16_char. destruct (c <? 65536); reflexivity.
Qed.
Lemma utf16_range s : is_str s = true -> Forall (fun w => 0 <= w < 65536) (utf16_enc s).
Proof.
  induction s as [|c s IH]; [constructor|]. cbn [is_str forallb utf16_enc].
  rewrite andb_true_iff. intros [Hc Hs]. apply scalar_iff in Hc. apply Forall_app. split.
  - unfold utf16_char. destruct (Z.ltb_spec c 65536); repeat constructor; lia.
  - now apply IH.
Qed.
Lemma utf16_dec_char c r : scalar c = true ->
  utf16_dec (utf16_char c ++ r) = ocons c (utf16_dec r).
Proof.
  intros Hc. apply scalar_iff in Hc. unfold utf16_char.
  destruct (Z.ltb_spec c 65536); cbn [app utf16_dec].
  - rewrite (proj2 (inr_out 55296 56319 c)), (proj2 (inr_out 56320 57343 c)) by lia. reflexivity.
  - rewrite (proj2 (inr_iff 55296 56319 _)), (proj2 (inr_iff 56320 57343 _)) by lia.
    f_equal. lia.
Qed.
Lemma utf16_dec_enc s : is_str s = true -> utf16_dec (utf16_enc s) = Some s.
Proof.
  induction s as [|c s IH]; [reflexivity|]. cbn [is_str forallb utf16_enc].
  rewrite andb_true_iff. intros [Hc Hs]. rewrite utf16_dec_char, IH by auto. reflexivity.
Qed.
Lemma is_str_cons c s : is_str (c :: s) = scalar c && is_str s.
Proof. reflexivity. Qed.
Lemma ocons_some c o s : ocons c o = Some s -> exists s', o = Some s' /\ s = c :: s'.
Proof. destruct o; cbn; [|discriminate]. intros E; injection E as <-. eauto. Qed.
(** A decoded word list is the encoding of the result. *)
Lemma utf16_dec_inv n : forall l s, (List.length l < n)%nat -> Forall (fun w => 0 <= w < 65536) l ->
  utf16_dec l = Some s -> is_str s = true /\ utf16_enc s = l.
Proof.
  induction n as [|n IH]; intros l s Hn Hl E; [lia|].
  destruct l as [|u l]; cbn [utf16_dec] in E.
  - injection E as <-. auto.
  - inversion Hl as [|? ? Hu Hl']; subst.
    destruct (inr 55296 56319 u) eqn:E1.
    + apply inr_iff in E1. destruct l as [|v l]; [discriminate|].
      inversion Hl' as [|? ? Hv Hl'']; subst.
      destruct (inr 56320 57343 v) eqn:E2; [|discriminate]. apply inr_iff in E2.
      apply ocons_some in E as (s' & E3 & ->).
      destruct (IH l s') as [I1 I2]; [cbn in Hn; lia|auto|auto|].
      remember (65536 + (u - 55296) * 1024 + (v - 56320)) as c eqn:Ec. split.
      * rewrite is_str_cons, I1, andb_true_r. apply scalar_iff. lia.
      * cbn [utf16_enc]. rewrite I2. unfold utf16_char.
        destruct (Z.ltb_spec c 65536); [lia|]. cbn [app].
        assert (c - 65536 = (u - 55296) * 1024 + (v - 56320)) by lia.
        f_equal; [|f_equal]; lia.
    + apply inr_out in E1.
      destruct (inr 56320 57343 u) eqn:E2; [discriminate|]. apply inr_out in E2.
      apply ocons_some in E as (s' & E3 & ->).
      destruct (IH l s') as [I1 I2]; [cbn in Hn; lia|auto|auto|]. split.
      * rewrite is_str_cons, I1, andb_true_r. apply scalar_iff. lia.
      * cbn [utf16_enc]. rewrite I2. unfold utf16_char. destruct (Z.ltb_spec u 65536); [reflexivity|lia].
Qed.

(** ** UTF-8 *)
Lemma ascii_range s : is_ascii s = true -> Forall (fun c => 0 <= c <= 127) s.
Proof.
  unfold is_ascii. rewrite forallb_forall, Forall_forall. intros H x Hx.
  apply H in Hx. now apply inr_iff in Hx.
Qed.
Lemma utf8_dec_ascii s : is_ascii s = true -> utf8_dec (map z2b s) = Some s.
Proof.
  intros H. apply ascii_range in H. induction H as [|c s Hc _ IH]; [reflexivity|].
  cbn [map utf8_dec]. rewrite b2z_z2b, Z.mod_small by lia.
  rewrite (proj2 (inr_iff 0 127 c)), IH by lia. reflexivity.
Qed.
Lemma ascii_is_str s : is_ascii s = true -> is_str s = true.
Proof.
  intros H. apply ascii_range in H. induction H as [|c s Hc _ IH]; [reflexivity|].
  rewrite is_str_cons, IH, andb_true_r. apply scalar_iff. lia.
Qed.
Lemma ascii_units s : is_ascii s = true -> units s = len s.
Proof.
  intros H. apply ascii_range in H. induction H as [|c s Hc _ IH]; [reflexivity|].
  cbn [units]. rewrite len_cons, IH. destruct (Z.ltb_spec c 65536); lia.
Qed.

(** The UTF-8 encoding as bytes. *)
Definition utf8_bytes (s : str) : list byte := map z2b (utf8_enc s).
Lemma utf8_bytes_cons c s : utf8_bytes (c :: s) = map z2b (utf8_char c) ++ utf8_bytes s.
Proof. unfold utf8_bytes, utf8_enc. cbn [flat_map]. apply map_app. Qed.

Lemma utf8_dec_char c r : scalar c = true ->
  utf8_dec (map z2b (utf8_char c) ++ r) = ocons c (utf8_dec r).
Proof.
  intros Hc. apply scalar_iff in Hc. unfold utf8_char.
  destruct (Z.ltb_spec c 128).
  { cbn [map app utf8_dec]. rewrite b2z_z2b, Z.mod_small by lia.
    rewrite (proj2 (inr_iff 0 127 c)) by lia. reflexivity. }
  destruct (Z.ltb_spec c 2048).
  { cbn [map app utf8_dec]. rewrite !b2z_z2b, !(Z.mod_small _ 256) by lia.
    rewrite (proj2 (inr_out 0 127 _)), (proj2 (inr_iff 194 223 _)), (proj2 (inr_iff 128 191 _)) by lia.
    f_equal. lia. }
  destruct (Z.ltb_spec c 65536).
  { cbn [map app utf8_dec]. rewrite !b2z_z2b, !(Z.mod_small _ 256) by lia.
    rewrite (proj2 (inr_out 0 127 _)), (proj2 (inr_out 194 223 _)), (proj2 (inr_iff 224 239 _)) by lia.
    rewrite (proj2 (inr_iff 128 191 (128 + c mod 64))) by lia.
    destruct (Z.eqb_spec (224 + c / 4096) 224); [rewrite (proj2 (inr_iff 160 191 _)) by lia|
      destruct (Z.eqb_spec (224 + c / 4096) 237); [rewrite (proj2 (inr_iff 128 159 _)) by lia|
        rewrite (proj2 (inr_iff 128 191 _)) by lia]];
    cbn [andb]; f_equal; lia. }
  cbn [map app utf8_dec]. rewrite !b2z_z2b, !(Z.mod_small _ 256) by lia.
  rewrite (proj2 (inr_out 0 127 _)), (proj2 (inr_out 194 223 _)), (proj2 (inr_out 224 239 _)),
    (proj2 (inr_iff 240 244 _)) by lia.
  rewrite (proj2 (inr_iff 128 191 (128 + c mod 64))),
    (proj2 (inr_iff 128 191 (128 + c / 64 mod 64))) by lia.
  destruct (Z.eqb_spec (240 + c / 262144) 240); [rewrite (proj2 (inr_iff 144 191 _)) by lia|
    destruct (Z.eqb_spec (240 + c / 262144) 244); [rewrite (proj2 (inr_iff 128 143 _)) by lia|
      rewrite (proj2 (inr_iff 128 191 _)) by lia]];
  cbn [andb]; f_equal; lia.
Qed.
Lemma utf8_dec_enc s : is_str s = true -> utf8_dec (utf8_bytes s) = Some s.
Proof.
  induction s as [|c s IH]; [reflexivity|]. rewrite is_str_cons, andb_true_iff.
  intros [Hc Hs]. rewrite utf8_bytes_cons, utf8_dec_char, IH by auto. reflexivity.
Qed.
Lemma z2b_eq z b : z mod 256 = b2z b -> z2b z = b.
Proof. intros H. apply b2z_inj. now rewrite b2z_z2b. Qed.
(** One step of decoding, inverted. *)
Definition utf8_step (l : list byte) (s : str) : Prop :=
  exists c s' r, s = c :: s' /\ utf8_dec r = Some s' /\ scalar c = true
                 /\ l = map z2b (utf8_char c) ++ r /\ (List.length r < List.length l)%nat.
Lemma utf8_dec_step b l s : utf8_dec (b :: l) = Some s -> utf8_step (b :: l) s.
Proof.
  cbn [utf8_dec]. pose proof (b2z_range b) as Hb.
  destruct (inr 0 127 (b2z b)) eqn:E0.
  { apply inr_iff in E0. intros E. apply ocons_some in E as (s' & E & ->).
    exists (b2z b), s', l. split; [reflexivity|]. split; [exact E|].
    split; [apply scalar_iff; lia|]. split; [|cbn; lia].
    unfold utf8_char. destruct (Z.ltb_spec (b2z b) 128); [|lia]. cbn. now rewrite z2b_b2z. }
  apply inr_out in E0.
  destruct (inr 194 223 (b2z b)) eqn:E1.
  { apply inr_iff in E1. destruct l as [|b1 r]; [discriminate|]. pose proof (b2z_range b1) as Hb1.
    destruct (inr 128 191 (b2z b1)) eqn:E2; [|discriminate]. apply inr_iff in E2.
    intros E. apply ocons_some in E as (s' & E & ->).
    remember ((b2z b - 192) * 64 + (b2z b1 - 128)) as c eqn:Ec.
    exists c, s', r. split; [reflexivity|]. split; [exact E|].
    split; [apply scalar_iff; lia|]. split; [|cbn; lia].
    unfold utf8_char. destruct (Z.ltb_spec c 128); [lia|].
    destruct (Z.ltb_spec c 2048); [|lia]. cbn [map app].
    f_equal; [symmetry; apply z2b_eq; lia|]. f_equal. symmetry; apply z2b_eq; lia. }
  apply inr_out in E1.
  destruct (inr 224 239 (b2z b)) eqn:E2.
  { apply inr_iff in E2. destruct l as [|b1 [|b2 r]]; try discriminate.
    pose proof (b2z_range b1) as Hb1. pose proof (b2z_range b2) as Hb2.
    destruct (_ && inr 128 191 (b2z b2)) eqn:E3; [|discriminate].
    apply andb_true_iff in E3 as [E3 E4]. apply inr_iff in E4.
    assert (E5 : 128 <= b2z b1 <= 191 /\ (b2z b = 224 -> 160 <= b2z b1)
                 /\ (b2z b = 237 -> b2z b1 <= 159)).
    { destruct (Z.eqb_spec (b2z b) 224); [apply inr_iff in E3; lia|].
      destruct (Z.eqb_spec (b2z b) 237); apply inr_iff in E3; lia. }
    intros E. apply ocons_some in E as (s' & E & ->).
    remember ((b2z b - 224) * 4096 + (b2z b1 - 128) * 64 + (b2z b2 - 128)) as c eqn:Ec.
    exists c, s', r. split; [reflexivity|]. split; [exact E|].
    split; [apply scalar_iff; lia|]. split; [|cbn; lia].
    unfold utf8_char. destruct (Z.ltb_spec c 128); [lia|].
    destruct (Z.ltb_spec c 2048); [lia|]. destruct (Z.ltb_spec c 65536); [|lia]. cbn [map app].
    assert (c / 4096 = b2z b - 224) by lia. assert (c / 64 = (b2z b - 224) * 64 + (b2z b1 - 128)) by lia.
    f_equal; [symmetry; apply z2b_eq; lia|]. f_equal; [symmetry; apply z2b_eq; lia|].
    f_equal. symmetry; apply z2b_eq; lia. }
  apply inr_out in E2.
  destruct (inr 240 244 (b2z b)) eqn:E3; [|discriminate].
  apply inr_iff in E3. destruct l as [|b1 [|b2 [|b3 r]]]; try discriminate.
  pose proof (b2z_range b1) as Hb1. pose proof (b2z_range b2) as Hb2. pose proof (b2z_range b3) as Hb3.
  destruct (_ && inr 128 191 (b2z b3)) eqn:E4; [|discriminate].
  apply andb_true_iff in E4 as [E4 E6]. apply andb_true_iff in E4 as [E4 E5].
  apply inr_iff in E5, E6.
  assert (E7 : 128 <= b2z b1 <= 191 /\ (b2z b = 240 -> 144 <= b2z b1)
               /\ (b2z b = 244 -> b2z b1 <= 143)).
  { destruct (Z.eqb_spec (b2z b) 240); [apply inr_iff in E4; lia|].
    destruct (Z.eqb_spec (b2z b) 244); apply inr_iff in E4; lia. }
  intros E. apply ocons_some in E as (s' & E & ->).
  remember ((b2z b - 240) * 262144 + (b2z b1 - 128) * 4096 + (b2z b2 - 128) * 64 + (b2z b3 - 128))
    as c eqn:Ec.
  exists c, s', r. split; [reflexivity|]. split; [exact E|].
  split; [apply scalar_iff; lia|]. split; [|cbn; lia].
  unfold utf8_char. destruct (Z.ltb_spec c 128); [lia|].
  destruct (Z.ltb_spec c 2048); [lia|]. destruct (Z.ltb_spec c 65536); [lia|]. cbn [map app].
  assert (c / 262144 = b2z b - 240) by lia.
  assert (c / 4096 = (b2z b - 240) * 64 + (b2z b1 - 128)) by lia.
  assert (c / 64 = ((b2z b - 240) * 64 + (b2z b1 - 128)) * 64 + (b2z b2 - 128)) by lia.
  f_equal; [symmetry; apply z2b_eq; lia|]. f_equal; [symmetry; apply z2b_eq; lia|].
  f_equal; [symmetry; apply z2b_eq; lia|]. f_equal. symmetry; apply z2b_eq; lia.
Qed.
Lemma utf8_dec_inv l s : utf8_dec l = Some s -> is_str s = true /\ utf8_bytes s = l.
Proof.
  assert (H : forall n l s, (List.length l < n)%nat -> utf8_dec l = Some s ->
              is_str s = true /\ utf8_bytes s = l).
  { clear. induction n as [|n IH]; intros l s Hn E; [lia|].
    destruct l as [|b l]; [injection E as <-; auto|].
    apply utf8_dec_step in E as (c & s' & r & -> & E & Hc & El & Hr).
    destruct (IH r s') as [I1 I2]; [lia|exact E|].
    rewrite is_str_cons, Hc, I1, utf8_bytes_cons, I2. auto. }
  apply (H (S (List.length l))). lia.
Qed.
Lemma utf8_units s : is_str s = true -> units s <= len (utf8_bytes s).
Proof.
  induction s as [|c s IH]; [cbn; lia|]. rewrite is_str_cons, andb_true_iff. intros [Hc Hs].
  rewrite utf8_bytes_cons, len_app, len_map. cbn [units]. specialize (IH Hs).
  unfold utf8_char. destruct (Z.ltb_spec c 65536).
  - destruct (c <? 128), (c <? 2048); rewrite !len_cons, len_nil; lia.
  - destruct (Z.ltb_spec c 128), (Z.ltb_spec c 2048); rewrite ?len_cons, ?len_nil; lia.
Qed.
Lemma utf8_ascii s : is_ascii s = true -> utf8_bytes s = map z2b s.
Proof.
  intros H. apply ascii_range in H. induction H as [|c s Hc _ IH]; [reflexivity|].
  rewrite utf8_bytes_cons, IH. unfold utf8_char. destruct (Z.ltb_spec c 128); [reflexivity|lia].
Qed.

(** ** Length-prefixed strings *)

(** The well formed encodings of an optional string: null, one byte per unit,
    or two bytes per unit. *)
Inductive encoding : option str -> list byte -> Prop :=
| enc_null : encoding None (le_bytes 4 0)
| enc_utf8 s : is_str s = true -> len (utf8_bytes s) <= 131071 ->
    encoding (Some s) (le_bytes 4 (len (utf8_bytes s) + 1) ++ utf8_bytes s ++ [Byte.x00])
| enc_utf16 s : is_str s = true -> units s <= 131071 ->
    encoding (Some s)
      (le_bytes 4 (- (units s + 1)) ++ flat_map (le_bytes 2) (utf16_enc s) ++ [Byte.x00; Byte.x00]).

Lemma len_words_bytes ws : len (flat_map (le_bytes 2) ws) = 2 * len ws.
Proof.
  induction ws as [|w ws IH]; [reflexivity|]. cbn [flat_map].
  rewrite len_app, IH, len_le_bytes, len_cons. lia.
Qed.
Lemma dec_i32 st z : -2147483648 <= z < 2147483648 -> decodes st r_i32 (le_bytes 4 z) z.
Proof.
  intros H. apply (dec_sint st 4); [lia|]. unfold s_ok, in_range.
  change (2 ^ (8 * Z.of_nat 4 - 1)) with 2147483648.
  rewrite andb_true_iff, !Z.leb_le. lia.
Qed.

Lemma dec_position st {A} (k : Z -> reader A) bs a :
  (forall p, decodes st (k p) bs a) -> decodes st (bind position k) bs a.
Proof. intros H p t. unfold bind, position. apply H. Qed.

Lemma dec_encoding st o bs : encoding o bs -> decodes st r_fstring bs o.
Proof.
  intros H. unfold r_fstring. apply dec_position. intros start.
  destruct H as [|s Hs Hl|s Hs Hl].
  - eapply dec_bind_last; [apply dec_i32; lia|]. cbn. apply dec_ret.
  - pose proof (len_nonneg (utf8_bytes s)).
    eapply dec_bind; [apply dec_i32; lia|]. cbv beta.
    rewrite (proj2 (inr_iff _ _ _)) by lia. cbn [negb].
    destruct (Z.eqb_spec (len (utf8_bytes s) + 1) 0); [lia|].
    destruct (Z.ltb_spec (len (utf8_bytes s) + 1) 0); [lia|].
    eapply dec_bind; [apply dec_take_n; lia|]. cbv beta.
    eapply dec_bind_last; [apply (dec_uint st 1 0); reflexivity|]. cbv beta.
    apply dec_position. intros p. cbn [Z.eqb negb]. rewrite utf8_dec_enc by auto. apply dec_ret.
  - pose proof (len_nonneg (utf16_enc s)) as HL. rewrite len_utf16 in HL.
    eapply dec_bind; [apply dec_i32; lia|]. cbv beta.
    rewrite (proj2 (inr_iff _ _ _)) by lia. cbn [negb].
    destruct (Z.eqb_spec (- (units s + 1)) 0); [lia|].
    destruct (Z.ltb_spec (- (units s + 1)) 0); [|lia].
    eapply dec_bind; [apply dec_take_n; rewrite len_words_bytes, len_utf16; lia|]. cbv beta.
    eapply dec_bind_last; [apply (dec_uint st 2 0); reflexivity|]. cbv beta.
    apply dec_position. intros p. cbn [Z.eqb negb].
    rewrite words_bytes, utf16_dec_enc by auto using utf16_range. apply dec_ret.
Qed.

Lemma take_inv n c x c' : take n c = Ok (x, c') -> 0 <= n ->
  rest c = x ++ rest c' /\ len x = n /\ pos c' = pos c + n /\ stk c' = stk c.
Proof.
  unfold take. intros H Hn. destruct (Z.leb_spec n (len (rest c))); [|discriminate].
  injection H as <- <-. cbn. rewrite firstn_skipn. unfold len in *. rewrite firstn_length.
  repeat split; lia.
Qed.
Lemma uint_inv w c z c' : r_uint (Z.of_nat w) c = Ok (z, c') ->
  rest c = le_bytes w z ++ rest c' /\ 0 <= z < 2 ^ (8 * Z.of_nat w)
  /\ pos c' = pos c + Z.of_nat w /\ stk c' = stk c.
Proof.
  unfold r_uint, bind, ret. destruct (take _ c) as [[x c1]|] eqn:E; [|discriminate].
  apply take_inv in E as (R & L & P & S); [|lia]. intros H; injection H as <- <-.
  split; [now rewrite le_bytes_val'|]. split; [rewrite <- L; apply le_val_range|auto].
Qed.
Lemma sint_inv w c z c' : (0 < w)%nat -> r_sint (Z.of_nat w) c = Ok (z, c') ->
  rest c = le_bytes w z ++ rest c' /\ s_ok (Z.of_nat w) z = true
  /\ pos c' = pos c + Z.of_nat w /\ stk c' = stk c.
Proof.
  intros Hw. unfold r_sint, bind, ret. destruct (r_uint _ c) as [[x c1]|] eqn:E; [|discriminate].
  apply uint_inv in E as (R & L & P & S). intros H; injection H as <- <-.
  split; [|split; [|auto]].
  - rewrite R. f_equal. rewrite <- (le_bytes_mod w (to_signed _ _)), to_signed_cong by lia.
    symmetry. apply le_bytes_mod.
  - pose proof (to_signed_range (Z.of_nat w) x ltac:(lia) L).
    unfold s_ok, in_range. rewrite andb_true_iff, !Z.leb_le. lia.
Qed.

Lemma fstring_inv c o c' : r_fstring c = Ok (o, c') ->
  exists bs, encoding o bs /\ rest c = bs ++ rest c' /\ pos c' = pos c + len bs /\ stk c' = stk c.
Proof.
  unfold r_fstring. unfold bind at 1. unfold position at 1. unfold bind at 1.
  destruct (r_i32 c) as [[n c1]|] eqn:E1; [|discriminate].
  apply (sint_inv 4) in E1 as (R1 & L1 & P1 & S1); [|lia].
  destruct (inr (-131072) 131072 n) eqn:En; [|discriminate]. apply inr_iff in En. cbn [negb].
  destruct (Z.eqb_spec n 0) as [->|Hn0].
  { intros E; injection E as <- <-. exists (le_bytes 4 0). split; [constructor|].
    rewrite len_le_bytes. auto. }
  destruct (Z.ltb_spec n 0).
  - unfold bind at 1. destruct (take _ c1) as [[buf c2]|] eqn:E2; [|discriminate].
    apply take_inv in E2 as (R2 & L2 & P2 & S2); [|lia].
    unfold bind at 1. destruct (r_u16 c2) as [[t c3]|] eqn:E3; [|discriminate].
    apply (uint_inv 2) in E3 as (R3 & L3 & P3 & S3).
    unfold bind, position. destruct (Z.eqb_spec t 0) as [->|]; [|discriminate]. cbn [negb].
    destruct (utf16_dec (words buf)) as [s|] eqn:E4; [|discriminate].
    intros E; injection E as <- <-.
    assert (Hev : Nat.Even (List.length buf)) by (exists (Z.to_nat (-n - 1)); unfold len in L2; lia).
    apply (utf16_dec_inv (S (List.length (words buf)))) in E4 as [I1 I2]; [|lia|apply words_range].
    pose proof (len_words buf Hev) as HW. rewrite <- I2, len_utf16 in HW.
    exists (le_bytes 4 n ++ buf ++ [Byte.x00; Byte.x00]).
    rewrite !len_app, len_le_bytes, L2, R1, R2, R3, !app_assoc.
    split; [|repeat split; [change (len [Byte.x00; Byte.x00]) with 2; lia|congruence]].
    rewrite <- app_assoc. replace n with (- (units s + 1)) at 1 by lia.
    rewrite <- (bytes_words buf Hev), <- I2 at 1. constructor; auto. lia.
  - unfold bind at 1. destruct (take _ c1) as [[buf c2]|] eqn:E2; [|discriminate].
    apply take_inv in E2 as (R2 & L2 & P2 & S2); [|lia].
    unfold bind at 1. destruct (r_u8 c2) as [[t c3]|] eqn:E3; [|discriminate].
    apply (uint_inv 1) in E3 as (R3 & L3 & P3 & S3).
    unfold bind, position. destruct (Z.eqb_spec t 0) as [->|]; [|discriminate]. cbn [negb].
    destruct (utf8_dec buf) as [s|] eqn:E4; [|discriminate].
    intros E; injection E as <- <-. apply utf8_dec_inv in E4 as [I1 I2].
    exists (le_bytes 4 n ++ buf ++ [Byte.x00]).
    rewrite !len_app, len_le_bytes, L2, R1, R2, R3, !app_assoc.
    split; [|repeat split; [change (len [Byte.x00]) with 1; lia|congruence]].
    rewrite <- app_assoc. rewrite <- I2 in *. replace n with (len (utf8_bytes s) + 1) at 1 by lia.
    constructor; auto. lia.
Qed.
Lemma encoding_ok o bs : encoding o bs -> ostr_ok o = true.
Proof.
  intros [|s Hs Hl|s Hs Hl]; cbn; [reflexivity| |]; unfold str_ok; rewrite Hs; cbn.
  - pose proof (utf8_units s Hs). lia.
  - lia.
Qed.

(** The writer picks one of the encodings. *)
Lemma encoding_write o : ostr_ok o = true ->
  encoding o (match o with Some s => str_bytes s | None => le_bytes 4 0 end).
Proof.
  destruct o as [s|]; [|constructor]. cbn. unfold str_ok. rewrite andb_true_iff, Z.leb_le.
  intros [Hs Hu]. unfold str_bytes. destruct (is_ascii s) eqn:A.
  - pose proof (ascii_units s A). rewrite <- (utf8_ascii s A).
    replace (len s) with (len (utf8_bytes s)) by (rewrite utf8_ascii, len_map; auto).
    constructor; auto. rewrite utf8_ascii, len_map; auto. lia.
  - rewrite len_utf16. change (le_bytes 2 0) with [Byte.x00; Byte.x00]. constructor; auto.
Qed.
Lemma dec_fstring st o : ostr_ok o = true ->
  decodes st r_fstring (match o with Some s => str_bytes s | None => le_bytes 4 0 end) o.
Proof. intros H. apply dec_encoding, encoding_write, H. Qed.
Lemma dec_string st s : str_ok s = true -> decodes st r_string (str_bytes s) s.
Proof.
  intros H. unfold r_string. apply dec_position. intros p.
  eapply dec_bind_last; [apply (dec_fstring st (Some s)), H|]. apply dec_ret.
Qed.
Lemma string_inv c s c' : r_string c = Ok (s, c') -> r_fstring c = Ok (Some s, c').
Proof.
  unfold r_string, bind, position. destruct (r_fstring c) as [[[x|] c1]|]; cbn; intros E;
    inversion E; reflexivity.
Qed.
Lemma fstring_ok c o c' : r_fstring c = Ok (o, c') -> ostr_ok o = true.
Proof. intros H. apply fstring_inv in H as (bs & H & _). eapply encoding_ok; eauto. Qed.
Lemma string_ok c s c' : r_string c = Ok (s, c') -> str_ok s = true.
Proof. intros H. apply string_inv, fstring_ok in H. exact H. Qed.

(** Strings that are too long are written but not read back. *)
Lemma fstring_too_long st s p t : is_str s = true -> 131071 < units s -> units s < 2147483647 ->
  r_fstring (Cur p (str_bytes s ++ t) st)
  = Fail (Err (EString (if is_ascii s then units s + 1 else - (units s + 1)) p)).
Proof.
  intros Hs Hu Hm. unfold r_fstring, bind at 1, position. cbn [pos].
  unfold str_bytes. destruct (is_ascii s) eqn:A; rewrite <- ?app_assoc; unfold bind at 1.
  - rewrite <- (ascii_units s A). rewrite (dec_i32 st) by lia.
    rewrite (proj2 (inr_out _ _ _)) by lia. reflexivity.
  - rewrite len_utf16, (dec_i32 st) by lia.
    rewrite (proj2 (inr_out _ _ _)) by lia. reflexivity.
Qed.
Lemma fstring_bad_length c n c1 : r_i32 c = Ok (n, c1) -> ~ (-131072 <= n <= 131072) ->
  r_fstring c = Fail (Err (EString n (pos c))).
Proof.
  intros H Hn. unfold r_fstring, bind at 1, position. unfold bind at 1. rewrite H.
  rewrite (proj2 (inr_out _ _ _)) by auto. reflexivity.
Qed.
