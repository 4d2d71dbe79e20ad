(** Claims C07, C08, C09: what a stored string is, stated without the codec. *)
From Coq Require Import ZArith List Bool String Lia ZifyBool ZifyNat.
From Verif Require Import Base Str Guid Spec BaseFacts StrFacts.
Import ListNotations.
Open Scope Z_scope.

(** ** Unicode encoding forms (Unicode 15, tables 3-5 and 3-6) *)

(** One character in UTF-8: the shortest of four patterns. *)
Inductive char8 : Z -> list Z -> Prop :=
| c8_1 c : 0 <= c < 0x80 -> char8 c [c]
| c8_2 c x y : 0 <= y < 64 -> c = x * 64 + y -> 0x80 <= c < 0x800 ->
    char8 c [0xC0 + x; 0x80 + y]
| c8_3 c x y z : 0 <= y < 64 -> 0 <= z < 64 -> c = (x * 64 + y) * 64 + z ->
    0x800 <= c < 0x10000 -> ~ (0xD800 <= c < 0xE000) ->
    char8 c [0xE0 + x; 0x80 + y; 0x80 + z]
| c8_4 c x y z w : 0 <= y < 64 -> 0 <= z < 64 -> 0 <= w < 64 ->
    c = ((x * 64 + y) * 64 + z) * 64 + w -> 0x10000 <= c < 0x110000 ->
    char8 c [0xF0 + x; 0x80 + y; 0x80 + z; 0x80 + w].
(** One character in UTF-16: one unit, or a high and a low surrogate. *)
Inductive char16 : Z -> list Z -> Prop :=
| c16_1 c : 0 <= c < 0x10000 -> ~ (0xD800 <= c < 0xE000) -> char16 c [c]
| c16_2 h l : 0 <= h < 0x400 -> 0 <= l < 0x400 ->
    char16 (0x10000 + h * 0x400 + l) [0xD800 + h; 0xDC00 + l].
(** A string, character by character. *)
Inductive coded (R : Z -> list Z -> Prop) : str -> list Z -> Prop :=
| coded_nil : coded R [] []
| coded_cons c s u us : R c u -> coded R s us -> coded R (c :: s) (u ++ us).

(** The byte forms of a stored string: a 4 byte length in units including the
    terminator, negative for UTF-16; the units; a zero unit.  No string is
    stored as length 0. *)
Inductive stored : option str -> list byte -> Prop :=
| stored_null : stored None (le_bytes 4 0)
| stored_8 s us : coded char8 s us -> len us + 1 <= 131072 ->
    stored (Some s) (le_bytes 4 (len us + 1) ++ map z2b us ++ [Byte.x00])
| stored_16 s us : coded char16 s us -> len us + 1 <= 131072 ->
    stored (Some s) (le_bytes 4 (- (len us + 1)) ++ flat_map (le_bytes 2) us ++ [Byte.x00; Byte.x00]).

Definition ascii (s : str) : Prop := Forall (fun c => 0 <= c < 128) s.

(** ** The codec of the model against these forms *)
Lemma char8_spec c u : char8 c u <-> scalar c = true /\ u = utf8_char c.
Proof.
  split.
  - intros H. destruct H; (split; [apply scalar_iff; lia|]); unfold utf8_char;
      repeat match goal with |- context [?a <? ?b] => destruct (Z.ltb_spec a b); [try lia|] end; try lia;
      try reflexivity; repeat (f_equal; try lia).
  - intros [H ->]. apply scalar_iff in H. unfold utf8_char.
    destruct (Z.ltb_spec c 128); [apply c8_1; lia|].
    destruct (Z.ltb_spec c 2048); [apply c8_2; lia|].
    destruct (Z.ltb_spec c 65536); [apply c8_3; lia|apply c8_4; lia].
Qed.
Lemma char16_spec c u : char16 c u <-> scalar c = true /\ u = utf16_char c.
Proof.
  split.
  - intros H. destruct H; (split; [apply scalar_iff; lia|]); unfold utf16_char;
      match goal with |- context [?a <? ?b] => destruct (Z.ltb_spec a b); [try lia|try lia] end;
      try reflexivity; repeat (f_equal; try lia).
  - intros [H ->]. apply scalar_iff in H. unfold utf16_char.
    destruct (Z.ltb_spec c 65536); [apply c16_1; lia|].
    replace c with (0x10000 + (c - 65536) / 1024 * 0x400 + (c - 65536) mod 1024) at 1 by lia.
    apply c16_2; lia.
Qed.
Lemma coded8 s us : coded char8 s us <-> is_str s = true /\ us = utf8_enc s.
Proof.
  split.
  - induction 1 as [|c s u us H _ [IH1 IH2]]; [now split|]. apply char8_spec in H as [H ->].
    rewrite is_str_cons, H, IH1, IH2. now split.
  - intros [H ->]. induction s as [|c s IH]; [constructor|]. rewrite is_str_cons, andb_true_iff in H.
    destruct H as [H1 H2]. cbn [utf8_enc flat_map]. constructor; [now apply char8_spec|now apply IH].
Qed.
Lemma coded16 s us : coded char16 s us <-> is_str s = true /\ us = utf16_enc s.
Proof.
  split.
  - induction 1 as [|c s u us H _ [IH1 IH2]]; [now split|]. apply char16_spec in H as [H ->].
    rewrite is_str_cons, H, IH1, IH2. now split.
  - intros [H ->]. induction s as [|c s IH]; [constructor|]. rewrite is_str_cons, andb_true_iff in H.
    destruct H as [H1 H2]. cbn [utf16_enc]. constructor; [now apply char16_spec|now apply IH].
Qed.
Lemma stored_encoding o bs : stored o bs <-> encoding o bs.
Proof.
  split.
  { intros [|s us H L|s us H L].
  - constructor.
  - apply coded8 in H as [H ->].
    replace (len (utf8_enc s)) with (len (utf8_bytes s)) by (unfold utf8_bytes; now rewrite len_map).
    apply enc_utf8; [assumption|]. unfold utf8_bytes. rewrite len_map. lia.
  - apply coded16 in H as [H ->]. rewrite len_utf16 in L |- *. apply enc_utf16; [assumption|lia]. }
  intros [|s H L|s H L].
  - constructor.
  - unfold utf8_bytes at 1 in L. rewrite len_map in L. unfold utf8_bytes. rewrite len_map.
    apply stored_8; [now apply coded8|lia].
  - rewrite <- len_utf16 in L |- *. apply stored_16; [now apply coded16|lia].
Qed.

Lemma ascii_iff s : ascii s <-> is_ascii s = true.
Proof.
  unfold ascii, is_ascii. rewrite forallb_forall, Forall_forall.
  split; intros H c Hc; specialize (H c Hc); rewrite ?inr_iff in *; lia.
Qed.

(** C08: acceptance. *)
Lemma fstring_iff p b st o c :
  r_fstring (Cur p b st) = Ok (o, c)
  <-> exists bs t, stored o bs /\ b = bs ++ t /\ c = Cur (p + len bs) t st.
Proof.
  split.
  - intros H. apply fstring_inv in H as (bs & E & R & P & S). cbn in *.
    exists bs, (rest c). split; [now apply stored_encoding|]. split; [assumption|].
    destruct c; cbn in *; subst; reflexivity.
  - intros (bs & t & E & -> & ->). apply stored_encoding in E. now apply dec_encoding.
Qed.
Lemma fstring_length p b st n : 4 <= len b -> n = to_signed 4 (le_val (firstn 4 b)) ->
  ~ (-131072 <= n <= 131072) -> r_fstring (Cur p b st) = Fail (Err (EString n p)).
Proof.
  intros Hb Hn Ho. eapply fstring_bad_length; [|exact Ho].
  unfold r_i32, r_sint, r_uint, bind, take, ret. cbn [rest].
  destruct (Z.leb_spec 4 (len b)); [|lia]. change (Z.to_nat 4) with 4%nat. rewrite <- Hn. reflexivity.
Qed.
(** The remaining outcomes, for a length in range and enough input. *)
Lemma fstring_8 p st n body x t : 0 < n <= 131072 -> len body + 1 = n ->
  r_fstring (Cur p (le_bytes 4 n ++ body ++ x :: t) st) =
  if negb (b2z x =? 0) then Fail (Err (EStrTerm (b2z x) (p + 4 + n)))
  else match utf8_dec body with
       | Some s => Ok (Some s, Cur (p + 4 + n) t st)
       | None => Fail (Err (EUtf8 p))
       end.
Proof.
  intros Hn Hl. unfold r_fstring, bind, position. cbn [pos].
  rewrite (dec_i32 st n) by lia. rewrite (proj2 (inr_iff _ _ _)) by lia. cbn [negb].
  destruct (Z.eqb_spec n 0); [lia|]. destruct (Z.ltb_spec n 0); [lia|].
  rewrite (dec_take_n st (n - 1) body) by lia.
  replace (x :: t) with (le_bytes 1 (b2z x) ++ t) by (cbn [le_bytes app]; now rewrite z2b_b2z).
  pose proof (dec_uint st 1 (b2z x)) as D. change (Z.of_nat 1) with 1 in D.
  unfold r_u8. rewrite D.
  2:{ pose proof (b2z_range x). unfold u_ok, in_range. change (2 ^ (8 * 1)) with 256. lia. }
  cbn [pos]. rewrite !len_le_bytes.
  replace (p + Z.of_nat 4 + len body + Z.of_nat 1) with (p + 4 + n) by lia.
  destruct (b2z x =? 0); [|reflexivity]. cbn [negb]. destruct (utf8_dec body); reflexivity.
Qed.
Lemma fstring_16 p st n body x y t : 0 < n <= 131072 -> len body + 2 = 2 * n ->
  r_fstring (Cur p (le_bytes 4 (- n) ++ body ++ x :: y :: t) st) =
  let u := b2z x + 256 * b2z y in
  if negb (u =? 0) then Fail (Err (EStrTerm u (p + 4 + 2 * n)))
  else match utf16_dec (words body) with
       | Some s => Ok (Some s, Cur (p + 4 + 2 * n) t st)
       | None => Fail (Err (EUtf16 p))
       end.
Proof.
  intros Hn Hl. cbv zeta. unfold r_fstring, bind, position. cbn [pos].
  rewrite (dec_i32 st (- n)) by lia. rewrite (proj2 (inr_iff _ _ _)) by lia. cbn [negb].
  destruct (Z.eqb_spec (- n) 0); [lia|]. destruct (Z.ltb_spec (- n) 0); [|lia].
  rewrite (dec_take_n st _ body) by lia.
  set (u := b2z x + 256 * b2z y). pose proof (b2z_range x). pose proof (b2z_range y).
  replace (x :: y :: t) with (le_bytes 2 u ++ t).
  2:{ cbn [le_bytes app]. f_equal; [apply z2b_eq; unfold u; lia|]. f_equal. apply z2b_eq. unfold u. lia. }
  pose proof (dec_uint st 2 u) as D. change (Z.of_nat 2) with 2 in D.
  unfold r_u16. rewrite D.
  2:{ unfold u_ok, in_range, u. change (2 ^ (8 * 2)) with 65536. lia. }
  cbn [pos]. rewrite !len_le_bytes.
  replace (p + Z.of_nat 4 + len body + Z.of_nat 2) with (p + 4 + 2 * n) by lia.
  destruct (u =? 0); [|reflexivity]. cbn [negb]. destruct (utf16_dec (words body)); reflexivity.
Qed.
Lemma utf8_dec_none body : utf8_dec body = None <-> ~ exists s us, coded char8 s us /\ body = map z2b us.
Proof.
  split.
  - intros E (s & us & H & ->). apply coded8 in H as [H ->].
    fold (utf8_bytes s) in E. rewrite utf8_dec_enc in E by assumption. discriminate.
  - intros H. destruct (utf8_dec body) as [s|] eqn:E; [|reflexivity]. exfalso. apply H.
    apply utf8_dec_inv in E as [E1 E2]. exists s, (utf8_enc s). split; [now apply coded8|]. now rewrite <- E2.
Qed.
Lemma utf16_dec_none ws : Forall (fun w => 0 <= w < 65536) ws ->
  (utf16_dec ws = None <-> ~ exists s, coded char16 s ws).
Proof.
  intros R. split.
  - intros E (s & H). apply coded16 in H as [H ->]. rewrite utf16_dec_enc in E by assumption. discriminate.
  - intros H. destruct (utf16_dec ws) as [s|] eqn:E; [|reflexivity]. exfalso. apply H.
    apply (utf16_dec_inv (S (List.length ws))) in E as [E1 E2]; [|lia|assumption].
    exists s. apply coded16. auto.
Qed.

(** C08: rejection. *)
Lemma fstring_bad_terminator8 p st body x t : len body + 1 <= 131072 -> x <> Byte.x00 ->
  r_fstring (Cur p (le_bytes 4 (len body + 1) ++ body ++ x :: t) st)
  = Fail (Err (EStrTerm (b2z x) (p + 5 + len body))).
Proof.
  intros Hn Hx. pose proof (len_nonneg body). rewrite fstring_8 by lia.
  destruct (Z.eqb_spec (b2z x) 0) as [E|_]; [exfalso; apply Hx, b2z_inj, E|].
  cbn [negb]. do 3 f_equal. lia.
Qed.
Lemma fstring_bad_utf8 p st body t : len body + 1 <= 131072 ->
  (~ exists s us, coded char8 s us /\ body = map z2b us) ->
  r_fstring (Cur p (le_bytes 4 (len body + 1) ++ body ++ Byte.x00 :: t) st) = Fail (Err (EUtf8 p)).
Proof.
  intros Hn Hx. pose proof (len_nonneg body). rewrite fstring_8 by lia.
  apply utf8_dec_none in Hx. rewrite Hx. reflexivity.
Qed.
Lemma fstring_bad_terminator16 p st ws x y t : len ws + 1 <= 131072 -> ~ (x = Byte.x00 /\ y = Byte.x00) ->
  r_fstring (Cur p (le_bytes 4 (- (len ws + 1)) ++ flat_map (le_bytes 2) ws ++ x :: y :: t) st)
  = Fail (Err (EStrTerm (b2z x + 256 * b2z y) (p + 6 + 2 * len ws))).
Proof.
  intros Hn Hx. pose proof (len_nonneg ws). rewrite fstring_16 by (rewrite ?len_words_bytes; lia). cbv zeta.
  pose proof (b2z_range x). pose proof (b2z_range y).
  destruct (Z.eqb_spec (b2z x + 256 * b2z y) 0) as [E|_].
  - exfalso. apply Hx. split; apply b2z_inj; change (b2z Byte.x00) with 0; lia.
  - cbn [negb]. do 3 f_equal. lia.
Qed.
Lemma fstring_bad_utf16 p st ws t : len ws + 1 <= 131072 -> Forall (fun w => 0 <= w < 65536) ws ->
  (~ exists s, coded char16 s ws) ->
  r_fstring (Cur p (le_bytes 4 (- (len ws + 1)) ++ flat_map (le_bytes 2) ws ++ Byte.x00 :: Byte.x00 :: t) st)
  = Fail (Err (EUtf16 p)).
Proof.
  intros Hn R Hx. pose proof (len_nonneg ws). rewrite fstring_16 by (rewrite ?len_words_bytes; lia). cbv zeta.
  change (b2z Byte.x00 + 256 * b2z Byte.x00 =? 0) with true. cbn [negb].
  rewrite words_bytes by assumption. apply utf16_dec_none in Hx; [|assumption]. rewrite Hx. reflexivity.
Qed.

(** C07. *)
Definition unicode (s : str) : Prop :=
  Forall (fun c => 0 <= c < 0x110000 /\ ~ (0xD800 <= c < 0xE000)) s.
Lemma unicode_iff s : unicode s <-> is_str s = true.
Proof.
  unfold unicode, is_str. rewrite forallb_forall, Forall_forall.
  split; intros H c Hc; specialize (H c Hc); rewrite ?scalar_iff in *; lia.
Qed.
Lemma coded16_unicode s : unicode s -> exists us, coded char16 s us /\ len us = units s.
Proof. intros H. exists (utf16_enc s). split; [apply coded16; split; [now apply unicode_iff|reflexivity]|apply len_utf16]. Qed.
Lemma string_iff s bs n us p t st : coded char16 s us -> w_fstring (Some s) = Ok (bs, n) ->
  (r_fstring (Cur p (bs ++ t) st) = Ok (Some s, Cur (p + len bs) t st) <-> len us + 1 <= 131072).
Proof.
  intros Hc W. apply coded16 in Hc as [Hs ->]. rewrite len_utf16.
  change (Ok (str_bytes s, 2 * ((if is_ascii s then len s else len (utf16_enc s)) + 1) + 4) = Ok (bs, n)) in W.
  assert (str_bytes s = bs) as <- by congruence. clear W. split.
  - intros R. apply fstring_ok in R. cbn [ostr_ok] in R. unfold str_ok in R. lia.
  - intros L. apply (dec_fstring st (Some s)). cbn [ostr_ok]. unfold str_ok. rewrite Hs. lia.
Qed.
Lemma null_string bs n p t st : w_fstring None = Ok (bs, n) ->
  r_fstring (Cur p (bs ++ t) st) = Ok (None, Cur (p + len bs) t st).
Proof.
  intros W. change (Ok (le_bytes 4 0, 4) = Ok (bs, n)) in W. assert (le_bytes 4 0 = bs) as <- by congruence.
  apply (dec_fstring st None). reflexivity.
Qed.
Lemma long_string s bs n us p t st : coded char16 s us -> w_fstring (Some s) = Ok (bs, n) ->
  131072 < len us + 1 < 2147483648 ->
  exists k, (k = len us + 1 \/ k = - (len us + 1)) /\ r_fstring (Cur p (bs ++ t) st) = Fail (Err (EString k p)).
Proof.
  intros Hc W L. apply coded16 in Hc as [Hs ->]. rewrite len_utf16 in *.
  change (Ok (str_bytes s, 2 * ((if is_ascii s then len s else len (utf16_enc s)) + 1) + 4) = Ok (bs, n)) in W.
  assert (str_bytes s = bs) as <- by congruence. clear W.
  rewrite fstring_too_long by (assumption || lia).
  eexists. split; [|reflexivity]. destruct (is_ascii s); lia.
Qed.

(** C09. *)
Definition narrow (bs : list byte) : Prop := 0 < to_signed 4 (le_val (firstn 4 bs)).
Lemma narrow_le z r : -2147483648 <= z < 2147483648 -> (narrow (le_bytes 4 z ++ r) <-> 0 < z).
Proof.
  intros H. unfold narrow. rewrite firstn_app, length_le_bytes, Nat.sub_diag, firstn_O, app_nil_r.
  rewrite firstn_all2 by (rewrite length_le_bytes; lia). rewrite le_val_bytes.
  change (Z.of_nat 4) with 4. rewrite to_signed_mod; [reflexivity|lia|].
  change (2 ^ (8 * 4 - 1)) with 2147483648. exact H.
Qed.
Lemma rewrite_same s bs bs' n : stored (Some s) bs -> w_string s = Ok (bs', n) ->
  (bs' = bs <-> (narrow bs <-> ascii s)).
Proof.
  intros H W. change (Ok (str_bytes s, 2 * ((if is_ascii s then len s else len (utf16_enc s)) + 1) + 4) = Ok (bs', n)) in W.
  assert (str_bytes s = bs') as <- by congruence. clear W. unfold str_bytes.
  inversion H as [|s' us Hc L E1 E2|s' us Hc L E1 E2]; subst; clear H; pose proof (len_nonneg us);
    rewrite narrow_le by lia; destruct (is_ascii s) eqn:A.
  - apply coded8 in Hc as [Hs ->]. apply ascii_iff in A as A'.
    fold (utf8_bytes s). rewrite utf8_ascii by assumption.
    replace (len (utf8_enc s)) with (len (utf8_bytes s)) in * by (unfold utf8_bytes; now rewrite len_map).
    rewrite utf8_ascii, len_map in * by assumption. split; [intros _; split; [auto|lia]|reflexivity].
  - split.
    + intros E. exfalso. apply (f_equal (fun l => to_signed 4 (le_val (firstn 4 l)))) in E.
      apply coded8 in Hc as [Hs ->].
      assert (NA : narrow (le_bytes 4 (- (len (utf16_enc s) + 1)) ++ flat_map (le_bytes 2) (utf16_enc s) ++ le_bytes 2 0)).
      { unfold narrow. rewrite E. fold (narrow (le_bytes 4 (len (utf8_enc s) + 1) ++ map z2b (utf8_enc s) ++ [Byte.x00])).
        apply narrow_le; lia. }
      apply narrow_le in NA; [pose proof (len_nonneg (utf16_enc s)); lia|].
      pose proof (len_nonneg (utf16_enc s)). rewrite len_utf16. pose proof (utf8_units s Hs) as U.
      unfold utf8_bytes in U. rewrite len_map in U. rewrite len_utf16 in *. lia.
    + intros [E _]. assert (ascii s) as X by (apply E; lia). apply ascii_iff in X. congruence.
  - apply ascii_iff in A. split.
    + intros E. exfalso.
      assert (NA : narrow (le_bytes 4 (- (len us + 1)) ++ flat_map (le_bytes 2) us ++ [Byte.x00; Byte.x00])).
      { rewrite <- E. apply coded16 in Hc as [Hs ->]. rewrite len_utf16 in L. apply ascii_iff in A.
        apply ascii_units in A. pose proof (len_nonneg s). apply narrow_le; lia. }
      apply narrow_le in NA; lia.
    + intros [_ E]. specialize (E A). lia.
  - apply coded16 in Hc as [Hs ->]. split; [|reflexivity]. intros _. split; [lia|].
    intros X. apply ascii_iff in X. congruence.
Qed.
