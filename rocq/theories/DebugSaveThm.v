(** A debug build saves what a release build saves, or panics on a text that takes more
    than 4 GiB. *)
From Coq Require Import ZArith List Bool String Lia ZifyBool ZifyNat.
From Verif Require Import Base Str Types Versions Text Props File DebugSave BaseFacts Spec StrFacts Induct.
Import ListNotations.
Open Scope Z_scope.

(** ** One string *)
Lemma as_i32_cong n : as_i32 n mod 4294967296 = n mod 4294967296.
Proof.
  unfold as_i32. change 4294967296 with (2 ^ (8 * 4)). rewrite to_signed_cong by lia.
  change 0x100000000 with (2 ^ (8 * 4)). apply Z.mod_mod. discriminate.
Qed.
Lemma as_i32_least n : as_i32 n = -0x80000000 <-> n mod 4294967296 = 2147483648.
Proof.
  unfold as_i32, to_signed. change (2 ^ (8 * 4 - 1)) with 2147483648. change (2 ^ (8 * 4)) with 4294967296.
  change 0x100000000 with 4294967296. pose proof (Z.mod_pos_bound n 4294967296 eq_refl).
  destruct (Z.ltb_spec (n mod 4294967296) 2147483648); lia.
Qed.
(** The texts that a debug build cannot write. *)
Definition unwritable (s : str) : Prop :=
  is_ascii s = false /\ (len (utf16_enc s) + 1) mod 4294967296 = 2147483648.
Lemma debug_string_panics site s : unwritable s -> debug_string site s = Fail (Panic site).
Proof.
  intros [A L]. unfold debug_string, neg_i32. rewrite A.
  apply as_i32_least in L. apply Z.eqb_eq in L. now rewrite L.
Qed.
Lemma debug_string_same site s : ~ unwritable s -> debug_string site s = w_string s.
Proof.
  intros N. unfold debug_string, neg_i32. destruct (is_ascii s) eqn:A; [reflexivity|].
  destruct (Z.eqb_spec (as_i32 (len (utf16_enc s) + 1)) (-0x80000000)) as [E|E].
  - exfalso. apply N. split; [exact A|]. now apply as_i32_least.
  - unfold w_string, str_bytes. rewrite A. f_equal. f_equal.
    rewrite <- (le_bytes_mod 4), <- (le_bytes_mod 4 (- (len _ + 1))). f_equal.
    change (2 ^ (8 * Z.of_nat 4)) with 4294967296.
    rewrite <- (Z.sub_0_l (as_i32 _)), <- (Z.sub_0_l (len (utf16_enc s) + 1)).
    rewrite Zminus_mod, as_i32_cong, <- Zminus_mod. reflexivity.
Qed.
Lemma unwritable_dec s : unwritable s \/ ~ unwritable s.
Proof.
  unfold unwritable. destruct (is_ascii s); [right; now intros []|].
  destruct (Z.eq_dec ((len (utf16_enc s) + 1) mod 4294967296) 2147483648); [left|right]; tauto.
Qed.
Lemma unwritable_long s : unwritable s -> 4294967300 <= len (str_bytes s).
Proof.
  intros [A L]. unfold str_bytes. rewrite A, !len_app, len_words_bytes, !len_le_bytes.
  pose proof (len_nonneg (utf16_enc s)).
  pose proof (Z.mod_le (len (utf16_enc s) + 1) 4294967296 ltac:(lia) ltac:(lia)). lia.
Qed.

(** ** Files *)
Section Same.
Variable site : psite.
Notation ds := (debug_string site).
(** What the builds make of the same value. *)
Definition akin (d a : out) : Prop :=
  d = a \/ (d = Fail (Panic site) /\ forall b n, a = Ok (b, n) -> 4294967300 <= len b).
Lemma akin_refl a : akin a a.
Proof. now left. Qed.
Lemma akin_string s : akin (ds s) (w_string s).
Proof.
  destruct (unwritable_dec s) as [U|U]; [right|left; now apply debug_string_same].
  split; [now apply debug_string_panics|]. intros b n [= <- _]. now apply unwritable_long.
Qed.
Lemma akin_seq d1 a1 d2 a2 : akin d1 a1 -> akin d2 a2 -> akin (d1 +> d2) (a1 +> a2).
Proof.
  intros [->|[-> H1]] H2.
  - destruct a1 as [[x n]|f]; [|now left]. destruct H2 as [->|[-> H2]]; [now left|right].
    split; [reflexivity|]. intros b m. cbn [seq]. destruct a2 as [[y k]|]; [|discriminate].
    intros [= <- _]. rewrite len_app. specialize (H2 _ _ eq_refl). pose proof (len_nonneg x). lia.
  - right. split; [reflexivity|]. intros b m. cbn [seq]. destruct a1 as [[x n]|]; [|discriminate].
    destruct a2 as [[y k]|]; [|discriminate]. intros [= <- _]. rewrite len_app.
    specialize (H1 _ _ eq_refl). pose proof (len_nonneg y). lia.
Qed.
Lemma akin_seqs {A} (f g : A -> out) l : Forall (fun x => akin (f x) (g x)) l -> akin (seqs f l) (seqs g l).
Proof. induction 1; cbn [seqs]; [apply akin_refl|now apply akin_seq]. Qed.
Lemma akin_all {A} (f g : A -> out) l : (forall x, akin (f x) (g x)) -> akin (seqs f l) (seqs g l).
Proof. intros H. apply akin_seqs. apply Forall_forall. auto. Qed.
(** A part that is written to a buffer first. *)
Lemma akin_buffer d a (k k' : list byte -> Z -> out) :
  akin d a -> (forall b n, akin (k b n) (k' b n)) ->
  (forall b n b' n', k' b n = Ok (b', n') -> len b <= len b') ->
  akin (match d with Ok (b, n) => k b n | Fail f => Fail f end)
       (match a with Ok (b, n) => k' b n | Fail f => Fail f end).
Proof.
  intros [->|[-> H]] K G.
  - destruct a as [[b n]|f]; [apply K|apply akin_refl].
  - right. split; [reflexivity|]. intros b' n' E. destruct a as [[b n]|f]; [|discriminate].
    specialize (H _ _ eq_refl). specialize (G _ _ _ _ E). lia.
Qed.
Lemma seq_ok a b x n : a +> b = Ok (x, n) ->
  exists y i z j, a = Ok (y, i) /\ b = Ok (z, j) /\ x = y ++ z.
Proof.
  destruct a as [[y i]|]; [|discriminate]. destruct b as [[z j]|]; [|discriminate].
  cbn [seq]. intros [= <- _]. eauto 8.
Qed.
Ltac ends :=
  intros;
  repeat match goal with
  | H : _ +> _ = Ok _ |- _ => apply seq_ok in H; destruct H as (? & ? & ? & ? & _ & H & ->); rewrite len_app
  | H : emit _ _ = Ok _ |- _ => injection H as <- <-
  end;
  repeat match goal with |- context [len ?l] => lazymatch goal with H : 0 <= len l |- _ => fail | _ => pose proof (len_nonneg l) end end; lia.

Lemma akin_fstring o : akin (dw_fstring ds o) (w_fstring o).
Proof. destruct o; [apply akin_string|apply akin_refl]. Qed.
Ltac kin :=
  repeat first
    [ apply akin_refl | apply akin_string | apply akin_fstring | assumption
    | apply akin_seq
    | match goal with |- akin (seqs ?f _) (seqs ?g _) => unify f g; apply akin_refl end ].
Lemma akin_texts vs :
  (forall t, akin (dw_text ds vs t) (w_text vs t))
  /\ (forall h, akin (dw_hist ds vs h) (w_hist vs h))
  /\ (forall a, akin (dw_farg ds vs a) (w_farg vs a)).
Proof.
  apply text_all; intros; cbn [dw_text dw_hist dw_farg w_text w_hist w_farg]; kin.
  - destruct (has_culture vs); kin.
  - apply akin_seqs. eapply Forall_impl; [|eassumption]. intros [k v] H1; cbn [snd] in H1. kin.
  - apply akin_seqs. assumption.
  - apply akin_seqs. eapply Forall_impl; [|eassumption]. intros [k v] H1; cbn [snd] in H1. kin.
Qed.
Lemma akin_header hdr name counted idx e e' b b' : akin e e' -> akin b b' ->
  akin (dwith_header ds hdr name counted idx e b) (with_header hdr name counted idx e' b').
Proof.
  intros E B. unfold dwith_header, with_header. destruct hdr; [|exact B].
  apply (akin_buffer _ _
    (fun b n => (if counted then ds name else match ds name with Ok (x, _) => emit x 0 | Fail f => Fail f end)
                +> w_u32 (len b) +> w_u32 idx +> e +> w_u8 0 +> emit b n)
    (fun b n => (if counted then w_string name else emit (str_bytes name) 0)
                +> w_u32 (len b) +> w_u32 idx +> e' +> w_u8 0 +> emit b n)); [exact B| |ends].
  intros. apply akin_seq; [|kin]. destruct counted; [apply akin_string|].
  destruct (akin_string name) as [->|[-> H]]; [apply akin_refl|right]. split; [reflexivity|].
  intros x m [= <- _]. exact (H _ _ eq_refl).
Qed.
Lemma akin_key k s : akin (dw_key ds k s) (w_key k s).
Proof. destruct k; unfold dw_key, w_key; kin; apply akin_fstring. Qed.
Lemma akin_bytev v : akin (dw_bytev ds v) (w_bytev v).
Proof. destruct v; unfold dw_bytev, w_bytev; kin. Qed.
Lemma akin_pbyte hdr name v : akin (dw_pbyte ds hdr name v) (w_pbyte hdr name v).
Proof.
  unfold dw_pbyte, w_pbyte. destruct hdr; [|apply akin_bytev].
  apply (akin_buffer _ _
    (fun b n => ds (kind_name KByte) +> w_u64 (len b) +> dw_fstring ds name +> w_u8 0 +> emit b n)
    (fun b n => w_string (kind_name KByte) +> w_u64 (len b) +> w_fstring name +> w_u8 0 +> emit b n));
    [apply akin_bytev|intros; kin|ends].
Qed.
Lemma akin_props vs :
  (forall p hdr, akin (dw_prop ds vs hdr p) (w_prop vs hdr p))
  /\ (forall v, akin (dw_sval ds vs v) (w_sval vs v))
  /\ (forall a, akin (dw_array ds vs a) (w_array vs a))
  /\ (forall m, akin (dw_map ds vs m) (w_map vs m)).
Proof.
  apply prop_all; intros; cbn [dw_prop dw_sval dw_array dw_map w_prop w_sval w_array w_map];
    try (apply akin_header; kin); kin;
    try (apply (proj1 (akin_texts vs))); try apply akin_pbyte;
    try (apply akin_all; intros; kin; fail);
    try (apply akin_all; intros []; kin; try apply akin_key; apply akin_fstring);
    try (apply akin_seqs; eapply Forall_impl; [|eassumption]; cbn [fst snd]; intros; auto; fail).
  - destruct hdr; [apply akin_refl|assumption].
  - apply akin_seqs. eapply Forall_impl; [|eassumption]. intros [k ps] H1; cbn [snd] in H1.
    apply akin_seqs. eapply Forall_impl; [|exact H1]. intros p H2; cbn beta in H2.
    apply akin_seq; [apply akin_string|apply H2].
  - apply (akin_buffer _ _
      (fun b n => w_u32 (len l) +> ds f +> ds (kind_name KStruct) +> w_u64 (len b)
                  +> ds t +> w_guid g +> w_u8 0 +> emit b n)
      (fun b n => w_u32 (len l) +> w_string f +> w_string (kind_name KStruct) +> w_u64 (len b)
                  +> w_string t +> w_guid g +> w_u8 0 +> emit b n));
      [now apply akin_seqs|intros; kin|ends].
  - apply akin_seqs. eapply Forall_impl; [|eassumption]. intros [a v] H1; cbn [snd] in H1.
    apply akin_seq; [apply akin_key|apply H1].
  - apply akin_seqs. eapply Forall_impl; [|eassumption]. intros [a v] [H1 H2]; cbn [fst snd] in H1, H2.
    apply akin_seq; [apply H1|apply H2].
Qed.
Lemma akin_file f : akin (dw_file ds f) (w_file f).
Proof.
  unfold dw_file, w_file, dw_header, w_header, dw_fengine, w_fengine. kin.
  apply akin_all. intros [name p]. apply akin_seq; [apply akin_string|apply (proj1 (akin_props _))].
Qed.
Lemma debug_same f : debug_save site f <> Fail (Panic site) -> debug_save site f = save_plain f.
Proof.
  unfold debug_save, dsave_plain, save_plain. destruct (akin_file f) as [->|[-> _]]; [reflexivity|].
  intros H. now destruct H.
Qed.
Lemma debug_small f b : save_plain f = Ok b -> len b < 4294967300 -> debug_save site f = Ok b.
Proof.
  unfold debug_save, dsave_plain, save_plain. destruct (akin_file f) as [->|[_ H]]; [auto|].
  destruct (w_file f) as [[x n]|]; [|discriminate]. intros [= <-] L. specialize (H _ _ eq_refl). lia.
Qed.
Lemma debug_property vs hdr p :
  dw_prop ds vs hdr p = w_prop vs hdr p
  \/ dw_prop ds vs hdr p = Fail (Panic site)
     /\ forall b n, w_prop vs hdr p = Ok (b, n) -> 4294967300 <= len b.
Proof. exact (proj1 (akin_props vs) p hdr). Qed.
Lemma debug_fails f e : save_plain f = Fail e ->
  debug_save site f = Fail e \/ debug_save site f = Fail (Panic site).
Proof.
  unfold debug_save, dsave_plain, save_plain. destruct (akin_file f) as [->|[-> _]]; auto.
Qed.
End Same.

(** ** In the words of the specification *)
Lemma utf16_units s : len (utf16_enc s) = units s.
Proof.
  induction s as [|c s IH]; [reflexivity|]. cbn [utf16_enc units]. rewrite len_app, IH. f_equal.
  unfold utf16_char. destruct (c <? 65536); reflexivity.
Qed.
Lemma not_ascii s : is_str s = true -> is_ascii s = false <-> exists c, In c s /\ 127 < c.
Proof.
  unfold is_str, is_ascii. induction s as [|c s IH]; cbn [forallb In].
  - intros _. split; [discriminate|intros (c & [] & _)].
  - intros H. apply andb_true_iff in H. destruct H as [H1 H2]. specialize (IH H2).
    assert (C : 0 <= c) by (unfold scalar, in_range in H1; lia).
    rewrite andb_false_iff. split.
    + intros [L|R]; [exists c; split; [now left|]; unfold inr in L; lia|].
      apply IH in R. destruct R as (d & I & D). exists d. auto.
    + intros (d & [->|I] & D); [left; unfold inr; lia|right]. apply IH. eauto.
Qed.
Lemma string_iff site s : is_str s = true ->
  (debug_string site s = Fail (Panic site)
   <-> (exists c, In c s /\ 127 < c) /\ (units s + 1) mod 4294967296 = 2147483648)
  /\ (debug_string site s <> Fail (Panic site) -> debug_string site s = w_string s).
Proof.
  intros S. rewrite <- (not_ascii s S), <- utf16_units. fold (unwritable s).
  destruct (unwritable_dec s) as [U|U].
  - rewrite (debug_string_panics site s U). split; [tauto|]. now intros [].
  - rewrite (debug_string_same site s U). split; [|auto]. split; [discriminate|tauto].
Qed.

(** The shortest such text, and a file with it. *)
Definition endless : str := repeat 233 (Z.to_nat 2147483647).
Definition endless_file : header * list (str * property) :=
  (Header 0x20A None (FEngine 4 27 2 18319896 (s2z "++UE4+Release-4.27")) 3 [] endless, []).
Lemma units_repeat n : units (repeat 233 n) = Z.of_nat n.
Proof. induction n as [|n IH]; [reflexivity|]. cbn [repeat units]. rewrite IH. change (233 <? 65536) with true. cbv iota. lia. Qed.
Lemma endless_unwritable : unwritable endless.
Proof.
  split.
  - unfold endless. replace (Z.to_nat 2147483647) with (S (Z.to_nat 2147483646)) by lia. reflexivity.
  - rewrite utf16_units. unfold endless. rewrite units_repeat, Z2Nat.id by lia. reflexivity.
Qed.
Lemma panics_there site cls ps : unwritable cls ->
  debug_save site (Header 0x20A None (FEngine 4 27 2 18319896 (s2z "++UE4+Release-4.27")) 3 [] cls, ps)
  = Fail (Panic site).
Proof.
  intros U. unfold debug_save, dsave_plain, dw_file, dw_header. cbn [fst snd h_class]. 
  rewrite (debug_string_panics site cls U). reflexivity.
Qed.
Lemma saves_there cls :
  exists b, save_plain (Header 0x20A None (FEngine 4 27 2 18319896 (s2z "++UE4+Release-4.27")) 3 [] cls, []) = Ok b.
Proof. eexists. reflexivity. Qed.
Lemma writers_same f : dsave_plain w_string f = save_plain f.
Proof. reflexivity. Qed.
