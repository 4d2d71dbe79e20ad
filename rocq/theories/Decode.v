(** Reading back what a writer emits: combinators, leaves and texts. *)
From Coq Require Import ZArith List Bool String Lia ZifyBool ZifyNat.
From Verif Require Import Base Str Types Versions Text Props File Spec BaseFacts StrFacts.
Import ListNotations.
Open Scope Z_scope.

(** If the writer [w] emits fewer than [M] bytes then it emits at least [lo],
    and [r] turns them into [a]. *)
Definition enc (M lo : Z) (st : list str) {A} (w : out) (r : reader A) (a : A) : Prop :=
  forall bs n, w = Ok (bs, n) -> len bs < M -> lo <= len bs /\ decodes st r bs a.

Lemma e_weaken M lo M' lo' st {A} w (r : reader A) a :
  enc M lo st w r a -> M' <= M -> lo' <= lo -> enc M' lo' st w r a.
Proof. intros H HM Hl bs n E L. destruct (H bs n E ltac:(lia)). split; [lia|auto]. Qed.
Lemma e_seq M lo l1 st {A B} w1 w2 (r : reader A) (k : A -> reader B) a x :
  enc M l1 st w1 r a -> enc (M - l1) (lo - l1) st w2 (k a) x -> enc M lo st (w1 +> w2) (bind r k) x.
Proof.
  intros H1 H2 bs n E L. apply seq_ok in E as (b1 & n1 & b2 & n2 & E1 & E2 & -> & ->).
  rewrite len_app in *. pose proof (len_nonneg b1). pose proof (len_nonneg b2).
  destruct (H1 _ _ E1 ltac:(lia)) as [L1 D1]. destruct (H2 _ _ E2 ltac:(lia)) as [L2 D2].
  split; [lia|]. eapply dec_bind; eauto.
Qed.
Lemma e_last M lo st {A B} w (r : reader A) (k : A -> reader B) a x :
  enc M lo st w r a -> decodes st (k a) [] x -> enc M lo st w (bind r k) x.
Proof.
  intros H1 H2 bs n E L. destruct (H1 _ _ E L) as [L1 D1]. split; [lia|].
  eapply dec_bind_last; eauto.
Qed.
Lemma e_emit M lo st {A} bs n (r : reader A) a :
  decodes st r bs a -> lo <= len bs -> enc M lo st (emit bs n) r a.
Proof. intros H L bs' n' E _. injection E as <- <-. auto. Qed.
Lemma e_skip M lo st {A} (r : reader A) a : decodes st r [] a -> lo <= 0 -> enc M lo st skip r a.
Proof. intros. apply e_emit; auto. Qed.
Lemma e_ret M lo st {A} (a : A) : lo <= 0 -> enc M lo st skip (ret a) a.
Proof. intros. apply e_skip; auto. apply dec_ret. Qed.
(** A writer that emits nothing before the end. *)
Lemma e_repn M st {A} (f : A -> out) (r : reader A) l :
  (forall a, In a l -> enc M 0 st (f a) r a) -> enc M 0 st (seqs f l) (repn (List.length l) r) l.
Proof.
  induction l as [|a l IH]; intros H; cbn [seqs repn List.length].
  - apply e_ret. lia.
  - eapply e_seq; [apply H; left; reflexivity|]. rewrite !Z.sub_0_r.
    eapply e_last; [|apply dec_ret]. apply IH. intros. apply H. now right.
Qed.
Lemma dec_ext st {A} (r r' : reader A) bs a :
  (forall c, r c = r' c) -> decodes st r' bs a -> decodes st r bs a.
Proof. intros H D p t. rewrite H. apply D. Qed.
Lemma e_rep M st {A} (f : A -> out) (r : reader A) l :
  (forall a, In a l -> enc M 0 st (f a) r a) -> enc M 0 st (seqs f l) (rep (len l) r) l.
Proof.
  intros H bs n E L. destruct (e_repn M st f r l H bs n E L) as [? D]. split; [lia|].
  eapply dec_ext; [|exact D]. intros c. rewrite rep_repn. unfold len. now rewrite Nat2Z.id.
Qed.
Lemma e_scoped M lo st s {A} w (r : reader A) a :
  enc M lo (s :: st) w r a -> enc M lo st w (scoped s r) a.
Proof. intros H bs n E L. destruct (H bs n E L). split; auto. now apply dec_scoped. Qed.

(** ** Leaves *)
Lemma e_uint M st w z : 0 <= w -> u_ok w z = true -> enc M w st (w_int w z) (r_uint w) z.
Proof.
  intros Hw H. apply e_emit; [|rewrite len_le_bytes; lia].
  pose proof (dec_uint st (Z.to_nat w) z) as D. rewrite Z2Nat.id in D by lia. auto.
Qed.
Lemma e_sint M st w z : 0 < w -> s_ok w z = true -> enc M w st (w_int w z) (r_sint w) z.
Proof.
  intros Hw H. apply e_emit; [|rewrite len_le_bytes; lia].
  pose proof (dec_sint st (Z.to_nat w) z) as D. rewrite Z2Nat.id in D by lia. apply D; [lia|auto].
Qed.
Lemma e_u8 M st z : u_ok 1 z = true -> enc M 1 st (w_u8 z) r_u8 z.
Proof. apply e_uint. lia. Qed.
Lemma e_u32 M st z : u_ok 4 z = true -> enc M 4 st (w_u32 z) r_u32 z.
Proof. apply e_uint. lia. Qed.
Lemma e_u64 M st z : u_ok 8 z = true -> enc M 8 st (w_u64 z) r_u64 z.
Proof. apply e_uint. lia. Qed.
Lemma e_i32 M st z : s_ok 4 z = true -> enc M 4 st (w_int 4 z) r_i32 z.
Proof. apply e_sint. lia. Qed.
Lemma e_num M st k z : num_ok k z = true ->
  enc M (num_width k) st (w_int (num_width k) z) (r_num k) z.
Proof.
  unfold num_ok, r_num. destruct (num_signed k); intros H.
  - apply e_sint; auto. destruct k; cbn; lia.
  - apply e_uint; auto. destruct k; cbn; lia.
Qed.
Lemma len_str_bytes s : 5 <= len (str_bytes s).
Proof.
  unfold str_bytes. destruct (is_ascii s); rewrite !len_app, !len_le_bytes.
  - pose proof (len_nonneg (map z2b s)). rewrite len_cons, len_nil. lia.
  - pose proof (len_nonneg (flat_map (le_bytes 2) (utf16_enc s))). lia.
Qed.
Lemma e_string M st s : str_ok s = true -> enc M 5 st (w_string s) r_string s.
Proof. intros H. apply e_emit; [now apply dec_string|apply len_str_bytes]. Qed.
Lemma e_fstring M st o : ostr_ok o = true -> enc M 4 st (w_fstring o) r_fstring o.
Proof.
  intros H. pose proof (dec_fstring st o H). destruct o as [s|]; cbn.
  - apply e_emit; auto. pose proof (len_str_bytes s). lia.
  - apply e_emit; auto. rewrite len_le_bytes. lia.
Qed.
Lemma e_guid M st g : guid_ok g = true -> enc M 16 st (w_guid g) r_guid g.
Proof.
  unfold guid_ok. rewrite Z.eqb_eq. intros H. apply e_emit; [|lia]. now apply dec_take_n.
Qed.
Lemma e_boolw M st w (b : bool) : 0 < w -> enc M w st (w_int w (if b then 1 else 0)) (r_boolw w) b.
Proof.
  intros Hw. unfold r_boolw. eapply e_last; [apply e_uint; [lia|]|].
  - unfold u_ok, in_range. rewrite andb_true_iff, !Z.leb_le.
    assert (2 ^ 8 <= 2 ^ (8 * w)) by (apply Z.pow_le_mono_r; lia). destruct b; lia.
  - destruct b; cbn; apply dec_ret.
Qed.
Lemma e_bool M st b : enc M 1 st (w_bool b) r_bool b.
Proof. apply e_boolw. lia. Qed.
Lemma e_b32 M st b : enc M 4 st (w_b32 b) r_b32 b.
Proof. apply e_boolw. lia. Qed.
Lemma e_enum M st {A} t (f : Z -> option A) z a : s_ok 1 z = true -> f z = Some a ->
  enc M 1 st (w_enum z) (r_enum t f) a.
Proof.
  intros H Hf. unfold r_enum. eapply e_last; [apply e_sint; [lia|auto]|]. rewrite Hf. apply dec_ret.
Qed.
Lemma e_upto M st t k z : 0 <= k < 128 -> in_range 0 k z = true ->
  enc M 1 st (w_enum z) (r_enum t (upto k)) z.
Proof.
  intros Hk H. unfold in_range in H. apply e_enum.
  - unfold s_ok, in_range. rewrite andb_true_iff, !Z.leb_le.
    change (2 ^ (8 * 1 - 1)) with 128. lia.
  - unfold upto, inr. now rewrite H.
Qed.

Lemma count31_s {A} (l : list A) : count31 l = true -> s_ok 4 (len l) = true.
Proof.
  unfold count31, s_ok, in_range. rewrite andb_true_iff, !Z.leb_le, Z.ltb_lt.
  pose proof (len_nonneg l). change (2 ^ (8 * 4 - 1)) with 2147483648. lia.
Qed.
Lemma count32_u {A} (l : list A) : count32 l = true -> u_ok 4 (len l) = true.
Proof.
  unfold count32, u_ok, in_range. rewrite andb_true_iff, !Z.leb_le, Z.ltb_lt.
  pose proof (len_nonneg l). change (2 ^ (8 * 4)) with 4294967296. lia.
Qed.
Lemma u32_ok z : 0 <= z < 4294967296 -> u_ok 4 z = true.
Proof.
  intros. unfold u_ok, in_range. rewrite andb_true_iff, !Z.leb_le.
  change (2 ^ (8 * 4)) with 4294967296. lia.
Qed.
Lemma u64_ok z : 0 <= z < 4294967296 -> u_ok 8 z = true.
Proof.
  intros. unfold u_ok, in_range. rewrite andb_true_iff, !Z.leb_le.
  change (2 ^ (8 * 8)) with 18446744073709551616. lia.
Qed.
Lemma e_count M st {A} (l : list A) : count31 l = true ->
  enc M 4 st (w_int 4 (len l)) r_count (len l).
Proof.
  intros H. unfold r_count. eapply e_last; [apply e_sint; [lia|now apply count31_s]|].
  pose proof (len_nonneg l). destruct (Z.ltb_spec (len l) 0); [lia|]. apply dec_ret.
Qed.
Lemma distinct_fresh {K V} (eqb : K -> K -> bool) (l : list (K * V)) :
  distinct eqb l = fresh eqb l.
Proof. reflexivity. Qed.

(** ** Texts *)
Ltac andbs :=
  repeat match goal with
         | H : _ && _ = true |- _ => apply andb_true_iff in H as [? ?]
         end.
Create HintDb enc.
#[export] Hint Resolve e_uint e_sint e_u8 e_u32 e_u64 e_i32 e_num e_string e_fstring e_guid e_bool e_b32
  e_count e_upto : enc.
#[export] Hint Extern 0 (_ < _) => lia : enc.
#[export] Hint Extern 0 (_ <= _) => lia : enc.
#[export] Hint Extern 0 (_ <= _ < _) => lia : enc.
Ltac enamed := cbv iota; eapply e_weaken; [solve [eauto 3 with enc]|apply Z.le_refl|lia].
Ltac eseq := eapply e_seq; [solve [eauto 3 with enc]|].
Ltac elast := eapply e_last; [enamed|apply dec_ret].

Lemma e_numfmt M st f : numfmt_ok f = true -> enc M 25 st (w_numfmt f) r_numfmt f.
Proof.
  unfold numfmt_ok. intros H. andbs. unfold w_numfmt, r_numfmt, r_rounding.
  eseq. eseq. eapply e_seq; [apply e_upto; [lia|auto]|].
  eapply e_seq; [apply e_i32; auto|]. eapply e_seq; [apply e_i32; auto|].
  eapply e_seq; [apply e_i32; auto|]. eapply e_last.
  - eapply e_weaken; [apply e_i32; auto|apply Z.le_refl|lia].
  - destruct f. apply dec_ret.
Qed.
#[export] Hint Resolve e_numfmt : enc.
Lemma e_optfmt M st o : onumfmt_ok o = true -> enc M 4 st (w_optfmt o) r_optfmt o.
Proof.
  unfold r_optfmt. destruct o as [f|]; cbn [onumfmt_ok w_optfmt]; intros H.
  - eseq. cbv iota beta. elast.
  - eapply e_last; [enamed|]. apply dec_ret.
Qed.
#[export] Hint Resolve e_optfmt : enc.

Section Text.
Context (vs : list (guid * Z)).
Lemma w_text_pair (k : str) v : w_string k +> w_farg vs v = (fun '(k, v) => w_string k +> w_farg vs v) (k, v).
Proof. reflexivity. Qed.
Lemma enum_h t : s_ok 1 (htype_z t) = true /\ enum_of htype_z htypes (htype_z t) = Some t.
Proof. destruct t; split; reflexivity. Qed.
Lemma enum_a t : s_ok 1 (atype_z t) = true /\ enum_of atype_z atypes (atype_z t) = Some t.
Proof. destruct t; split; reflexivity. Qed.
Lemma e_htype M st t :
  enc M 1 st (w_enum (htype_z t)) (r_enum ETHistory (enum_of htype_z htypes)) t.
Proof. apply e_enum; apply enum_h. Qed.
Lemma e_atype M st t :
  enc M 1 st (w_enum (atype_z t)) (r_enum ETArgument (enum_of atype_z atypes)) t.
Proof. apply e_enum; apply enum_a. Qed.

Section Rec.
Context (M : Z) (st : list str) (rt : reader ftext).
Hypothesis Hrt : forall t, text_ok vs t = true -> enc (M - 1) 0 st (w_text vs t) rt t.

Lemma e_rt M' t : text_ok vs t = true -> M' <= M - 1 -> enc M' 0 st (w_text vs t) rt t.
Proof. intros. eapply e_weaken; [apply Hrt; auto|lia|lia]. Qed.
Lemma e_farg M' a : M' <= M -> arg_ok vs a = true -> enc M' 1 st (w_farg vs a) (r_farg vs rt) a.
Proof.
  intros HM H. unfold r_farg. destruct a; cbn [arg_ok w_farg] in *; unfold w_argint; andbs;
    try (match goal with H : negb (has_arg64 vs) = true |- _ => apply negb_true_iff in H end);
    try (match goal with H : has_arg64 vs = _ |- _ => rewrite H end);
    cbn [Bool.eqb]; (eapply e_seq; [apply e_atype|]); cbv iota beta;
    try (match goal with H : has_arg64 vs = _ |- _ => rewrite H end).
  - elast. - elast. - elast. - elast.
  - eapply e_last; [|apply dec_ret]. eapply e_weaken; [apply (e_rt (M' - 1)); auto; lia|lia|lia].
  - elast. - elast.
Qed.
Lemma e_named M' l : M' <= M -> count31 l = true -> distinct str_eqb l = true ->
  forallb (fun '(k, v) => str_ok k && arg_ok vs v) l = true ->
  enc M' 4 st (w_int 4 (len l) +> seqs (fun '(k, v) => w_string k +> w_farg vs v) l)
      (r_named vs rt) l.
Proof.
  intros HM Hc Hd Hl. unfold r_named. eapply e_seq; [now apply e_count|].
  eapply e_last.
  - change (4 - 4) with 0. apply e_rep. intros [k v] Hin.
    rewrite forallb_forall in Hl. apply Hl in Hin. andbs.
    eapply e_weaken with (M := M') (lo := 6); [|lia|lia].
    eapply e_seq; [now apply e_string|]. eapply e_last; [|apply dec_ret].
    eapply e_weaken; [apply (e_farg (M' - 5)); auto; lia|lia|lia].
  - rewrite ins_all_fresh by exact Hd. apply dec_ret.
Qed.
Lemma e_hist h : hist_ok vs h = true -> enc M 1 st (w_hist vs h) (r_hist vs rt) h.
Proof.
  intros H. unfold r_hist.
  assert (Hfa : forall M' a, M' <= M -> arg_ok vs a = true ->
                enc M' 0 st (w_farg vs a) (r_farg vs rt) a).
  { intros. eapply e_weaken; [apply e_farg; eauto|lia|lia]. }
  destruct h; cbn [hist_ok w_hist] in *; andbs; unfold r_style, r_transform;
    (eapply e_seq; [apply e_htype|]); cbv iota beta.
  - destruct (has_culture vs).
    + eapply e_last; [enamed|]. apply dec_ret.
    + apply e_ret. lia.
  - match goal with H : has_culture vs = true |- _ => rewrite H end.
    eseq. cbv iota beta. elast.
  - eseq. eseq. elast.
  - eapply e_seq; [apply e_rt; auto; lia|].
    eapply e_last; [|apply dec_ret]. eapply e_weaken; [apply (e_named (M - 1)); auto; lia|lia|lia].
  - eapply e_seq; [apply e_rt; auto; lia|]. eseq.
    eapply e_last; [|apply dec_ret].
    eapply e_weaken with (lo := 0); [apply e_rep|apply Z.le_refl|lia]. intros a Hin.
    match goal with H : forallb _ _ = true |- _ => rewrite forallb_forall in H; apply H in Hin end.
    apply Hfa; auto; lia.
  - eapply e_seq; [apply e_rt; auto; lia|].
    eapply e_last; [|apply dec_ret]. eapply e_weaken; [apply (e_named (M - 1)); auto; lia|lia|lia].
  - eapply e_seq; [apply Hfa; auto; lia|]. eseq. elast.
  - eapply e_seq; [apply Hfa; auto; lia|]. eseq. elast.
  - eseq. eapply e_seq; [apply Hfa; auto; lia|]. eseq. elast.
  - eseq. eapply e_seq; [apply e_upto; auto; lia|]. elast.
  - eseq. eapply e_seq; [apply e_upto; auto; lia|]. eseq. elast.
  - eseq. eapply e_seq; [apply e_upto; auto; lia|]. eapply e_seq; [apply e_upto; auto; lia|].
    eseq. elast.
  - eapply e_seq; [apply e_rt; auto; lia|].
    eapply e_last; [|apply dec_ret]. eapply e_weaken; [apply e_upto; eauto; lia|apply Z.le_refl|lia].
  - eseq. elast.
Qed.
End Rec.

Lemma e_text st n : forall t, text_ok vs t = true ->
  enc (Z.of_nat n) 5 st (w_text vs t) (r_text n vs) t.
Proof.
  induction n as [|n IH]; intros t H.
  - intros bs k E L. pose proof (len_nonneg bs). lia.
  - destruct t as [f h]. cbn [text_ok w_text r_text] in *. andbs. eseq.
    eapply e_last; [|apply dec_ret].
    eapply e_weaken; [apply e_hist with (M := Z.of_nat (S n) - 4); auto|lia|lia].
    intros t Ht. eapply e_weaken; [apply IH; auto|lia|lia].
Qed.
End Text.
