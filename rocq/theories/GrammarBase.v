(** Grammar rules against the readers: combinators, leaves, texts. *)
From Coq Require Import ZArith List Bool String Lia ZifyBool ZifyNat.
From Verif Require Import Base Str Types Versions Text Props File Spec BaseFacts StrFacts Decode KindFacts
  DecodeProp DecodeMain StrThm MapFacts CtorThm OrderThm HeaderThm Grammar.
Import ListNotations.
Open Scope Z_scope.

(** Whatever [r] accepts are bytes of [L]. *)
Definition sound {A} (st : list str) (r : reader A) (L : A -> list byte -> Prop) : Prop :=
  forall q b a c, r (Cur q b st) = Ok (a, c) ->
    exists x t, b = x ++ t /\ c = Cur (q + len x) t st /\ L a x.

Section Comb.
Context (st : list str).
Lemma so_weaken {A} (r : reader A) (L M : A -> list byte -> Prop) :
  sound st r L -> (forall a x, L a x -> M a x) -> sound st r M.
Proof. intros H HM q b a c E. destruct (H q b a c E) as (x & t & ? & ? & ?). exists x, t. auto. Qed.
Lemma so_bind {A B} (r : reader A) (k : A -> reader B) L M :
  sound st r L -> (forall a x, L a x -> sound st (k a) (fun y z => M y (x ++ z))) ->
  sound st (bind r k) M.
Proof.
  intros H K q b a c E. unfold bind in E. destruct (r (Cur q b st)) as [[y d]|] eqn:R; [|discriminate].
  apply H in R as (x & t & -> & -> & HL). apply (K _ _ HL) in E as (x' & t' & -> & -> & HM).
  exists (x ++ x'), t'. rewrite app_assoc, len_app, Z.add_assoc. auto.
Qed.
Lemma so_ret {A} (a : A) (M : A -> list byte -> Prop) : M a [] -> sound st (ret a) M.
Proof. intros H q b x c E. injection E as <- <-. exists [], b. rewrite len_nil, Z.add_0_r. auto. Qed.
Lemma so_last {A B} (r : reader A) (f : A -> B) L (M : B -> list byte -> Prop) :
  sound st r L -> (forall a x, L a x -> M (f a) x) -> sound st (bind r (fun a => ret (f a))) M.
Proof. intros H K. eapply so_bind; [exact H|]. intros a x HL. apply so_ret. rewrite app_nil_r. auto. Qed.
Lemma so_fail {A} f (M : A -> list byte -> Prop) : sound st (fail f) M.
Proof. intros q b a c E. discriminate. Qed.
Lemma so_position {A} (k : Z -> reader A) M : (forall p, sound st (k p) M) -> sound st (bind position k) M.
Proof. intros H q b a c E. exact (H q q b a c E). Qed.
Lemma so_get_stk {A} (k : list str -> reader A) M : sound st (k st) M -> sound st (bind get_stk k) M.
Proof. intros H q b a c E. exact (H q b a c E). Qed.
(** Measuring what is read. *)
Lemma so_measured {A B} n (r : reader A) (f : A -> B) (g : Z -> Z -> fault) L (M : B -> list byte -> Prop) :
  sound st r L -> (forall a x, L a x -> len x = n -> M (f a) x) ->
  sound st (start <- position ;; a <- r ;; stop <- position ;;
            if stop - start =? n then ret (f a) else fail (g start stop)) M.
Proof.
  intros H HM q b a c E. unfold bind, position in E. cbn [pos] in E.
  destruct (r (Cur q b st)) as [[y d]|] eqn:R; [|discriminate].
  apply H in R as (x & t & -> & -> & HL). cbn [pos] in E.
  destruct (Z.eqb_spec (q + len x - q) n); [|discriminate]. injection E as <- <-.
  exists x, t. split; [auto|]. split; [auto|]. apply HM; [auto|lia].
Qed.
Lemma so_sized {A} n (r : reader A) L :
  sound st r L -> sound st (sized n r) (fun a x => L a x /\ len x = n).
Proof.
  intros H q b a c E. unfold sized, bind, position in E. cbn [pos] in E.
  destruct (r (Cur q b st)) as [[y d]|] eqn:R; [|discriminate].
  apply H in R as (x & t & -> & -> & HL). cbn [pos] in E.
  destruct (Z.eqb_spec (q + len x - q) n); [|discriminate]. injection E as <- <-.
  exists x, t. split; [auto|]. split; [auto|]. split; [auto|lia].
Qed.
Lemma so_take n : 0 <= n -> sound st (take n) (fun bs x => bs = x /\ len x = n).
Proof.
  intros Hn q b a c E. unfold take in E. cbn [rest pos stk] in E.
  destruct (Z.leb_spec n (len b)); [|discriminate]. injection E as <- <-.
  exists (firstn (Z.to_nat n) b), (skipn (Z.to_nat n) b).
  assert (L : len (firstn (Z.to_nat n) b) = n) by (unfold len in *; rewrite firstn_length; lia).
  rewrite firstn_skipn, L, Z.max_r by lia. auto.
Qed.
Lemma so_uint w : sound st (r_uint (Z.of_nat w)) (fun z x => x = le_bytes w z /\ 0 <= z < 2 ^ (8 * Z.of_nat w)).
Proof.
  unfold r_uint. eapply so_last; [apply so_take; lia|]. intros bs x [-> L].
  split; [symmetry; now apply le_bytes_val'|]. rewrite <- L. apply le_val_range.
Qed.
Lemma so_sint w : (0 < w)%nat -> sound st (r_sint (Z.of_nat w))
  (fun z x => x = le_bytes w z /\ - 2 ^ (8 * Z.of_nat w - 1) <= z < 2 ^ (8 * Z.of_nat w - 1)).
Proof.
  intros Hw. unfold r_sint. eapply so_last; [apply so_uint|]. intros v x [-> R]. split.
  - rewrite <- (le_bytes_mod w (to_signed _ _)), to_signed_cong, le_bytes_mod by lia. reflexivity.
  - apply to_signed_range; lia.
Qed.
Lemma so_u32 : sound st r_u32 (fun z x => x = u4 z /\ word z).
Proof. apply (so_uint 4). Qed.
Lemma so_u8 : sound st r_u8 (fun z x => x = le_bytes 1 z /\ 0 <= z < 256).
Proof. apply (so_uint 1). Qed.
Lemma so_u64 : sound st r_u64 (fun z x => x = le_bytes 8 z /\ 0 <= z < 2 ^ 64).
Proof. apply (so_uint 8). Qed.
Lemma so_i32 : sound st r_i32 (fun z x => x = u4 z /\ -2147483648 <= z < 2147483648).
Proof. apply (so_sint 4). lia. Qed.
Lemma so_fstring : sound st r_fstring (fun o x => stored o x).
Proof.
  intros q b a c E. apply fstring_iff in E as (bs & t & H & -> & ->). exists bs, t. auto.
Qed.
Lemma so_string : sound st r_string text_of.
Proof.
  unfold r_string. apply so_position. intros p. eapply so_bind; [apply so_fstring|].
  intros [s|] x H; [|apply so_fail]. apply so_ret. rewrite app_nil_r. exact H.
Qed.
Lemma so_guid : sound st r_guid (fun g x => g = x /\ len g = 16).
Proof. eapply so_weaken; [apply (so_take 16); lia|]. intros a x [-> L]. auto. Qed.
Lemma so_boolw w : (0 < w)%nat -> sound st (r_boolw (Z.of_nat w)) (fun b x => x = le_bytes w (flag b)).
Proof.
  intros Hw. unfold r_boolw. eapply so_bind; [apply so_uint|]. intros v x [-> R].
  destruct (Z.eqb_spec v 0); [apply so_ret; subst; now rewrite app_nil_r|].
  destruct (Z.eqb_spec v 1); [apply so_ret; subst; now rewrite app_nil_r|].
  apply so_position. intros p. apply so_fail.
Qed.
Lemma so_bool : sound st r_bool (fun b x => x = le_bytes 1 (flag b)).
Proof. apply (so_boolw 1). lia. Qed.
Lemma so_b32 : sound st r_b32 (fun b x => x = u4 (flag b)).
Proof. apply (so_boolw 4). lia. Qed.
Lemma so_enum {A} t (f : Z -> option A) : sound st (r_enum t f)
  (fun a x => exists z, x = le_bytes 1 z /\ -128 <= z < 128 /\ f z = Some a).
Proof.
  unfold r_enum. eapply so_bind; [apply (so_sint 1); lia|]. intros v x [-> R].
  destruct (f v) eqn:E; [|apply so_position; intros p; apply so_fail].
  apply so_ret. rewrite app_nil_r. eauto.
Qed.
Lemma so_upto t n : sound st (r_enum t (upto n)) (fun a x => x = le_bytes 1 a /\ 0 <= a <= n).
Proof.
  eapply so_weaken; [apply so_enum|]. intros a x (z & -> & R & E). unfold upto in E.
  destruct (inr 0 n z) eqn:I; [|discriminate]. injection E as <-. apply inr_iff in I. auto.
Qed.
Lemma so_num k : sound st (r_num k) (num_bytes k).
Proof.
  unfold r_num, num_bytes.
  destruct k; cbn [num_signed num_width num_spec];
    first [apply (so_sint 1); lia|apply (so_sint 2); lia|apply (so_sint 4); lia|apply (so_sint 8); lia
          |apply (so_uint 2)|apply (so_uint 4)|apply (so_uint 8)].
Qed.
Lemma so_count : sound st r_count (fun z x => x = u4 z /\ 0 <= z < 2147483648).
Proof.
  unfold r_count. eapply so_bind; [apply so_i32|]. intros v x [-> R].
  destruct (Z.ltb_spec v 0); [apply so_fail|]. apply so_ret. rewrite app_nil_r. split; [auto|lia].
Qed.
Lemma so_repn {A} n (r : reader A) L : sound st r L ->
  sound st (repn n r) (fun l x => many L l x /\ List.length l = n).
Proof.
  intros H. induction n as [|n IH]; cbn [repn].
  - apply so_ret. split; [constructor|reflexivity].
  - eapply so_bind; [exact H|]. intros a x HL. eapply so_last; [exact IH|].
    intros l y [Hl <-]. split; [now constructor|reflexivity].
Qed.
Lemma so_ext {A} (r r' : reader A) L : (forall c, r c = r' c) -> sound st r' L -> sound st r L.
Proof. intros H S1 q b a c. rewrite H. apply S1. Qed.
Lemma so_rep {A} n (r : reader A) L : 0 <= n -> sound st r L ->
  sound st (rep n r) (fun l x => many L l x /\ len l = n).
Proof.
  intros Hn H. eapply so_ext; [intros c; apply rep_repn|]. eapply so_weaken; [apply so_repn, H|].
  intros l x [Hl E]. split; [auto|]. unfold len. lia.
Qed.
Lemma so_mapM {A B} (f : A -> reader B) L : (forall a, sound st (f a) (L a)) ->
  forall l, sound st (mapM f l) (fun m x => many2 L l m x).
Proof.
  intros H l. induction l as [|a l IH]; cbn [mapM]; [apply so_ret; constructor|].
  eapply so_bind; [apply H|]. intros b x Hb. eapply so_last; [exact IH|]. intros m y Hm. now constructor.
Qed.
Lemma so_scoped {A} s (r : reader A) L : sound (s :: st) r L -> sound st (scoped s r) L.
Proof.
  intros H q b a c E. unfold scoped, bind, push, pop, ret in E. cbn [pos rest stk] in E.
  destruct (r (Cur q b (s :: st))) as [[y d]|] eqn:R; [|discriminate].
  apply H in R as (x & t & -> & -> & HL). cbn [pos rest stk tl] in E. injection E as <- <-.
  exists x, t. auto.
Qed.
Lemma zero_byte : le_bytes 1 0 = [Byte.x00]. Proof. reflexivity. Qed.
Lemma so_index0 : sound st r_index0 (fun _ x => x = u4 0).
Proof.
  unfold r_index0. eapply so_bind; [apply so_u32|]. intros i x [-> R]. apply so_position. intros p.
  destruct (Z.eqb_spec i 0); [subst; apply so_ret; now rewrite app_nil_r|apply so_fail].
Qed.
Lemma so_term : sound st r_term (fun _ x => x = [Byte.x00]).
Proof.
  unfold r_term. eapply so_bind; [apply so_u8|]. intros i x [-> R]. apply so_position. intros p.
  destruct (Z.eqb_spec i 0); [subst; apply so_ret; now rewrite app_nil_r|apply so_fail].
Qed.
Lemma so_zero8 s : sound st (zero_or s r_u8) (fun _ x => x = [Byte.x00]).
Proof.
  unfold zero_or. eapply so_bind; [apply so_u8|]. intros i x [-> R].
  destruct (Z.eqb_spec i 0); [subst; apply so_ret; now rewrite app_nil_r|apply so_fail].
Qed.
Lemma so_zero32 s : sound st (zero_or s r_u32) (fun _ x => x = u4 0).
Proof.
  unfold zero_or. eapply so_bind; [apply so_u32|]. intros i x [-> R].
  destruct (Z.eqb_spec i 0); [subst; apply so_ret; now rewrite app_nil_r|apply so_fail].
Qed.
Lemma so_headed {V A} (vars : reader V) (body : Z -> V -> reader A) LV (L : V -> Z -> A -> list byte -> Prop)
  (M : A -> list byte -> Prop) :
  sound st vars LV ->
  (forall n v x, LV v x -> word n -> sound st (body n v) (L v n)) ->
  (forall n v x a b, LV v x -> word n -> L v n a b -> len b = n -> M a (framed 0 x b)) ->
  sound st (headed vars body) M.
Proof.
  intros HV HB HM. unfold headed. eapply so_bind; [apply so_u32|]. intros n x1 [-> Hn].
  eapply so_bind; [apply so_index0|]. intros u x2 ->. eapply so_bind; [exact HV|]. intros v x Hv.
  eapply so_bind; [apply so_term|]. intros u' x4 ->.
  eapply so_weaken; [eapply so_sized, HB; eauto|]. intros a b [HL E]. subst n.
  specialize (HM _ v x a b Hv Hn HL eq_refl). exact HM.
Qed.
Lemma so_plain {A} hdr (r : reader A) L (M : A -> list byte -> Prop) : sound st r L ->
  (hdr = true -> forall a b, L a b -> word (len b) -> M a (framed 0 [] b)) ->
  (hdr = false -> forall a b, L a b -> M a b) -> sound st (plain hdr r) M.
Proof.
  intros H HT HF. unfold plain. destruct hdr; [|eapply so_weaken; eauto].
  eapply so_headed with (LV := fun _ x => x = []) (L := fun _ _ => L); [now apply so_ret|auto|].
  intros n v x a b -> Hn HL <-. auto.
Qed.
End Comb.

(** ** The other direction *)
Lemma de_u32 st z : word z -> decodes st r_u32 (u4 z) z.
Proof. intros H. apply dec_u32, H. Qed.
Lemma u_in w z : 0 <= z < 2 ^ (8 * Z.of_nat w) -> u_ok (Z.of_nat w) z = true.
Proof. intros H. unfold u_ok, in_range. lia. Qed.
Lemma s_in w z : - 2 ^ (8 * Z.of_nat w - 1) <= z < 2 ^ (8 * Z.of_nat w - 1) -> s_ok (Z.of_nat w) z = true.
Proof. intros H. unfold s_ok, in_range. lia. Qed.
Lemma de_u64 st z : 0 <= z < 2 ^ 64 -> decodes st r_u64 (le_bytes 8 z) z.
Proof. intros H. apply (dec_uint st 8), u_in, H. Qed.
Lemma de_i32 st z : -2147483648 <= z < 2147483648 -> decodes st r_i32 (u4 z) z.
Proof. apply dec_i32. Qed.
Lemma de_fstring st s x : stored s x -> decodes st r_fstring x s.
Proof. intros H. now apply dec_encoding, stored_encoding. Qed.
Lemma de_string st s x : text_of s x -> decodes st r_string x s.
Proof.
  intros H. unfold r_string. apply dec_position. intros p.
  eapply dec_bind_last; [apply de_fstring, H|]. apply dec_ret.
Qed.
Lemma de_guid st g : len g = 16 -> decodes st r_guid g g.
Proof. intros H. now apply dec_take_n. Qed.
Lemma de_boolw st w b : (0 < w)%nat -> decodes st (r_boolw (Z.of_nat w)) (le_bytes w (flag b)) b.
Proof.
  intros Hw. unfold r_boolw. eapply dec_bind_last.
  - apply dec_uint, u_in. assert (2 ^ 8 <= 2 ^ (8 * Z.of_nat w)) by (apply Z.pow_le_mono_r; lia).
    change (2 ^ 8) with 256 in *. destruct b; cbn [flag]; lia.
  - destruct b; apply dec_ret.
Qed.
Lemma de_bool st b : decodes st r_bool (le_bytes 1 (flag b)) b.
Proof. apply (de_boolw st 1). lia. Qed.
Lemma de_b32 st b : decodes st r_b32 (u4 (flag b)) b.
Proof. apply (de_boolw st 4). lia. Qed.
Lemma de_enum st {A} t (f : Z -> option A) z a : -128 <= z < 128 -> f z = Some a ->
  decodes st (r_enum t f) (le_bytes 1 z) a.
Proof.
  intros R E. unfold r_enum. eapply dec_bind_last.
  - apply (dec_sint st 1); [lia|]. apply s_in. exact R.
  - rewrite E. apply dec_ret.
Qed.
Lemma de_upto st t n z : n < 128 -> 0 <= z <= n -> decodes st (r_enum t (upto n)) (le_bytes 1 z) z.
Proof.
  intros Hn R. apply de_enum; [lia|]. unfold upto.
  assert (inr 0 n z = true) as -> by (apply inr_iff; lia). reflexivity.
Qed.
Lemma de_num st k z b : num_bytes k z b -> decodes st (r_num k) b z.
Proof.
  unfold num_bytes, r_num. destruct k; cbn [num_spec num_signed num_width]; intros [-> H];
    first [apply (dec_sint st 1); [lia|apply s_in, H]|apply (dec_sint st 2); [lia|apply s_in, H]
          |apply (dec_sint st 4); [lia|apply s_in, H]|apply (dec_sint st 8); [lia|apply s_in, H]
          |apply (dec_uint st 2), u_in, H|apply (dec_uint st 4), u_in, H|apply (dec_uint st 8), u_in, H].
Qed.
Lemma de_count st z : 0 <= z < 2147483648 -> decodes st r_count (u4 z) z.
Proof.
  intros H. unfold r_count. eapply dec_bind_last; [apply de_i32; lia|].
  destruct (Z.ltb_spec z 0); [lia|apply dec_ret].
Qed.
Lemma de_repn st {A} (r : reader A) (L : A -> list byte -> Prop) l x :
  many L l x -> (forall a y, L a y -> len y <= len x -> decodes st r y a) -> decodes st (repn (List.length l) r) x l.
Proof.
  induction 1 as [|a l x y Ha Hl IH]; intros H; cbn [repn List.length]; [apply dec_ret|].
  pose proof (len_nonneg x). pose proof (len_nonneg y). pose proof (len_app x y).
  eapply dec_bind; [apply H; [exact Ha|lia]|]. eapply dec_bind_last; [|apply dec_ret].
  apply IH. intros a' y' Ha' Hy'. apply H; [exact Ha'|lia].
Qed.
Lemma de_rep st {A} (r : reader A) (L : A -> list byte -> Prop) l x n :
  many L l x -> n = len l -> (forall a y, L a y -> len y <= len x -> decodes st r y a) -> decodes st (rep n r) x l.
Proof.
  intros Hl -> H. eapply dec_ext; [intros c; apply rep_repn|]. unfold len. rewrite Nat2Z.id.
  eapply de_repn; eauto.
Qed.
Lemma de_mapM st {A B} (f : A -> reader B) L ks l x : many2 L ks l x ->
  (forall k a y, L k a y -> decodes st (f k) y a) -> decodes st (mapM f ks) x l.
Proof.
  intros Hl H. induction Hl as [|k ks a l x y Ha Hl IH]; cbn [mapM]; [apply dec_ret|].
  eapply dec_bind; [eapply H, Ha|]. eapply dec_bind_last; [exact IH|apply dec_ret].
Qed.
Lemma de_sized st {A} (r : reader A) b a n : decodes st r b a -> n = len b -> decodes st (sized n r) b a.
Proof. intros H ->. now apply dec_sized. Qed.
Lemma de_measured st {A B} n (r : reader A) (f : A -> B) (g : Z -> Z -> fault) x a :
  decodes st r x a -> len x = n ->
  decodes st (start <- position ;; a <- r ;; stop <- position ;;
              if stop - start =? n then ret (f a) else fail (g start stop)) x (f a).
Proof.
  intros H <- p t. unfold bind, position. cbn [pos]. rewrite H. cbn [pos].
  destruct (Z.eqb_spec (p + len x - p) (len x)); [reflexivity|lia].
Qed.
Lemma de_term st : decodes st r_term [Byte.x00] tt.
Proof. apply dec_term. Qed.
Lemma de_cons st {A B} (r : reader A) (k : A -> reader B) c b a x :
  decodes st r [c] a -> decodes st (k a) b x -> decodes st (bind r k) (c :: b) x.
Proof. intros H1 H2. change (c :: b) with ([c] ++ b). eapply dec_bind; eauto. Qed.
Lemma de_headed st {V A} (vars : reader V) (body : Z -> V -> reader A) v x a b :
  word (len b) -> decodes st vars x v -> decodes st (body (len b) v) b a ->
  decodes st (headed vars body) (framed 0 x b) a.
Proof.
  intros Hn HV HB. unfold headed, framed. eapply dec_bind; [apply de_u32, Hn|].
  eapply dec_bind; [apply dec_index0|]. eapply dec_bind; [exact HV|].
  eapply de_cons; [apply de_term|]. now apply de_sized.
Qed.
