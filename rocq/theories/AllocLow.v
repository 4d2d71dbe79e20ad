(** What is read was asked for: the requests cover the value that is returned. *)
From Coq Require Import ZArith List Bool String Lia ZifyBool ZifyNat.
From Verif Require Import Base Str Types Versions Text Props File BaseFacts ReaderFacts StrFacts KindFacts Induct EqFacts
  Sane Alloc AllocThm.
From Verif Require Import Spec.
From Verif Require SizeThm.
Import ListNotations.
Open Scope Z_scope.
Notation sum := SizeThm.sum.

(** * Specification *)
(** Requests weighed by what they are for: with [g w = 1] for one kind of room and 0 for all
    others, the number of items that kind of room was made for. *)
Definition weighed (g : room -> Z) (l : list req) : Z := sum (fun q => g (q_room q) * q_count q) l.

(** The room that a value takes, weighed alike.  Numbers, guids and the like take none. *)
(** A character takes a byte of UTF-8 or a unit of UTF-16 at least. *)
Definition h_str (g : room -> Z) (s : str) : Z := Z.min (g RUtf8) (g RUtf16) * len s.
Definition h_opt (g : room -> Z) (o : option str) : Z := match o with Some s => h_str g s | None => 0 end.
Fixpoint h_text (g : room -> Z) (t : ftext) : Z := match t with FText _ h => h_hist g h end
with h_hist (g : room -> Z) (h : fhist) : Z :=
  match h with
  | HEmpty => 0
  | HNone s => h_opt g s
  | HBase a b c => h_opt g a + h_opt g b + h_opt g c
  | HNamed t l | HArgument t l => h_text g t + sum (fun e => g RArguments + h_str g (fst e) + h_arg g (snd e)) l
  | HOrdered t l => h_text g t + sum (fun a => g RArguments + h_arg g a) l
  | HNumber v _ c | HPercent v _ c => h_arg g v + h_opt g c
  | HCurrency d v _ c => h_opt g d + h_arg g v + h_opt g c
  | HDate _ _ c => h_str g c
  | HTime _ _ z c | HDateTime _ _ _ z c => h_str g z + h_str g c
  | HTransform t _ => h_text g t
  | HTable a b => h_str g a + h_str g b
  end
with h_arg (g : room -> Z) (a : farg) : Z :=
  match a with AText t => h_text g t | _ => 0 end.
Definition h_bytev (g : room -> Z) (v : bytev) : Z := match v with BByte _ => 0 | BName s => h_str g s end.
(** Type names and the like are stored with properties of their own, not with elements. *)
Definition h_head (g : room -> Z) (hdr : bool) (ty : str) (extra : Z) : Z := if hdr then h_str g ty + extra else 0.
Fixpoint h_prop (g : room -> Z) (hdr : bool) (p : property) : Z :=
  match p with
  | PNum k _ => h_head g hdr (num_name k) 0
  | PBool _ => h_head g hdr (kind_name KBool) 0
  | PByte name v => h_head g hdr (kind_name KByte) (h_opt g name) + h_bytev g v
  | PEnum ty v => h_head g hdr (kind_name KEnum) (h_opt g ty) + h_str g v
  | PStr v => h_head g hdr (kind_name KStr) 0 + h_opt g v
  | PText t => h_head g hdr (kind_name KText) 0 + h_text g t
  | PName _ v => h_head g hdr (kind_name KName) 0 + h_opt g v
  | PObject v => h_head g hdr (kind_name KObject) 0 + h_str g v
  | PDelegate a b => h_head g hdr (kind_name KDelegate) 0 + (h_str g a + h_str g b)
  | PMulti inline l =>
    h_head g hdr (kind_name (KMulti inline)) 0 + sum (fun e => g RDelegates + (h_str g (fst e) + h_str g (snd e))) l
  | PFieldPath l s => h_head g hdr (kind_name KFieldPath) 0 + (sum (fun a => g RPath + h_str g a) l + h_str g s)
  | PUnknown name raw => h_head g hdr name 0 + g RRaw * len raw
  | PArray a => h_head g hdr (kind_name KArray) (h_str g (array_type a)) + h_array g a
  | PSet ty _ l => h_head g hdr (kind_name KSet) (h_str g ty) + sum (fun p => g (RElements ty) + h_prop g false p) l
  | PMap m => h_head g hdr (kind_name KMap) (h_str g (map_key_type m) + h_str g (map_value_type m)) + h_map g m
  | PStruct _ ty v => h_head g hdr (kind_name KStruct) (h_str g ty) + h_sval g v
  | PSValue v => h_sval g v
  end
with h_sval (g : room -> Z) (v : svalue) : Z :=
  match v with
  | SFixed _ _ | SGuid _ => 0
  | STags l => sum (fun s => g RTags + h_str g s) l
  | SCustom l => sum (fun e => sum (fun p => h_str g (fst e) + h_prop g true p) (snd e)) l + h_str g s_none
  end
with h_array (g : room -> Z) (a : arrayp) : Z :=
  match a with
  | ABools l => sum (fun _ => g (RElements (kind_name KBool))) l
  | ABytes l => sum (fun _ => g (RElements (kind_name KByte))) l
  | AEnums l => sum (fun s => g (RElements (kind_name KEnum)) + h_str g s) l
  | AFloats l => sum (fun _ => g (RElements (num_name F32))) l
  | AInts l => sum (fun _ => g (RElements (num_name I32))) l
  | ANames l => sum (fun s => g (RElements (kind_name KName)) + h_opt g s) l
  | AStrings l => sum (fun s => g (RElements (kind_name KStr)) + h_opt g s) l
  | AStructs fname tname _ l =>
    h_str g fname + h_str g (kind_name KStruct) + h_str g tname
    + sum (fun v => g (RElements (kind_name KStruct)) + h_sval g v) l
  | AProps ty l => sum (fun p => g (RElements ty) + h_prop g false p) l
  end
with h_map (g : room -> Z) (m : mapp) : Z :=
  match m with
  | MBool _ l => sum (fun e => g REntries + h_str g (fst e)) l
  | MInt _ l => sum (fun e => g REntries + h_str g (fst e)) l
  | MProp _ _ l => sum (fun e => g REntries + h_str g (fst e) + h_prop g false (snd e)) l
  | MStrStr l => sum (fun e => g REntries + h_str g (fst e) + h_opt g (snd e)) l
  | MGen _ _ _ l => sum (fun e => g REntries + h_prop g false (fst e) + h_prop g false (snd e)) l
  end.
Definition h_header (g : room -> Z) (h : header) : Z :=
  h_str g (fe_branch (h_engine h)) + sum (fun _ => g RVersions) (h_versions h) + h_str g (h_class h).
Definition h_file (g : room -> Z) (f : header * list (str * property)) : Z :=
  h_header g (fst f) + sum (fun e => h_str g (fst e) + h_prop g true (snd e)) (snd f) + h_str g s_none.

(** * Proofs *)
Section Low.
Variable g : room -> Z.
Hypothesis G : forall w, 0 <= g w.
Notation h_str := (h_str g). Notation h_opt := (h_opt g). Notation h_text := (h_text g). Notation h_hist := (h_hist g).
Notation h_arg := (h_arg g). Notation h_bytev := (h_bytev g). Notation h_head := (h_head g). Notation h_prop := (h_prop g).
Notation h_sval := (h_sval g). Notation h_array := (h_array g). Notation h_map := (h_map g).

Lemma h_str_nonneg s : 0 <= h_str s.
Proof. unfold AllocLow.h_str. pose proof (G RUtf8). pose proof (G RUtf16). pose proof (len_nonneg s). apply Z.mul_nonneg_nonneg; lia. Qed.
Lemma h_opt_nonneg o : 0 <= h_opt o.
Proof. destruct o; cbn [AllocLow.h_opt]; [apply h_str_nonneg|lia]. Qed.
Lemma raw_nonneg (l : list byte) : 0 <= g RRaw * len l.
Proof. pose proof (G RRaw). pose proof (len_nonneg l). nia. Qed.
Ltac seen P := lazymatch goal with _ : P |- _ => fail | _ => idtac end.
Ltac nn := repeat match goal with
  | |- context [h_str ?s] => seen (0 <= h_str s); pose proof (h_str_nonneg s)
  | |- context [h_opt ?s] => seen (0 <= h_opt s); pose proof (h_opt_nonneg s)
  | |- context [g RRaw * len ?s] => seen (0 <= g RRaw * len s); pose proof (raw_nonneg s)
  | |- context [g ?w] => seen (0 <= g w); pose proof (G w)
  end.
Ltac nns := repeat match goal with
  | F : Forall _ ?l |- context [sum ?f ?l] =>
    seen (0 <= sum f l); let H := fresh in assert (H : 0 <= sum f l) by
      (refine (SizeThm.sum_nonneg_if _ _ _ _ F); cbv beta; intros; nn; lia)
  end.
Lemma h_text_nonneg : (forall t, 0 <= h_text t) /\ (forall h, 0 <= h_hist h) /\ (forall a, 0 <= h_arg a).
Proof. apply text_all; cbn [AllocLow.h_text AllocLow.h_hist AllocLow.h_arg]; intros; nn; nns; lia. Qed.
Lemma h_head_nonneg hdr ty e : 0 <= e -> 0 <= h_head hdr ty e.
Proof. intros. destruct hdr; cbn [AllocLow.h_head]; nn; lia. Qed.
Lemma h_bytev_nonneg v : 0 <= h_bytev v.
Proof. destruct v; cbn [AllocLow.h_bytev]; nn; lia. Qed.
Lemma h_all_nonneg : (forall p hdr, 0 <= h_prop hdr p) /\ (forall v, 0 <= h_sval v) /\ (forall a, 0 <= h_array a) /\ (forall m, 0 <= h_map m).
Proof.
  apply prop_all; cbn [AllocLow.h_prop AllocLow.h_sval AllocLow.h_array AllocLow.h_map]; intros;
    try match goal with |- context [h_head ?h ?t ?e] => assert (0 <= h_head h t e) by (apply h_head_nonneg; nn; lia) end;
    try match goal with |- context [h_bytev ?k] => pose proof (h_bytev_nonneg k) end;
    try match goal with |- context [h_text ?t] => pose proof (proj1 h_text_nonneg t) end;
    nn; try lia;
    try match goal with |- context [sum ?f ?l] =>
      let H := fresh in assert (H : 0 <= sum f l);
        [first [apply SizeThm.sum_nonneg'; intros; nn; lia
               |match goal with F : Forall _ l |- _ => refine (SizeThm.sum_nonneg_if _ _ _ _ F); cbv beta; intros; nn end] |nn; lia] end;
    try lia.
  all: repeat match goal with H : forall hdr, 0 <= h_prop hdr _ |- _ => pose proof (H true); specialize (H false) end; try lia.
  all: try match goal with H : _ /\ _ |- _ => destruct H as [Ha Hb]; specialize (Ha false); specialize (Hb false); lia end.
  apply (SizeThm.sum_nonneg_if _ (fun p => forall hdr, 0 <= h_prop hdr p)); [|assumption]. intros p Hp. nn. specialize (Hp true). lia.
Qed.
Lemma h_prop_pos hdr p : 0 <= h_prop hdr p. Proof. apply h_all_nonneg. Qed.
Lemma h_arg_pos a : 0 <= h_arg a. Proof. apply h_text_nonneg. Qed.

(** ** Readers that ask for what they return *)
Lemma weighed_app a b : weighed g (a ++ b) = weighed g a + weighed g b.
Proof. apply SizeThm.sum_app. Qed.
Definition gives {A} (m : A -> Z) (a : areader A) : Prop :=
  forall c l x c', a c = (l, Ok (x, c')) -> m x <= weighed g l.
Lemma g_lift {A} (m : A -> Z) r : (forall x, m x <= 0) -> gives m (lift r).
Proof. intros H c l x c' E. injection E as <- E. specialize (H x). cbn. lia. Qed.
Lemma g_ret {A} (m : A -> Z) x : m x <= 0 -> gives m (aret x).
Proof. intros H c l y c' E. injection E as <- <- <-. exact H. Qed.
Lemma g_fail {A} (m : A -> Z) f : gives m (afail f).
Proof. intros c l x c' E. discriminate E. Qed.
Lemma g_bind {A B} (m : A -> Z) (n : B -> Z) a k : gives m a -> (forall x, gives (fun b => n b - m x) (k x)) -> gives n (abind a k).
Proof.
  intros H K c l b c' E. unfold abind in E. destruct (a c) as [l1 [[x c1]|f]] eqn:R; [|discriminate].
  apply H in R. destruct (k x c1) as [l2 y] eqn:S. injection E as <- ->. apply K in S. rewrite weighed_app. lia.
Qed.
Lemma g_weak {A} (m n : A -> Z) a : gives m a -> (forall x, n x <= m x) -> gives n a.
Proof. intros H L c l x c' E. apply H in E. specialize (L x). lia. Qed.
Lemma g_skip {A B} (n : B -> Z) (r : reader A) k : (forall x, gives n (k x)) -> gives n (abind (lift r) k).
Proof.
  intros K. apply (g_bind (fun _ => 0)); [apply g_lift; lia|]. intros x. eapply g_weak; [apply K|]. intros b. cbv beta. lia.
Qed.
Lemma g_fact {A B} (Q : A -> Prop) (n : B -> Z) (r : reader A) k : (forall c x c', r c = Ok (x, c') -> Q x) ->
  (forall x, Q x -> gives n (k x)) -> gives n (abind (lift r) k).
Proof.
  intros H K c l b c' E. unfold abind, lift in E. destruct (r c) as [[x c1]|f] eqn:R; [|discriminate].
  apply H in R. destruct (k x c1) as [l2 y] eqn:S. injection E as <- ->. cbn [app]. now apply (K x R) in S.
Qed.
Lemma g_known {A B} lo (Q : A -> Prop) (n : B -> Z) (r : reader A) k : adv lo Q r -> (forall x, Q x -> gives n (k x)) -> gives n (abind (lift r) k).
Proof. intros H. apply g_fact. intros c x c' E. now destruct (H _ _ _ E). Qed.
Lemma g_request {B} (n : B -> Z) w z k : gives (fun b => n b - g w * z) (k tt) -> gives n (abind (request w z) k).
Proof.
  intros K c l b c' E. unfold abind, request in E. destruct (k tt c) as [l2 y] eqn:S. injection E as <- ->.
  apply K in S. cbn [app]. unfold weighed in *. cbn [SizeThm.sum q_room q_count]. lia.
Qed.
Lemma g_scoped {A} (m : A -> Z) s a : gives m a -> gives m (ascoped s a).
Proof.
  intros H. unfold ascoped. apply g_skip. intros _. eapply g_bind; [exact H|]. intros x. apply g_skip. intros _. apply g_ret. lia.
Qed.
(** A repetition returns as many as asked; [k] is any multiple. *)
Lemma g_rep_pos {A} (m : A -> Z) k p a : gives m a -> gives (fun l => sum m l + k * (len l - Z.pos p)) (arep_pos p a).
Proof.
  intros H. induction p as [q IH|q IH|]; cbn [arep_pos].
  - eapply g_bind; [exact H|]. intros x. eapply g_bind; [exact IH|]. intros l1. eapply g_bind; [exact IH|]. intros l2.
    apply g_ret. cbn [SizeThm.sum]. rewrite SizeThm.sum_app, len_cons, len_app. lia.
  - eapply g_bind; [exact IH|]. intros l1. eapply g_bind; [exact IH|]. intros l2. apply g_ret. rewrite SizeThm.sum_app, len_app. lia.
  - eapply g_bind; [exact H|]. intros x. apply g_ret. cbn [SizeThm.sum]. rewrite len_cons. unfold len. cbn [List.length]. lia.
Qed.
Lemma g_rep {A} (m : A -> Z) k n a : 0 <= n -> gives m a -> gives (fun l => sum m l + k * (len l - n)) (arep n a).
Proof.
  intros N H. destruct n; cbn [arep]; [apply g_ret; unfold len; cbn; lia|now apply g_rep_pos|lia].
Qed.
(** Room for [n] items, then the items. *)
Lemma g_items {A B} w (m : A -> Z) n a (M : B -> Z) k : 0 <= n -> gives m a ->
  (forall l, gives (fun b => M b - sum (fun x => g w + m x) l) (k l)) ->
  gives M (request w n ;+ abind (arep n a) k).
Proof.
  intros N H K. apply g_request. eapply g_bind; [apply (g_rep m (g w)); [exact N|exact H]|].
  intros l. eapply g_weak; [apply K|]. intros b. cbv beta.
  assert (E : sum (fun x => g w + m x) l = g w * len l + sum m l).
  { clear. induction l as [|x l IH]; cbn [SizeThm.sum]; [unfold len; cbn; lia|]. rewrite IH, len_cons. lia. }
  rewrite E. lia.
Qed.
Lemma ocons_some c o s : ocons c o = Some s -> exists t, o = Some t /\ s = c :: t.
Proof. destruct o; cbn; [|discriminate]. intros E. injection E as <-. eauto. Qed.
Lemma units_chars s : len s <= units s.
Proof. induction s as [|c s IH]; cbn [units]; [unfold len; cbn; lia|]. rewrite len_cons. destruct (c <? 65536); lia. Qed.
Lemma utf8_chars l s : utf8_dec l = Some s -> len s <= len l.
Proof. intros E. apply utf8_dec_inv in E as [Hs <-]. pose proof (utf8_units s Hs). pose proof (units_chars s). lia. Qed.
Lemma utf16_chars : forall l s, utf16_dec l = Some s -> len s <= len l.
Proof.
  assert (K : forall n l s, (List.length l < n)%nat -> utf16_dec l = Some s -> len s <= len l).
  { induction n as [|n IH]; intros l s L E; [lia|].
    destruct l as [|u r]; cbn [utf16_dec] in E; [injection E as <-; lia|]. cbn [List.length] in L.
    destruct (inr 55296 56319 u).
    - destruct r as [|v q]; [discriminate|]. destruct (inr _ _ v); [|discriminate].
      apply ocons_some in E as (t & E & ->). cbn [List.length] in L. apply IH in E; [|lia]. rewrite !len_cons. lia.
    - destruct (inr _ _ u); [discriminate|]. apply ocons_some in E as (t & E & ->). apply IH in E; [|lia]. rewrite !len_cons. lia. }
  intros l s. apply (K (S (List.length l))). lia.
Qed.
Lemma words_half : forall l, 2 * len (words l) <= len l.
Proof.
  assert (K : forall n l, (List.length l < n)%nat -> 2 * len (words l) <= len l).
  { induction n as [|n IH]; intros l L; [lia|]. destruct l as [|a [|b r]]; cbn [words]; try (unfold len; cbn; lia).
    cbn [List.length] in L. specialize (IH r ltac:(lia)). rewrite !len_cons. lia. }
  intros l. apply (K (S (List.length l))). lia.
Qed.
Lemma g_take {B} (M : B -> Z) n k : 0 <= n -> (forall b, len b = n -> gives M (k b)) -> gives M (abind (lift (take n)) k).
Proof.
  intros N. apply g_fact. intros c x c' E. unfold take in E. destruct (Z.leb_spec n (len (rest c))) as [L|]; [|discriminate].
  assert (x = firstn (Z.to_nat n) (rest c)) as -> by congruence. unfold len in *. rewrite firstn_length. lia.
Qed.
Lemma g_fstring : gives h_opt a_fstring.
Proof.
  unfold a_fstring. apply g_skip. intros start. eapply g_known; [apply adv_i32|]. intros n Hn. cbv beta in Hn.
  destruct (negb (inr _ _ n)); [apply g_fail|]. destruct (Z.eqb_spec n 0); [apply g_ret; cbn; lia|].
  pose proof (G RUtf8) as G8. pose proof (G RUtf16) as G16.
  destruct (Z.ltb_spec n 0).
  - apply g_request. apply g_take; [lia|]. intros b Hb. do 2 (apply g_skip; intros). destruct (negb _); [apply g_fail|].
    destruct (utf16_dec (words b)) as [s|] eqn:E; [|apply g_fail]. apply g_ret. cbn [AllocLow.h_opt]. unfold AllocLow.h_str.
    apply utf16_chars in E. pose proof (words_half b). pose proof (len_nonneg s).
    assert (Z.min (g RUtf8) (g RUtf16) * len s <= g RUtf16 * (- n - 1)) by (apply Z.mul_le_mono_nonneg; lia). lia.
  - apply g_request. apply g_take; [lia|]. intros b Hb. do 2 (apply g_skip; intros). destruct (negb _); [apply g_fail|].
    destruct (utf8_dec b) as [s|] eqn:E; [|apply g_fail]. apply g_ret. cbn [AllocLow.h_opt]. unfold AllocLow.h_str.
    apply utf8_chars in E. pose proof (len_nonneg s).
    assert (Z.min (g RUtf8) (g RUtf16) * len s <= g RUtf8 * (n - 1)) by (apply Z.mul_le_mono_nonneg; lia). lia.
Qed.
Lemma g_string : gives h_str a_string.
Proof.
  unfold a_string. apply g_skip. intros. eapply g_bind; [apply g_fstring|]. intros o. cbv beta.
  destruct o; [apply g_ret; cbn [AllocLow.h_opt]; lia|apply g_fail].
Qed.
Ltac g_go t := first [eapply g_bind; [t|]|apply g_skip]; intros; cbv beta.
Ltac g_end := apply g_ret; cbn [fst snd AllocLow.h_text AllocLow.h_hist AllocLow.h_arg AllocLow.h_opt AllocLow.h_bytev]; nn; try lia.
Section WithText.
Variables (vs : list (guid * Z)) (rt : areader ftext).
Hypothesis H : gives h_text rt.
Lemma g_farg : gives h_arg (a_farg vs rt).
Proof.
  unfold a_farg. apply g_skip. intros a.
  destruct a; try destruct (has_arg64 vs); try apply g_fail; try (apply g_skip; intros; g_end).
  all: g_go ltac:(exact H); g_end.
Qed.
Lemma g_named : gives (sum (fun e => g RArguments + h_str (fst e) + h_arg (snd e))) (a_named vs rt).
Proof.
  unfold a_named. eapply g_known; [apply adv_count|]. intros n Hn. cbv beta in Hn.
  apply (g_items _ (fun e => h_str (fst e) + h_arg (snd e))); [lia|g_go ltac:(apply g_string); g_go ltac:(apply g_farg); g_end|].
  intros l. apply g_ret.
  pose proof (SizeThm.sum_ins_all str_eqb (fun k => g RArguments + h_str k) h_arg l) as S.
  specialize (S ltac:(intros v; cbv beta; nn; lia) h_arg_pos). cbv beta in S.
  rewrite (SizeThm.sum_ext (fun x => g RArguments + (h_str (fst x) + h_arg (snd x))) (fun e => g RArguments + h_str (fst e) + h_arg (snd e))) by (intros; lia).
  lia.
Qed.
Lemma g_hist : gives h_hist (a_hist vs rt).
Proof.
  unfold a_hist. apply g_skip. intros a.
  destruct a; try apply g_fail.
  1: { destruct (has_culture vs); [|g_end]. apply g_skip. intros b. destruct b; [g_go ltac:(apply g_fstring); g_end|g_end]. }
  3: { g_go ltac:(exact H). eapply g_known; [apply adv_count|]. intros n Hn. cbv beta in Hn.
       apply (g_items _ h_arg); [lia|apply g_farg|]. intros l. g_end. }
  all: repeat (g_go ltac:(first [exact H|apply g_named|apply g_fstring|apply g_string|apply g_farg])); g_end.
Qed.
End WithText.
Lemma g_text vs n : gives h_text (a_text n vs).
Proof.
  induction n as [|n IH]; cbn [a_text]; [apply g_fail|]. apply g_skip. intros f. g_go ltac:(apply g_hist, IH). g_end.
Qed.
Lemma g_sized {A} (m : A -> Z) n a : gives m a -> gives m (asized n a).
Proof.
  intros H. unfold asized. apply g_skip. intros. g_go ltac:(exact H). apply g_skip. intros.
  destruct (_ =? n); [apply g_ret; lia|apply g_fail].
Qed.
Lemma g_headed {V A} (mv : V -> Z) (m : A -> Z) vars body : gives mv vars ->
  (forall n v, gives (fun a => m a - mv v) (body n v)) -> gives m (aheaded vars body).
Proof.
  intros H K. unfold aheaded. apply g_skip. intros. apply g_skip. intros. g_go ltac:(exact H). apply g_skip. intros.
  apply g_sized, K.
Qed.
Lemma g_headed_index {A} (m : A -> Z) body : (forall n, gives m (body n)) -> gives m (aheaded_index body).
Proof. intros K. unfold aheaded_index. do 3 (apply g_skip; intros). apply g_sized, K. Qed.
Lemma g_plain {A} (hdr : bool) (m : A -> Z) a : gives m a -> gives m (aplain hdr a).
Proof.
  intros H. unfold aplain. destruct hdr; [|exact H].
  eapply (g_headed (fun _ : unit => 0)); [apply g_ret; lia|]. intros n v. eapply g_weak; [exact H|]. intros x. cbv beta. lia.
Qed.
Lemma g_of {A B} (n : B -> Z) (x : A) k : gives n (k x) -> gives n (abind (lift (of_outcome (Ok x))) k).
Proof.
  intros K. intros c l b c' E. unfold abind, lift, of_outcome, ret in E.
  destruct (k x c) as [l2 y] eqn:S. injection E as <- ->. cbn [app]. now apply K in S.
Qed.
Lemma g_bytev o sug : gives h_bytev (a_bytev o sug).
Proof.
  unfold a_bytev. destruct sug as [e|].
  - destruct ((e =? 0) && dbg o); [apply g_fail|]. destruct ((e =? 1) || (e =? 2)).
    + apply g_skip. intros. g_end.
    + g_go ltac:(apply g_string). g_end.
  - apply g_skip. intros. g_end.
Qed.
Lemma g_delegate : gives (fun e => h_str (fst e) + h_str (snd e)) a_delegate.
Proof. unfold a_delegate. do 2 g_go ltac:(apply g_string). g_end. Qed.
Lemma g_unknown ty n : 0 <= n -> gives (fun p => h_prop false p) (a_unknown ty n).
Proof.
  intros N. unfold a_unknown. apply g_request. apply g_take; [lia|]. intros b E. apply g_ret. cbn [AllocLow.h_prop AllocLow.h_head].
  rewrite E. lia.
Qed.
Section Props.
Variables (o : opts) (vs : list (guid * Z)).
(** The type is read, and asked for, before the property is. *)
Definition after (hdr : bool) (ty : str) (p : property) : Z := h_prop hdr p - if hdr then h_str ty else 0.
Ltac fin := apply g_ret; unfold after; cbn [AllocLow.h_prop AllocLow.h_head AllocLow.h_bytev AllocLow.h_opt fst snd]; nn; try lia.
Section WithProp.
Variable rp : apreader.
Hypothesis H : forall ty hdr sug, (forall z, sug = Some z -> 0 <= z) -> gives (after hdr ty) (rp ty hdr sug).
Lemma no_sug : forall z, @None Z = Some z -> 0 <= z. Proof. discriminate. Qed.
Definition fields (l : list (str * list property)) : Z := sum (fun e => sum (fun p => h_str (fst e) + h_prop true p) (snd e)) l.
Lemma fields_add l k p : fields (group_add l k p) = fields l + (h_str k + h_prop true p).
Proof.
  unfold group_add, group, fields. induction l as [|[k' v'] l IH]; cbn [lookup ins SizeThm.sum fst snd app]; [lia|].
  destruct (str_eqb k k') eqn:E; cbn [SizeThm.sum fst snd].
  - apply str_eqb_eq in E as <-. rewrite SizeThm.sum_app. cbn [SizeThm.sum]. lia.
  - rewrite IH. lia.
Qed.
Lemma g_custom m acc : gives (fun l => fields l + h_str s_none - fields acc) (a_custom m o rp acc).
Proof.
  revert acc. induction m as [|m IH]; intros acc; cbn [a_custom]; [apply g_fail|].
  g_go ltac:(apply g_string). destruct (str_eqb x s_none) eqn:E.
  { apply str_eqb_eq in E as ->. apply g_ret. lia. }
  g_go ltac:(apply g_string). g_go ltac:(apply g_scoped, H, no_sug).
  destruct (dbg o && negb (index_ok acc x x1)); [apply g_fail|].
  eapply g_weak; [apply IH|]. intros l. rewrite fields_add. unfold after. lia.
Qed.
Lemma g_sval m ty : gives h_sval (a_sval m o vs rp ty).
Proof.
  unfold a_sval. destruct (fixed_of vs (skind_of ty)) as [x|].
  - apply g_skip. intros. apply g_ret. cbn [AllocLow.h_sval]. lia.
  - assert (D : gives h_sval (l <+ a_custom m o rp [] ;; aret (SCustom l))).
    { g_go ltac:(apply g_custom). apply g_ret. cbn [AllocLow.h_sval]. fold (fields x). change (fields []) with 0. lia. }
    destruct (skind_of ty); try exact D.
    + apply g_skip. intros. apply g_ret. cbn [AllocLow.h_sval]. lia.
    + eapply g_known; [apply adv_count|]. intros n Hn. cbv beta in Hn. apply (g_items _ h_str); [lia|apply g_string|].
      intros l. apply g_ret. cbn [AllocLow.h_sval]. lia.
Qed.
Lemma g_struct_array m n k : 0 <= n -> gives (fun x => match x with (f, t, _, l) =>
    h_str f + h_str (kind_name KStruct) + h_str t + (sum (h_prop false) l + k * (len l - n)) end)
  (a_struct_array m o vs rp n).
Proof.
  intros N. unfold a_struct_array. g_go ltac:(apply g_string). g_go ltac:(apply g_string).
  destruct (str_eqb x0 (kind_name KStruct)) eqn:E; [|apply g_fail]. apply str_eqb_eq in E as ->. cbn [negb].
  apply g_skip. intros. g_go ltac:(apply g_string). do 3 (apply g_skip; intros).
  g_go ltac:(apply (g_rep (h_prop false) k); [exact N|]; g_go ltac:(apply g_sval); apply g_ret; cbn [AllocLow.h_prop]; lia).
  apply g_skip. intros. destruct (_ =? x0); [apply g_ret; lia|apply g_fail].
Qed.
Lemma sum_plus {A} (k : Z) (m : A -> Z) l : sum (fun x => k + m x) l = k * len l + sum m l.
Proof. induction l as [|x l IH]; cbn [SizeThm.sum]; [unfold len; cbn; lia|]. rewrite IH, len_cons. lia. Qed.
Lemma g_array m n ty : gives (fun p => h_prop true p - h_str (kind_name KArray) - h_str ty) (a_array m o vs rp n ty).
Proof.
  unfold a_array. eapply g_known; [apply adv_u32|]. intros a Ha. cbv beta in Ha. cbv beta.
  assert (GG : kind_of ty <> KStruct -> gives (fun b => h_prop true b - h_str (kind_name KArray) - h_str ty)
    (request (RElements ty) a ;+ l <+ arep a (rp ty false (if (0 <? a) && (4 <=? n) then Some ((n - 4) / a) else None)) ;;
     x <+ lift (of_outcome (array_new ty None l)) ;; aret (PArray x))).
  { intros NS. apply (g_items _ (h_prop false)); [lia| |].
    { eapply g_weak; [apply H|]; [|unfold after; intros; lia]. intros z E. destruct ((0 <? a) && (4 <=? n)) eqn:C; [|discriminate].
      injection E as <-. apply andb_true_iff in C as [C1 C2]. apply Z.div_pos; lia. }
    intros a0.
    set (t := g (RElements ty)).
    assert (S : forall (B : Type) (f : property -> option B) (h : B -> Z) (l : list B), opt_map f a0 = Some l ->
      (forall p b, f p = Some b -> h b <= h_prop false p) -> sum (fun x => t + h x) l <= sum (fun x => t + h_prop false x) a0).
    { intros B f h l E K. eapply SizeThm.sum_opt_map; [exact E|]. intros p b Eb. apply K in Eb. lia. }
    assert (D : gives (fun b => h_prop true b - h_str (kind_name KArray) - h_str ty - sum (fun x => t + h_prop false x) a0)
      (x <+ lift (of_outcome (Ok (AProps ty a0))) ;; aret (PArray x))).
    { apply g_of, g_ret. cbn [AllocLow.h_prop AllocLow.h_array array_type AllocLow.h_head]. fold t. lia. }
    unfold array_new.
    destruct (kind_of ty) eqn:EK; try exact D; try destruct k; try exact D; unfold or_else;
      match goal with |- context [opt_map ?f a0] => destruct (opt_map f a0) as [l|] eqn:EO; [|exact D] end;
      (assert (ET : ty = kind_name (kind_of ty)) by (apply kind_of_name; congruence); rewrite EK in ET);
      apply g_of, g_ret; cbn [AllocLow.h_prop AllocLow.h_array array_type AllocLow.h_head]; cbn [kind_name] in *; rewrite <- ET; fold t.
    - eapply (S _ _ (fun _ => 0)) in EO; [rewrite SizeThm.sum_const; rewrite sum_plus, SizeThm.sum_const in EO; lia|].
      intros p b1 E; destruct p; try discriminate E. destruct k; try discriminate E. cbn. lia.
    - eapply (S _ _ (fun _ => 0)) in EO; [rewrite SizeThm.sum_const; rewrite sum_plus, SizeThm.sum_const in EO; lia|].
      intros p b1 E; destruct p; try discriminate E. destruct k; try discriminate E. cbn. lia.
    - eapply (S _ _ (fun _ => 0)) in EO; [rewrite SizeThm.sum_const; rewrite sum_plus, SizeThm.sum_const in EO; lia|].
      intros p b1 E; destruct p; try discriminate E. destruct name, v; try discriminate E. cbn. lia.
    - eapply (S _ _ (fun _ => 0)) in EO; [rewrite SizeThm.sum_const; rewrite sum_plus, SizeThm.sum_const in EO; lia|].
      intros p b1 E; destruct p; try discriminate E. cbn. lia.
    - eapply (S _ _ h_str) in EO; [lia|]. intros p b1 E; destruct p; try discriminate E. destruct ty0; try discriminate E.
      injection E as <-. cbn [AllocLow.h_prop AllocLow.h_head]. lia.
    - eapply (S _ _ h_opt) in EO; [lia|]. intros p b1 E; destruct p; try discriminate E. injection E as <-. cbn [AllocLow.h_prop AllocLow.h_head]. lia.
    - eapply (S _ _ h_opt) in EO; [lia|]. intros p b1 E; destruct p; try discriminate E. cbn [as_name] in E.
      destruct (index =? 0); [|discriminate E]. injection E as <-. cbn [AllocLow.h_prop AllocLow.h_head]. lia. }
  destruct (kind_of ty) eqn:EK; try (apply GG; congruence).
  apply g_request. eapply g_bind; [apply (g_struct_array m a (g (RElements ty))); lia|]. intros x.
  unfold array_new. destruct x as [[[fname tname] gd] l]. cbn [fst snd]. rewrite EK.
  destruct (opt_map as_sval l) as [r|] eqn:EO; [|intros c l0 x c' E; discriminate E].
  apply g_of, g_ret. cbn [AllocLow.h_prop AllocLow.h_array array_type AllocLow.h_head].
  assert (ET : ty = kind_name (kind_of ty)) by (apply kind_of_name; congruence). rewrite EK in ET. rewrite <- ET.
  apply (SizeThm.sum_opt_map _ (fun v => g (RElements ty) + h_sval v) (fun p => g (RElements ty) + h_prop false p)) in EO.
  - rewrite (sum_plus (g (RElements ty)) (h_prop false)) in EO. lia.
  - intros p b1 E; destruct p; try discriminate E. injection E as <-. cbn [AllocLow.h_prop]. lia.
Qed.
Lemma g_set n ty : gives (fun p => h_prop true p - h_str (kind_name KSet) - h_str ty) (a_set o rp n ty).
Proof.
  unfold a_set. apply g_skip. intros fl. eapply g_known; [apply adv_u32|]. intros a Ha. cbv beta in Ha. cbv beta.
  apply g_request. destruct (Z.ltb_spec 0 a).
  2: { assert (a = 0) as -> by lia. apply g_ret. cbn [AllocLow.h_prop AllocLow.h_head SizeThm.sum]. lia. }
  destruct ((n <? 8) && dbg o); [apply g_fail|]. eapply g_bind; [apply (g_rep (h_prop false) (g (RElements ty))); [lia|]|].
  { eapply g_weak; [apply H|]; [|unfold after; intros; lia]. intros z E. injection E as <-.
    apply Z.div_pos; [|lia]. pose proof (Z.mod_pos_bound (n - 8) 4294967296). lia. }
  intros l. apply g_ret. cbn [AllocLow.h_prop AllocLow.h_head]. rewrite sum_plus. lia.
Qed.
Lemma g_entry kt vt : gives (fun e => h_prop false (fst (fst e)) + h_prop false (snd (fst e))) (a_entry rp kt vt).
Proof.
  unfold a_entry. do 2 g_go ltac:(apply g_scoped, H, no_sug). apply g_skip. intros. fin.
Qed.
Lemma as_key_held k p s : as_key k p = Some s -> h_str s <= h_prop false p.
Proof.
  destruct k, p; cbn [as_key]; try discriminate.
  - destruct ty; [discriminate|]. intros E; injection E as <-. cbn [AllocLow.h_prop AllocLow.h_head]. lia.
  - destruct v; [|discriminate]. destruct (_ =? 0); [|discriminate]. intros E; injection E as <-. cbn [AllocLow.h_prop AllocLow.h_head AllocLow.h_opt]. lia.
  - destruct v; [|discriminate]. intros E; injection E as <-. cbn [AllocLow.h_prop AllocLow.h_head AllocLow.h_opt]. lia.
Qed.
Lemma entries_held {V} k (f : property -> option V) (h : V -> Z) l r : entries k f l = Some r -> (forall v, 0 <= h v) ->
  (forall p v, f p = Some v -> h v <= h_prop false p) ->
  sum (fun e => g REntries + h_str (fst e) + h (snd e)) r <= sum (fun e => g REntries + h_prop false (fst e) + h_prop false (snd e)) l.
Proof.
  unfold entries. intros E N K. destruct (opt_map _ l) as [q|] eqn:EO; [|discriminate]. injection E as <-.
  pose proof (SizeThm.sum_ins_all str_eqb (fun k => g REntries + h_str k) h q ltac:(intros s; cbv beta; nn; lia) N) as S. cbv beta in S.
  eapply (SizeThm.sum_opt_map _ (fun e => g REntries + h_str (fst e) + h (snd e))) in EO; [eapply Z.le_trans; [exact S|exact EO]|].
  intros [a b] [x y]. cbn [fst snd]. destruct (as_key k a) as [x'|] eqn:E1; [|discriminate].
  destruct (f b) as [y'|] eqn:E2; [|discriminate]. intros E; injection E as <- <-.
  apply as_key_held in E1. apply K in E2. lia.
Qed.
Lemma map_new_held kt vt fl l : h_map (map_new kt vt fl l) <= sum (fun e => g REntries + h_prop false (fst e) + h_prop false (snd e)) l
  /\ map_key_type (map_new kt vt fl l) = kt /\ map_value_type (map_new kt vt fl l) = vt.
Proof.
  split; [|exact (proj2 (SizeThm.map_new_least vs (fun _ _ _ => fail Oof) (fun _ _ _ => SizeThm.u_fail _ Oof) kt vt fl l))].
  assert (D0 : h_map (MGen kt vt fl l) <= sum (fun e => g REntries + h_prop false (fst e) + h_prop false (snd e)) l)
    by (cbn [AllocLow.h_map]; lia).
  unfold map_new. destruct (keyk_of kt) as [k|] eqn:EK; [|exact D0]. destruct (fl =? 0); [|exact D0].
  assert (D : h_map (or_else (entries k Some l) (MProp k vt) (MGen kt vt fl l))
      <= sum (fun e => g REntries + h_prop false (fst e) + h_prop false (snd e)) l).
  { destruct (entries k Some l) as [r|] eqn:EO; [|exact D0]. cbn [or_else AllocLow.h_map].
    apply (entries_held k _ (h_prop false)) in EO; [exact EO|apply h_prop_pos|].
    intros p v E; injection E as ->. lia. }
  destruct (kind_of vt) eqn:EV; try exact D.
  - destruct k0; try exact D.
    destruct (entries k as_int l) as [r|] eqn:EO; [|exact D0]. cbn [or_else AllocLow.h_map].
    apply (entries_held k _ (fun _ => 0)) in EO; [|lia|].
    + rewrite (SizeThm.sum_ext _ (fun e : str * Z => g REntries + h_str (fst e))) in EO by (intros; lia). exact EO.
    + intros p v E; destruct p; try discriminate E. destruct k0; try discriminate E. cbn. lia.
  - destruct (entries k as_bool l) as [r|] eqn:EO; [|exact D0]. cbn [or_else AllocLow.h_map].
    apply (entries_held k _ (fun _ => 0)) in EO; [|lia|].
    + rewrite (SizeThm.sum_ext _ (fun e : str * bool => g REntries + h_str (fst e))) in EO by (intros; lia). exact EO.
    + intros p v E; destruct p; try discriminate E. cbn. lia.
  - destruct k; try exact D.
    destruct (entries KkStr as_str l) as [r|] eqn:EO; [|exact D0]. cbn [or_else AllocLow.h_map].
    apply (entries_held KkStr _ h_opt) in EO; [exact EO|apply h_opt_nonneg|].
    intros p v E; destruct p; try discriminate E. injection E as <-. cbn [AllocLow.h_prop AllocLow.h_head]. lia.
Qed.
Lemma g_map kt vt : gives (fun p => h_prop true p - h_str (kind_name KMap) - (h_str kt + h_str vt)) (a_map o rp kt vt).
Proof.
  unfold a_map. apply g_skip. intros fl. eapply g_known; [apply adv_u32|]. intros a Ha. cbv beta in Ha. cbv beta.
  apply (g_items _ (fun e => h_prop false (fst (fst e)) + h_prop false (snd (fst e)))); [lia|apply g_entry|]. intros l. apply g_ret.
  cbn [AllocLow.h_prop AllocLow.h_head]. destruct (map_new_held kt vt fl (mins_all o l)) as (L & -> & ->).
  pose proof (SizeThm.sum_mins_all o (fun p => g REntries + h_prop false p) (h_prop false) l
    ltac:(intros p; cbv beta; pose proof (h_prop_pos false p); nn; lia) (h_prop_pos false)) as S. cbv beta in S.
  rewrite (SizeThm.sum_ext _ (fun e : property * property * Z => g REntries + (h_prop false (fst (fst e)) + h_prop false (snd (fst e))))) in S by (intros; lia).
  lia.
Qed.
Lemma g_body n ty hdr sug : (forall z, sug = Some z -> 0 <= z) -> gives (after hdr ty) (a_body n o vs rp ty hdr sug).
Proof.
  intros HS.
  assert (T : kind_of ty <> KOther -> ty = kind_name (kind_of ty)) by apply kind_of_name.
  unfold a_body. destruct (kind_of ty) eqn:EK; try specialize (T ltac:(discriminate)).
  - intros c l x c' E. injection E as <- E. unfold weighed, after. cbn [SizeThm.sum].
    assert (exists v, x = PNum k v) as [v ->].
    { unfold r_pnum, bind in E. destruct (if hdr then _ else _) as [[u c1]|]; [|discriminate].
      destruct (r_num k c1) as [[v c2]|]; [|discriminate]. exists v. unfold ret in E. congruence. }
    cbn [AllocLow.h_prop]. rewrite T. cbn [kind_name]. destruct hdr; cbn [AllocLow.h_head]; lia.
  - unfold a_pbyte. destruct hdr.
    + do 2 (apply g_skip; intros). g_go ltac:(apply g_string). apply g_skip. intros. g_go ltac:(apply g_bytev). fin. rewrite <- T. lia.
    + g_go ltac:(apply g_bytev). fin.
  - intros c l x c' E. injection E as <- E. unfold weighed, after. cbn [SizeThm.sum].
    assert (exists v, x = PBool v) as [v ->].
    { unfold r_pbool, bind in E. destruct (if hdr then _ else _) as [[u c1]|]; [|discriminate].
      destruct (r_bool c1) as [[v c2]|]; [|discriminate]. destruct (if hdr then _ else _) as [[u3 c3]|]; [|discriminate].
      exists v. unfold ret in E. congruence. }
    cbn [AllocLow.h_prop]. rewrite T. destruct hdr; cbn [AllocLow.h_head]; lia.
  - unfold a_penum. destruct hdr.
    + eapply g_headed; [apply g_string|]. intros ? ?. g_go ltac:(apply g_string). fin. rewrite <- T. lia.
    + g_go ltac:(apply g_string). fin.
  - unfold a_pstr. apply g_plain. g_go ltac:(apply g_fstring). destruct hdr; fin. rewrite <- T. lia.
  - unfold a_ptext. apply g_plain. g_go ltac:(apply g_text). destruct hdr; fin. rewrite <- T. lia.
  - unfold a_pname. destruct hdr.
    + eapply g_headed_index. intros ?. g_go ltac:(apply g_fstring). fin. rewrite <- T. lia.
    + g_go ltac:(apply g_fstring). fin.
  - unfold a_pobject. apply g_plain. g_go ltac:(apply g_string). destruct hdr; fin. rewrite <- T. lia.
  - unfold a_pdelegate. apply g_plain. g_go ltac:(apply g_delegate). destruct hdr; fin. rewrite <- T. lia.
  - unfold a_pmulti. apply g_plain. eapply g_known; [apply adv_u32|]. intros a Ha. cbv beta in Ha. apply (g_items _ (fun e => h_str (fst e) + h_str (snd e))); [lia|apply g_delegate|].
    intros l. destruct hdr; fin. rewrite <- T. lia.
  - unfold a_pfieldpath. apply g_plain. eapply g_known; [apply adv_u32|]. intros a Ha. cbv beta in Ha. apply (g_items _ h_str); [lia|apply g_string|].
    intros l. g_go ltac:(apply g_string). destruct hdr; fin. rewrite <- T. lia.
  - destruct hdr.
    + unfold a_pstruct. eapply (g_headed (fun tg => h_str (fst tg))).
      { g_go ltac:(apply g_string). apply g_skip. intros. fin. }
      intros ? [t gd]. g_go ltac:(apply g_sval). fin. rewrite <- T. lia.
    + unfold a_hinted. do 2 (apply g_skip; intros). destruct (hints o _); [|apply g_fail].
      g_go ltac:(apply g_sval). fin.
  - destruct hdr; [|intros c l x c' E; discriminate E].
    eapply g_headed; [apply g_string|]. intros l t. eapply g_weak; [apply g_array|]. intros p. unfold after. rewrite <- T. lia.
  - destruct hdr; [|intros c l x c' E; discriminate E].
    eapply g_headed; [apply g_string|]. intros l t. eapply g_weak; [apply g_set|]. intros p. unfold after. rewrite <- T. lia.
  - destruct hdr; [|intros c l x c' E; discriminate E].
    eapply (g_headed (fun kv => h_str (fst kv) + h_str (snd kv))); [do 2 g_go ltac:(apply g_string); fin|].
    intros l [kt vt]. eapply g_weak; [apply g_map|]. intros p. cbn [fst snd]. unfold after. rewrite <- T. lia.
  - assert (U : forall z, 0 <= z -> gives (after hdr ty) (a_unknown ty z)).
    { intros z N. unfold a_unknown. apply g_request. apply g_take; [lia|]. intros b E. apply g_ret. unfold after.
      cbn [AllocLow.h_prop]. rewrite E. destruct hdr; cbn [AllocLow.h_head]; lia. }
    destruct hdr.
    + unfold a_unknown_header. eapply g_known; [apply adv_u32|]. intros z Hz. cbv beta in Hz. do 2 (apply g_skip; intros). apply U. lia.
    + destruct sug as [z|]; [|apply g_skip; intros; apply g_fail]. apply U. now apply HS.
Qed.
End WithProp.
Lemma g_prop n ty hdr sug : (forall z, sug = Some z -> 0 <= z) -> gives (after hdr ty) (a_prop n o vs ty hdr sug).
Proof.
  revert ty hdr sug. induction n as [|n IH]; intros ty hdr sug HS; cbn [a_prop]; [apply g_fail|].
  apply g_scoped, g_body; [exact IH|exact HS].
Qed.
Lemma g_entries n m : gives (fun l => sum (fun e => h_str (fst e) + h_prop true (snd e)) l + h_str s_none) (a_entries n m o vs).
Proof.
  induction n as [|n IH]; cbn [a_entries]; [apply g_fail|]. g_go ltac:(apply g_string).
  destruct (str_eqb x s_none) eqn:E.
  { apply str_eqb_eq in E as ->. apply g_ret. cbn [SizeThm.sum]. lia. }
  g_go ltac:(apply g_string). g_go ltac:(apply g_scoped, g_prop, no_sug). g_go ltac:(exact IH). apply g_ret.
  unfold after. cbn [SizeThm.sum fst snd]. lia.
Qed.
End Props.
Lemma g_header : gives (h_header g) a_header.
Proof.
  unfold a_header. do 4 (apply g_skip; intros).
  eapply (g_bind (fun e => h_str (fe_branch e))).
  { unfold a_fengine. do 4 (apply g_skip; intros). g_go ltac:(apply g_string). apply g_ret. cbn [fe_branch]. lia. }
  intros e. apply g_skip. intros. eapply g_known; [apply adv_u32|]. intros n Hn. cbv beta in Hn.
  apply (g_items _ (fun _ => 0)); [lia|apply g_lift; lia|]. intros l. g_go ltac:(apply g_string). apply g_ret.
  unfold h_header. cbn [h_engine h_versions h_class].
  pose proof (SizeThm.sum_ins_all guid_eqb (fun _ : guid => g RVersions) (fun _ : Z => 0) l ltac:(intros; apply G) ltac:(lia)) as S. cbv beta in S.
  rewrite (SizeThm.sum_ext (fun _ : guid * Z => g RVersions) (fun _ => g RVersions + 0)) by (intros; lia). lia.
Qed.
Lemma g_file n o : gives (h_file g) (a_file n o).
Proof.
  unfold a_file. g_go ltac:(apply g_header). g_go ltac:(apply g_entries). apply g_ret. unfold h_file. cbn [fst snd].
  pose proof (SizeThm.sum_ins_all str_eqb h_str (h_prop true) x0 h_str_nonneg (h_prop_pos true)). lia.
Qed.
End Low.

Lemma parse_held g o b f c : (forall w, 0 <= g w) -> parse o b = Ok (f, c) -> h_file g f <= weighed g (fst (a_parse o b)).
Proof.
  intros G E. rewrite <- er_parse in E. unfold a_parse in *. destruct (a_file _ o _) as [l x] eqn:R. cbn [fst snd] in *. subst x.
  now apply (g_file g G) in R.
Qed.
Lemma prop_held g n o vs ty c p c' : (forall w, 0 <= g w) -> r_prop n o vs ty true None c = Ok (p, c') ->
  h_prop g true p <= h_str g ty + weighed g (fst (a_prop n o vs ty true None c)).
Proof.
  intros G E. rewrite <- er_prop in E. destruct (a_prop _ _ _ _ _ _ _) as [l x] eqn:R. cbn [fst snd] in *. subst x.
  apply (g_prop g G) in R; [|discriminate]. unfold after in R. lia.
Qed.

(** ** A string, exactly *)
Lemma uint_pos w c v c' : r_uint w c = Ok (v, c') -> pos c' = pos c + Z.max 0 w.
Proof.
  unfold r_uint, bind, take, ret. destruct (w <=? len (rest c)); [|discriminate]. cbv beta iota. intros E.
  apply (f_equal (fun x => match x with Ok (_, d) => pos d | _ => 0 end)) in E. cbn [pos] in E. lia.
Qed.
Lemma sint_pos w c v c' : r_sint w c = Ok (v, c') -> pos c' = pos c + Z.max 0 w.
Proof.
  unfold r_sint. intros E. unfold bind in E. destruct (r_uint w c) as [[u c1]|] eqn:U; [|discriminate].
  apply uint_pos in U. unfold ret in E. assert (c' = c1) as -> by congruence. exact U.
Qed.
Lemma fstring_exact c s c' : r_fstring c = Ok (s, c') ->
  (s = None /\ pos c' = pos c + 4 /\ fst (a_fstring c) = [])
  \/ (exists t, s = Some t /\ pos c' = pos c + 5 + len (utf8_bytes t)
       /\ fst (a_fstring c) = [Req RUtf8 (len (utf8_bytes t)) (len (rest c) - 4)])
  \/ (exists t, s = Some t /\ pos c' = pos c + 6 + 2 * units t
       /\ fst (a_fstring c) = [Req RUtf16 (units t) (len (rest c) - 4)]).
Proof.
  intros E. rewrite <- (er_fstring c) in E. destruct (a_fstring c) as [l x] eqn:R. cbn [fst snd] in *. subst x.
  unfold a_fstring in R. unfold abind at 1, lift at 1, position at 1 in R. unfold abind at 1, lift at 1 in R.
  destruct (r_i32 c) as [[n c1]|f] eqn:E1; [|discriminate]. destruct (adv_i32 _ _ _ E1) as [R1 (M1 & M2 & M3)].
  pose proof (sint_pos _ _ _ _ E1) as P1.
  destruct (negb (inr _ _ n)); [discriminate|]. destruct (Z.eqb_spec n 0).
  { left. unfold aret, lift, ret in R. cbn [app] in R. assert (s = None /\ c' = c1 /\ l = []) as (-> & -> & ->) by (repeat split; congruence).
    repeat split. lia. }
  destruct (Z.ltb_spec n 0).
  - right. right. unfold abind at 1, request at 1 in R. unfold abind at 1, lift at 1 in R. unfold take at 1 in R.
    destruct (Z.leb_spec (2 * (- n - 1)) (len (rest c1))) as [L|]; [|discriminate].
    set (buf := firstn (Z.to_nat (2 * (- n - 1))) (rest c1)) in R.
    set (c2 := Cur (pos c1 + Z.max 0 (2 * (- n - 1))) (skipn (Z.to_nat (2 * (- n - 1))) (rest c1)) (stk c1)) in R.
    unfold abind at 1, lift at 1 in R.
    destruct (r_u16 c2) as [[t c3]|f] eqn:E2; [|discriminate]. pose proof (uint_pos _ _ _ _ E2) as P3.
    unfold abind at 1, lift at 1, position at 1 in R. destruct (negb (t =? 0)); [discriminate|].
    destruct (utf16_dec (words buf)) as [u|] eqn:D; [|discriminate]. unfold aret, lift, ret in R. cbn [app] in R.
    assert (s = Some u /\ c' = c3 /\ l = [Req RUtf16 (- n - 1) (len (rest c1))]) as (-> & -> & ->) by (repeat split; congruence).
    exists u.
    assert (PP : pos c3 - pos c = 6 + 2 * (- n - 1)) by (unfold c2 in P3; cbn [pos] in P3; lia).
    assert (HL : len buf = 2 * (- n - 1)) by (unfold buf, len in *; rewrite firstn_length; lia).
    assert (Hev : Nat.Even (List.length buf)) by (exists (Z.to_nat (- n - 1)); unfold len in HL; lia).
    pose proof (StrFacts.len_words buf Hev) as W.
    apply (utf16_dec_inv (S (List.length (words buf)))) in D as [_ D]; [|lia|apply words_range].
    rewrite <- D, len_utf16 in W.
    split; [reflexivity|]. split; [lia|]. repeat f_equal; lia.
  - right. left. unfold abind at 1, request at 1 in R. unfold abind at 1, lift at 1 in R. unfold take at 1 in R.
    destruct (Z.leb_spec (n - 1) (len (rest c1))) as [L|]; [|discriminate].
    set (buf := firstn (Z.to_nat (n - 1)) (rest c1)) in R.
    set (c2 := Cur (pos c1 + Z.max 0 (n - 1)) (skipn (Z.to_nat (n - 1)) (rest c1)) (stk c1)) in R.
    unfold abind at 1, lift at 1 in R.
    destruct (r_u8 c2) as [[t c3]|f] eqn:E2; [|discriminate]. pose proof (uint_pos _ _ _ _ E2) as P3.
    unfold abind at 1, lift at 1, position at 1 in R. destruct (negb (t =? 0)); [discriminate|].
    destruct (utf8_dec buf) as [u|] eqn:D; [|discriminate]. unfold aret, lift, ret in R. cbn [app] in R.
    assert (s = Some u /\ c' = c3 /\ l = [Req RUtf8 (n - 1) (len (rest c1))]) as (-> & -> & ->) by (repeat split; congruence).
    exists u.
    assert (PP : pos c3 - pos c = 4 + n) by (unfold c2 in P3; cbn [pos] in P3; lia).
    assert (HL : len buf = n - 1) by (unfold buf, len in *; rewrite firstn_length; lia).
    apply utf8_dec_inv in D as [_ ->].
    split; [reflexivity|]. split; [lia|]. repeat f_equal; lia.
Qed.
