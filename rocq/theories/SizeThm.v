(** How many bytes a value takes at least when read and at most when written. *)
From Coq Require Import ZArith List Bool String Lia ZifyBool ZifyNat.
From Verif Require Import Base Str Types Versions Text Props File Spec BaseFacts ReaderFacts StrFacts Decode KindFacts
  Induct EqFacts StrThm ReadThm.
Import ListNotations.
Open Scope Z_scope.

(** ** Least sizes *)
Definition sl (s : str) : Z := units s + 5.
Definition ol (o : option str) : Z := match o with Some s => sl s | None => 4 end.
Section Sum.
  Context {A : Type} (f : A -> Z).
  Fixpoint sum (l : list A) : Z := match l with [] => 0 | a :: r => f a + sum r end.
End Sum.
Definition fmt_l (o : option numfmt) : Z := match o with Some _ => 29 | None => 4 end.
Fixpoint text_l (cu : bool) (t : ftext) : Z := match t with FText _ h => 4 + hist_l cu h end
with hist_l (cu : bool) (h : fhist) : Z :=
  match h with
  | HEmpty => 1 + (if cu then 4 else 0)
  | HNone s => 1 + (if cu then 4 + ol s else 0)
  | HBase a b c => 1 + ol a + ol b + ol c
  | HNamed t l | HArgument t l => 1 + text_l cu t + 4 + sum (fun e => sl (fst e) + arg_l cu (snd e)) l
  | HOrdered t l => 1 + text_l cu t + 4 + sum (arg_l cu) l
  | HNumber v o c | HPercent v o c => 1 + arg_l cu v + fmt_l o + ol c
  | HCurrency d v o c => 1 + ol d + arg_l cu v + fmt_l o + ol c
  | HDate _ _ c => 10 + sl c
  | HTime _ _ z c => 10 + sl z + sl c
  | HDateTime _ _ _ z c => 11 + sl z + sl c
  | HTransform t _ => 2 + text_l cu t
  | HTable a b => 1 + sl a + sl b
  end
with arg_l (cu : bool) (a : farg) : Z :=
  match a with
  | AInt _ | AUInt _ | AFloat _ => 5
  | AInt64 _ | AUInt64 _ | ADouble _ => 9
  | AText t => 1 + text_l cu t
  end.
Definition bytev_l (v : bytev) : Z := match v with BByte _ => 1 | BName s => sl s end.
(** Header of a property: type name, size, index, terminator and [extra]. *)
Definition hd_l (hdr : bool) (ty : str) (extra : Z) : Z := if hdr then sl ty + 9 + extra else 0.
Fixpoint least (cu hdr : bool) (p : property) : Z :=
  match p with
  | PNum k _ => hd_l hdr (num_name k) 0 + num_width k
  | PBool _ => hd_l hdr (kind_name KBool) 0 + 1
  | PByte name v => hd_l hdr (kind_name KByte) (ol name) + bytev_l v
  | PEnum ty v => hd_l hdr (kind_name KEnum) (ol ty) + sl v
  | PStr v => hd_l hdr (kind_name KStr) 0 + ol v
  | PText t => hd_l hdr (kind_name KText) 0 + text_l cu t
  | PName _ v => hd_l hdr (kind_name KName) 0 + ol v
  | PObject v => hd_l hdr (kind_name KObject) 0 + sl v
  | PDelegate a b => hd_l hdr (kind_name KDelegate) 0 + (sl a + sl b)
  | PMulti inline l => hd_l hdr (kind_name (KMulti inline)) 0 + (4 + sum (fun e => sl (fst e) + sl (snd e)) l)
  | PFieldPath l s => hd_l hdr (kind_name KFieldPath) 0 + (4 + sum sl l + sl s)
  | PUnknown name raw => hd_l hdr name 0 + len raw
  | PArray a => hd_l hdr (kind_name KArray) (sl (array_type a)) + array_l cu a
  | PSet ty _ l => hd_l hdr (kind_name KSet) (sl ty) + (8 + sum (least cu false) l)
  | PMap m => hd_l hdr (kind_name KMap) (sl (map_key_type m) + sl (map_value_type m)) + map_l cu m
  | PStruct g ty v => hd_l hdr (kind_name KStruct) (sl ty + Z.max 16 (len g)) + sval_l cu v
  | PSValue v => sval_l cu v
  end
with sval_l (cu : bool) (v : svalue) : Z :=
  match v with
  | SFixed x _ => sum num_width (layout x)
  | SGuid g => Z.max 16 (len g)
  | STags l => 4 + sum sl l
  | SCustom l => sum (fun e => sum (fun p => sl (fst e) + least cu true p) (snd e)) l + sl s_none
  end
with array_l (cu : bool) (a : arrayp) : Z :=
  match a with
  | ABools l => 4 + sum (fun _ => 1) l
  | ABytes l => 4 + sum (fun _ => 1) l
  | AEnums l => 4 + sum sl l
  | AFloats l => 4 + sum (fun _ => 4) l
  | AInts l => 4 + sum (fun _ => 4) l
  | ANames l | AStrings l => 4 + sum ol l
  | AStructs fname tname g l =>
    4 + sl fname + sl (kind_name KStruct) + 8 + sl tname + Z.max 16 (len g) + 1 + sum (sval_l cu) l
  | AProps _ l => 4 + sum (least cu false) l
  end
with map_l (cu : bool) (m : mapp) : Z :=
  match m with
  | MBool _ l => 8 + sum (fun e => sl (fst e) + 1) l
  | MInt _ l => 8 + sum (fun e => sl (fst e) + 4) l
  | MProp _ _ l => 8 + sum (fun e => sl (fst e) + least cu false (snd e)) l
  | MStrStr l => 8 + sum (fun e => sl (fst e) + ol (snd e)) l
  | MGen _ _ _ l => 8 + sum (fun e => least cu false (fst e) + least cu false (snd e)) l
  end.

(** ** Sums *)
Lemma units_nonneg s : 0 <= units s.
Proof. induction s as [|c s IH]; cbn [units]; [lia|]. destruct (c <? 65536); lia. Qed.
Lemma sl_nonneg s : 5 <= sl s. Proof. pose proof (units_nonneg s). unfold sl. lia. Qed.
Lemma ol_nonneg o : 4 <= ol o. Proof. destruct o as [s|]; cbn [ol]; [|lia]. pose proof (sl_nonneg s). lia. Qed.
Lemma sum_nonneg {A} (f : A -> Z) l : Forall (fun a => 0 <= f a) l -> 0 <= sum f l.
Proof. induction 1; cbn [sum]; lia. Qed.
Lemma sum_nonneg' {A} (f : A -> Z) l : (forall a, 0 <= f a) -> 0 <= sum f l.
Proof. intros H. apply sum_nonneg, Forall_forall. auto. Qed.
Lemma sum_app {A} (f : A -> Z) a b : sum f (a ++ b) = sum f a + sum f b.
Proof. induction a as [|x a IH]; cbn [app sum]; [lia|]. rewrite IH. lia. Qed.
Lemma sum_le {A} (f g : A -> Z) l : Forall (fun a => f a <= g a) l -> sum f l <= sum g l.
Proof. induction 1; cbn [sum]; lia. Qed.
Lemma sum_map {A B} (h : A -> B) (f : B -> Z) l : sum f (map h l) = sum (fun a => f (h a)) l.
Proof. induction l; cbn [map sum]; [reflexivity|]. now rewrite IHl. Qed.
Lemma sum_const {A} (k : Z) (l : list A) : sum (fun _ => k) l = k * len l.
Proof. induction l; cbn [sum]; [unfold len; cbn; lia|]. rewrite IHl, len_cons. lia. Qed.
Lemma sum_ext {A} (f g : A -> Z) l : (forall a, f a = g a) -> sum f l = sum g l.
Proof. intros H. induction l; cbn [sum]; [reflexivity|]. now rewrite H, IHl. Qed.

(** ** Everything is non-negative *)
Ltac nn := repeat match goal with
  | |- context [sl ?s] => lazymatch goal with H : 5 <= sl s |- _ => fail | _ => pose proof (sl_nonneg s) end
  | |- context [ol ?s] => lazymatch goal with H : 4 <= ol s |- _ => fail | _ => pose proof (ol_nonneg s) end
  | |- context [len ?s] => lazymatch goal with H : 0 <= len s |- _ => fail | _ => pose proof (len_nonneg s) end
  end.
Lemma fmt_l_pos o : 4 <= fmt_l o. Proof. destruct o; cbn; lia. Qed.
Lemma sum_nonneg_if {A} (f : A -> Z) (P : A -> Prop) l : (forall a, P a -> 0 <= f a) -> Forall P l -> 0 <= sum f l.
Proof. intros H F. apply sum_nonneg. eapply Forall_impl; eauto. Qed.
Ltac nns := repeat match goal with
  | F : Forall _ ?l |- context [sum ?f ?l] =>
    lazymatch goal with H : 0 <= sum f l |- _ => fail
    | _ => let H := fresh in assert (H : 0 <= sum f l) by
      (refine (sum_nonneg_if _ _ _ _ F); cbv beta; intros; nn; lia) end
  end.
Lemma text_l_nonneg cu : (forall t, 5 <= text_l cu t) /\ (forall h, 1 <= hist_l cu h) /\ (forall a, 5 <= arg_l cu a).
Proof.
  apply text_all; cbn [text_l hist_l arg_l]; intros;
    repeat match goal with |- context [fmt_l ?o] => pose proof (fmt_l_pos o); generalize dependent (fmt_l o); intros end;
    nn; nns; try (destruct cu; lia); try lia.
Qed.
Lemma num_width_pos k : 1 <= num_width k. Proof. destruct k; cbn; lia. Qed.
Lemma hd_l_nonneg hdr ty e : 0 <= e -> 0 <= hd_l hdr ty e.
Proof. intros. destruct hdr; cbn [hd_l]; nn; lia. Qed.
Lemma bytev_l_pos v : 1 <= bytev_l v. Proof. destruct v; cbn [bytev_l]; nn; lia. Qed.
Lemma layout_pos x : 1 <= sum num_width (layout x). Proof. destruct x; cbn; lia. Qed.
Lemma least_nonneg cu : (forall p hdr, 0 <= least cu hdr p) /\ (forall v, 1 <= sval_l cu v) /\ (forall a, 4 <= array_l cu a) /\ (forall m, 8 <= map_l cu m).
Proof.
  apply prop_all; cbn [least sval_l array_l map_l]; intros;
    try match goal with |- context [hd_l ?h ?t ?e] => assert (0 <= hd_l h t e) by (apply hd_l_nonneg; nn; lia) end;
    try match goal with |- context [num_width ?k] => pose proof (num_width_pos k) end;
    try match goal with |- context [bytev_l ?k] => pose proof (bytev_l_pos k) end;
    try match goal with |- context [text_l ?c ?t] => pose proof (proj1 (text_l_nonneg c) t) end;
    try apply layout_pos;
    nn; try lia;
    try match goal with |- context [sum ?f ?l] =>
      let H := fresh in assert (H : 0 <= sum f l);
        [first [apply sum_nonneg'; intros; nn; lia
               |match goal with F : Forall _ l |- _ => refine (sum_nonneg_if _ _ _ _ F); cbv beta; intros; nn end] |nn; lia] end;
    try lia.
  all: repeat match goal with H : forall hdr, 0 <= least _ hdr _ |- _ => pose proof (H true); specialize (H false) end; try lia.
  all: try match goal with H : _ /\ _ |- _ => destruct H as [Ha Hb]; specialize (Ha false); specialize (Hb false); lia end.
  apply (sum_nonneg_if _ (fun p => forall hdr, 0 <= least cu hdr p)); [|assumption]. intros p Hp. nn. specialize (Hp true). lia.
Qed.
Lemma least_pos cu hdr p : 0 <= least cu hdr p. Proof. apply least_nonneg. Qed.
Lemma sval_pos cu v : 1 <= sval_l cu v. Proof. apply least_nonneg. Qed.
Lemma text_pos cu t : 5 <= text_l cu t. Proof. apply text_l_nonneg. Qed.
Lemma arg_pos cu t : 5 <= arg_l cu t. Proof. apply text_l_nonneg. Qed.
Lemma fields_nonneg cu k l : 0 <= sum (fun p => sl k + least cu true p) l.
Proof. apply sum_nonneg'. intros p. pose proof (least_pos cu true p). nn. lia. Qed.

(** ** Reading takes at least that many bytes *)
Definition uses {A} (m : A -> Z) (r : reader A) : Prop :=
  forall c a c', r c = Ok (a, c') -> pos c + m a <= pos c'.
Lemma u_ret {A} (m : A -> Z) a : m a <= 0 -> uses m (ret a).
Proof. intros H c x c' E. injection E as <- <-. lia. Qed.
Lemma u_fail {A} (m : A -> Z) f : uses m (fail f).
Proof. intros c x c' E. discriminate E. Qed.
Lemma u_bind {A B} (m : A -> Z) (n : B -> Z) r k : uses m r -> (forall a, uses (fun b => n b - m a) (k a)) -> uses n (bind r k).
Proof.
  intros H K c b c' E. unfold bind in E. destruct (r c) as [[a c1]|] eqn:R; [|discriminate].
  apply H in R. apply K in E. lia.
Qed.
Lemma u_weak {A} (m n : A -> Z) r : uses m r -> (forall a, n a <= m a) -> uses n r.
Proof. intros H L c a c' E. apply H in E. specialize (L a). lia. Qed.
Lemma u_position : uses (fun _ => 0) position.
Proof. intros c a c' E. injection E as <- <-. lia. Qed.
Lemma u_get_stk : uses (fun _ => 0) get_stk.
Proof. intros c a c' E. injection E as <- <-. lia. Qed.
Lemma u_take n : uses (fun l => Z.max n (len l)) (take n).
Proof.
  intros c a c' E. unfold take in E. destruct (Z.leb_spec n (len (rest c))); [|discriminate].
  injection E as <- <-. cbn [pos]. unfold len. rewrite firstn_length. lia.
Qed.
Lemma u_scoped {A} (m : A -> Z) s r : uses m r -> uses m (scoped s r).
Proof.
  intros H c a c' E. unfold scoped, bind, push, pop, ret in E. cbn [pos rest stk] in E.
  destruct (r (Cur (pos c) (rest c) (s :: stk c))) as [[x c1]|] eqn:R; [|discriminate].
  injection E as <- <-. apply H in R. exact R.
Qed.
Lemma u_rep_pos {A} (m : A -> Z) p r : uses m r -> uses (sum m) (rep_pos p r).
Proof.
  intros H. induction p as [q IH|q IH|]; cbn [rep_pos].
  - eapply u_bind; [exact H|]. intros a. eapply u_bind; [exact IH|]. intros l1. eapply u_bind; [exact IH|]. intros l2.
    apply u_ret. cbn [sum]. rewrite sum_app. lia.
  - eapply u_bind; [exact IH|]. intros l1. eapply u_bind; [exact IH|]. intros l2. apply u_ret. rewrite sum_app. lia.
  - eapply u_bind; [exact H|]. intros a. apply u_ret. cbn [sum]. lia.
Qed.
Lemma u_rep {A} (m : A -> Z) n r : uses m r -> uses (sum m) (rep n r).
Proof. intros H. destruct n; cbn [rep]; [apply u_ret; cbn; lia|now apply u_rep_pos|apply u_ret; cbn; lia]. Qed.
Lemma u_mapM {A B} (f : A -> reader B) (g : A -> Z) l : (forall a, uses (fun _ => g a) (f a)) -> uses (fun _ => sum g l) (mapM f l).
Proof.
  intros H. induction l as [|a l IH]; cbn [mapM sum]; [apply u_ret; lia|].
  eapply u_bind; [apply H|]. intros x. eapply u_bind; [apply IH|]. intros y. apply u_ret. lia.
Qed.
Lemma u_uint w : uses (fun _ => w) (r_uint w).
Proof. eapply u_bind; [apply u_take|]. intros l. apply u_ret. lia. Qed.
Lemma u_sint w : uses (fun _ => w) (r_sint w).
Proof. eapply u_bind; [apply u_uint|]. intros l. apply u_ret. lia. Qed.
Lemma u_guid : uses (fun g => Z.max 16 (len g)) r_guid.
Proof. apply u_take. Qed.
Lemma u_boolw w : uses (fun _ => w) (r_boolw w).
Proof.
  eapply u_bind; [apply u_uint|]. intros v. cbv beta. destruct (v =? 0); [apply u_ret; lia|]. destruct (v =? 1); [apply u_ret; lia|].
  eapply u_bind; [apply u_position|]. intros p. apply u_fail.
Qed.
Lemma u_enum {A} t (f : Z -> option A) : uses (fun _ => 1) (r_enum t f).
Proof.
  eapply u_bind; [apply u_sint|]. intros v. cbv beta. destruct (f v); [apply u_ret; lia|].
  eapply u_bind; [apply u_position|]. intros p. apply u_fail.
Qed.
Lemma encoding_least o e : encoding o e -> ol o <= len e.
Proof.
  intros []; cbn [ol]; unfold sl; rewrite ?len_app, ?(len_le_bytes 4), ?(len_le_bytes 2); try (change (len [Byte.x00]) with 1).
  - lia.
  - pose proof (utf8_units s ltac:(assumption)). lia.
  - rewrite len_words_bytes, len_utf16. pose proof (units_nonneg s). change (len [Byte.x00; Byte.x00]) with 2. lia.
Qed.
Lemma u_fstring : uses ol r_fstring.
Proof. intros c o c' E. apply fstring_inv in E as (bs & E & _ & P & _). apply encoding_least in E. lia. Qed.
Lemma u_string : uses sl r_string.
Proof.
  eapply u_bind; [apply u_position|]. intros p. eapply u_bind; [apply u_fstring|]. intros o. cbv beta.
  destruct o; [apply u_ret; cbn [ol]; lia|apply u_fail].
Qed.

(** *** Insertion never makes a list larger *)
Lemma sum_ins {K V} eqb (g : K -> Z) (h : V -> Z) l (k : K) (v : V) : (forall k, 0 <= g k) -> (forall v, 0 <= h v) ->
  sum (fun e => g (fst e) + h (snd e)) (ins eqb l k v) <= sum (fun e => g (fst e) + h (snd e)) l + (g k + h v).
Proof.
  intros G H. induction l as [|[k' v'] l IH]; cbn [ins sum fst snd]; [lia|].
  pose proof (G k). pose proof (H v').
  destruct (eqb k k'); cbn [sum fst snd]; lia.
Qed.
Lemma sum_ins_all {K V} eqb (g : K -> Z) (h : V -> Z) (l : list (K * V)) : (forall k, 0 <= g k) -> (forall v, 0 <= h v) ->
  sum (fun e => g (fst e) + h (snd e)) (ins_all eqb l) <= sum (fun e => g (fst e) + h (snd e)) l.
Proof.
  intros G H. unfold ins_all.
  assert (E : forall acc, sum (fun e => g (fst e) + h (snd e)) (fold_left (fun acc kv => ins eqb acc (fst kv) (snd kv)) l acc)
    <= sum (fun e => g (fst e) + h (snd e)) acc + sum (fun e => g (fst e) + h (snd e)) l).
  { induction l as [|[k v] l IH]; intros acc; cbn [fold_left sum fst snd]; [lia|].
    specialize (IH (ins eqb acc k v)). pose proof (sum_ins eqb g h acc k v G H). lia. }
  specialize (E []). cbn [sum] in E. lia.
Qed.
Lemma sum_set_at (g h : property -> Z) l i v : (forall k, 0 <= g k) -> (forall v, 0 <= h v) ->
  sum (fun e => g (fst e) + h (snd e)) (set_at l i v) <= sum (fun e => g (fst e) + h (snd e)) l + h v.
Proof.
  intros G H. revert i. induction l as [|[k' v'] l IH]; intros i; cbn [set_at sum fst snd].
  - pose proof (H v). lia.
  - pose proof (H v'). destruct i; cbn [sum fst snd]; [lia|]. specialize (IH i). lia.
Qed.
Lemma sum_mins pr (g h : property -> Z) l k v : (forall k, 0 <= g k) -> (forall v, 0 <= h v) ->
  sum (fun e => g (fst e) + h (snd e)) (mins pr l k v) <= sum (fun e => g (fst e) + h (snd e)) l + (g k + h v).
Proof.
  intros G H. unfold mins. pose proof (G k). destruct (hit pr k l 0) as [i|].
  - pose proof (sum_set_at g h l i v G H). lia.
  - now apply sum_ins.
Qed.
Lemma sum_mins_all o (g h : property -> Z) l : (forall k, 0 <= g k) -> (forall v, 0 <= h v) ->
  sum (fun e => g (fst e) + h (snd e)) (mins_all o l) <= sum (fun e => g (fst (fst e)) + h (snd (fst e))) l.
Proof.
  intros G H. unfold mins_all.
  assert (E : forall acc, sum (fun e => g (fst e) + h (snd e))
      (fold_left (fun acc e => mins (probe o (snd e)) acc (fst (fst e)) (snd (fst e))) l acc)
    <= sum (fun e => g (fst e) + h (snd e)) acc + sum (fun e => g (fst (fst e)) + h (snd (fst e))) l).
  { induction l as [|[[k v] q] l IH]; intros acc; cbn [fold_left sum fst snd]; [lia|].
    specialize (IH (mins (probe o q) acc k v)). pose proof (sum_mins (probe o q) g h acc k v G H). lia. }
  specialize (E []). cbn [sum] in E. lia.
Qed.
Lemma sum_opt_map {A B} (f : A -> option B) (g : B -> Z) (h : A -> Z) l r :
  opt_map f l = Some r -> (forall a b, f a = Some b -> g b <= h a) -> sum g r <= sum h l.
Proof.
  intros E H. revert r E. induction l as [|a l IH]; intros r E; cbn [opt_map] in E.
  - injection E as <-. cbn. lia.
  - destruct (f a) as [b|] eqn:Ea; [|discriminate]. destruct (opt_map f l) as [q|]; [|discriminate].
    injection E as <-. cbn [sum]. specialize (IH q eq_refl). apply H in Ea. lia.
Qed.
Definition fields (cu : bool) (l : list (str * list property)) : Z :=
  sum (fun e => sum (fun p => sl (fst e) + least cu true p) (snd e)) l.
Lemma fields_add cu l k p : fields cu (group_add l k p) = fields cu l + (sl k + least cu true p).
Proof.
  unfold group_add, group, fields. induction l as [|[k' v'] l IH]; cbn [lookup ins sum fst snd app]; [lia|].
  destruct (str_eqb k k') eqn:E; cbn [sum fst snd].
  - apply str_eqb_eq in E as <-. rewrite sum_app. cbn [sum]. lia.
  - rewrite IH. lia.
Qed.

(** *** Every reader *)
Ltac u_end := apply u_ret; cbn [fst snd fmt_l text_l hist_l arg_l ol]; nn; try lia.
Ltac u_go t := eapply u_bind; [t|]; intros; cbv beta.
Lemma u_numfmt : uses (fun _ => 25) r_numfmt.
Proof.
  unfold r_numfmt. u_go ltac:(apply u_boolw). u_go ltac:(apply u_boolw). u_go ltac:(apply u_enum).
  do 4 u_go ltac:(apply u_sint). u_end.
Qed.
Lemma u_optfmt : uses fmt_l r_optfmt.
Proof. unfold r_optfmt. u_go ltac:(apply u_boolw). destruct a; [|u_end]. u_go ltac:(apply u_numfmt). u_end. Qed.
Lemma u_count : uses (fun _ => 4) r_count.
Proof. unfold r_count. u_go ltac:(apply u_sint). destruct (a <? 0); [apply u_fail|u_end]. Qed.
Section Text.
Variable vs : list (guid * Z).
Let cu := has_culture vs.
Section WithText.
Variable rt : reader ftext.
Hypothesis H : uses (text_l cu) rt.
Lemma u_farg : uses (arg_l cu) (r_farg vs rt).
Proof.
  unfold r_farg. u_go ltac:(apply u_enum).
  destruct a; try destruct (has_arg64 vs); try apply u_fail;
    (u_go ltac:(first [apply u_sint|apply u_uint|exact H])); u_end.
Qed.
Lemma u_named : uses (fun l => 4 + sum (fun e => sl (fst e) + arg_l cu (snd e)) l) (r_named vs rt).
Proof.
  unfold r_named. u_go ltac:(apply u_count).
  u_go ltac:(eapply (u_rep (fun e => sl (fst e) + arg_l cu (snd e)));
    u_go ltac:(apply u_string); u_go ltac:(apply u_farg); u_end).
  apply u_ret. pose proof (sum_ins_all str_eqb sl (arg_l cu) a0) as S.
  specialize (S ltac:(intros v; pose proof (sl_nonneg v); lia) ltac:(intros v; pose proof (arg_pos cu v); lia)). lia.
Qed.
Lemma u_hist : uses (hist_l cu) (r_hist vs rt).
Proof.
  unfold r_hist. u_go ltac:(apply u_enum).
  destruct a; try apply u_fail.
  1: { fold cu. destruct cu; [|u_end]. u_go ltac:(apply u_boolw). destruct a; [u_go ltac:(apply u_fstring); u_end|u_end]. }
  all: repeat (u_go ltac:(first [exact H|apply u_named|apply u_count|apply u_fstring|apply u_string|apply u_enum|apply u_farg|apply u_optfmt|apply u_uint
     |apply u_rep; apply u_farg])); u_end.
Qed.
End WithText.
Lemma u_text n : uses (text_l cu) (r_text n vs).
Proof.
  induction n as [|n IH]; cbn [r_text]; [apply u_fail|]. u_go ltac:(apply u_uint).
  u_go ltac:(apply u_hist, IH). u_end.
Qed.
End Text.

Lemma u_sized {A} (m : A -> Z) n r : uses m r -> uses m (sized n r).
Proof.
  intros H. unfold sized. u_go ltac:(apply u_position). u_go ltac:(exact H). u_go ltac:(apply u_position).
  destruct (_ =? n); [apply u_ret; lia|apply u_fail].
Qed.
Lemma u_index0 : uses (fun _ => 4) r_index0.
Proof. unfold r_index0. u_go ltac:(apply u_uint). u_go ltac:(apply u_position). destruct (a =? 0); [u_end|apply u_fail]. Qed.
Lemma u_term : uses (fun _ => 1) r_term.
Proof. unfold r_term. u_go ltac:(apply u_uint). u_go ltac:(apply u_position). destruct (a =? 0); [u_end|apply u_fail]. Qed.
Lemma u_check n : uses (fun _ => 8) (check_size n).
Proof. unfold check_size. u_go ltac:(apply u_uint). u_go ltac:(apply u_position). destruct (a =? n); [u_end|apply u_fail]. Qed.
Lemma u_zero s r w : uses (fun _ => w) r -> uses (fun _ => w) (zero_or s r).
Proof. intros H. unfold zero_or. u_go ltac:(exact H). destruct (a =? 0); [apply u_ret; lia|apply u_fail]. Qed.
Lemma u_headed {V A} (mv : V -> Z) (m : A -> Z) vars body : uses mv vars ->
  (forall n v, uses (fun a => m a - 9 - mv v) (body n v)) -> uses m (headed vars body).
Proof.
  intros H K. unfold headed. u_go ltac:(apply u_uint). u_go ltac:(apply u_index0). u_go ltac:(exact H). u_go ltac:(apply u_term).
  apply u_sized. eapply u_weak; [apply K|]. intros x. cbv beta. lia.
Qed.
Lemma u_headed_index {A} (m : A -> Z) body :
  (forall n, uses (fun a => m a - 9) (body n)) -> uses m (headed_index body).
Proof.
  intros K. unfold headed_index. u_go ltac:(apply u_uint). u_go ltac:(apply u_uint). u_go ltac:(apply u_term).
  apply u_sized. eapply u_weak; [apply K|]. intros x. cbv beta. lia.
Qed.
Lemma u_plain {A} (hdr : bool) (m : A -> Z) r : uses (fun a => m a - if hdr then 9 else 0) r -> uses m (plain hdr r).
Proof.
  intros H. unfold plain. destruct hdr.
  - eapply (u_headed (fun _ : unit => 0)); [apply u_ret; lia|]. intros n v. eapply u_weak; [exact H|]. intros a. cbv beta. lia.
  - eapply u_weak; [exact H|]. intros a. cbv beta. lia.
Qed.
Lemma u_num k : uses (fun _ => num_width k) (r_num k).
Proof. unfold r_num. destruct (num_signed k); [apply u_sint|apply u_uint]. Qed.

Lemma u_of {A B} (n : B -> Z) (x : A) k : uses n (k x) -> uses n (bind (of_outcome (Ok x)) k).
Proof. exact (fun H => H). Qed.

Lemma u_bytev o sug : uses bytev_l (r_bytev o sug).
Proof.
  unfold r_bytev. destruct sug as [e|].
  - destruct ((e =? 0) && dbg o); [apply u_fail|]. destruct ((e =? 1) || (e =? 2)).
    + u_go ltac:(apply u_take). apply u_ret. cbn [bytev_l]. lia.
    + u_go ltac:(apply u_string). apply u_ret. cbn [bytev_l]. lia.
  - u_go ltac:(apply u_take). apply u_ret. cbn [bytev_l]. lia.
Qed.
Lemma u_delegate : uses (fun e => sl (fst e) + sl (snd e)) r_delegate.
Proof. unfold r_delegate. do 2 u_go ltac:(apply u_string). u_end. Qed.
Section Props.
Variables (o : opts) (vs : list (guid * Z)).
Let cu := has_culture vs.
Definition after (hdr : bool) (ty : str) (p : property) : Z := least cu hdr p - if hdr then sl ty else 0.
Ltac fin := apply u_ret; unfold after; cbn [least hd_l bytev_l ol fst snd]; nn; try lia.
Section WithProp.
Variable rp : preader.
Hypothesis H : forall ty hdr sug, uses (after hdr ty) (rp ty hdr sug).
Lemma u_custom m acc : uses (fun l => fields cu l + sl s_none - fields cu acc) (r_custom m o rp acc).
Proof.
  revert acc. induction m as [|m IH]; intros acc; cbn [r_custom]; [apply u_fail|].
  u_go ltac:(apply u_string). destruct (str_eqb a s_none) eqn:E.
  { apply str_eqb_eq in E as ->. apply u_ret. lia. }
  u_go ltac:(apply u_string). u_go ltac:(apply u_scoped, H).
  destruct (dbg o && negb (index_ok acc a a1)); [apply u_fail|].
  eapply u_weak; [apply IH|]. intros l. rewrite fields_add. unfold after. lia.
Qed.
Lemma u_sval m ty : uses (sval_l cu) (r_sval m o vs rp ty).
Proof.
  unfold r_sval. destruct (fixed_of vs (skind_of ty)) as [x|].
  - u_go ltac:(apply (u_mapM _ num_width), u_num). apply u_ret. cbn [sval_l]. lia.
  - assert (D : uses (sval_l cu) (l <- r_custom m o rp [] ;; ret (SCustom l))).
    { u_go ltac:(apply u_custom). apply u_ret. cbn [sval_l]. fold (fields cu a). change (fields cu []) with 0. lia. }
    destruct (skind_of ty); try exact D.
    + u_go ltac:(apply u_guid). apply u_ret. cbn [sval_l]. lia.
    + u_go ltac:(apply u_count). u_go ltac:(apply u_rep, u_string). apply u_ret. cbn [sval_l]. lia.
Qed.
Lemma u_struct_array m n : uses (fun x => match x with (f, t, g, l) =>
    sl f + sl (kind_name KStruct) + 8 + sl t + Z.max 16 (len g) + 1 + sum (least cu false) l end)
  (r_struct_array m o vs rp n).
Proof.
  unfold r_struct_array. u_go ltac:(apply u_string). u_go ltac:(apply u_string).
  destruct (str_eqb a0 (kind_name KStruct)) eqn:E; [|apply u_fail]. apply str_eqb_eq in E as ->. cbn [negb].
  u_go ltac:(apply u_uint). u_go ltac:(apply u_string). u_go ltac:(apply u_guid). u_go ltac:(apply u_term). u_go ltac:(apply u_position).
  u_go ltac:(apply (u_rep (least cu false)); u_go ltac:(apply u_sval); apply u_ret; cbn [least]; lia).
  u_go ltac:(apply u_position). destruct (_ =? a0); [apply u_ret; lia|apply u_fail].
Qed.
Lemma u_array m n ty : uses (fun p => least cu true p - sl (kind_name KArray) - 9 - sl ty) (r_array m o vs rp n ty).
Proof.
  unfold r_array. u_go ltac:(apply u_uint).
  assert (G : kind_of ty <> KStruct -> uses (fun b => least cu true b - sl (kind_name KArray) - 9 - sl ty - 4)
    (l <- rep a (rp ty false (if (0 <? a) && (4 <=? n) then Some ((n - 4) / a) else None)) ;;
     x <- of_outcome (array_new ty None l) ;; ret (PArray x))).
  { intros NS. u_go ltac:(apply u_rep, H). 
    assert (S : forall (B : Type) (f : property -> option B) (g : B -> Z) (l : list B), opt_map f a0 = Some l ->
      (forall p b, f p = Some b -> g b <= least cu false p) -> sum g l <= sum (after false ty) a0).
    { intros B f g l E K. eapply sum_opt_map; [exact E|]. intros p b Eb. apply K in Eb. unfold after. lia. }
    assert (D : uses (fun b => least cu true b - sl (kind_name KArray) - 9 - sl ty - 4 - sum (after false ty) a0) (x <- of_outcome (Ok (AProps ty a0)) ;; ret (PArray x))).
    { apply u_of, u_ret. cbn [least array_l array_type hd_l].
      assert (sum (least cu false) a0 <= sum (after false ty) a0) by (apply sum_le, Forall_forall; unfold after; intros; lia). lia. }
    unfold array_new.
    destruct (kind_of ty) eqn:EK; try exact D; try destruct k; try exact D; unfold or_else;
      match goal with |- context [opt_map ?f a0] => destruct (opt_map f a0) as [l|] eqn:EO; [|exact D] end;
      (assert (ET : ty = kind_name (kind_of ty)) by (apply kind_of_name; congruence); rewrite EK in ET);
      apply u_of, u_ret; cbn [least array_l array_type hd_l]; rewrite <- ET.
    - eapply (S _ _ (fun _ => 4)) in EO; [lia|]. intros p b1 E; destruct p; try discriminate E. destruct k; try discriminate E. cbn. lia.
    - eapply (S _ _ (fun _ => 4)) in EO; [lia|]. intros p b1 E; destruct p; try discriminate E. destruct k; try discriminate E. cbn. lia.
    - eapply (S _ _ (fun _ => 1)) in EO; [lia|]. intros p b1 E; destruct p; try discriminate E. destruct name, v; try discriminate E. cbn. lia.
    - eapply (S _ _ (fun _ => 1)) in EO; [lia|]. intros p b1 E; destruct p; try discriminate E. cbn. lia.
    - eapply (S _ _ sl) in EO; [lia|]. intros p b1 E; destruct p; try discriminate E. destruct ty0; try discriminate E.
      injection E as <-. cbn [least hd_l]. lia.
    - eapply (S _ _ ol) in EO; [lia|]. intros p b1 E; destruct p; try discriminate E. injection E as <-. cbn [least hd_l]. lia.
    - eapply (S _ _ ol) in EO; [lia|]. intros p b1 E; destruct p; try discriminate E. cbn [as_name] in E.
      destruct (index =? 0); [|discriminate E]. injection E as <-. cbn [least hd_l]. lia. }
  destruct (kind_of ty) eqn:EK; try (apply G; congruence).
  u_go ltac:(apply u_struct_array).
  unfold array_new. destruct a0 as [[[fname tname] g] l]. cbn [fst snd]. rewrite EK.
  destruct (opt_map as_sval l) as [r|] eqn:EO; [|intros c x c' E; discriminate E].
  apply u_of, u_ret. cbn [least array_l array_type hd_l].
  assert (ET : ty = kind_name (kind_of ty)) by (apply kind_of_name; congruence). rewrite EK in ET. rewrite <- ET.
  apply (sum_opt_map _ (sval_l cu) (least cu false)) in EO; [lia|].
  intros p b1 E; destruct p; try discriminate E. injection E as <-. cbn [least]. lia.
Qed.
Lemma u_set n ty : uses (fun p => least cu true p - sl (kind_name KSet) - 9 - sl ty) (r_set o rp n ty).
Proof.
  unfold r_set. u_go ltac:(apply u_uint). u_go ltac:(apply u_uint). destruct (0 <? a0); [|fin].
  2: { cbn [sum]. lia. }
  destruct ((n <? 8) && dbg o); [apply u_fail|]. u_go ltac:(apply u_rep, H). apply u_ret. cbn [least hd_l].
  assert (sum (least cu false) a1 <= sum (after false ty) a1) by (apply sum_le, Forall_forall; unfold after; intros; lia). lia.
Qed.
Lemma u_entry kt vt : uses (fun e => least cu false (fst (fst e)) + least cu false (snd (fst e))) (r_entry rp kt vt).
Proof.
  unfold r_entry. do 2 u_go ltac:(apply u_scoped, H). u_go ltac:(apply u_position). fin.
Qed.
Lemma keyk_of_name kt k : keyk_of kt = Some k -> kt = keyk_name k.
Proof.
  unfold keyk_of. intros E. destruct (kind_of kt) eqn:EK; try discriminate E; injection E as <-;
    rewrite (kind_of_name kt) by congruence; rewrite EK; reflexivity.
Qed.
Lemma as_key_least k p s : as_key k p = Some s -> sl s <= least cu false p.
Proof.
  destruct k, p; cbn [as_key]; try discriminate.
  - destruct ty; [discriminate|]. intros E; injection E as <-. cbn [least hd_l]. lia.
  - destruct v; [|discriminate]. destruct (_ =? 0); [|discriminate]. intros E; injection E as <-. cbn [least hd_l ol]. lia.
  - destruct v; [|discriminate]. intros E; injection E as <-. cbn [least hd_l ol]. lia.
Qed.
Lemma entries_least {V} k (f : property -> option V) (h : V -> Z) l r : entries k f l = Some r -> (forall v, 0 <= h v) ->
  (forall p v, f p = Some v -> h v <= least cu false p) ->
  sum (fun e => sl (fst e) + h (snd e)) r <= sum (fun e => least cu false (fst e) + least cu false (snd e)) l.
Proof.
  unfold entries. intros E N K. destruct (opt_map _ l) as [q|] eqn:EO; [|discriminate]. injection E as <-.
  pose proof (sum_ins_all str_eqb sl h q ltac:(intros s; pose proof (sl_nonneg s); lia) N).
  eapply (sum_opt_map _ (fun e => sl (fst e) + h (snd e))) in EO; [eapply Z.le_trans; [eassumption|exact EO]|].
  intros [a b] [x y]. cbn [fst snd]. destruct (as_key k a) as [x'|] eqn:E1; [|discriminate].
  destruct (f b) as [y'|] eqn:E2; [|discriminate]. intros E; injection E as <- <-.
  apply as_key_least in E1. apply K in E2. lia.
Qed.
Lemma map_new_least kt vt fl l : map_l cu (map_new kt vt fl l) <= 8 + sum (fun e => least cu false (fst e) + least cu false (snd e)) l
  /\ map_key_type (map_new kt vt fl l) = kt /\ map_value_type (map_new kt vt fl l) = vt.
Proof.
  assert (G : map_l cu (MGen kt vt fl l) <= 8 + sum (fun e => least cu false (fst e) + least cu false (snd e)) l
    /\ map_key_type (MGen kt vt fl l) = kt /\ map_value_type (MGen kt vt fl l) = vt) by (cbn [map_l]; split; [lia|split; reflexivity]).
  unfold map_new. destruct (keyk_of kt) as [k|] eqn:EK; [|exact G]. destruct (fl =? 0); [|exact G].
  pose proof (keyk_of_name _ _ EK) as ->.
  assert (D : map_l cu (or_else (entries k Some l) (MProp k vt) (MGen (keyk_name k) vt fl l))
      <= 8 + sum (fun e => least cu false (fst e) + least cu false (snd e)) l
    /\ map_key_type (or_else (entries k Some l) (MProp k vt) (MGen (keyk_name k) vt fl l)) = keyk_name k
    /\ map_value_type (or_else (entries k Some l) (MProp k vt) (MGen (keyk_name k) vt fl l)) = vt).
  { destruct (entries k Some l) as [r|] eqn:EO; [|exact G]. cbn [or_else map_l map_key_type map_value_type].
    apply (entries_least k _ (least cu false)) in EO; [split; [lia|split; reflexivity]|apply least_pos|].
    intros p v E; injection E as ->. lia. }
  assert (T : kind_of vt <> KOther -> vt = kind_name (kind_of vt)) by apply kind_of_name.
  destruct (kind_of vt) eqn:EV; try exact D; specialize (T ltac:(discriminate)).
  - destruct k0; try exact D.
    destruct (entries k as_int l) as [r|] eqn:EO; [|exact G]. cbn [or_else map_l map_key_type map_value_type]. rewrite T.
    apply (entries_least k _ (fun _ => 4)) in EO; [split; [lia|split; reflexivity]|lia|].
    intros p v E; destruct p; try discriminate E. destruct k0; try discriminate E. cbn. lia.
  - destruct (entries k as_bool l) as [r|] eqn:EO; [|exact G]. cbn [or_else map_l map_key_type map_value_type]. rewrite T.
    apply (entries_least k _ (fun _ => 1)) in EO; [split; [lia|split; reflexivity]|lia|].
    intros p v E; destruct p; try discriminate E. cbn. lia.
  - destruct k; try exact D.
    destruct (entries KkStr as_str l) as [r|] eqn:EO; [|exact G]. cbn [or_else map_l map_key_type map_value_type]. rewrite T.
    apply (entries_least KkStr _ ol) in EO; [split; [lia|split; reflexivity]|intros v; pose proof (ol_nonneg v); lia|].
    intros p v E; destruct p; try discriminate E. injection E as <-. cbn [least hd_l]. lia.
Qed.
Lemma u_map kt vt : uses (fun p => least cu true p - sl (kind_name KMap) - 9 - (sl kt + sl vt)) (r_map o rp kt vt).
Proof.
  unfold r_map. u_go ltac:(apply u_uint). u_go ltac:(apply u_uint). u_go ltac:(apply u_rep, u_entry). apply u_ret.
  cbn [least hd_l]. destruct (map_new_least kt vt a (mins_all o a1)) as (L & -> & ->).
  pose proof (sum_mins_all o (least cu false) (least cu false) a1 (least_pos cu false) (least_pos cu false)). lia.
Qed.
Lemma u_body n ty hdr sug : uses (after hdr ty) (r_body n o vs rp ty hdr sug).
Proof.
  assert (T : kind_of ty <> KOther -> ty = kind_name (kind_of ty)) by apply kind_of_name.
  unfold r_body. destruct (kind_of ty) eqn:EK; try specialize (T ltac:(discriminate)).
  - unfold r_pnum. destruct hdr.
    + eapply (u_bind (fun _ => 9)); [u_go ltac:(apply u_check); eapply u_weak; [apply (u_zero _ _ 1), u_uint|]; cbv beta; lia|].
      intros _. u_go ltac:(apply u_num). fin. rewrite T. cbn [kind_name]. lia.
    + eapply (u_bind (fun _ => 0)); [apply u_ret; lia|]. intros _. u_go ltac:(apply u_num). fin.
  - unfold r_pbyte. destruct hdr.
    + u_go ltac:(apply u_uint). u_go ltac:(apply (u_zero _ _ 4), u_uint). u_go ltac:(apply u_string).
      u_go ltac:(apply (u_zero _ _ 1), u_uint). u_go ltac:(apply u_bytev). fin. rewrite <- T. lia.
    + u_go ltac:(apply u_bytev). fin.
  - unfold r_pbool. eapply (u_bind (fun _ => if hdr then 8 else 0)).
    { destruct hdr; [apply u_check|apply u_ret; lia]. }
    intros _. u_go ltac:(apply u_boolw). eapply (u_bind (fun _ => if hdr then 1 else 0)).
    { destruct hdr; [apply (u_zero _ _ 1), u_uint|apply u_ret; lia]. }
    intros _. destruct hdr; fin. rewrite <- T. lia.
  - unfold r_penum. destruct hdr.
    + eapply u_headed; [apply u_string|]. intros ? ?. u_go ltac:(apply u_string). fin. rewrite <- T. lia.
    + u_go ltac:(apply u_string). fin.
  - unfold r_pstr. apply u_plain. u_go ltac:(apply u_fstring). destruct hdr; fin. rewrite <- T. lia.
  - unfold r_ptext. apply u_plain. u_go ltac:(apply u_text). destruct hdr; fin; fold cu; try lia. rewrite <- T. lia.
  - unfold r_pname. destruct hdr.
    + eapply u_headed_index. intros ?. u_go ltac:(apply u_fstring). fin. rewrite <- T. lia.
    + u_go ltac:(apply u_fstring). fin.
  - unfold r_pobject. apply u_plain. u_go ltac:(apply u_string). destruct hdr; fin. rewrite <- T. lia.
  - unfold r_pdelegate. apply u_plain. u_go ltac:(apply u_delegate). destruct hdr; fin. rewrite <- T. lia.
  - unfold r_pmulti. apply u_plain. u_go ltac:(apply u_uint). u_go ltac:(apply u_rep, u_delegate). destruct hdr; fin. rewrite <- T. lia.
  - unfold r_pfieldpath. apply u_plain. u_go ltac:(apply u_uint). u_go ltac:(apply u_rep, u_string). u_go ltac:(apply u_string).
    destruct hdr; fin. rewrite <- T. lia.
  - destruct hdr.
    + unfold r_pstruct. eapply (u_headed (fun tg => sl (fst tg) + Z.max 16 (len (snd tg)))).
      { u_go ltac:(apply u_string). u_go ltac:(apply u_guid). fin. }
      intros ? [t g]. u_go ltac:(apply u_sval). fin. rewrite <- T. lia.
    + unfold r_hinted. u_go ltac:(apply u_get_stk). u_go ltac:(apply u_position). destruct (hints o _); [|apply u_fail].
      u_go ltac:(apply u_sval). fin.
  - destruct hdr; [|intros c x c' E; discriminate E].
    eapply u_headed; [apply u_string|]. intros l t. eapply u_weak; [apply u_array|]. intros p. unfold after. rewrite <- T. lia.
  - destruct hdr; [|intros c x c' E; discriminate E].
    eapply u_headed; [apply u_string|]. intros l t. eapply u_weak; [apply u_set|]. intros p. unfold after. rewrite <- T. lia.
  - destruct hdr; [|intros c x c' E; discriminate E].
    eapply (u_headed (fun kv => sl (fst kv) + sl (snd kv))); [do 2 u_go ltac:(apply u_string); fin|].
    intros l [kt vt]. eapply u_weak; [apply u_map|]. intros p. cbn [fst snd]. unfold after. rewrite <- T. lia.
  - destruct hdr.
    + unfold r_unknown_header. u_go ltac:(apply u_uint). u_go ltac:(apply (u_zero _ _ 4), u_uint). u_go ltac:(apply (u_zero _ _ 1), u_uint).
      unfold r_unknown. u_go ltac:(apply u_take). fin.
    + destruct sug; [|intros c x c' E; discriminate E]. unfold r_unknown. u_go ltac:(apply u_take). fin.
Qed.
End WithProp.
Lemma u_prop n ty hdr sug : uses (after hdr ty) (r_prop n o vs ty hdr sug).
Proof.
  revert ty hdr sug. induction n as [|n IH]; intros ty hdr sug; cbn [r_prop]; [apply u_fail|].
  apply u_scoped, u_body, IH.
Qed.
Definition file_l (l : list (str * property)) : Z := sum (fun e => sl (fst e) + least cu true (snd e)) l.
Lemma u_entries n m : uses (fun l => file_l l + sl s_none) (r_entries n m o vs).
Proof.
  induction n as [|n IH]; cbn [r_entries]; [apply u_fail|]. u_go ltac:(apply u_string).
  destruct (str_eqb a s_none) eqn:E.
  { apply str_eqb_eq in E as ->. apply u_ret. unfold file_l. cbn [sum]. lia. }
  u_go ltac:(apply u_string). u_go ltac:(apply u_scoped, u_prop). u_go ltac:(exact IH). apply u_ret.
  unfold file_l, after. cbn [sum fst snd]. lia.
Qed.
End Props.

(** *** Files *)
Definition ver_l (e : guid * Z) : Z := Z.max 16 (len (fst e)) + 4.
Definition header_l (h : header) : Z :=
  12 + (match h_ue5 h with Some _ => 4 | None => 0 end) + (10 + sl (fe_branch (h_engine h))) + 8
  + sum ver_l (h_versions h) + sl (h_class h).
Lemma u_checked f ok : uses (fun _ => 4) (r_checked f ok).
Proof. unfold r_checked. u_go ltac:(apply u_uint). destruct (ok a); [u_end|apply u_fail]. Qed.
Lemma u_header : uses header_l r_header.
Proof.
  unfold r_header. do 3 u_go ltac:(apply u_checked).
  eapply (u_bind (fun v => match v with Some _ => 4 | None => 0 end)).
  { destruct (3 <=? a0); [u_go ltac:(apply u_checked)|]; apply u_ret; lia. }
  intros ue5. eapply (u_bind (fun e => 10 + sl (fe_branch e))).
  { unfold r_fengine. do 3 u_go ltac:(apply u_uint). u_go ltac:(apply u_uint). u_go ltac:(apply u_string). apply u_ret. cbn [fe_branch]. lia. }
  intros e. u_go ltac:(apply u_checked). u_go ltac:(apply u_uint).
  u_go ltac:(eapply (u_rep ver_l); unfold r_version, ver_l; u_go ltac:(apply u_guid); u_go ltac:(apply u_uint); u_end).
  u_go ltac:(apply u_string). apply u_ret. unfold header_l. cbn [h_ue5 h_engine h_versions h_class].
  assert (S : sum ver_l (ins_all guid_eqb a4) <= sum ver_l a4).
  { apply (sum_ins_all guid_eqb (fun g => Z.max 16 (len g)) (fun _ : Z => 4)); intros; lia. }
  lia.
Qed.
Lemma u_file n o : uses (fun f => header_l (fst f) + file_l (h_versions (fst f)) (snd f) + sl s_none) (r_file n o).
Proof.
  unfold r_file. u_go ltac:(apply u_header). u_go ltac:(apply u_entries). apply u_ret. cbn [fst snd].
  pose proof (sum_ins_all str_eqb sl (least (has_culture (h_versions a)) true) a0
    ltac:(intros s; pose proof (sl_nonneg s); lia) (least_pos _ true)).
  unfold file_l in *. lia.
Qed.

(** ** Writing takes at most twice as many *)
Definition fits (o : out) (k : Z) : Prop := forall b n, o = Ok (b, n) -> len b <= k.
Lemma f_seq a b j k : fits a j -> fits b (k - j) -> fits (a +> b) k.
Proof.
  intros A B x n E. unfold seq in E. destruct a as [[xa na]|]; [|discriminate]. destruct b as [[xb nb]|]; [|discriminate].
  injection E as <- <-. rewrite len_app. specialize (A _ _ eq_refl). specialize (B _ _ eq_refl). lia.
Qed.
Lemma f_le a j k : fits a j -> j <= k -> fits a k.
Proof. intros A L b n E. specialize (A _ _ E). lia. Qed.
Lemma f_emit b n k : len b <= k -> fits (emit b n) k.
Proof. intros H x m E. injection E as <- <-. exact H. Qed.
Lemma f_skip : fits skip 0.
Proof. apply f_emit. cbn. lia. Qed.
Lemma f_fail f k : fits (Fail f) k.
Proof. intros b n E. discriminate E. Qed.
Lemma f_int w z : 0 <= w -> fits (w_int w z) w.
Proof. intros H. apply f_emit. rewrite len_le_bytes. lia. Qed.
Lemma str_bytes_least s : len (str_bytes s) <= 2 * units s + 6.
Proof.
  unfold str_bytes. pose proof (units_nonneg s). destruct (is_ascii s) eqn:E.
  - rewrite !len_app, len_le_bytes, len_map, <- (ascii_units s E). change (len [Byte.x00]) with 1. lia.
  - rewrite !len_app, !len_le_bytes, len_words_bytes, len_utf16. lia.
Qed.
Lemma f_string s : fits (w_string s) (2 * sl s).
Proof. apply f_emit. pose proof (str_bytes_least s). unfold sl. lia. Qed.
Lemma f_fstring o : fits (w_fstring o) (2 * ol o).
Proof. destruct o; cbn [w_fstring ol]; [apply f_string|]. eapply f_le; [apply f_int|]; lia. Qed.
Lemma f_guid g : fits (w_guid g) (Z.max 16 (len g)).
Proof. apply f_emit. lia. Qed.
Lemma f_seqs {A} (f : A -> out) (g : A -> Z) l : Forall (fun a => fits (f a) (2 * g a)) l -> fits (seqs f l) (2 * sum g l).
Proof.
  induction 1; cbn [seqs sum]; [eapply f_le; [apply f_skip|lia]|]. eapply f_seq; [eassumption|].
  eapply f_le; [eassumption|lia].
Qed.
Lemma f_seqs' {A} (f : A -> out) (g : A -> Z) l : (forall a, fits (f a) (2 * g a)) -> fits (seqs f l) (2 * sum g l).
Proof. intros H. apply f_seqs, Forall_forall. auto. Qed.
Lemma f_header hdr name counted idx e b ke kb : fits e (2 * ke) -> fits b (2 * kb) ->
  fits (with_header hdr name counted idx e b) (2 * (hd_l hdr name ke + kb)).
Proof.
  intros E B. unfold with_header. destruct hdr; cbn [hd_l]; [|eapply f_le; [exact B|lia]].
  destruct b as [[x n]|]; [|apply f_fail]. specialize (B _ _ eq_refl).
  apply (f_seq _ _ (2 * sl name)).
  { destruct counted; [apply f_string|]. apply f_emit. pose proof (str_bytes_least name). unfold sl. lia. }
  eapply f_seq; [apply f_int; lia|]. eapply f_seq; [apply f_int; lia|]. eapply f_seq; [exact E|].
  eapply f_seq; [apply f_int; lia|]. apply f_emit. lia.
Qed.
Lemma f_bytev v : fits (w_bytev v) (2 * bytev_l v).
Proof. destruct v; cbn [w_bytev bytev_l]; [apply f_emit; cbn; lia|apply f_string]. Qed.
Lemma f_numfmt o : fits (w_optfmt o) (2 * fmt_l o).
Proof.
  destruct o; cbn [w_optfmt fmt_l]; [|eapply f_le; [apply f_int|]; lia].
  unfold w_numfmt, w_b32, w_enum. eapply f_seq; [apply f_int; lia|].
  do 6 (eapply f_seq; [apply f_int; lia|]). eapply f_le; [apply f_int|]; lia.
Qed.
Lemma f_nums ks : forall zs, fits (w_nums ks zs) (sum num_width ks).
Proof.
  induction ks as [|k ks IH]; intros zs; cbn [w_nums sum]; [apply f_skip|].
  pose proof (num_width_pos k).
  destruct zs; [eapply f_le; [apply f_skip|]; pose proof (sum_nonneg' num_width ks ltac:(intros k0; pose proof (num_width_pos k0); lia)); lia|].
  eapply f_seq; [apply f_int; lia|]. eapply f_le; [apply IH|]. lia.
Qed.
Lemma f_key k s : fits (w_key k s) (2 * sl s).
Proof. destruct k; cbn [w_key w_fstring]; apply f_string. Qed.
Section Writers.
Variable vs : list (guid * Z).
Let cu := has_culture vs.
Lemma f_argint w t v : fits (w_argint vs w t v) (if w then 9 else 5).
Proof.
  unfold w_argint. destruct (Bool.eqb (has_arg64 vs) w); [|apply f_fail].
  eapply f_seq; [apply f_int; lia|]. destruct w; apply f_int; lia.
Qed.
Lemma f_enum z : fits (w_enum z) 1. Proof. apply f_int. lia. Qed.
Ltac f_go := first [eassumption | apply f_fstring | apply f_string | apply f_enum | apply f_numfmt | apply f_int; lia | apply f_guid].
Ltac f_all := repeat (eapply f_seq; [f_go|]); try (eapply f_le; [f_go|]); nn; try lia.
Lemma f_text : (forall t, fits (w_text vs t) (2 * text_l cu t)) /\ (forall h, fits (w_hist vs h) (2 * hist_l cu h)) /\ (forall a, fits (w_farg vs a) (2 * arg_l cu a)).
Proof.
  apply text_all; cbn [w_text w_hist w_farg text_l hist_l arg_l]; intros; f_all.
  all: try (eapply f_le; [apply f_argint|lia]).
  - fold cu. destruct cu; [f_all|eapply f_le; [apply f_skip|lia]].
  - fold cu. destruct cu; [f_all|eapply f_le; [apply f_skip|lia]].
  - eapply f_le; [apply (f_seqs _ (fun e => sl (fst e) + arg_l cu (snd e)))|]. { eapply Forall_impl; [|eassumption]. intros [k v] Hv. cbn [fst snd] in *. f_all. } lia.
  - eapply f_le; [apply (f_seqs _ (arg_l cu)); eassumption|lia].
  - eapply f_le; [apply (f_seqs _ (fun e => sl (fst e) + arg_l cu (snd e)))|]. { eapply Forall_impl; [|eassumption]. intros [k v] Hv. cbn [fst snd] in *. f_all. } lia.
Qed.
Lemma f_prop : (forall p hdr, fits (w_prop vs hdr p) (2 * least cu hdr p)) /\ (forall v, fits (w_sval vs v) (2 * sval_l cu v))
  /\ (forall a, fits (w_array vs a) (2 * array_l cu a)) /\ (forall m, fits (w_map vs m) (2 * map_l cu m)).
Proof.
  assert (SK : fits skip (2 * 0)) by apply f_skip.
  apply prop_all; cbn [w_prop w_sval w_array w_map least sval_l array_l map_l]; intros.
  - apply f_header; [exact SK|]. pose proof (num_width_pos k). eapply f_le; [apply f_int|]; lia.
  - unfold w_pbool. destruct hdr; cbn [hd_l]; unfold w_bool, w_u64, w_u8; f_all.
  - unfold w_pbyte. pose proof (f_bytev v) as B. destruct hdr; cbn [hd_l]; [|exact B].
    destruct (w_bytev v) as [[x m]|]; [|apply f_fail]. specialize (B _ _ eq_refl).
    unfold w_u64, w_u8. f_all. apply f_emit. lia.
  - apply f_header; f_go.
  - apply f_header; [exact SK|f_go].
  - apply f_header; [exact SK|apply f_text].
  - apply f_header; [exact SK|f_go].
  - apply f_header; [exact SK|f_go].
  - apply f_header; [exact SK|f_all].
  - apply f_header; [exact SK|]. eapply f_seq; [f_go|]. eapply f_le; [apply (f_seqs' _ (fun e => sl (fst e) + sl (snd e)))|lia].
    intros [a b]. cbn [fst snd]. f_all.
  - apply f_header; [exact SK|]. eapply f_seq; [f_go|]. eapply f_seq; [apply (f_seqs' _ sl), f_string|]. eapply f_le; [f_go|lia].
  - apply f_header; [exact SK|]. apply f_emit. nn. lia.
  - apply f_header; [f_go|assumption].
  - apply f_header; [f_go|]. eapply f_seq; [f_go|]. eapply f_seq; [f_go|].
    eapply f_le; [apply (f_seqs _ (least cu false)); eapply Forall_impl; [|eassumption]; cbv beta; auto|lia].
  - apply f_header; [f_all|assumption].
  - apply f_header; [|assumption]. eapply f_seq; [f_go|]. eapply f_le; [f_go|]. lia.
  - destruct hdr; [apply f_fail|assumption].
  - unfold w_fixed. assert (F : fits (w_nums (layout x) l) (2 * sum num_width (layout x))) by (eapply f_le; [apply f_nums|pose proof (layout_pos x); lia]).
    destruct (fixed_lwc x); [destruct (Bool.eqb _ _); [exact F|apply f_fail]|exact F].
  - eapply f_le; [f_go|lia].
  - eapply f_seq; [apply f_emit; rewrite len_le_bytes; apply Z.le_refl|]. eapply f_le; [apply (f_seqs' _ sl), f_string|lia].
  - eapply f_seq; [apply (f_seqs _ (fun e => sum (fun p => sl (fst e) + least cu true p) (snd e)))|].
    + eapply Forall_impl; [|eassumption]. intros [k ps] F. cbn [fst snd] in *. apply f_seqs.
      eapply Forall_impl; [|exact F]. intros p Hp. cbv beta. eapply f_seq; [f_go|]. eapply f_le; [apply Hp|lia].
    + eapply f_le; [f_go|lia].
  - eapply f_seq; [f_go|]. eapply f_le; [apply (f_seqs' _ (fun _ => 1)); intros; eapply f_le; [apply f_int|]; lia|lia].
  - eapply f_seq; [f_go|]. eapply f_le; [apply (f_seqs' _ (fun _ => 1)); intros; apply f_emit; cbn; lia|lia].
  - eapply f_seq; [f_go|]. eapply f_le; [apply (f_seqs' _ sl), f_string|lia].
  - eapply f_seq; [f_go|]. eapply f_le; [apply (f_seqs' _ (fun _ => 4)); intros; eapply f_le; [apply f_int|]; lia|lia].
  - eapply f_seq; [f_go|]. eapply f_le; [apply (f_seqs' _ (fun _ => 4)); intros; eapply f_le; [apply f_int|]; lia|lia].
  - eapply f_seq; [f_go|]. eapply f_le; [apply (f_seqs' _ ol), f_fstring|lia].
  - eapply f_seq; [f_go|]. eapply f_le; [apply (f_seqs' _ ol), f_fstring|lia].
  - assert (S : fits (seqs (w_sval vs) l) (2 * sum (sval_l cu) l)) by (apply f_seqs; assumption).
    destruct (seqs (w_sval vs) l) as [[x m]|]; [|apply f_fail]. specialize (S _ _ eq_refl).
    unfold w_u32, w_u64, w_u8. f_all. apply f_emit. lia.
  - eapply f_seq; [f_go|]. eapply f_le; [apply (f_seqs _ (least cu false)); eapply Forall_impl; [|eassumption]; cbv beta; auto|lia].
  - eapply f_seq; [f_go|]. eapply f_seq; [f_go|]. eapply f_le; [apply (f_seqs' _ (fun e => sl (fst e) + 1))|lia].
    intros [x y]. cbn [fst snd]. eapply f_seq; [apply f_key|]. eapply f_le; [apply f_int|]; lia.
  - eapply f_seq; [f_go|]. eapply f_seq; [f_go|]. eapply f_le; [apply (f_seqs' _ (fun e => sl (fst e) + 4))|lia].
    intros [x y]. cbn [fst snd]. eapply f_seq; [apply f_key|]. eapply f_le; [apply f_int|]; lia.
  - eapply f_seq; [f_go|]. eapply f_seq; [f_go|]. eapply f_le; [apply (f_seqs _ (fun e => sl (fst e) + least cu false (snd e)))|lia].
    eapply Forall_impl; [|eassumption]. intros [x y] F. cbn [fst snd] in *. eapply f_seq; [apply f_key|]. eapply f_le; [apply F|lia].
  - eapply f_seq; [f_go|]. eapply f_seq; [f_go|]. eapply f_le; [apply (f_seqs' _ (fun e => sl (fst e) + ol (snd e)))|lia].
    intros [x y]. cbn [fst snd]. eapply f_seq; [apply f_key|]. eapply f_le; [f_go|lia].
  - eapply f_seq; [f_go|]. eapply f_seq; [f_go|]. eapply f_le; [apply (f_seqs _ (fun e => least cu false (fst e) + least cu false (snd e)))|lia].
    eapply Forall_impl; [|eassumption]. intros [x y] [F G]. cbn [fst snd] in *. eapply f_seq; [apply F|]. eapply f_le; [apply G|lia].
Qed.
End Writers.
Lemma f_file f : fits (w_file f) (2 * (header_l (fst f) + file_l (h_versions (fst f)) (snd f) + sl s_none) + 4).
Proof.
  destruct f as [h l]. cbn [fst snd]. unfold w_file. cbn [fst snd].
  apply (f_seq _ _ (2 * header_l h)).
  - unfold w_header, header_l, w_fengine, w_u32. eapply f_seq; [apply f_int; lia|]. eapply f_seq; [apply f_int; lia|]. eapply f_seq; [apply f_int; lia|].
    apply (f_seq _ _ (match h_ue5 h with Some _ => 4 | None => 0 end)); [destruct (h_ue5 h); [apply f_int; lia|apply f_skip]|].
    apply (f_seq _ _ (10 + 2 * sl (fe_branch (h_engine h)))).
    { do 4 (eapply f_seq; [apply f_int; lia|]). eapply f_le; [apply f_string|lia]. }
    eapply f_seq; [apply f_int; lia|]. eapply f_seq; [apply f_int; lia|]. eapply f_seq; [apply (f_seqs' _ ver_l)|].
    { intros [g v]. unfold w_version, ver_l, w_u32. cbn [fst snd]. eapply f_seq; [apply f_guid|]. eapply f_le; [apply f_int|]; lia. }
    eapply f_le; [apply f_string|]. destruct (h_ue5 h); lia.
  - eapply f_seq; [apply (f_seqs' _ (fun e => sl (fst e) + least (has_culture (h_versions h)) true (snd e)))|].
    { intros [k p]. cbn [fst snd]. eapply f_seq; [apply f_string|]. eapply f_le; [apply f_prop|lia]. }
    eapply f_seq; [apply f_string|]. eapply f_le; [apply f_int|]; unfold file_l; lia.
Qed.
