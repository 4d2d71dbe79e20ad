(** Memory requests are bounded by the input, on the accepted inputs. *)
From Coq Require Import ZArith List Bool String Lia ZifyBool ZifyNat.
From Verif Require Import Base Str Types Versions Text Props File BaseFacts ReaderFacts Sane Alloc.
Import ListNotations.
Open Scope Z_scope.

(** * Specification *)
(** Arrays and sets whose element type the library does not know; their elements may take no
    input at all (C36). *)
Definition opaque_elements (w : room) : bool :=
  match w with RElements ty => match kind_of ty with KOther => true | _ => false end | _ => false end.
(** Items asked for in total, without those of [opaque_elements]. *)
Fixpoint asked (l : list req) : Z :=
  match l with
  | [] => 0
  | q :: r => (if opaque_elements (q_room q) then 0 else q_count q) + asked r
  end.
(** A request that the rest of the input could still fill, an item taking at least a byte. *)
Definition fillable (q : req) : Prop := opaque_elements (q_room q) = true \/ q_count q <= q_left q.
(** The number of requests that make room for something. *)
Fixpoint requests (l : list req) : Z :=
  match l with [] => 0 | q :: r => (if 0 <? q_count q then 1 else 0) + requests r end.
(** The largest possible request of a kind. *)
Definition largest (w : room) : Z :=
  match w with
  | RUtf16 | RUtf8 => 131071
  | RArguments | RTags => 2147483647
  | _ => 4294967295
  end.
Definition in_range (q : req) : Prop := 0 <= q_count q <= largest (q_room q).

(** * The log is all that is added *)
Definition erases {A} (a : areader A) (r : reader A) : Prop := forall c, snd (a c) = r c.
Lemma er_lift {A} (r : reader A) : erases (lift r) r.
Proof. intros c. reflexivity. Qed.
Lemma er_ret {A} (x : A) : erases (aret x) (ret x).
Proof. intros c. reflexivity. Qed.
Lemma er_fail {A} f : erases (@afail A f) (fail f).
Proof. intros c. reflexivity. Qed.
Lemma er_bind {A B} (a : areader A) r (f : A -> areader B) g :
  erases a r -> (forall x, erases (f x) (g x)) -> erases (abind a f) (bind r g).
Proof.
  intros H K c. unfold abind, bind. rewrite <- (H c). destruct (a c) as [l [[x c']|e]]; cbn [snd]; [|reflexivity].
  rewrite <- (K x c'). destruct (f x c'). reflexivity.
Qed.
Lemma er_request {A} w n (f : unit -> areader A) r : erases (f tt) r -> erases (abind (request w n) f) r.
Proof. intros H c. rewrite <- (H c). unfold abind, request. destruct (f tt c). reflexivity. Qed.
Ltac estep :=
  match goal with
  | |- erases (aret _) _ => apply er_ret
  | |- erases (afail _) _ => apply er_fail
  | |- erases (lift _) _ => apply er_lift
  | |- erases (abind (request _ _) _) _ => apply er_request
  | |- erases (abind _ _) _ => apply er_bind; [|intros]
  | |- erases (if ?b then _ else _) _ => destruct b
  | |- erases (match ?x with _ => _ end) _ => destruct x
  | |- erases (let _ := _ in _) _ => cbv zeta
  | |- erases _ _ => solve [eauto 3 with erases]
  end.
Ltac esolve := repeat estep.
Create HintDb erases.
Lemma er_scoped {A} s (a : areader A) r : erases a r -> erases (ascoped s a) (scoped s r).
Proof. intros H. unfold ascoped, scoped. esolve. Qed.
Lemma er_rep_pos {A} p (a : areader A) r : erases a r -> erases (arep_pos p a) (rep_pos p r).
Proof. intros H. induction p as [q IH|q IH|]; cbn [arep_pos rep_pos]; esolve. Qed.
Lemma er_rep {A} n (a : areader A) r : erases a r -> erases (arep n a) (rep n r).
Proof. intros H. unfold arep, rep. destruct n; try apply er_ret. now apply er_rep_pos. Qed.
Global Hint Resolve er_scoped er_rep : erases.
Lemma er_fstring : erases a_fstring r_fstring.
Proof. unfold a_fstring, r_fstring. esolve. Qed.
Global Hint Resolve er_fstring : erases.
Lemma er_string : erases a_string r_string.
Proof. unfold a_string, r_string. esolve. Qed.
Global Hint Resolve er_string : erases.
Lemma er_farg vs rt rt' : erases rt rt' -> erases (a_farg vs rt) (r_farg vs rt').
Proof. intros. unfold a_farg, r_farg. esolve. Qed.
Global Hint Resolve er_farg : erases.
Lemma er_named vs rt rt' : erases rt rt' -> erases (a_named vs rt) (r_named vs rt').
Proof. intros. unfold a_named, r_named. esolve. apply er_rep. esolve. Qed.
Global Hint Resolve er_named : erases.
Lemma er_hist vs rt rt' : erases rt rt' -> erases (a_hist vs rt) (r_hist vs rt').
Proof. intros. unfold a_hist, r_hist. esolve. Qed.
Global Hint Resolve er_hist : erases.
Lemma er_text vs n : erases (a_text n vs) (r_text n vs).
Proof. induction n; cbn [a_text r_text]; esolve. Qed.
Global Hint Resolve er_text : erases.
Lemma er_sized {A} n (a : areader A) r : erases a r -> erases (asized n a) (sized n r).
Proof. intros. unfold asized, sized. esolve. Qed.
Global Hint Resolve er_sized : erases.
Lemma er_headed {V A} (va : areader V) vr (ba : Z -> V -> areader A) br :
  erases va vr -> (forall n v, erases (ba n v) (br n v)) -> erases (aheaded va ba) (headed vr br).
Proof. intros. unfold aheaded, headed. esolve. Qed.
Lemma er_headed_index {A} (ba : Z -> areader A) br :
  (forall n, erases (ba n) (br n)) -> erases (aheaded_index ba) (headed_index br).
Proof. intros. unfold aheaded_index, headed_index. esolve. Qed.
Lemma er_plain {A} hdr (a : areader A) r : erases a r -> erases (aplain hdr a) (plain hdr r).
Proof. intros. unfold aplain, plain. destruct hdr; [|assumption]. apply er_headed; intros; [apply er_ret|assumption]. Qed.
Lemma er_bytev o sug : erases (a_bytev o sug) (r_bytev o sug).
Proof. unfold a_bytev, r_bytev. esolve. Qed.
Global Hint Resolve er_bytev : erases.
Lemma er_delegate : erases a_delegate r_delegate.
Proof. unfold a_delegate, r_delegate. esolve. Qed.
Global Hint Resolve er_delegate : erases.
Lemma er_unknown ty n : erases (a_unknown ty n) (r_unknown ty n).
Proof. unfold a_unknown, r_unknown. esolve. Qed.
Global Hint Resolve er_unknown : erases.

Section Props.
Context (o : opts) (vs : list (guid * Z)) (ap : apreader) (rp : preader)
        (E : forall ty hdr sug, erases (ap ty hdr sug) (rp ty hdr sug)).
Hint Resolve E : erases.
Lemma er_custom m : forall acc, erases (a_custom m o ap acc) (r_custom m o rp acc).
Proof. induction m; intros acc; cbn [a_custom r_custom]; esolve. Qed.
Hint Resolve er_custom : erases.
Lemma er_sval m ty : erases (a_sval m o vs ap ty) (r_sval m o vs rp ty).
Proof. unfold a_sval, r_sval. esolve. Qed.
Hint Resolve er_sval : erases.
Lemma er_struct_array m n : erases (a_struct_array m o vs ap n) (r_struct_array m o vs rp n).
Proof. unfold a_struct_array, r_struct_array. esolve. apply er_rep. esolve. Qed.
Hint Resolve er_struct_array : erases.
Lemma er_array m n ty : erases (a_array m o vs ap n ty) (r_array m o vs rp n ty).
Proof. unfold a_array, r_array. esolve. Qed.
Lemma er_set n ty : erases (a_set o ap n ty) (r_set o rp n ty).
Proof. unfold a_set, r_set. esolve. Qed.
Lemma er_entry kt vt : erases (a_entry ap kt vt) (r_entry rp kt vt).
Proof. unfold a_entry, r_entry. esolve. Qed.
Hint Resolve er_entry : erases.
Lemma er_map kt vt : erases (a_map o ap kt vt) (r_map o rp kt vt).
Proof. unfold a_map, r_map. esolve. Qed.
Hint Resolve er_array er_set er_map : erases.
Lemma er_body n ty hdr sug : erases (a_body n o vs ap ty hdr sug) (r_body n o vs rp ty hdr sug).
Proof.
  unfold a_body, r_body. destruct (kind_of ty); try (apply er_lift).
  all: unfold a_pbyte, r_pbyte, a_penum, r_penum, a_pstr, r_pstr, a_ptext, r_ptext, a_pname, r_pname, a_pobject,
    r_pobject, a_pdelegate, r_pdelegate, a_pmulti, r_pmulti, a_pfieldpath, r_pfieldpath, a_pstruct, r_pstruct,
    a_hinted, r_hinted, a_unknown_header, r_unknown_header.
  all: try (apply er_plain); destruct hdr; try (apply er_headed; intros); try (apply er_headed_index; intros); esolve.
Qed.
End Props.
Lemma er_prop o vs n : forall ty hdr sug, erases (a_prop n o vs ty hdr sug) (r_prop n o vs ty hdr sug).
Proof.
  induction n as [|n IH]; intros; cbn [a_prop r_prop]; [apply er_fail|].
  apply er_scoped. now apply er_body.
Qed.
Global Hint Resolve er_prop : erases.
Lemma er_header : erases a_header r_header.
Proof. unfold a_header, r_header, a_fengine, r_fengine. esolve. apply er_rep. esolve. Qed.
Global Hint Resolve er_header : erases.
Lemma er_entries o vs m n : erases (a_entries n m o vs) (r_entries n m o vs).
Proof. induction n; cbn [a_entries r_entries]; esolve. Qed.
Global Hint Resolve er_entries : erases.
Lemma er_file n o : erases (a_file n o) (r_file n o).
Proof. unfold a_file, r_file. esolve. Qed.
Lemma er_parse o b : snd (a_parse o b) = parse o b.
Proof. apply er_file. Qed.
Lemma er_palworld z : erases (a_palworld z) (r_palworld z).
Proof.
  unfold a_palworld, r_palworld. apply er_bind; [apply er_lift|intros n]. apply er_bind; [apply er_lift|intros _].
  apply er_bind; [apply er_lift|intros mg]. destruct (negb _); [apply er_fail|]. apply er_bind; [apply er_lift|intros c].
  intros k. unfold abind, request, lift, aret, ret. destruct c; cbn [snd]; reflexivity.
Qed.
Lemma er_load z o v b : snd (a_load z o v b) = load z o v b.
Proof.
  unfold a_load, load, load_plain. destruct v.
  - rewrite <- (er_parse o b). destruct (a_parse o b) as [l [[[h ps] c]|f]]; reflexivity.
  - rewrite <- (er_palworld z (Cur 0 b [])). destruct (a_palworld z (Cur 0 b [])) as [l [[[c d] k]|f]]; cbn [snd]; [|reflexivity].
    rewrite <- (er_parse o d). destruct (a_parse o d) as [l' [[[h ps] c']|f]]; reflexivity.
Qed.

(** * Bounds *)
Lemma asked_app a b : asked (a ++ b) = asked a + asked b.
Proof. induction a as [|q a IH]; cbn [app asked]; lia. Qed.
Lemma requests_app a b : requests (a ++ b) = requests a + requests b.
Proof. induction a as [|q a IH]; cbn [app requests]; lia. Qed.
Lemma requests_nonneg l : 0 <= requests l.
Proof. induction l as [|q l IH]; cbn [requests]; [lia|]. destruct (0 <? q_count q); lia. Qed.
Lemma asked_nonneg l : Forall in_range l -> 0 <= asked l.
Proof.
  induction 1 as [|q l H _ IH]; cbn [asked]; [lia|]. unfold in_range in H. destruct (opaque_elements _); lia.
Qed.

(** A run that succeeds moves forward and leaves the rest of the input alone. *)
Definition moved (lo : Z) (c c' : cur) : Prop :=
  lo <= pos c' - pos c /\ 0 <= pos c' - pos c /\ pos c' + len (rest c') = pos c + len (rest c).
Definition adv (lo : Z) {A} (Q : A -> Prop) (r : reader A) : Prop :=
  forall c a c', r c = Ok (a, c') -> Q a /\ moved lo c c'.
(** [j]: bytes beyond one per request; [m]: bytes beyond one per item; [s]: requests beyond one
    per byte in a run that fails. *)
Definition good (j s m : Z) {A} (a : areader A) : Prop :=
  forall c, Forall in_range (fst (a c)) /\
  match snd (a c) with
  | Ok (_, c') => moved m c c' /\ Forall fillable (fst (a c))
      /\ asked (fst (a c)) + m <= pos c' - pos c /\ requests (fst (a c)) + j <= pos c' - pos c
  | Fail _ => requests (fst (a c)) <= len (rest c) + s
  end.

Lemma sane_adv lo {A} (r : reader A) : (forall N, sane (fun _ => True) N lo r) -> adv lo (fun _ => True) r.
Proof.
  intros H c a c' E. split; [exact I|]. specialize (H (len (rest c) + 1) c ltac:(lia)). rewrite E in H.
  destruct H as (bs & E1 & E2 & E3 & _). unfold moved. rewrite E1, len_app. pose proof (len_nonneg bs). lia.
Qed.
Lemma adv_u32 : adv 4 (fun z => 0 <= z <= 4294967295) r_u32.
Proof.
  intros c a c' E. split.
  - unfold r_u32, r_uint, bind, take, ret in E. destruct (4 <=? len (rest c)) eqn:L; [|discriminate].
    apply (f_equal (fun x => match x with Ok (v, _) => v | _ => 0 end)) in E. cbv beta iota in E. subst a.
    pose proof (le_val_range (firstn (Z.to_nat 4) (rest c))) as R.
    replace (len (firstn (Z.to_nat 4) (rest c))) with 4 in R.
    + change (2 ^ (8 * 4)) with 4294967296 in R. lia.
    + unfold len in *. rewrite firstn_length. lia.
  - eapply (sane_adv 4 r_u32); [intros; apply s_u32|exact E].
Qed.
Lemma adv_i32 : adv 4 (fun z => -2147483648 <= z <= 2147483647) r_i32.
Proof.
  intros c a c' E. unfold r_i32, r_sint, bind in E. destruct (r_uint 4 c) as [[v c1]|] eqn:U; [|discriminate].
  destruct (adv_u32 c v c1 U) as [R M]. unfold ret in E. assert (a = to_signed 4 v /\ c' = c1) as [-> ->] by (split; congruence).
  split; [|exact M]. pose proof (to_signed_range 4 v ltac:(lia)) as T.
  change (2 ^ (8 * 4)) with 4294967296 in T. change (2 ^ (8 * 4 - 1)) with 2147483648 in T. specialize (T ltac:(lia)). lia.
Qed.
Lemma adv_count : adv 4 (fun z => 0 <= z <= 2147483647) r_count.
Proof.
  intros c a c' E. unfold r_count, bind in E. destruct (r_i32 c) as [[v c1]|] eqn:U; [|discriminate].
  destruct (adv_i32 c v c1 U) as [R M]. destruct (v <? 0) eqn:L; [discriminate|]. unfold ret in E.
  assert (a = v /\ c' = c1) as [-> ->] by (split; congruence). split; [lia|exact M].
Qed.

Lemma good_weaken j s m j' s' m' {A} (a : areader A) : good j s m a -> j' <= j -> s <= s' -> m' <= m -> good j' s' m' a.
Proof.
  intros G J S M c. specialize (G c). destruct G as [R G]. split; [exact R|].
  destruct (snd (a c)) as [[x c']|f]; [|lia]. unfold moved in *. destruct G as ((? & ? & ?) & ? & ? & ?).
  split; [lia|]. split; [assumption|]. lia.
Qed.
Lemma good_lift j s m {A} Q (r : reader A) : adv m Q r -> j <= m -> 0 <= s -> good j s m (lift r).
Proof.
  intros H J S c. cbn. split; [constructor|]. destruct (r c) as [[a c']|f] eqn:E.
  - destruct (H c a c' E) as [_ M]. split; [exact M|]. split; [constructor|]. unfold moved in M. lia.
  - pose proof (len_nonneg (rest c)). lia.
Qed.
Lemma good_fail j s m {A} f : 0 <= s -> good j s m (@afail A f).
Proof. intros S c. cbn. split; [constructor|]. pose proof (len_nonneg (rest c)). lia. Qed.
Lemma good_ret j s m {A} (x : A) : j <= 0 -> m <= 0 -> good j s m (aret x).
Proof. intros J M c. cbn. split; [constructor|]. split; [unfold moved; lia|]. split; [constructor|]. lia. Qed.
Lemma good_bind j1 s1 m1 j2 s2 m2 j s m {A B} (a : areader A) (k : A -> areader B) : good j1 s1 m1 a ->
  (forall x, good j2 s2 m2 (k x)) ->
  j <= j1 + j2 -> m <= m1 + m2 -> s1 <= s -> s2 <= s + j1 -> good j s m (abind a k).
Proof.
  intros G K J M S1 S2 c. specialize (G c). unfold abind. destruct (a c) as [l [[x c']|f]]; cbn [fst snd] in *.
  2:{ destruct G as [R G]. split; [exact R|]. lia. }
  destruct G as (R & (M1 & M2 & M3) & F & A1 & Q1). specialize (K x c'). destruct (k x c') as [l' y]; cbn [fst snd] in *.
  destruct K as [R' K]. split; [apply Forall_app; now split|]. rewrite asked_app, requests_app.
  destruct y as [[z c'']|f].
  - destruct K as ((N1 & N2 & N3) & F' & A2 & Q2). split; [unfold moved; lia|].
    split; [apply Forall_app; now split|]. lia.
  - lia.
Qed.
Lemma good_bind_lift j s m lo {A B} Q (r : reader A) (k : A -> areader B) : adv lo Q r -> 0 <= s ->
  (forall x, Q x -> good (j - lo) (s + lo) (m - lo) (k x)) -> good j s m (abind (lift r) k).
Proof.
  intros H S K c. unfold abind, lift. destruct (r c) as [[x c']|f] eqn:E; cbn [fst snd].
  2:{ split; [constructor|]. cbn. pose proof (len_nonneg (rest c)). lia. }
  destruct (H c x c' E) as [q (M1 & M2 & M3)]. specialize (K x q c'). destruct (k x c') as [l' y]; cbn [fst snd app] in *.
  destruct K as [R' K]. split; [exact R'|]. destruct y as [[z c'']|f].
  - destruct K as ((N1 & N2 & N3) & F' & A2 & Q2). split; [unfold moved; lia|]. split; [exact F'|]. lia.
  - lia.
Qed.
Definition one_if (n : Z) : Z := if 0 <? n then 1 else 0.
Lemma good_request j s m w n {B} (k : unit -> areader B) : 0 <= n <= largest w ->
  good (j + one_if n) (s - one_if n) ((if opaque_elements w then 0 else n) + Z.max 0 m) (k tt) ->
  good j s m (abind (request w n) k).
Proof.
  intros R K c. specialize (K c). unfold abind, request. destruct (k tt c) as [l y]; cbn [fst snd app] in *.
  destruct K as [R' K]. split; [now constructor|]. cbn [asked requests q_room q_count]. fold (one_if n).
  destruct y as [[z c']|f]; [|lia]. destruct K as ((M1 & M2 & M3) & F & A1 & Q1).
  pose proof (asked_nonneg l R'). pose proof (len_nonneg (rest c')).
  split; [unfold moved; destruct (opaque_elements w); lia|].
  split; [|destruct (opaque_elements w); lia]. constructor; [|exact F]. unfold fillable. cbn [q_room q_count q_left].
  destruct (opaque_elements w); [now left|right; lia].
Qed.
Lemma moved_scoped m s c c' : moved m (Cur (pos c) (rest c) s) c' <-> moved m c c'.
Proof. reflexivity. Qed.
Lemma good_scoped j s m t {A} (a : areader A) : good j s m a -> good j s m (ascoped t a).
Proof.
  intros G c. specialize (G (Cur (pos c) (rest c) (t :: stk c))). unfold ascoped, aret, abind, lift, push, pop, ret in *. cbn [app].
  destruct (a (Cur (pos c) (rest c) (t :: stk c))) as [l [[x c']|f]]; cbn [fst snd pos rest app] in *;
    rewrite ?app_nil_r; exact G.
Qed.
Lemma good_seq j1 s1 m1 j s m {A B} (a : areader A) (k : A -> areader B) : good j1 s1 m1 a -> s1 <= s ->
  (forall x, good (j - j1) (s + j1) (m - m1) (k x)) -> good j s m (abind a k).
Proof. intros G S K. eapply good_bind; [exact G|exact K|lia..]. Qed.
Lemma good_rep_pos p m {A} (a : areader A) : 0 <= m -> good 0 1 m a -> good 0 1 (m * Z.pos p) (arep_pos p a).
Proof.
  intros M G. induction p as [q IH|q IH|]; cbn [arep_pos].
  - eapply good_seq; [exact G|lia|intros x]. eapply good_seq; [exact IH|lia|intros l1].
    eapply good_seq; [exact IH|lia|intros l2]. apply good_ret; lia.
  - eapply good_seq; [exact IH|lia|intros l1]. eapply good_seq; [exact IH|lia|intros l2]. apply good_ret; lia.
  - eapply good_seq; [exact G|lia|intros x]. apply good_ret; lia.
Qed.
Lemma good_rep n m {A} (a : areader A) : 0 <= m -> 0 <= n -> good 0 1 m a -> good 0 1 (m * n) (arep n a).
Proof.
  intros M N G. unfold arep. destruct n as [|p|p]; [apply good_ret; lia|now apply good_rep_pos|lia].
Qed.

Create HintDb adv.
Lemma adv_any lo {A} (r : reader A) : (forall N, sane (fun _ => True) N lo r) -> adv lo (fun _ => True) r.
Proof. apply sane_adv. Qed.
Ltac adv1 := first
  [ apply adv_u32 | apply adv_i32 | apply adv_count
  | apply sane_adv; intros;
    first [apply s_position | apply sane_get_stk | apply s_take | apply s_u8 | apply s_u16 | apply s_u64 | apply s_i8
          | apply s_uint | apply s_sint | apply s_guid | apply s_b32 | apply s_bool | apply s_enum | apply s_optfmt
          | apply s_index0 | apply s_term | apply s_version | apply s_checked
          | apply s_zero_or; [exact I|first [apply s_u32|apply s_u8]]] ].
Create HintDb good.
Lemma one_if_le n : 0 <= one_if n <= 1 /\ (0 <= n -> one_if n <= n).
Proof. unfold one_if. destruct (0 <? n) eqn:E; lia. Qed.
Ltac garith := cbn [largest opaque_elements] in *; repeat match goal with
  | |- context [one_if ?n] => pose proof (one_if_le n); generalize dependent (one_if n); intros
  end; try lia.
Ltac gstep :=
  match goal with
  | |- good _ _ _ (aret _) => apply good_ret; garith
  | |- good _ _ _ (afail _) => apply good_fail; garith
  | |- good _ _ _ (abind (lift _) _) => eapply good_bind_lift; [adv1|garith|intros]
  | |- good _ _ _ (abind (request _ _) _) => apply good_request; [garith|]
  | |- good _ _ _ (abind (arep _ _) _) => eapply good_seq; [apply (good_rep _ 1); [lia|garith|]|garith|intros]
  | |- good _ _ _ (abind (ascoped _ _) _) => eapply good_seq; [apply good_scoped; solve [eauto 3 with good]|garith|intros]
  | |- good _ _ _ (abind _ _) => eapply good_seq; [solve [eauto 3 with good]|garith|intros]
  | |- good _ _ _ (if ?b then _ else _) => destruct b eqn:?
  | |- good _ _ _ (match ?x with _ => _ end) => destruct x eqn:?
  | |- good _ _ _ (let _ := _ in _) => cbv zeta
  | |- good _ _ _ _ => eapply good_weaken; [solve [eauto 3 with good]|garith|garith|garith]
  end.
Lemma good_fstring : good 4 0 4 a_fstring.
Proof.
  unfold a_fstring. eapply good_bind_lift; [adv1|lia|intros start _]. eapply good_bind_lift; [adv1|lia|intros n R].
  gstep; [gstep|]. apply negb_false_iff in Heqb. unfold inr in Heqb. gstep; [gstep|]. gstep.
  - apply good_request; [garith|]. eapply good_bind_lift; [adv1|garith|intros]. eapply good_bind_lift; [adv1|garith|intros].
    eapply good_bind_lift; [adv1|garith|intros]. gstep; [gstep|]. gstep; gstep.
  - apply good_request; [garith|]. eapply good_bind_lift; [adv1|garith|intros]. eapply good_bind_lift; [adv1|garith|intros].
    eapply good_bind_lift; [adv1|garith|intros]. gstep; [gstep|]. gstep; gstep.
Qed.
Ltac gsolve := repeat gstep.
Global Hint Resolve good_fstring : good.
Lemma good_string : good 4 0 4 a_string.
Proof. unfold a_string. gsolve. Qed.
Global Hint Resolve good_string : good.
Lemma adv_numfmt : adv 4 (fun _ => True) r_optfmt.
Proof. adv1. Qed.
Lemma adv_style : adv 1 (fun _ => True) r_style. Proof. unfold r_style. adv1. Qed.
Lemma adv_transform : adv 1 (fun _ => True) r_transform. Proof. unfold r_transform. adv1. Qed.
Ltac adv1 ::= first
  [ apply adv_u32 | apply adv_i32 | apply adv_count | apply adv_style | apply adv_transform
  | apply sane_adv; intros;
    first [apply s_position | apply sane_get_stk | apply s_take | apply s_u8 | apply s_u16 | apply s_u64 | apply s_i8
          | apply s_uint | apply s_sint | apply s_guid | apply s_b32 | apply s_bool | apply s_enum | apply s_optfmt
          | apply s_index0 | apply s_term | apply s_version | apply s_checked
          | apply s_zero_or; [exact I|first [apply s_u32|apply s_u8]]] ].
Lemma good_farg vs rt : good 0 1 0 rt -> good 0 1 1 (a_farg vs rt).
Proof. intros. unfold a_farg. gsolve. Qed.
Global Hint Resolve good_farg : good.
Lemma good_named vs rt : good 0 1 0 rt -> good 0 1 1 (a_named vs rt).
Proof. intros. unfold a_named. gsolve. Qed.
Global Hint Resolve good_named : good.
Lemma good_hist vs rt : good 0 1 0 rt -> good 0 1 1 (a_hist vs rt).
Proof. intros. unfold a_hist. gsolve. Qed.
Global Hint Resolve good_hist : good.
Lemma good_text vs n : good 0 1 1 (a_text n vs).
Proof.
  induction n; cbn [a_text]; gsolve. eapply good_seq; [apply good_hist|garith|intros; gstep].
  eapply good_weaken; [exact IHn|lia..].
Qed.
Global Hint Resolve good_text : good.
Lemma good_sized m n {A} (a : areader A) : good 0 1 m a -> good 0 1 m (asized n a).
Proof.
  intros H. unfold asized. gstep. eapply good_seq; [exact H|lia|intros]. gstep. gstep; gstep.
Qed.
Lemma good_headed {V A} (va : areader V) (ba : Z -> V -> areader A) :
  good 0 1 0 va -> (forall n v, 0 <= n <= 4294967295 -> good 0 1 0 (ba n v)) -> good 0 1 1 (aheaded va ba).
Proof.
  intros H K. unfold aheaded. gstep. gstep. eapply good_seq; [exact H|lia|intros]. gstep.
  eapply good_weaken; [apply good_sized; now apply K|lia..].
Qed.
Lemma good_headed_index {A} (ba : Z -> areader A) : (forall n, good 0 1 0 (ba n)) -> good 0 1 1 (aheaded_index ba).
Proof. intros K. unfold aheaded_index. gstep. gstep. gstep. eapply good_weaken; [apply good_sized; now apply K|lia..]. Qed.
Lemma good_plain {A} hdr (a : areader A) : good 0 1 1 a -> good 0 1 1 (aplain hdr a).
Proof.
  intros. unfold aplain. destruct hdr; [|assumption]. apply good_headed; intros; [gstep|].
  eapply good_weaken; [exact H|lia..].
Qed.
Lemma good_bytev o sug : good 0 1 1 (a_bytev o sug).
Proof. unfold a_bytev. gsolve. Qed.
Global Hint Resolve good_bytev : good.
Lemma good_delegate : good 0 1 1 a_delegate.
Proof. unfold a_delegate. gsolve. Qed.
Global Hint Resolve good_delegate : good.
Lemma good_unknown ty n : 0 <= n <= 4294967295 -> good 0 1 0 (a_unknown ty n).
Proof. intros. unfold a_unknown. gsolve. Qed.
Global Hint Resolve good_unknown : good.

Lemma t_rnum N k : sane (fun _ => True) N (num_width k) (r_num k).
Proof. unfold r_num. destruct (num_signed k); [apply s_sint|apply s_uint]. Qed.
Lemma adv_pnum k hdr : adv 1 (fun _ => True) (r_pnum k hdr).
Proof.
  apply sane_adv. intros N. unfold r_pnum. pose proof (num_width_pos k).
  eapply (sane_bind _ _ _ 0).
  - destruct hdr; [|apply sane_ret; lia]. eapply sane_bind; [apply s_check|intros].
    eapply sane_weaken; [apply s_zero_or; [exact I|apply s_u8]|apply Z.le_refl|lia].
  - intros. eapply sane_bind; [apply t_rnum|intros]. apply sane_ret. lia.
Qed.
Lemma adv_pbool hdr : adv 1 (fun _ => True) (r_pbool hdr).
Proof.
  apply sane_adv. intros N. unfold r_pbool. eapply (sane_bind _ _ _ 0).
  - destruct hdr; [|apply sane_ret; lia]. eapply sane_weaken; [apply s_check|apply Z.le_refl|lia].
  - intros. eapply sane_bind; [apply s_bool|intros]. eapply (sane_bind _ _ _ 0).
    + destruct hdr; [|apply sane_ret; lia]. eapply sane_weaken; [apply s_zero_or; [exact I|apply s_u8]|apply Z.le_refl|lia].
    + intros. apply sane_ret. lia.
Qed.

Definition hint_ok (sug : option Z) : Prop := match sug with Some n => 0 <= n <= 4294967295 | None => True end.
Definition least (ty : str) (hdr : bool) (sug : option Z) : Z :=
  match kind_of ty, hdr, sug with KOther, false, Some _ => 0 | _, _, _ => 1 end.
Section Props.
Context (o : opts) (vs : list (guid * Z)) (ap : apreader)
        (G : forall ty hdr sug, hint_ok sug -> good 0 1 (least ty hdr sug) (ap ty hdr sug)).
Lemma good_ap ty hdr : good 0 1 1 (ap ty hdr None).
Proof. pose proof (G ty hdr None I) as H. unfold least in H. destruct (kind_of ty), hdr; exact H. Qed.
Lemma good_ap0 ty hdr sug : hint_ok sug -> good 0 1 0 (ap ty hdr sug).
Proof. intros S. eapply good_weaken; [now apply G|lia|lia|]. unfold least. destruct (kind_of ty), hdr, sug; lia. Qed.
Lemma good_apk ty sug : hint_ok sug -> kind_of ty <> KOther -> good 0 1 1 (ap ty false sug).
Proof. intros S N. pose proof (G ty false sug S) as H. unfold least in H. destruct (kind_of ty); try exact H. now elim N. Qed.
Hint Resolve good_ap : good.
Lemma good_custom m : forall acc, good 0 1 1 (a_custom m o ap acc).
Proof. induction m; intros acc; cbn [a_custom]; gsolve. Qed.
Hint Resolve good_custom : good.
Lemma good_sval m ty : good 0 1 1 (a_sval m o vs ap ty).
Proof.
  unfold a_sval. cbv zeta. destruct (fixed_of vs (skind_of ty)) as [x|] eqn:Fx; [|gsolve].
  eapply (good_bind_lift _ _ _ 1 (fun _ => True)); [|lia|intros; gstep].
  apply sane_adv. intros N. clear. destruct (layout x) as [|k ks] eqn:L; [destruct x; discriminate|].
  cbn [mapM]. pose proof (num_width_pos k) as W. eapply sane_bind; [apply t_rnum|intros].
  eapply sane_bind; [apply sane_mapM; intros y; eapply sane_weaken; [apply t_rnum|apply Z.le_refl|pose proof (num_width_pos y); lia]|intros].
  apply sane_ret. lia.
Qed.
Hint Resolve good_sval : good.
Lemma good_struct_array m n : 0 <= n -> good 0 1 n (a_struct_array m o vs ap n).
Proof. intros. unfold a_struct_array. gsolve. Qed.
Lemma good_array m n ty : 0 <= n <= 4294967295 -> good 0 1 0 (a_array m o vs ap n ty).
Proof.
  intros N. unfold a_array. gstep. cbv beta in H. apply good_request; [garith|].
  set (sug := if (0 <? x) && (4 <=? n) then Some ((n - 4) / x) else None).
  assert (S : hint_ok sug).
  { unfold sug. destruct (_ && _) eqn:E; [|exact I]. cbn. nia. }
  assert (F : forall info l, adv 0 (fun _ => True) (of_outcome (array_new ty info l))).
  { intros info l c a c' E. split; [exact I|]. unfold of_outcome in E. destruct (array_new ty info l); [|discriminate].
    unfold ret in E. assert (c' = c) as -> by congruence. unfold moved. lia. }
  destruct (kind_of ty) eqn:K; cbn [opaque_elements]; rewrite K.
  all: try (eapply good_seq; [apply (good_rep _ 1); [lia|garith|apply good_apk; [exact S|rewrite K; discriminate]]|garith|intros l];
    eapply good_bind_lift; [apply F|garith|intros]; gstep).
  - eapply good_seq; [apply good_struct_array; lia|garith|intros l].
    eapply good_bind_lift; [apply F|garith|intros]; gstep.
  - eapply good_seq; [apply (good_rep _ 0); [lia|garith|now apply good_ap0]|garith|intros l].
    eapply good_bind_lift; [apply F|garith|intros]; gstep.
Qed.
Lemma good_set n ty : 0 <= n <= 4294967295 -> good 0 1 0 (a_set o ap n ty).
Proof.
  intros N. unfold a_set. gstep. gstep. cbv beta in *. apply good_request; [garith|].
  destruct (0 <? x0) eqn:C; [|assert (x0 = 0) as -> by lia; change (one_if 0) with 0; destruct (opaque_elements _); gstep].
  destruct (_ && _); [gstep|].
  assert (S : hint_ok (Some ((n - 8) mod 4294967296 / x0))).
  { cbn. pose proof (Z.mod_pos_bound (n - 8) 4294967296 ltac:(lia)). nia. }
  destruct (kind_of ty) eqn:K; cbn [opaque_elements]; rewrite K.
  all: try (eapply good_seq; [apply (good_rep _ 1); [lia|garith|apply good_apk; [exact S|rewrite K; discriminate]]|garith|intros l];
    gstep).
  eapply good_seq; [apply (good_rep _ 0); [lia|garith|now apply good_ap0]|garith|intros l]. gstep.
Qed.
Lemma good_entry kt vt : good 0 1 1 (a_entry ap kt vt).
Proof. unfold a_entry. gsolve. Qed.
Hint Resolve good_entry : good.
Lemma good_map kt vt : good 0 1 0 (a_map o ap kt vt).
Proof. unfold a_map. gsolve. Qed.
Lemma good_body n ty hdr sug : hint_ok sug -> good 0 1 (least ty hdr sug) (a_body n o vs ap ty hdr sug).
Proof.
  intros S. unfold a_body, least. destruct (kind_of ty) eqn:K.
  - eapply good_lift; [apply adv_pnum|lia..].
  - unfold a_pbyte. destruct hdr; gsolve.
  - eapply good_lift; [apply adv_pbool|lia..].
  - unfold a_penum. destruct hdr; [apply good_headed; intros|]; gsolve.
  - apply good_plain. gsolve.
  - apply good_plain. gsolve.
  - unfold a_pname. destruct hdr; [apply good_headed_index; intros|]; gsolve.
  - apply good_plain. gsolve.
  - apply good_plain. gsolve.
  - apply good_plain. gsolve.
  - apply good_plain. gsolve.
  - unfold a_pstruct, a_hinted. destruct hdr; [apply good_headed; intros|]; gsolve.
  - destruct hdr; [apply good_headed; intros; [gsolve|now apply good_array]|].
    apply (good_lift 0 1 1 (fun _ => True)); [|lia..]. intros c a c' E. discriminate.
  - destruct hdr; [apply good_headed; intros; [gsolve|now apply good_set]|].
    apply (good_lift 0 1 1 (fun _ => True)); [|lia..]. intros c a c' E. discriminate.
  - destruct hdr; [apply good_headed; intros; [gsolve|now apply good_map]|].
    apply (good_lift 0 1 1 (fun _ => True)); [|lia..]. intros c a c' E. discriminate.
  - destruct hdr.
    + unfold a_unknown_header. gsolve.
    + destruct sug as [l|]; [now apply good_unknown|]. gsolve.
Qed.
End Props.
Lemma good_prop o vs n : forall ty hdr sug, hint_ok sug -> good 0 1 (least ty hdr sug) (a_prop n o vs ty hdr sug).
Proof.
  induction n as [|n IH]; intros; cbn [a_prop]; [apply good_fail; lia|].
  apply good_scoped. now apply good_body.
Qed.
Lemma good_prop1 o vs n ty hdr : good 0 1 1 (a_prop n o vs ty hdr None).
Proof. apply good_ap. intros. now apply good_prop. Qed.
Global Hint Resolve good_prop1 : good.
Lemma good_entries o vs m n : good 0 1 1 (a_entries n m o vs).
Proof. induction n; cbn [a_entries]; gsolve. Qed.
Global Hint Resolve good_entries : good.
Lemma good_version : good 0 1 1 (lift r_version).
Proof. eapply good_weaken; [eapply good_lift; [adv1|apply Z.le_refl|apply Z.le_refl]|lia..]. Qed.
Global Hint Resolve good_version : good.
Lemma good_header : good 1 0 1 a_header.
Proof.
  unfold a_header, a_fengine. do 3 gstep.
  eapply (good_bind_lift _ _ _ 0 (fun _ => True)); [|garith|intros].
  { apply sane_adv. intros N. destruct (3 <=? x0).
    - eapply sane_bind; [apply s_checked|intros]. apply sane_ret. lia.
    - apply sane_ret. lia. }
  eapply (good_seq 0 1 1); [gsolve|garith|intros]. gsolve.
Qed.
Lemma good_file n o : good 0 0 1 (a_file n o).
Proof. unfold a_file. eapply good_seq; [apply good_header|lia|intros]. gsolve. Qed.

(** * Results *)
Lemma asked_requests l : Forall in_range l -> asked l <= 4294967295 * requests l.
Proof.
  induction 1 as [|q l H _ IH]; cbn [asked requests]; [lia|]. unfold in_range in H.
  assert (largest (q_room q) <= 4294967295) by (destruct (q_room q); cbn [largest]; lia).
  destruct (opaque_elements _), (0 <? q_count q) eqn:E; lia.
Qed.
Lemma parse_any o b : Forall in_range (fst (a_parse o b)) /\ requests (fst (a_parse o b)) <= len b
  /\ asked (fst (a_parse o b)) <= 4294967295 * len b.
Proof.
  destruct (good_file (S (List.length b)) o (Cur 0 b [])) as [R G]. fold (a_parse o b) in *.
  assert (Q : requests (fst (a_parse o b)) <= len b).
  { destruct (snd (a_parse o b)) as [[x c]|f]; cbn [pos rest] in G; [|lia].
    destruct G as ((? & ? & M) & _ & _ & Q). cbn [pos rest] in M. pose proof (len_nonneg (rest c)). lia. }
  split; [exact R|]. split; [exact Q|]. pose proof (asked_requests _ R). lia.
Qed.
Lemma parse_asks o b f c : parse o b = Ok (f, c) -> asked (fst (a_parse o b)) < pos c /\ pos c <= len b
  /\ Forall fillable (fst (a_parse o b)).
Proof.
  intros E. destruct (good_file (S (List.length b)) o (Cur 0 b [])) as [R G]. fold (a_parse o b) in *.
  rewrite er_parse, E in G. destruct G as ((? & ? & M) & F & A & _). cbn [pos rest] in *. pose proof (len_nonneg (rest c)).
  split; [lia|]. split; [lia|exact F].
Qed.
Lemma prop_asks n o vs ty c p c' : r_prop n o vs ty true None c = Ok (p, c') ->
  asked (fst (a_prop n o vs ty true None c)) < pos c' - pos c /\ Forall fillable (fst (a_prop n o vs ty true None c)).
Proof.
  intros E. destruct (good_prop1 o vs n ty true c) as [_ G]. rewrite (er_prop o vs n ty true None c), E in G.
  destruct G as (_ & F & A & _). split; [lia|exact F].
Qed.
Lemma load_any z o v b : Forall in_range (fst (a_load z o v b)).
Proof.
  destruct v; cbn [a_load].
  - pose proof (proj1 (parse_any o b)) as R. destruct (a_parse o b) as [l [[[h ps] c]|f]]; exact R.
  - assert (P : Forall in_range (fst (a_palworld z (Cur 0 b [])))).
    { unfold a_palworld, abind. unfold lift at 1. destruct (r_u32 (Cur 0 b [])) as [[n c1]|] eqn:U; [|constructor].
      destruct (adv_u32 _ _ _ U) as [R _].
      unfold lift at 1. destruct (r_u32 c1) as [[? c2]|]; [|constructor].
      unfold lift at 1. destruct (take 3 c2) as [[mg c3]|]; [|constructor].
      destruct (negb _); [constructor|]. unfold lift at 1. destruct (r_enum _ _ c3) as [[ct c4]|]; [|constructor].
      destruct ct; cbn [request aret lift ret fst app]; repeat constructor; cbn [q_count q_room largest]; lia. }
    destruct (a_palworld z (Cur 0 b [])) as [l [[[c d] k]|f]]; [|exact P].
    pose proof (proj1 (parse_any o d)) as R.
    destruct (a_parse o d) as [l' [[[h ps] c']|f]]; apply Forall_app; split; assumption.
Qed.
Lemma take_left n c bs c' : take n c = Ok (bs, c') -> len (rest c') = len (rest c) - Z.max 0 n.
Proof.
  unfold take. destruct (n <=? len (rest c)) eqn:L; [|discriminate]. intros E.
  assert (c' = Cur (pos c + Z.max 0 n) (skipn (Z.to_nat n) (rest c)) (stk c)) as -> by congruence.
  cbn [rest]. unfold len in *. rewrite skipn_length. lia.
Qed.
Lemma take_rest w c v c' : r_uint w c = Ok (v, c') -> len (rest c') = len (rest c) - Z.max 0 w.
Proof.
  unfold r_uint, bind. destruct (take w c) as [[bs c1]|] eqn:T; [|discriminate]. unfold ret. intros E.
  assert (c' = c1) as -> by congruence. now apply take_left in T.
Qed.
Lemma pal_exact z b l c d k : a_palworld z (Cur 0 b []) = (l, Ok ((c, d), k)) ->
  l = match c with CTwice => [] | _ => [Req RUnpacked (len d) (len b - 12)] end.
Proof.
  unfold a_palworld, abind. unfold lift at 1. destruct (r_u32 (Cur 0 b [])) as [[n c1]|] eqn:U; [|discriminate].
  destruct (adv_u32 _ _ _ U) as [R _]. apply take_rest in U.
  unfold lift at 1. destruct (r_u32 c1) as [[? c2]|] eqn:U2; [|discriminate]. apply take_rest in U2.
  unfold lift at 1. destruct (take 3 c2) as [[mg c3]|] eqn:T; [|discriminate]. apply take_left in T.
  destruct (negb _); [discriminate|]. unfold lift at 1. destruct (r_enum _ _ c3) as [[ct c4]|] eqn:En; [|discriminate].
  assert (L : len (rest c4) = len b - 12).
  { unfold r_enum, bind in En. destruct (r_i8 c3) as [[v c5]|] eqn:I8; [|discriminate].
    assert (c4 = c5) as ->.
    { destruct (enum_of _ _ v); [unfold ret in En; congruence|discriminate]. }
    unfold r_i8, r_sint, bind in I8. destruct (r_uint 1 c3) as [[w c6]|] eqn:U1; [|discriminate]. apply take_rest in U1.
    unfold ret in I8. assert (c5 = c6) as -> by congruence. cbn [rest] in *. lia. }
  destruct ct; cbn [request aret lift ret fst app].
  - unfold take. destruct (n <=? len (rest c4)) eqn:N; [|discriminate]. intros E. assert (c = CNone) as -> by congruence.
    assert (l = [Req RUnpacked n (len (rest c4))]) as -> by congruence.
    assert (d = firstn (Z.to_nat n) (rest c4)) as -> by congruence. rewrite L. do 2 f_equal. unfold len in *. rewrite firstn_length. lia.
  - unfold zread_exact. destruct (n <=? len (fst (inflate z (rest c4)))) eqn:N; [|discriminate]. intros E. assert (c = CZlib) as -> by congruence.
    assert (l = [Req RUnpacked n (len (rest c4))]) as -> by congruence.
    assert (d = firstn (Z.to_nat n) (fst (inflate z (rest c4)))) as -> by congruence. rewrite L. do 2 f_equal. unfold len in *. rewrite firstn_length. lia.
  - destruct (zread_to_end _); [|discriminate]. intros E. assert (c = CTwice) as -> by congruence. congruence.
Qed.
Lemma box_exact z o b g : load z o GPalworld b = Ok g -> exists c d k, r_palworld z (Cur 0 b []) = Ok ((c, d), k) /\
  fst (a_load z o GPalworld b) =
    match c with CTwice => [] | _ => [Req RUnpacked (len d) (len b - 12)] end ++ fst (a_parse o d).
Proof.
  intros E. rewrite <- er_load in E. cbn [a_load] in *. pose proof (er_palworld z (Cur 0 b [])) as S. rewrite <- S.
  destruct (a_palworld z (Cur 0 b [])) as [l [[[c d] k]|f]] eqn:A; [|discriminate]. exists c, d, k. split; [reflexivity|].
  apply pal_exact in A as <-. destruct (a_parse o d) as [l' [[[h ps] c']|f]]; reflexivity.
Qed.
