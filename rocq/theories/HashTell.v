(** What a value feeds to the hasher tells it from other values, as long as no map is
    followed by something else. *)
From Coq Require Import ZArith List Bool String Lia ZifyBool ZifyNat.
From Verif Require Import Base Str Types Versions Guid Hash BaseFacts Spec StrFacts Decode Induct EqFacts HashFacts
  Json JsonSpec HashSpec HashFloat.
Import ListNotations.
Open Scope Z_scope.

(** ** Streams that can be told apart *)
Definition big : Z := 2 ^ 64.
(** [a] is told from every [b] with [Q], whatever follows, in a stream of less than 2^64 bytes. *)
Definition tells {A} (f : A -> list byte) (eq : A -> A -> bool) (Q : A -> bool) (a : A) : Prop :=
  forall b s t, Q b = true -> len (f a ++ s) < big -> f a ++ s = f b ++ t -> eq a b = true /\ s = t.
Lemma peel {A} (f : A -> list byte) eq Q a b s t : tells f eq Q a -> Q b = true -> len (f a ++ s) < big ->
  f a ++ s = f b ++ t -> eq a b = true /\ s = t /\ len s < big.
Proof.
  intros T H L E. destruct (T b s t H L E) as [X Y]. rewrite len_app in L. pose proof (len_nonneg (f a)).
  split; [exact X|]. split; [exact Y|lia].
Qed.
Lemma app_same {A} (a : list A) : forall b s t, List.length a = List.length b -> a ++ s = b ++ t -> a = b /\ s = t.
Proof.
  induction a as [|x a IH]; intros [|y b] s t L E; cbn in *; try discriminate; auto.
  injection E as -> E. destruct (IH b s t) as [-> ->]; auto.
Qed.
Lemma le_same w a b : le_bytes w a = le_bytes w b -> a mod 2 ^ (8 * Z.of_nat w) = b mod 2 ^ (8 * Z.of_nat w).
Proof. intros E. now rewrite <- !le_val_bytes, E. Qed.
Lemma int_split w a b s t : h_int w a ++ s = h_int w b ++ t ->
  a mod 2 ^ (8 * Z.of_nat w) = b mod 2 ^ (8 * Z.of_nat w) /\ s = t.
Proof.
  intros E. apply app_same in E as [E ->]; [|unfold h_int; now rewrite !length_le_bytes]. split; [|reflexivity].
  now apply le_same.
Qed.
Lemma disc_split a b s t : 0 <= a < 256 -> 0 <= b < 256 -> h_disc a ++ s = h_disc b ++ t -> a = b /\ s = t.
Proof.
  intros A B E. apply int_split in E as [E ->]. change (2 ^ (8 * Z.of_nat 8)) with 18446744073709551616 in E.
  rewrite !Z.mod_small in E by lia. auto.
Qed.
Lemma mod_near n a b lo : 0 < n -> lo <= a < lo + n -> lo <= b < lo + n -> a mod n = b mod n -> a = b.
Proof.
  intros N A B E. pose proof (Z.div_mod a n). pose proof (Z.div_mod b n).
  assert (n * (a / n - b / n) = a - b) by lia. assert (a / n - b / n = 0) by nia. nia.
Qed.
Lemma tells_u w a : u_ok (Z.of_nat w) a = true -> tells (h_int w) Z.eqb (u_ok (Z.of_nat w)) a.
Proof.
  intros A b s t B _ E. apply int_split in E as [E ->]. split; [|reflexivity]. apply Z.eqb_eq.
  unfold u_ok, in_range in A, B. set (n := 2 ^ (8 * Z.of_nat w)) in *.
  assert (0 < n) by (apply Z.pow_pos_nonneg; lia). apply (mod_near n a b 0); lia.
Qed.
Lemma tells_s w a : (0 < w)%nat -> s_ok (Z.of_nat w) a = true -> tells (h_int w) Z.eqb (s_ok (Z.of_nat w)) a.
Proof.
  intros W A b s t B _ E. apply int_split in E as [E ->]. split; [|reflexivity]. apply Z.eqb_eq.
  unfold s_ok, in_range in A, B. set (n := 2 ^ (8 * Z.of_nat w - 1)) in *.
  assert (0 < n) by (apply Z.pow_pos_nonneg; lia).
  replace (2 ^ (8 * Z.of_nat w)) with (n + n) in E.
  2: { unfold n. replace (8 * Z.of_nat w) with (Z.succ (8 * Z.of_nat w - 1)) at 3 by lia.
       rewrite Z.pow_succ_r by lia. lia. }
  apply (mod_near (n + n) a b (- n)); lia.
Qed.
Lemma tells_range hi a : hi < 256 -> in_range 0 hi a = true -> tells (h_int 1) Z.eqb (in_range 0 hi) a.
Proof.
  intros W A b s t B _ E. apply int_split in E as [E ->]. split; [|reflexivity]. apply Z.eqb_eq.
  change (2 ^ (8 * Z.of_nat 1)) with 256 in E. unfold in_range in A, B. apply (mod_near 256 a b 0); lia.
Qed.
Lemma tells_u4 a : u_ok 4 a = true -> tells (h_int 4) Z.eqb (u_ok 4) a. Proof. apply (tells_u 4). Qed.
Lemma tells_u8 a : u_ok 8 a = true -> tells (h_int 8) Z.eqb (u_ok 8) a. Proof. apply (tells_u 8). Qed.
Lemma tells_s4 a : s_ok 4 a = true -> tells (h_int 4) Z.eqb (s_ok 4) a. Proof. apply (tells_s 4). lia. Qed.
Lemma tells_s8 a : s_ok 8 a = true -> tells (h_int 8) Z.eqb (s_ok 8) a. Proof. apply (tells_s 8). lia. Qed.
Definition anyb {A} (_ : A) : bool := true.
Lemma tells_bool a : tells h_bool Bool.eqb anyb a.
Proof.
  intros b s t _ _ E. unfold h_bool in E. apply int_split in E as [E ->]. split; [|reflexivity].
  destruct a, b; auto; discriminate E.
Qed.
Lemma tells_byte a : tells (fun b => [b]) Byte.eqb anyb a.
Proof. intros b s t _ _ E. injection E as -> ->. split; [now apply byte_eqb_eq|reflexivity]. Qed.
Lemma tells_str a : is_str a = true -> tells h_str str_eqb is_str a.
Proof.
  intros A b s t B _ E. apply h_str_split in E as [-> ->]; auto. split; [apply str_eqb_refl|reflexivity].
Qed.
Lemma tells_opt {T} (f : T -> list byte) eq Q (P : T -> bool) a :
  (forall x, P x = true -> tells f eq Q x) -> match a with Some x => P x | None => true end = true ->
  tells (h_opt f) (opt_eqb eq) (fun o => match o with Some x => Q x | None => true end) a.
Proof.
  intros W A b s t B L E. destruct a as [a|], b as [b|]; cbn [h_opt opt_eqb] in *; rewrite <- ?app_assoc in *;
    apply disc_split in E as [D E]; try lia; auto.
  rewrite len_app in L. pose proof (len_nonneg (h_disc 1)). apply (W a A); auto. lia.
Qed.
Lemma tells_ostr a : ois_str a = true -> tells (h_opt h_str) (opt_eqb str_eqb) ois_str a.
Proof. intros A. refine (tells_opt h_str str_eqb is_str is_str a tells_str _). destruct a; exact A. Qed.
Lemma flat_map_len {A} (f : A -> list byte) l : (forall x, f x <> []) -> len l <= len (flat_map f l).
Proof.
  intros N. induction l as [|x l IH]; cbn [flat_map]; [apply Z.le_refl|]. rewrite len_app, len_cons.
  specialize (N x). destruct (f x) as [|b r]; [congruence|]. rewrite len_cons. pose proof (len_nonneg r). lia.
Qed.
Lemma tells_vec {A} (f : A -> list byte) eq Q l : (forall x, f x <> []) -> Forall (tells f eq Q) l ->
  tells (h_vec f) (list_eqb eq) (forallb Q) l.
Proof.
  intros N F l' s t B L E. unfold h_vec in *.
  assert (len l < big /\ len l' < big) as [M M'].
  { pose proof (f_equal len E) as X. rewrite !len_app in *. pose proof (flat_map_len f l N).
    pose proof (flat_map_len f l' N). pose proof (len_nonneg s). pose proof (len_nonneg t).
    pose proof (len_nonneg (h_int 8 (len l))). pose proof (len_nonneg (h_int 8 (len l'))). lia. }
  rewrite <- !app_assoc in *. apply int_split in E as [D E]. unfold big in *.
  change (2 ^ (8 * Z.of_nat 8)) with (2 ^ 64) in D.
  rewrite !Z.mod_small in D by (split; [apply len_nonneg|assumption]).
  rewrite len_app in L. pose proof (len_nonneg (h_int 8 (len l))).
  assert (L' : len (flat_map f l ++ s) < 2 ^ 64) by lia. clear L M M' H.
  revert l' B D E. induction F as [|x l Hx _ IH]; intros [|y l'] B D E; rewrite ?len_cons in D; cbn [flat_map list_eqb] in *.
  - auto.
  - exfalso. change (len (@nil A)) with 0 in D. pose proof (len_nonneg l'). lia.
  - exfalso. change (len (@nil A)) with 0 in D. pose proof (len_nonneg l). lia.
  - cbn [forallb] in B. andbs. rewrite <- !app_assoc in *. destruct (Hx y _ _ ltac:(assumption) L' E) as [-> E'].
    rewrite len_app in L'. pose proof (len_nonneg (f x)). destruct (IH ltac:(lia) l') as [-> ->]; auto. lia.
Qed.
Lemma tells_pair {T U} (f : T -> list byte) (g : U -> list byte) eq eq' Q Q' x y : tells f eq Q x -> tells g eq' Q' y ->
  tells (fun d => f (fst d) ++ g (snd d)) (pair_eqb eq eq') (fun '(a, b) => Q a && Q' b) (x, y).
Proof.
  intros X Y [a b] s t H L E; andbs. cbn [fst snd] in *. rewrite <- !app_assoc in *. unfold pair_eqb. cbn [fst snd].
  destruct (peel _ _ _ _ _ _ _ X ltac:(eassumption) L E) as (-> & E' & L').
  destruct (Y b s t ltac:(assumption) L' E') as [-> ->]. auto.
Qed.
Lemma tells_guid a : tells h_guid guid_eqb anyb a.
Proof.
  intros b s t _ L E. assert (B : forallb anyb b = true) by (apply forallb_forall; reflexivity).
  refine (tells_vec (fun b => [b]) Byte.eqb anyb a _ _ b s t B L E); [discriminate|].
  apply Forall_forall. intros. apply tells_byte.
Qed.

(** Floats: all NaNs and both zeros count as one. *)
Lemma u4_iff z : u_ok 4 z = true <-> 0 <= z < 4294967296.
Proof. unfold u_ok, in_range. change (2 ^ (8 * 4)) with 4294967296. lia. Qed.
Lemma u8_iff z : u_ok 8 z = true <-> 0 <= z < 18446744073709551616.
Proof. unfold u_ok, in_range. change (2 ^ (8 * 8)) with 18446744073709551616. lia. Qed.
Lemma tells_f32 a : u_ok 4 a = true -> tells h_f32 f32_eqb (u_ok 4) a.
Proof.
  intros A b s t B _ E. unfold h_f32 in E. apply int_split in E as [E ->]. split; [|reflexivity].
  apply u4_iff in A, B. change (2 ^ (8 * Z.of_nat 8)) with 18446744073709551616 in E.
  rewrite !Z.mod_small in E by apply canon32_u. now apply canon32_tells.
Qed.
(** Doubles: as [blur64] says. *)
Definition blurred {A} (eq : A -> A -> bool) (g : A -> A) (x y : A) : bool := eq (g x) (g y).
Lemma tells_f64 a : u_ok 8 a = true -> tells h_f64 (blurred f64_eqb blur64) (u_ok 8) a.
Proof.
  intros A b s t B _ E. unfold h_f64 in E. apply int_split in E as [E ->]. split; [|reflexivity].
  apply u8_iff in A, B. change (2 ^ (8 * Z.of_nat 8)) with 18446744073709551616 in E.
  rewrite !Z.mod_small in E by now apply canon64_u. unfold blurred. rewrite (canon64_tells a b A B E). apply f64_refl.
Qed.
Lemma tells_num k a : num_ok k a = true -> tells (h_num k) (blurred (num_eqb k) (blur_num k)) (num_ok k) a.
Proof.
  intros A. unfold blurred. destruct k; cbn [h_num num_eqb blur_num]; try (now apply tells_f32); try (now apply tells_f64);
    first [apply (tells_s 1)|apply (tells_s 2)|apply (tells_s 4)|apply (tells_s 8)|apply (tells_u 2)|apply (tells_u 4)|apply (tells_u 8)];
    try lia; exact A.
Qed.
Lemma tells_nums ks : forall l, nums_ok ks l = true -> tells (h_nums ks) (blurred (nums_eqb ks) (blur_nums ks)) (nums_ok ks) l.
Proof.
  unfold blurred. induction ks as [|k ks IH]; intros [|z l] A [|y l'] s t B L E; cbn [nums_ok h_nums blur_nums nums_eqb] in *; try discriminate; auto.
  andbs. rewrite <- !app_assoc in *.
  destruct (peel _ _ _ _ _ _ _ (tells_num k z ltac:(assumption)) ltac:(eassumption) L E) as (X & E' & L').
  destruct (IH l ltac:(assumption) l' s t ltac:(assumption) L' E') as [-> ->]. unfold blurred in X. rewrite X. auto.
Qed.
Lemma peelp {T} (f : T -> list byte) eq Q (P : Prop) a b s t : (P -> tells f eq Q a) ->
  f a ++ s = f b ++ t -> len (f a ++ s) < big -> P -> Q b = true -> eq a b = true /\ s = t /\ len s < big.
Proof. intros X E L H K. exact (peel f eq Q a b s t (X H) K L E). Qed.
Ltac peelwith lem := match goal with E : _ ++ ?s = _ ++ ?t, L : len (_ ++ ?s) < big |- _ =>
  let X := fresh "X" in pose proof (peelp _ _ _ _ _ _ s t lem E L) as X;
  let Y := fresh "Y" in let E' := fresh "E" in let L' := fresh "L" in
  destruct (X ltac:(first [exact I|reflexivity|eassumption]) ltac:(first [reflexivity|eassumption])) as (Y & E' & L');
  clear X E L; try first [rewrite Y|unfold blurred in Y; rewrite Y] end.
Lemma tells_numfmt a : numfmt_ok a = true -> tells h_numfmt numfmt_eqb numfmt_ok a.
Proof.
  intros A b s t B L E. unfold numfmt_ok in *. andbs. unfold h_numfmt in *. rewrite <- !app_assoc in *. unfold numfmt_eqb.
  peelwith (fun _ : True => tells_bool (nf_sign a)). peelwith (fun _ : True => tells_bool (nf_group a)).
  peelwith (tells_range 6 (nf_round a) eq_refl). peelwith (tells_s4 (nf_mini a)). peelwith (tells_s4 (nf_maxi a)).
  peelwith (tells_s4 (nf_minf a)). peelwith (tells_s4 (nf_maxf a)). auto.
Qed.
Lemma tells_onumfmt a : onumfmt_ok a = true -> tells (h_opt h_numfmt) (opt_eqb numfmt_eqb) onumfmt_ok a.
Proof. intros A. refine (tells_opt h_numfmt numfmt_eqb numfmt_ok numfmt_ok a tells_numfmt _). destruct a; exact A. Qed.
Lemma num_disc_eq a b : num_disc a = num_disc b -> a = b.
Proof. destruct a, b; cbn; intros; first [reflexivity|discriminate]. Qed.
Lemma fixed_disc_eq a b : fixed_disc a = fixed_disc b -> a = b.
Proof. destruct a, b; cbn; intros; first [reflexivity|discriminate]. Qed.
Lemma num_disc_range k : 0 <= num_disc k < 256. Proof. destruct k; cbn; lia. Qed.
Lemma fixed_disc_range k : 0 <= fixed_disc k < 256. Proof. destruct k; cbn; lia. Qed.
Lemma Forall_tells {T} (f : T -> list byte) eq Q (P : T -> bool) l : (forall x, P x = true -> tells f eq Q x) ->
  forallb P l = true -> Forall (tells f eq Q) l.
Proof. intros H F. apply Forall_forall. intros x I. apply H. rewrite forallb_forall in F. auto. Qed.
Lemma disc_clash a b s t : (0 <=? a) && (a <? 256) && (0 <=? b) && (b <? 256) && negb (a =? b) = true ->
  h_disc a ++ s = h_disc b ++ t -> False.
Proof. intros H E. apply disc_split in E as [E _]; lia. Qed.
Lemma disc_same a s t : h_disc a ++ s = h_disc a ++ t -> len (h_disc a ++ s) < big -> s = t /\ len s < big.
Proof. intros E L. apply app_inv_head in E. rewrite len_app in L. pose proof (len_nonneg (h_disc a)). split; [exact E|lia]. Qed.
(** The discriminants agree, or the streams differ. *)
Ltac clash := match goal with E : h_disc _ ++ _ = h_disc _ ++ _ |- _ => exfalso; revert E; apply disc_clash; reflexivity end.
Ltac samedisc := match goal with E : h_disc ?a ++ ?s = h_disc ?a ++ ?t, L : len (h_disc ?a ++ ?s) < big |- _ =>
  let E' := fresh "E" in let L' := fresh "L" in
  destruct (disc_same a s t E L) as [E' L']; clear E L end.
Lemma tells_bytev a : t_bytev a = true -> tells h_bytev bytev_eqb t_bytev a.
Proof.
  intros A b s t B L E. destruct a as [a|a], b as [b|b]; cbn [h_bytev bytev_eqb t_bytev] in *; rewrite <- ?app_assoc in *;
    try clash; samedisc; match goal with E : _ = _, L : _ < big |- _ => revert E L; intros E1 L1 end.
  - exact (tells_byte a b s t eq_refl L1 E1).
  - exact (tells_str a A b s t B L1 E1).
Qed.
Ltac peel1 := first
  [ match goal with E : h_bool ?a ++ _ = _ |- _ => peelwith (fun _ : True => tells_bool a) end
  | match goal with E : [?a] ++ _ = _ |- _ => peelwith (fun _ : True => tells_byte a) end
  | match goal with E : h_guid ?a ++ _ = _ |- _ => peelwith (fun _ : True => tells_guid a) end
  | match goal with E : h_str ?a ++ _ = _ |- _ => peelwith (tells_str a) end
  | match goal with E : h_opt h_str ?a ++ _ = _ |- _ => peelwith (tells_ostr a) end
  | match goal with E : h_opt h_numfmt ?a ++ _ = _ |- _ => peelwith (tells_onumfmt a) end
  | match goal with E : h_bytev ?a ++ _ = _ |- _ => peelwith (tells_bytev a) end
  | match goal with E : h_f32 ?a ++ _ = _ |- _ => peelwith (tells_f32 a) end
  | match goal with E : h_f64 ?a ++ _ = _ |- _ => peelwith (tells_f64 a) end
  | match goal with E : h_num ?k ?a ++ _ = _ |- _ => peelwith (tells_num k a) end
  | match goal with E : h_nums ?k ?a ++ _ = _ |- _ => peelwith (tells_nums k a) end
  | match goal with E : h_int 1 ?a ++ _ = _, H : in_range 0 ?n ?a = true |- _ => peelwith (tells_range n a eq_refl) end
  | match goal with E : h_int 4 ?a ++ _ = _ |- _ => first [peelwith (tells_u4 a)|peelwith (tells_s4 a)] end
  | match goal with E : h_int 8 ?a ++ _ = _ |- _ => first [peelwith (tells_u8 a)|peelwith (tells_s8 a)] end ].
