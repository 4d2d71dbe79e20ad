(** Two values are the same exactly if they are with one NaN and one zero (C32). *)
From Coq Require Import ZArith List Bool String Lia ZifyBool ZifyNat.
From Verif Require Import Base Str Types Versions BaseFacts Spec Decode Induct EqFacts EqSym EqSpec.
Import ListNotations.
Open Scope Z_scope.

Lemma level_32 z : level_num F32 z = if 2139095040 <? z mod 2147483648 then 2143289344 else if z mod 2147483648 =? 0 then 0 else z.
Proof. reflexivity. Qed.
Lemma level_64 z : level_num F64 z =
  if 9218868437227405312 <? z mod 9223372036854775808 then 9221120237041090560 else if z mod 9223372036854775808 =? 0 then 0 else z.
Proof. reflexivity. Qed.
Lemma f32_level a b : f32_eqb a b = true <-> level_num F32 a = level_num F32 b.
Proof.
  rewrite f32_iff, !level_32. split.
  - intros [[A B]|[->|[A B]]]; [|reflexivity|]; [apply Z.ltb_lt in A, B; now rewrite A, B|now rewrite A, B].
  - intros E. destruct (Z.ltb_spec 2139095040 (a mod 2147483648)) as [A|A], (Z.ltb_spec 2139095040 (b mod 2147483648)) as [B|B]; auto.
    + exfalso. destruct (Z.eqb_spec (b mod 2147483648) 0); [discriminate|]. subst b. vm_compute in B. now apply B.
    + exfalso. destruct (Z.eqb_spec (a mod 2147483648) 0); [discriminate|]. subst a. vm_compute in A. now apply A.
    + destruct (Z.eqb_spec (a mod 2147483648) 0) as [Y|Y], (Z.eqb_spec (b mod 2147483648) 0) as [Z|Z]; auto; exfalso; subst; now apply Y || now apply Z.
Qed.
Lemma f64_level a b : f64_eqb a b = true <-> level_num F64 a = level_num F64 b.
Proof.
  rewrite f64_iff, !level_64. split.
  - intros [[A B]|[->|[A B]]]; [|reflexivity|]; [apply Z.ltb_lt in A, B; now rewrite A, B|now rewrite A, B].
  - intros E. destruct (Z.ltb_spec 9218868437227405312 (a mod 9223372036854775808)) as [A|A], (Z.ltb_spec 9218868437227405312 (b mod 9223372036854775808)) as [B|B]; auto.
    + exfalso. destruct (Z.eqb_spec (b mod 9223372036854775808) 0); [discriminate|]. subst b. vm_compute in B. now apply B.
    + exfalso. destruct (Z.eqb_spec (a mod 9223372036854775808) 0); [discriminate|]. subst a. vm_compute in A. now apply A.
    + destruct (Z.eqb_spec (a mod 9223372036854775808) 0) as [Y|Y], (Z.eqb_spec (b mod 9223372036854775808) 0) as [Z|Z]; auto; exfalso; subst; now apply Y || now apply Z.
Qed.
Lemma num_level k a b : num_eqb k a b = true <-> level_num k a = level_num k b.
Proof. destruct k; try apply f32_level; try apply f64_level; apply Z.eqb_eq. Qed.
Lemma nums_nil a : forall b, nums_eqb [] a b = true <-> a = b.
Proof.
  induction a as [|x a IH]; intros [|y b]; cbn [nums_eqb]; split; try discriminate; auto.
  - rewrite andb_true_iff, IH, Z.eqb_eq. intros [-> ->]. reflexivity.
  - intros E. injection E as -> ->. now rewrite andb_true_iff, IH, Z.eqb_eq.
Qed.
Lemma nums_rep n k : forall a b, nums_eqb (repeat k n) a b = true <-> level_first n k a = level_first n k b.
Proof.
  unfold level_first. induction n as [|n IH]; intros a b; cbn [repeat].
  - cbn [firstn skipn map app]. apply nums_nil.
  - destruct a as [|x a], b as [|y b]; cbn [nums_eqb firstn skipn map app]; split; try discriminate; auto.
    + rewrite andb_true_iff, IH, num_level. intros [-> ->]. reflexivity.
    + intros E. injection E as A B. now rewrite andb_true_iff, IH, num_level.
Qed.
Lemma fixed_level x a b : nums_eqb (layout x) a b = true <-> level_fixed x a = level_fixed x b.
Proof.
  destruct x; try (exact (nums_rep 2 F32 a b)); try (exact (nums_rep 2 F64 a b)); try (exact (nums_rep 3 F32 a b)); try (exact (nums_rep 3 F64 a b));
    try (exact (nums_rep 4 F32 a b)); try (exact (nums_rep 4 F64 a b)); cbn [layout level_fixed].
  all: destruct a as [|x a], b as [|y b]; cbn [nums_eqb]; try (split; [discriminate|discriminate]); try tauto.
  all: try (split; [rewrite andb_true_iff, nums_nil; cbn [num_eqb]; rewrite Z.eqb_eq; intros [-> ->]; reflexivity
    |intros E; injection E as -> ->; rewrite andb_true_iff, nums_nil; cbn [num_eqb]; now rewrite Z.eqb_eq]).
  destruct a as [|x' a], b as [|y' b]; cbn [nums_eqb num_eqb]; rewrite ?andb_true_iff, ?Z.eqb_eq, ?nums_nil; split; intros E; try (destruct E; discriminate); try discriminate;
    try (destruct E as [-> [-> ->]]; reflexivity); try (injection E; intros; subst; auto). destruct E as [-> _]. reflexivity.
Qed.

(** ** Lists and maps *)
Lemma list_level {A} (f : A -> A -> bool) (g : A -> A) l :
  Forall (fun x => forall y, f x y = true <-> g x = g y) l -> forall l2, list_eqb f l l2 = true <-> map g l = map g l2.
Proof.
  induction 1 as [|x l Hx _ IH]; intros [|y l2]; cbn [list_eqb map]; split; try discriminate; auto.
  - rewrite andb_true_iff, Hx, IH. intros [-> ->]. reflexivity.
  - intros E. rewrite andb_true_iff, Hx, IH. split; congruence.
Qed.
Lemma map_level {K V} (keq : K -> K -> bool) (veq : V -> V -> bool) (f : K -> K) (g : V -> V) l :
  Forall (fun e => (forall y, keq (fst e) y = true <-> f (fst e) = f y) /\ (forall y, veq (snd e) y = true <-> g (snd e) = g y)) l ->
  forall l2, map_eqb keq veq true l l2 = true <-> map (fun e => (f (fst e), g (snd e))) l = map (fun e => (f (fst e), g (snd e))) l2.
Proof.
  unfold map_eqb. induction 1 as [|[k v] l [A B] _ IH]; intros [|[k2 v2] l2]; cbn [entries_eqb map fst snd] in *; split; try discriminate; auto.
  - rewrite !andb_true_iff, A, B, IH. intros [[-> ->] ->]. reflexivity.
  - intros E. rewrite !andb_true_iff, A, B, IH. repeat split; congruence.
Qed.
Lemma list_leaf {A} (f : A -> A -> bool) : (forall x y, f x y = true <-> x = y) -> forall l l2, list_eqb f l l2 = true <-> l = l2.
Proof. intros H l l2. rewrite (list_level f (fun x => x)), !map_id; [reflexivity|]. apply Forall_any. intros x y. apply H. Qed.
Lemma map_leaf {K V} (keq : K -> K -> bool) (veq : V -> V -> bool) :
  (forall x y, keq x y = true <-> x = y) -> (forall x y, veq x y = true <-> x = y) ->
  forall l l2, map_eqb keq veq true l l2 = true <-> l = l2.
Proof.
  intros H G l l2. rewrite (map_level keq veq (fun x => x) (fun x => x)).
  - rewrite !(map_ext (fun e : K * V => (fst e, snd e)) (fun e => e)), !map_id by (now intros []). reflexivity.
  - apply Forall_any. intros e. split; intros y; [apply H|apply G].
Qed.
Lemma opt_leaf {A} (f : A -> A -> bool) : (forall x y, f x y = true <-> x = y) -> forall a b, opt_eqb f a b = true <-> a = b.
Proof.
  intros H [x|] [y|]; cbn [opt_eqb]; split; try discriminate; auto; [rewrite H; congruence|].
  intros E. rewrite H. congruence.
Qed.
Lemma ostr_leaf a b : opt_eqb str_eqb a b = true <-> a = b. Proof. apply opt_leaf, str_eqb_eq. Qed.
Lemma numfmt_leaf a b : numfmt_eqb a b = true <-> a = b.
Proof.
  destruct a, b. unfold numfmt_eqb. cbn -[Z.eqb Bool.eqb andb].
  rewrite !andb_true_iff, !Bool.eqb_true_iff, !Z.eqb_eq. split; [intros H; decompose [and] H; congruence|].
  intros E. repeat split; congruence.
Qed.
Lemma onumfmt_leaf a b : opt_eqb numfmt_eqb a b = true <-> a = b. Proof. apply opt_leaf, numfmt_leaf. Qed.
Lemma bytev_leaf a b : bytev_eqb a b = true <-> a = b.
Proof.
  destruct a, b; cbn [bytev_eqb]; split; try discriminate; rewrite ?byte_eqb_eq, ?str_eqb_eq; congruence.
Qed.
Lemma delegates_leaf l l2 : list_eqb (pair_eqb str_eqb str_eqb) l l2 = true <-> l = l2.
Proof.
  apply list_leaf. intros [a b] [c d]. unfold pair_eqb. cbn [fst snd]. rewrite andb_true_iff, !str_eqb_eq.
  split; [intros [-> ->]; reflexivity|]. intros E. split; congruence.
Qed.
Lemma bool_leaf (a b : bool) : Bool.eqb a b = true <-> a = b. Proof. apply Bool.eqb_true_iff. Qed.
Lemma strs_leaf l l2 : list_eqb str_eqb l l2 = true <-> l = l2. Proof. apply list_leaf, str_eqb_eq. Qed.
Lemma bytes_leaf l l2 : list_eqb Byte.eqb l l2 = true <-> l = l2. Proof. apply list_leaf, byte_eqb_eq. Qed.
Lemma bools_leaf l l2 : list_eqb Bool.eqb l l2 = true <-> l = l2. Proof. apply list_leaf, bool_leaf. Qed.
Lemma ints_leaf l l2 : list_eqb Z.eqb l l2 = true <-> l = l2. Proof. apply list_leaf, Z.eqb_eq. Qed.
Lemma ostrs_leaf l l2 : list_eqb (opt_eqb str_eqb) l l2 = true <-> l = l2. Proof. apply list_leaf, ostr_leaf. Qed.
Lemma floats_level l l2 : list_eqb f32_eqb l l2 = true <-> map (level_num F32) l = map (level_num F32) l2.
Proof. apply list_level, Forall_any. intros x y. apply f32_level. Qed.
Lemma mbool_leaf l l2 : map_eqb str_eqb Bool.eqb true l l2 = true <-> l = l2. Proof. apply map_leaf; [apply str_eqb_eq|apply bool_leaf]. Qed.
Lemma mint_leaf l l2 : map_eqb str_eqb Z.eqb true l l2 = true <-> l = l2. Proof. apply map_leaf; [apply str_eqb_eq|apply Z.eqb_eq]. Qed.
Lemma mstr_leaf l l2 : map_eqb str_eqb (opt_eqb str_eqb) true l l2 = true <-> l = l2. Proof. apply map_leaf; [apply str_eqb_eq|apply ostr_leaf]. Qed.
Ltac leaves := rewrite ?andb_true_iff, ?Z.eqb_eq, ?str_eqb_eq, ?guid_eqb_eq, ?bool_leaf, ?bytev_leaf, ?ostr_leaf, ?onumfmt_leaf, ?delegates_leaf,
  ?strs_leaf, ?bytes_leaf, ?bools_leaf, ?ints_leaf, ?ostrs_leaf, ?floats_level, ?mbool_leaf, ?mint_leaf, ?mstr_leaf, ?numk_eq, ?fixed_eq, ?keyk_eq,
  ?f32_level, ?f64_level.
Ltac both := first [split; congruence | split; [intros HH; decompose [and] HH; clear HH; congruence|intros EE; repeat split; congruence]].

Lemma text_level :
  (forall a b, text_eqb true a b = true <-> level_text a = level_text b)
  /\ (forall a b, hist_eqb true a b = true <-> level_hist a = level_hist b)
  /\ (forall a b, arg_eqb true a b = true <-> level_arg a = level_arg b).
Proof.
  assert (M : forall l : list (str * farg), Forall (fun e => forall b, arg_eqb true (snd e) b = true <-> level_arg (snd e) = level_arg b) l ->
    forall l2, map_eqb str_eqb (arg_eqb true) true l l2 = true <-> map (fun e => (fst e, level_arg (snd e))) l = map (fun e => (fst e, level_arg (snd e))) l2).
  { intros l F. apply (map_level str_eqb (arg_eqb true) (fun x => x) level_arg). eapply Forall_impl; [|exact F]. cbv beta. intros e He.
    split; [intros; apply str_eqb_eq|exact He]. }
  apply text_all; intros; match goal with |- _ true _ ?b = true <-> _ => is_var b; destruct b end; try (split; discriminate);
    qrwg; cbn [level_text level_hist level_arg hist_eqb arg_eqb]; leaves;
    try (match goal with F : Forall _ ?l |- context [map_eqb _ _ _ ?l ?l2] => rewrite (M l F l2) end);
    try (match goal with F : Forall _ ?l |- context [list_eqb _ ?l ?l2] => rewrite (list_level _ _ l F l2) end);
    repeat match goal with H : forall b, _ <-> _ |- _ => rewrite H; clear H end; try reflexivity; both.
Qed.
Lemma prop_level :
  (forall a b, prop_eqb true a b = true <-> level a = level b)
  /\ (forall a b, sval_eqb true a b = true <-> level_sval a = level_sval b)
  /\ (forall a b, array_eqb true a b = true <-> level_array a = level_array b)
  /\ (forall a b, mapp_eqb true a b = true <-> level_map a = level_map b).
Proof.
  pose proof (proj1 text_level) as TS.
  apply prop_all; intros; match goal with |- _ true _ ?b = true <-> _ => is_var b; destruct b end; try (split; discriminate);
    qrwg; cbn [level level_sval level_array level_map prop_eqb sval_eqb array_eqb mapp_eqb]; leaves; rewrite ?TS;
    try (match goal with F : Forall _ ?l |- context [list_eqb _ ?l ?l2] => rewrite (list_level _ _ l F l2) end);
    repeat match goal with H : forall b, _ <-> _ |- _ => rewrite H; clear H end; try reflexivity; try both.
  - rewrite num_level. split; [intros [-> E]; now rewrite E|]. intros E. injection E as -> E. auto.
  - rewrite fixed_level. split; [intros [-> E]; now rewrite E|]. intros E. injection E as -> E. auto.
  - rewrite (map_level str_eqb (list_eqb (prop_eqb true)) (fun x => x) (map level)).
    + both.
    + eapply Forall_impl; [|exact H]. cbv beta. intros e F. split; [intros; apply str_eqb_eq|]. now apply list_level.
  - rewrite (map_level str_eqb (prop_eqb true) (fun x => x) level).
    + both.
    + eapply Forall_impl; [|exact H]. cbv beta. intros e F. split; [intros; apply str_eqb_eq|exact F].
  - rewrite (map_level (prop_eqb true) (prop_eqb true) level level).
    + both.
    + eapply Forall_impl; [|exact H]. cbv beta. auto.
Qed.
Theorem same_level a b : same a b = true <-> level a = level b.
Proof. apply prop_level. Qed.
