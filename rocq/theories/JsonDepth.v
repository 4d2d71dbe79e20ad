(** How deep the JSON form of a file nests its brackets. *)
From Coq Require Import ZArith List Bool String Lia ZifyBool ZifyNat.
From Verif Require Import Base Str Types Versions Text Props File Guid Spec Induct Depth Json JsonPrint.
Import ListNotations.
Open Scope Z_scope.

Definition most (l : list (str * json)) : nat := list_max (map (fun e => brackets (snd e)) l).
Lemma most_nil : most [] = O. Proof. reflexivity. Qed.
Lemma most_cons k v l : most ((k, v) :: l) = Nat.max (brackets v) (most l). Proof. reflexivity. Qed.
Lemma most_app l m : most (l ++ m) = Nat.max (most l) (most m).
Proof. unfold most. now rewrite map_app, list_max_app. Qed.
Lemma most_str k o : most (e_optstr k o) = O.
Proof. now destruct o. Qed.
Lemma most_nonzero k z : most (e_nonzero k z) = O.
Proof. unfold e_nonzero. now destruct (z =? 0). Qed.
Lemma most_guid k g : most (e_optguid k g) = O.
Proof. unfold e_optguid. now destruct (guid_is_zero g). Qed.
Lemma most_int k o : most (e_opt k (option_map JInt o)) = O.
Proof. now destruct o. Qed.
Lemma most_format k o : (most (e_opt k (option_map e_numfmt o)) <= 1)%nat.
Proof. apply Nat.leb_le. now destruct o. Qed.
Lemma b_obj l : brackets (JObj l) = S (most l). Proof. reflexivity. Qed.
Lemma b_arr l : brackets (JArr l) = S (list_max (map brackets l)). Proof. reflexivity. Qed.
Lemma b_str s : brackets (JStr s) = O. Proof. reflexivity. Qed.
Lemma b_int z : brackets (JInt z) = O. Proof. reflexivity. Qed.
Lemma b_bool z : brackets (JBool z) = O. Proof. reflexivity. Qed.
Lemma b_f32 z : brackets (e_f32 z) = O. Proof. unfold e_f32. now destruct (f_finite fmt32 z). Qed.
Lemma b_f64 z : brackets (e_f64 z) = O. Proof. unfold e_f64. now destruct (f_finite fmt64 z). Qed.
Lemma b_num k z : brackets (e_num k z) = O. Proof. destruct k; try reflexivity; [apply b_f32|apply b_f64]. Qed.
Lemma b_ostr o : brackets (e_ostr o) = O. Proof. now destruct o. Qed.
Lemma b_name n z : brackets (e_name n z) = O. Proof. reflexivity. Qed.
Lemma b_style z : brackets (e_style z) = O. Proof. reflexivity. Qed.
Lemma b_guid g : brackets (e_guid g) = O. Proof. reflexivity. Qed.
Lemma b_ticks z : brackets (e_ticks z) = 1%nat. Proof. reflexivity. Qed.
Lemma b_delegate p : brackets (e_delegate p) = 1%nat. Proof. reflexivity. Qed.
Lemma most_fields a b c : most (e_fields a b c) = O.
Proof.
  revert b c. induction a as [|n a IH]; intros [|k b] [|z c]; try reflexivity. cbn [e_fields]. now rewrite most_cons, b_num, IH.
Qed.
Lemma b_list {A} (f : A -> json) l : list_max (map brackets (map f l)) = list_max (map (fun a => brackets (f a)) l).
Proof. now rewrite map_map. Qed.
Lemma flat_list {A} (f : A -> json) n l : (forall a, brackets (f a) = n) -> (list_max (map brackets (map f l)) <= n)%nat.
Proof. intros H. induction l as [|a l IH]; [cbn; lia|]. change (Nat.max (brackets (f a)) (list_max (map brackets (map f l))) <= n)%nat. rewrite H. lia. Qed.
Lemma most_map {A} (f : A -> json) (l : list (str * A)) :
  most (map (fun '(k, v) => (k, f v)) l) = list_max (map (fun e => brackets (f (snd e))) l).
Proof. unfold most. rewrite map_map. f_equal. apply map_ext. now intros []. Qed.
Lemma flat_map_ {A} (f : A -> json) n (l : list (str * A)) : (forall a, brackets (f a) = n) -> (most (map (fun '(k, v) => (k, f v)) l) <= n)%nat.
Proof.
  intros H. rewrite most_map. induction l as [|e l IH]; [cbn; lia|].
  change (Nat.max (brackets (f (snd e))) (list_max (map (fun e => brackets (f (snd e))) l)) <= n)%nat. rewrite H. lia.
Qed.

(** Bounds of a list from bounds of its members. *)
Lemma deepest_nonneg {A} (f : A -> Z) l : 0 <= deepest f l.
Proof. induction l as [|a l IH]; cbn [deepest]; lia. Qed.
Lemma list_upper {A} (g : A -> nat) (f : A -> Z) c l : 0 <= c ->
  Forall (fun a => Z.of_nat (g a) <= c * f a) l -> Z.of_nat (list_max (map g l)) <= c * deepest f l.
Proof.
  intros C H. induction H as [|a l H _ IH]; cbn [map deepest]; [cbn; lia|].
  change (Z.of_nat (Nat.max (g a) (list_max (map g l))) <= c * Z.max (f a) (deepest f l)).
  rewrite <- Z.mul_max_distr_nonneg_l by lia. lia.
Qed.
Lemma list_over {A} (g : A -> nat) (f : A -> Z) c k l : 0 <= c -> 0 <= k ->
  Forall (fun a => Z.of_nat (g a) <= c * f a + k) l -> Z.of_nat (list_max (map g l)) <= c * deepest f l + k.
Proof.
  intros C K H. induction H as [|a l H _ IH]; cbn [map deepest]; [cbn; lia|].
  change (Z.of_nat (Nat.max (g a) (list_max (map g l))) <= c * Z.max (f a) (deepest f l) + k).
  rewrite <- Z.mul_max_distr_nonneg_l by lia. lia.
Qed.
Lemma list_lower {A} (g : A -> nat) (f : A -> Z) k l : 0 <= k ->
  Forall (fun a => f a <= Z.of_nat (g a) + k) l -> deepest f l <= Z.of_nat (list_max (map g l)) + k.
Proof.
  intros C H. induction H as [|a l H _ IH]; cbn [map deepest]; [cbn; lia|].
  change (Z.max (f a) (deepest f l) <= Z.of_nat (Nat.max (g a) (list_max (map g l))) + k). lia.
Qed.

Ltac bs := repeat first [rewrite most_cons|rewrite most_app|rewrite most_nil|rewrite most_str|rewrite most_nonzero|rewrite most_guid|rewrite most_int
  |rewrite b_obj|rewrite b_arr|rewrite b_str|rewrite b_int|rewrite b_bool|rewrite b_f32|rewrite b_f64|rewrite b_num|rewrite b_ostr|rewrite b_name
  |rewrite b_style|rewrite b_guid|rewrite b_ticks|rewrite b_delegate|rewrite most_fields].

(** ** Texts: one to three brackets for every text *)
Lemma text_brackets : (forall t, text_depth t <= Z.of_nat (S (most (e_text t))) <= 3 * text_depth t)
  /\ (forall h, hist_depth h <= Z.of_nat (most (e_hist h)) <= 3 * hist_depth h + 2)
  /\ (forall a, arg_depth a <= Z.of_nat (brackets (e_arg a)) <= 3 * arg_depth a + 1).
Proof.
  assert (N : forall l, Forall (fun e : str * farg => arg_depth (snd e) <= Z.of_nat (brackets (e_arg (snd e))) <= 3 * arg_depth (snd e) + 1) l ->
     deepest (fun e => arg_depth (snd e)) l <= Z.of_nat (most (map (fun '(k, v) => (k, e_arg v)) l)) <= 3 * deepest (fun e => arg_depth (snd e)) l + 1).
  { intros l H. rewrite most_map. split.
    - pose proof (list_lower (fun e => brackets (e_arg (snd e))) (fun e => arg_depth (snd e)) 0 l ltac:(lia)) as L.
      rewrite Z.add_0_r in L. apply L. eapply Forall_impl; [|exact H]. cbv beta. intros; lia.
    - induction H as [|e l H _ IH]; cbn [deepest map]; [cbn; lia|].
      change (Z.of_nat (Nat.max (brackets (e_arg (snd e))) (list_max (map (fun e => brackets (e_arg (snd e))) l))) <= 3 * Z.max (arg_depth (snd e)) (deepest (fun e => arg_depth (snd e)) l) + 1). lia. }
  assert (O : forall l, Forall (fun e => arg_depth e <= Z.of_nat (brackets (e_arg e)) <= 3 * arg_depth e + 1) l ->
     deepest arg_depth l <= Z.of_nat (list_max (map brackets (map e_arg l))) <= 3 * deepest arg_depth l + 1).
  { intros l H. rewrite b_list. split.
    - pose proof (list_lower (fun e => brackets (e_arg e)) arg_depth 0 l ltac:(lia)) as L.
      rewrite Z.add_0_r in L. apply L. eapply Forall_impl; [|exact H]. cbv beta. intros; lia.
    - induction H as [|e l H _ IH]; cbn [deepest map]; [cbn; lia|].
      change (Z.of_nat (Nat.max (brackets (e_arg e)) (list_max (map (fun e => brackets (e_arg e)) l))) <= 3 * Z.max (arg_depth e) (deepest arg_depth l) + 1). lia. }
  apply text_all; cbn [text_depth hist_depth arg_depth e_text e_hist e_arg]; intros;
    repeat match goal with H : Forall _ _ |- _ => first [apply N in H|apply O in H] end;
    bs;
    repeat match goal with |- context [most (e_opt ?k (option_map e_numfmt ?o))] =>
      pose proof (most_format k o); generalize dependent (most (e_opt k (option_map e_numfmt o))); intros end;
    lia.
Qed.
Lemma text_depth_pos t : 1 <= text_depth t.
Proof. destruct t as [f h]. cbn [text_depth]. destruct text_brackets as (_ & H & _). specialize (H h). lia. Qed.

(** ** Properties: at most five brackets for every property *)
Definition sval_brackets (v : svalue) : nat := brackets (snd (e_sval v)).
Lemma prop_brackets : (forall p, depth p <= Z.of_nat (brackets (e_prop p)) + 1 /\ Z.of_nat (brackets (e_prop p)) <= 5 * depth p)
  /\ (forall v, sval_depth v <= Z.of_nat (sval_brackets v) /\ Z.of_nat (sval_brackets v) <= 5 * sval_depth v + 2)
  /\ (forall a, array_depth a <= Z.of_nat (most (e_array a)) /\ Z.of_nat (most (e_array a)) <= 5 * array_depth a + 4)
  /\ (forall m, map_depth m <= Z.of_nat (most (e_map m)) /\ Z.of_nat (most (e_map m)) <= 5 * map_depth m + 4).
Proof.
  assert (L : forall l, Forall (fun p => depth p <= Z.of_nat (brackets (e_prop p)) + 1 /\ Z.of_nat (brackets (e_prop p)) <= 5 * depth p) l ->
    deepest depth l <= Z.of_nat (list_max (map brackets (map e_prop l))) + 1 /\ Z.of_nat (list_max (map brackets (map e_prop l))) <= 5 * deepest depth l).
  { intros l H. rewrite b_list. split; [apply list_lower; [lia|]|apply list_upper; [lia|]]; (eapply Forall_impl; [|exact H]); cbv beta; intros; lia. }
  apply prop_all; cbn [depth sval_depth array_depth map_depth e_prop e_array e_map]; unfold tagged, sval_brackets; cbn [e_sval snd]; intros;
    repeat match goal with |- context [e_bytev ?v] => destruct v; cbn [e_bytev] end;
    try (rewrite (surjective_pairing (e_sval v))); bs;
    try (match goal with |- context [list_max (map brackets (map ?f ?l))] =>
       first [pose proof (flat_list f 0 l ltac:(intros; bs; reflexivity))|pose proof (flat_list f 1 l ltac:(intros; bs; reflexivity))] end);
    try lia.
  all: try (match goal with H : Forall _ ?l |- context [list_max (map brackets (map e_prop ?l))] => apply L in H; lia end).
  - destruct text_brackets as (T & _). specialize (T t). lia.
  - rewrite most_map. cbn [brackets].
    assert (H' : Forall (fun e : str * list property => deepest depth (snd e) <= Z.of_nat (brackets (JArr (map e_prop (snd e)))) + 0
      /\ Z.of_nat (brackets (JArr (map e_prop (snd e)))) <= 5 * deepest depth (snd e) + 1) l).
    { eapply Forall_impl; [|exact H]. intros e He. cbv beta in He. apply L in He. rewrite b_arr. lia. }
    pose proof (list_lower (fun e : str * list property => brackets (JArr (map e_prop (snd e)))) (fun e => deepest depth (snd e)) 0 l ltac:(lia)) as A1.
    pose proof (list_over (fun e : str * list property => brackets (JArr (map e_prop (snd e)))) (fun e => deepest depth (snd e)) 5 1 l ltac:(lia) ltac:(lia)) as A2.
    cbn [brackets] in *.
    specialize (A1 ltac:(eapply Forall_impl; [|exact H']; cbv beta; intros; lia)).
    specialize (A2 ltac:(eapply Forall_impl; [|exact H']; cbv beta; intros; lia)). lia.
  - rewrite b_list.
    assert (E : forall v, brackets (JObj [e_sval v]) = S (sval_brackets v)).
    { intros v. rewrite (surjective_pairing (e_sval v)), b_obj, most_cons, most_nil, Nat.max_0_r. reflexivity. }
    pose proof (list_lower (fun v => brackets (JObj [e_sval v])) sval_depth 0 l ltac:(lia)) as A1.
    pose proof (list_over (fun v => brackets (JObj [e_sval v])) sval_depth 5 3 l ltac:(lia) ltac:(lia)) as A2.
    specialize (A1 ltac:(eapply Forall_impl; [|exact H]; cbv beta; intros v ?; rewrite E; unfold sval_brackets; lia)).
    specialize (A2 ltac:(eapply Forall_impl; [|exact H]; cbv beta; intros v ?; rewrite E; unfold sval_brackets; lia)). lia.
  - pose proof (flat_map_ JBool 0 l ltac:(reflexivity)). lia.
  - pose proof (flat_map_ JInt 0 l ltac:(reflexivity)). lia.
  - rewrite most_map.
    pose proof (list_lower (fun e : str * property => brackets (e_prop (snd e))) (fun e => depth (snd e)) 1 l ltac:(lia)) as A1.
    pose proof (list_over (fun e : str * property => brackets (e_prop (snd e))) (fun e => depth (snd e)) 5 0 l ltac:(lia) ltac:(lia)) as A2.
    specialize (A1 ltac:(eapply Forall_impl; [|exact H]; cbv beta; intros; lia)).
    specialize (A2 ltac:(eapply Forall_impl; [|exact H]; cbv beta; intros; lia)). lia.
  - pose proof (flat_map_ e_ostr 0 l b_ostr). lia.
  - rewrite b_list.
    pose proof (list_lower (fun e : property * property => brackets (let '(k, v) := e in JArr [e_prop k; e_prop v])) (fun e => Z.max (depth (fst e)) (depth (snd e))) 0 l ltac:(lia)) as A1.
    pose proof (list_over (fun e : property * property => brackets (let '(k, v) := e in JArr [e_prop k; e_prop v])) (fun e => Z.max (depth (fst e)) (depth (snd e))) 5 1 l ltac:(lia) ltac:(lia)) as A2.
    assert (E : forall k v, brackets (JArr [e_prop k; e_prop v]) = S (Nat.max (brackets (e_prop k)) (Nat.max (brackets (e_prop v)) 0))) by reflexivity.
    specialize (A1 ltac:(eapply Forall_impl; [|exact H]; cbv beta; intros [k v] ?; cbn [fst snd] in *; rewrite E; lia)).
    specialize (A2 ltac:(eapply Forall_impl; [|exact H]; cbv beta; intros [k v] ?; cbn [fst snd] in *; rewrite E; lia)). lia.
Qed.

(** ** Files *)
Lemma file_brackets g : let d := file_depth (g_header g, g_props g) in
  d + 1 <= Z.of_nat (brackets (to_json g)) <= Z.max 3 (5 * d + 2).
Proof.
  intros d. assert (H : (brackets (e_header (g_header g)) <= 2)%nat).
  { unfold e_header, e_engine. bs. pose proof (flat_map_ JInt 0 (map (fun '(x, v) => (guid_display x, v)) (h_versions (g_header g))) ltac:(reflexivity)) as F.
    rewrite map_map in F. erewrite map_ext in F by (intros [? ?]; instantiate (1 := fun '(g, v) => (guid_display g, JInt v)); reflexivity). lia. }
  assert (V : (most (e_dversion (g_version g)) <= 1)%nat) by (destruct (g_version g) as [|[]]; cbv; lia).
  assert (P : d <= Z.of_nat (most (map (fun '(k, p) => (k, e_prop p)) (g_props g))) + 1 /\ Z.of_nat (most (map (fun '(k, p) => (k, e_prop p)) (g_props g))) <= 5 * d + 0).
  { rewrite most_map. unfold d, file_depth. cbn [snd]. destruct prop_brackets as (P & _).
    split; [apply list_lower; [lia|]|apply list_over; [lia..|]]; apply Forall_forall; intros e _; cbv beta; specialize (P (snd e)); lia. }
  assert (D : 0 <= d) by apply deepest_nonneg.
  unfold to_json. bs. lia.
Qed.
