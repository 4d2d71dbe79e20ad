(** Arrays and maps built from their contents are in the most special form. *)
From Coq Require Import ZArith List Bool String Lia ZifyBool ZifyNat.
From Verif Require Import Base Str Types Versions Text Props File Spec BaseFacts StrFacts Decode KindFacts
  DecodeProp DecodeMain StrThm EqFacts MapFacts CtorThm OrderThm HeaderThm Grammar.
Import ListNotations.
Open Scope Z_scope.

Lemma map_inj {A B} (f : A -> B) : (forall a b, f a = f b -> a = b) ->
  forall l l', map f l = map f l' -> l = l'.
Proof.
  intros H l. induction l as [|a l IH]; intros [|b l'] E; try discriminate; [reflexivity|].
  cbn [map] in E. injection E as E1 E2. f_equal; auto.
Qed.

(** ** Arrays *)
Lemma array_view_inj a a' x : array_view a = Some x -> array_view a' = Some x ->
  array_rank a = array_rank a' -> a = a'.
Proof.
  intros E1 E2. assert (E : array_view a = array_view a') by congruence. clear E2. revert E1 E.
  destruct a, a'; cbn [array_rank array_view]; intros E1 E R; try discriminate;
    lazymatch type of E with
    | Some (?s, _) = Some (?s, map _ _) =>
      f_equal; assert (E' : forall t (u v : list property), Some (t : str, u) = Some (t, v) -> u = v) by congruence;
      apply E' in E; revert E; apply map_inj; congruence
    | Some (s2z _, _) = Some (s2z _, _) =>
      exfalso; assert (E' : forall t t' (u v : list property), Some (t : str, u) = Some (t', v) -> t = t') by congruence;
      apply E' in E; vm_compute in E; discriminate
    | _ => congruence
    end.
Qed.
Lemma array_new_view ty l a : array_new ty None l = Ok a -> array_view a = Some (ty, l).
Proof.
  intros H. apply array_new_ok in H as (T & E & S1). destruct a; try discriminate; subst; reflexivity.
Qed.
Lemma array_new_special a ty l : array_view a = Some (ty, l) -> array_rank a = 1 -> array_new ty None l = Ok a.
Proof.
  destruct a; cbn [array_view array_rank]; try discriminate; intros E _; injection E as <- <-;
    unfold array_new;
    match goal with |- context [kind_of ?s] => let v := eval vm_compute in (kind_of s) in
      change (kind_of s) with v end; cbv iota; rewrite opt_map_map; reflexivity.
Qed.
Lemma array_rank_01 a : array_rank a = 0 \/ array_rank a = 1.
Proof. destruct a; cbn; auto. Qed.
Lemma array_new_total ty l : exists a, array_new ty None l = Ok a.
Proof. unfold array_new. eauto. Qed.
Lemma array_new_iff ty l a : array_new ty None l = Ok a <-> is_array ty l a.
Proof.
  assert (X : forall b, array_new ty None l = Ok b -> is_array ty l b).
  { intros b H. split; [now apply array_new_view|]. intros a' V.
    destruct (array_rank_01 a') as [R|R]; [rewrite R; destruct (array_rank_01 b); lia|].
    rewrite (array_new_special a' ty l V R) in H. injection H as <-. lia. }
  split; [apply X|]. intros [V M]. destruct (array_new_total ty l) as [b Hb].
  destruct (X b Hb) as [Vb Mb]. specialize (M b Vb). specialize (Mb a V).
  rewrite Hb. f_equal. eapply array_view_inj; eauto. lia.
Qed.

(** ** Maps *)
Lemma map_view_parts m : map_view m = (map_key_type m, map_value_type m, mflags m, mentries m).
Proof.
  destruct m as [k l|k l|k vt l|l|kt vt f l];
    cbn [map_view map_key_type map_value_type mflags mentries]; try reflexivity;
    try (destruct k); f_equal; apply map_ext; intros [a v]; reflexivity.
Qed.
Lemma key_of_inj k a b : key_of k a = key_of k b -> a = b.
Proof. destruct k; cbn; congruence. Qed.
Lemma key_name_inj k k' : key_name k = key_name k' -> k = k'.
Proof. destruct k, k'; intros H; try reflexivity; vm_compute in H; discriminate. Qed.
Lemma map_view_inj m m' : map_view m = map_view m' -> map_rank m = map_rank m' -> m = m'.
Proof.
  destruct m as [k l|k l|k vt l|l|kt vt f l], m' as [k' l'|k' l'|k' vt' l'|l'|kt' vt' f' l'];
    cbn [map_rank map_view]; intros E R; try discriminate R; clear R;
    assert (E1 := f_equal (fun x => fst (fst (fst x))) E);
    assert (E2 := f_equal (fun x => snd (fst (fst x))) E);
    assert (E3 := f_equal snd E); cbn [fst snd] in E1, E2, E3;
    try (apply key_name_inj in E1; subst k');
    try (exfalso; clear - E2; vm_compute in E2; discriminate E2).
  - f_equal. revert E3. apply map_inj. intros [a v] [b w] X. injection X as X1 X2. apply key_of_inj in X1. congruence.
  - f_equal. revert E3. apply map_inj. intros [a v] [b w] X. injection X as X1 X2. apply key_of_inj in X1. congruence.
  - f_equal; [exact E2|]. revert E3. apply map_inj. intros [a v] [b w] X. injection X as X1 X2. apply key_of_inj in X1. congruence.
  - f_equal. revert E3. apply map_inj. intros [a v] [b w] X. congruence.
  - congruence.
Qed.

(** Values of a type with a representation of its own are of that type. *)
Definition typed (vt : str) (v : property) : Prop :=
  (vt = s2z "BoolProperty" -> exists b, v = PBool b)
  /\ (vt = s2z "IntProperty" -> exists z, v = PNum I32 z)
  /\ (vt = s2z "StrProperty" -> exists s, v = PStr s).
Lemma entries_some {V} kk (f : property -> option V) l :
  Forall (fun e => (exists s, as_key kk (fst e) = Some s) /\ exists v, f (snd e) = Some v) l ->
  exists r, entries kk f l = Some r.
Proof.
  intros H. unfold entries.
  assert (X : exists r, opt_map (fun e => match as_key kk (fst e), f (snd e) with
                          | Some a, Some b => Some (a, b) | _, _ => None end) l = Some r).
  { induction H as [|e l [[s E1] [v E2]] _ [r IH]]; [cbn; eauto|]. cbn [opt_map]. rewrite E1, E2, IH. eauto. }
  destruct X as [r ->]. eauto.
Qed.
Lemma map_rank_02 m : 0 <= map_rank m <= 2.
Proof. destruct m; cbn; lia. Qed.
Lemma key_name_k kk : key_name kk = keyk_name kk. Proof. destruct kk; reflexivity. Qed.
Lemma map_new_max kt vt flags l m : Forall (fun e => typed vt (snd e)) l ->
  map_view m = (kt, vt, flags, l) -> map_rank m <= map_rank (map_new kt vt flags l).
Proof.
  intros T E. pose proof (map_rank_02 (map_new kt vt flags l)).
  destruct m as [k r|k r|k vt' r|r|kt' vt' f r]; cbn [map_view map_rank] in *;
    injection E as <- <- <- <-; try rewrite key_name_k; unfold map_new;
    try change (keyk_of (s2z "StrProperty")) with (Some KkStr); rewrite ?keyk_of_name;
    change (0 =? 0) with true; cbv iota.
  - change (kind_of (s2z "BoolProperty")) with KBool. cbv iota.
    destruct (entries_some k as_bool (map (fun '(s, v) => (key_of k s, PBool v)) r)) as [x ->];
      [|cbn [or_else map_rank]; lia].
    apply Forall_forall. intros e He. apply in_map_iff in He as ([s v] & <- & _). cbn [fst snd].
    split; [exists s; now destruct k|now exists v].
  - change (kind_of (s2z "IntProperty")) with (KNum I32). cbv iota.
    destruct (entries_some k as_int (map (fun '(s, v) => (key_of k s, PNum I32 v)) r)) as [x ->];
      [|cbn [or_else map_rank]; lia].
    apply Forall_forall. intros e He. apply in_map_iff in He as ([s v] & <- & _). cbn [fst snd].
    split; [exists s; now destruct k|now exists v].
  - rewrite Forall_forall in T.
    assert (HP : forall g, 1 <= map_rank (or_else (entries k Some (map (fun '(s, v) => (key_of k s, v)) r)) (MProp k vt') g)).
    { intros g. destruct (entries_some k Some (map (fun '(s, v) => (key_of k s, v)) r)) as [x ->];
        [|cbn [or_else map_rank]; lia].
      apply Forall_forall. intros e He. apply in_map_iff in He as ([s v] & <- & _). cbn [fst snd].
      split; [exists s; now destruct k|now exists v]. }
    destruct (kind_of vt') eqn:K; try apply HP.
    + destruct k0; try apply HP. apply kind_name_of in K; [|discriminate]. subst vt'.
      destruct (entries_some k as_int (map (fun '(s, v) => (key_of k s, v)) r)) as [x ->];
        [|cbn [or_else map_rank]; lia].
      apply Forall_forall. intros e He. destruct (T e He) as (_ & Ty & _).
      apply in_map_iff in He as ([s v] & <- & _). cbn [fst snd] in *.
      split; [exists s; now destruct k|]. destruct (Ty eq_refl) as [z ->]. now exists z.
    + apply kind_name_of in K; [|discriminate]. subst vt'.
      destruct (entries_some k as_bool (map (fun '(s, v) => (key_of k s, v)) r)) as [x ->];
        [|cbn [or_else map_rank]; lia].
      apply Forall_forall. intros e He. destruct (T e He) as (Ty & _ & _).
      apply in_map_iff in He as ([s v] & <- & _). cbn [fst snd] in *.
      split; [exists s; now destruct k|]. destruct (Ty eq_refl) as [z ->]. now exists z.
    + destruct k; try apply HP. apply kind_name_of in K; [|discriminate]. subst vt'.
      destruct (entries_some KkStr as_str (map (fun '(s, v) => (key_of KkStr s, v)) r)) as [x ->];
        [|cbn [or_else map_rank]; lia].
      apply Forall_forall. intros e He. destruct (T e He) as (_ & _ & Ty).
      apply in_map_iff in He as ([s v] & <- & _). cbn [fst snd] in *.
      split; [now exists s|]. destruct (Ty eq_refl) as [z ->]. now exists z.
  - change (kind_of (s2z "StrProperty")) with KStr. cbv iota.
    destruct (entries_some KkStr as_str (map (fun '(s, v) => (PStr (Some s), PStr v)) r)) as [x ->];
      [|cbn [or_else map_rank]; lia].
    apply Forall_forall. intros e He. apply in_map_iff in He as ([s v] & <- & _). cbn [fst snd].
    split; [now exists s|now exists v].
  - apply map_rank_02.
Qed.
Lemma map_new_iff kt vt flags l m : distinct same l = true -> Forall (fun e => typed vt (snd e)) l ->
  is_map kt vt flags l m <-> m = map_new kt vt flags l.
Proof.
  intros D T.
  assert (V : map_view (map_new kt vt flags l) = (kt, vt, flags, l)).
  { rewrite map_view_parts. destruct (map_new_ok kt vt flags l D) as (-> & -> & -> & ->). reflexivity. }
  split.
  - intros [E M]. specialize (M _ V). pose proof (map_new_max _ _ _ _ _ T E).
    apply map_view_inj; [congruence|lia].
  - intros ->. split; [exact V|]. intros m' E. now apply map_new_max.
Qed.
