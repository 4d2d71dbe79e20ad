(** Reading back what a writer emits: the main induction. *)
From Coq Require Import ZArith List Bool String Lia ZifyBool ZifyNat.
From Verif Require Import Base Str Types Versions Text Props File Spec BaseFacts StrFacts Decode KindFacts
  DecodeProp.
Import ListNotations.
Open Scope Z_scope.

(** ** Maps as lists of entries *)
Definition key_prop (kk : keyk) (s : str) : property :=
  match kk with
  | KkEnum => PEnum None s | KkName => PName 0 (Some s) | KkStr => PStr (Some s)
  end.
Definition mentries (m : mapp) : list (property * property) :=
  match m with
  | MBool kk l => map (fun e => (key_prop kk (fst e), PBool (snd e))) l
  | MInt kk l => map (fun e => (key_prop kk (fst e), PNum I32 (snd e))) l
  | MProp kk _ l => map (fun e => (key_prop kk (fst e), snd e)) l
  | MStrStr l => map (fun e => (key_prop KkStr (fst e), PStr (snd e))) l
  | MGen _ _ _ l => l
  end.
Definition mflags (m : mapp) : Z := match m with MGen _ _ f _ => f | _ => 0 end.
Lemma w_key_prop vs kk s : w_key kk s = w_prop vs false (key_prop kk s).
Proof. destruct kk; reflexivity. Qed.
Lemma w_map_entries vs m :
  w_map vs m = w_u32 (mflags m) +> w_u32 (len (mentries m))
               +> seqs (fun e => w_prop vs false (fst e) +> w_prop vs false (snd e)) (mentries m).
Proof.
  destruct m as [kk l|kk l|kk vt l|l|kt vt fl l]; cbn [w_map mflags mentries];
    rewrite ?len_map, ?seqs_map; cbn [fst snd];
    do 2 f_equal; apply seqs_ext; intros [k v] _; rewrite <- ?w_key_prop; reflexivity.
Qed.

(** Keys that are told apart when inserted. *)
Definition apart (o : opts) (k k' : property) : Prop :=
  same k k' = false /\ (eqv k k' = false \/ forall pos i, probe o pos i = false).
Lemma mins_apart o (l : list (property * property * Z)) : forall acc,
  ForallOrdPairs (fun a b => apart o (fst b) (fst a)) (acc ++ map fst l) ->
  fold_left (fun acc e => mins (probe o (snd e)) acc (fst (fst e)) (snd (fst e))) l acc
  = acc ++ map fst l.
Proof.
  induction l as [|[[k v] z] l IH]; intros acc H; cbn [fold_left map fst snd].
  - now rewrite app_nil_r.
  - cbn [map fst] in H. rewrite mins_new.
    + rewrite IH; rewrite <- app_assoc; auto.
    + intros e He. assert (A : apart o k (fst e)).
      { clear IH. induction acc as [|a acc IH]; [destruct He|]. inversion H as [|? ? H1 H2]; subst.
        destruct He as [->|He]; [|auto]. rewrite Forall_app in H1. destruct H1 as [_ H1].
        now inversion H1. }
      destruct A as [A1 [A2|A2]]; split; auto.
Qed.
Lemma mins_all_apart o l : ForallOrdPairs (fun a b => apart o (fst b) (fst a)) (map fst l) ->
  mins_all o l = map fst l.
Proof. intros H. apply (mins_apart o l []). exact H. Qed.
Lemma key_apart o kk a b : str_eqb a b = false -> apart o (key_prop kk a) (key_prop kk b).
Proof.
  intros H. unfold apart, same, eqv.
  destruct kk; cbn [key_prop prop_eqb opt_eqb andb Z.eqb]; rewrite H; auto.
Qed.
Lemma keys_apart {V} o kk (g : V -> property) (l : list (str * V)) : distinct str_eqb l = true ->
  ForallOrdPairs (fun a b => apart o (fst b) (fst a))
                 (map (fun e => (key_prop kk (fst e), g (snd e))) l).
Proof.
  induction l as [|[k v] l IH]; cbn [distinct map]; [constructor|].
  rewrite andb_true_iff. intros [H1 H2]. constructor; auto.
  apply Forall_map, Forall_forall. intros [k' v'] Hin. cbn [fst].
  rewrite forallb_forall in H1. specialize (H1 _ Hin). cbn in H1. apply negb_true_iff in H1.
  now apply key_apart.
Qed.

Section WfMap.
Context (o : opts) (vs : list (guid * Z)) (sep : property -> property -> bool).
Hypothesis Hsep : forall k k', sep k k' = false -> apart o k k'.
Lemma seps_apart (l : list (property * property)) : distinct sep l = true ->
  ForallOrdPairs (fun a b => apart o (fst b) (fst a)) l.
Proof.
  induction l as [|[k v] l IH]; cbn [distinct]; [constructor|].
  rewrite andb_true_iff. intros [H1 H2]. constructor; auto.
  apply Forall_forall. intros e Hin. rewrite forallb_forall in H1.
  specialize (H1 _ Hin). apply negb_true_iff in H1. now apply Hsep.
Qed.

Lemma as_key_prop kk s : as_key kk (key_prop kk s) = Some s.
Proof. destruct kk; reflexivity. Qed.
Lemma entries_map {V} kk (f : property -> option V) (g : V -> property) (l : list (str * V)) :
  (forall v, f (g v) = Some v) -> distinct str_eqb l = true ->
  entries kk f (map (fun e => (key_prop kk (fst e), g (snd e))) l) = Some l.
Proof.
  intros Hf Hd. unfold entries. rewrite opt_map_map.
  - now rewrite ins_all_fresh.
  - intros [k v]. cbn [fst snd]. now rewrite as_key_prop, Hf.
Qed.
Lemma entries_null {V} kk (f : property -> option V) l :
  existsb (fun e => null_key (fst e)) l = true -> entries kk f l = None.
Proof.
  intros H. unfold entries.
  assert (E : opt_map (fun e => match as_key kk (fst e), f (snd e) with
                          | Some a, Some b => Some (a, b) | _, _ => None end) l = None).
  { induction l as [|[k v] l IH]; cbn [existsb opt_map fst snd] in *; [discriminate|].
    apply orb_true_iff in H as [H|H].
    - assert (as_key kk k = None) as ->; [|reflexivity].
      destruct k; try discriminate; destruct v0; try discriminate; destruct kk; reflexivity.
    - rewrite IH by auto. destruct (as_key kk k), (f v); reflexivity. }
  now rewrite E.
Qed.
Lemma keyk_of_name kk : keyk_of (keyk_name kk) = Some kk.
Proof. destruct kk; reflexivity. Qed.
Lemma keyk_of_mem kt k : keyk_of kt = Some k ->
  mem kt (map s2z ["EnumProperty"; "NameProperty"; "StrProperty"]%string) = true.
Proof.
  unfold keyk_of. intros H. destruct (kind_of kt) eqn:E; try discriminate;
    (assert (Hn : kind_of kt <> KOther) by (rewrite E; discriminate);
     apply kind_of_name in Hn; rewrite E in Hn; subst kt; reflexivity).
Qed.
Lemma keyk_name_ok kk : str_ok (keyk_name kk) = true.
Proof. destruct kk; reflexivity. Qed.
Lemma key_type kk s : type_of (key_prop kk s) = keyk_name kk.
Proof. destruct kk; reflexivity. Qed.
Lemma key_wf kk s path : str_ok s = true -> wf_prop o vs sep false path (key_prop kk s) = true.
Proof. destruct kk; cbn; auto. Qed.
Lemma key_sized kk s : self_sized (key_prop kk s) = true.
Proof. destruct kk; reflexivity. Qed.

Definition entry_ok (path : list str) (kt vt : str) (e : property * property) : Prop :=
  kt = type_of (fst e) /\ self_sized (fst e) = true
  /\ wf_prop o vs sep false (s_key :: path) (fst e) = true
  /\ vt = type_of (snd e) /\ self_sized (snd e) = true
  /\ wf_prop o vs sep false (s_value :: path) (snd e) = true.

Lemma wf_mentries path m : wf_map o vs sep path m = true ->
  str_ok (map_key_type m) = true /\ str_ok (map_value_type m) = true /\ u_ok 4 (mflags m) = true
  /\ count32 (mentries m) = true
  /\ ForallOrdPairs (fun a b => apart o (fst b) (fst a)) (mentries m)
  /\ Forall (entry_ok path (map_key_type m) (map_value_type m)) (mentries m)
  /\ map_new (map_key_type m) (map_value_type m) (mflags m) (mentries m) = m.
Proof.
  destruct m as [kk l|kk l|kk vt l|l|kt vt fl l]; cbn [wf_map map_key_type map_value_type mflags mentries];
    intros H; andbs; rewrite ?count32_map.
  - repeat split; auto using keyk_name_ok.
    + apply keys_apart; auto.
    + apply Forall_map, Forall_forall. intros [k v] Hin.
      match goal with H : forallb _ l = true |- _ => rewrite forallb_forall in H; apply H in Hin end.
      unfold entry_ok. cbn [fst snd]. rewrite key_type. auto 10 using key_wf, key_sized.
    + unfold map_new. rewrite keyk_of_name. cbn [Z.eqb].
      change (kind_of (kind_name KBool)) with KBool. cbv iota. rewrite entries_map; auto.
  - repeat split; auto using keyk_name_ok.
    + apply keys_apart; auto.
    + apply Forall_map, Forall_forall. intros [k v] Hin.
      match goal with H : forallb _ l = true |- _ => rewrite forallb_forall in H; apply H in Hin end.
      andbs. unfold entry_ok. cbn [fst snd]. rewrite key_type. auto 10 using key_wf, key_sized.
    + unfold map_new. rewrite keyk_of_name. cbn [Z.eqb].
      change (kind_of (kind_name (KNum I32))) with (KNum I32). cbv iota. rewrite entries_map; auto.
  - repeat split; auto using keyk_name_ok.
    + apply (keys_apart o kk (fun v => v)); auto.
    + apply Forall_map, Forall_forall. intros [k v] Hin.
      match goal with H : forallb _ l = true |- _ => rewrite forallb_forall in H; apply H in Hin end.
      andbs. unfold entry_ok. cbn [fst snd]. rewrite key_type.
      match goal with H : str_eqb vt _ = true |- _ => apply str_eqb_eq in H end.
      auto 10 using key_wf, key_sized.
    + unfold map_new. rewrite keyk_of_name. cbn [Z.eqb].
      assert (E : entries kk Some (map (fun e => (key_prop kk (fst e), snd e)) l) = Some l).
      { apply (entries_map kk Some (fun v => v)); auto. }
      assert (Hs : map_special kk vt = false) by (now apply negb_true_iff).
      rewrite E. cbn [or_else].
      destruct (kind_of vt) as [k| | | | | | | | | | | | | | |] eqn:Ek; try reflexivity;
        try (assert (Hn : kind_of vt <> KOther) by (rewrite Ek; discriminate);
             apply kind_of_name in Hn; rewrite Ek in Hn; subst vt).
      * destruct k; try reflexivity. vm_compute in Hs. discriminate.
      * vm_compute in Hs. discriminate.
      * destruct kk; try reflexivity. vm_compute in Hs. discriminate.
  - repeat split; auto.
    + apply keys_apart; auto.
    + apply Forall_map, Forall_forall. intros [k v] Hin.
      match goal with H : forallb _ l = true |- _ => rewrite forallb_forall in H; apply H in Hin end.
      andbs. unfold entry_ok. cbn [fst snd]. rewrite key_type. auto 10 using key_wf, key_sized.
    + unfold map_new. change (keyk_of (kind_name KStr)) with (Some KkStr). cbn [Z.eqb].
      change (kind_of (kind_name KStr)) with KStr. cbv iota. rewrite entries_map; auto.
  - repeat split; auto.
    + apply seps_apart; auto.
    + apply Forall_forall. intros [k v] Hin.
      match goal with H : forallb _ l = true |- _ => rewrite forallb_forall in H; apply H in Hin end.
      andbs. unfold entry_ok. cbn [fst snd].
      repeat match goal with H : str_eqb _ _ = true |- _ => apply str_eqb_eq in H end.
      auto 10.
    + match goal with H : map_generic _ _ _ = true |- _ => rename H into Hg end.
      unfold map_generic in Hg. unfold map_new.
      destruct (keyk_of kt) as [k|] eqn:Ek; auto.
      rewrite (keyk_of_mem _ _ Ek) in Hg. cbn [negb orb] in Hg. rewrite orb_false_r in Hg.
      destruct (fl =? 0); auto. cbn [negb orb] in Hg.
      rewrite !entries_null by auto. cbn [or_else].
      destruct (kind_of vt) as [[]| | | | | | | | | | | | | | |], k; reflexivity.
Qed.
End WfMap.
