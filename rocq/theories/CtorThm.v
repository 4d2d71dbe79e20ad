(** The array and map constructors keep the data they are given (C18, C19). *)
From Coq Require Import ZArith List Bool String Lia ZifyBool ZifyNat.
From Verif Require Import Base Str Types Versions Text Props File Spec BaseFacts StrFacts Decode KindFacts
  DecodeProp DecodeMain EqFacts MapFacts.
Import ListNotations.
Open Scope Z_scope.

Lemma opt_map_inv {A B} (f : A -> option B) (g : B -> A) l r :
  (forall a b, f a = Some b -> a = g b) -> opt_map f l = Some r -> l = map g r.
Proof.
  intros H. revert r. induction l as [|a l IH]; intros r E; cbn [opt_map] in E.
  - injection E as <-. reflexivity.
  - destruct (f a) as [b|] eqn:Ef; [|discriminate]. destruct (opt_map f l) as [bs|]; [|discriminate].
    injection E as <-. cbn [map]. f_equal; auto.
Qed.
Lemma kind_name_of ty k : kind_of ty = k -> k <> KOther -> ty = kind_name k.
Proof. intros <- H. now apply kind_of_name. Qed.
Lemma array_new_ok ty info l a : array_new ty info l = Ok a ->
  array_type a = ty /\ elems a = l
  /\ match info with
     | Some (f, t, g) => ty = kind_name KStruct /\ exists vs, a = AStructs f t g vs
     | None => is_structs a = false
     end.
Proof.
  unfold array_new. destruct info as [[[f t] g]|].
  - destruct (kind_of ty) eqn:K; try discriminate.
    destruct (opt_map as_sval l) as [vs|] eqn:E; [|discriminate]. intros X. injection X as <-.
    apply kind_name_of in K; [|discriminate]. subst ty. cbn [array_type elems]. split; [reflexivity|].
    split; [symmetry; eapply opt_map_inv; [|exact E]; intros []; cbn; congruence|]. split; [reflexivity|]. eauto.
  - intros X. injection X as X.
    destruct (kind_of ty) eqn:K;
      try (subst a; cbn [array_type elems is_structs]; repeat split; reflexivity).
    + destruct k; try (subst a; repeat split; reflexivity).
      * destruct (opt_map as_int l) as [r|] eqn:E; cbn [or_else] in X; subst a;
          cbn [array_type elems is_structs]; [|repeat split; reflexivity].
        apply kind_name_of in K; [|discriminate]. repeat split; [now subst|].
        symmetry. eapply opt_map_inv; [|exact E]. intros [[]| | | | | | | | | | | | | | | |]; cbn; congruence.
      * destruct (opt_map as_float l) as [r|] eqn:E; cbn [or_else] in X; subst a;
          cbn [array_type elems is_structs]; [|repeat split; reflexivity].
        apply kind_name_of in K; [|discriminate]. repeat split; [now subst|].
        symmetry. eapply opt_map_inv; [|exact E]. intros [[]| | | | | | | | | | | | | | | |]; cbn; congruence.
    + destruct (opt_map as_byte l) as [r|] eqn:E; cbn [or_else] in X; subst a;
        cbn [array_type elems is_structs]; [|repeat split; reflexivity].
      apply kind_name_of in K; [|discriminate]. repeat split; [now subst|].
      symmetry. eapply opt_map_inv; [|exact E].
      intros [| |n v| | | | | | | | | | | | | |]; cbn; try congruence.
      destruct n, v; cbn; try congruence; intros b X; discriminate.
    + destruct (opt_map as_bool l) as [r|] eqn:E; cbn [or_else] in X; subst a;
        cbn [array_type elems is_structs]; [|repeat split; reflexivity].
      apply kind_name_of in K; [|discriminate]. repeat split; [now subst|].
      symmetry. eapply opt_map_inv; [|exact E]. intros []; cbn; congruence.
    + destruct (opt_map as_enum l) as [r|] eqn:E; cbn [or_else] in X; subst a;
        cbn [array_type elems is_structs]; [|repeat split; reflexivity].
      apply kind_name_of in K; [|discriminate]. repeat split; [now subst|].
      symmetry. eapply opt_map_inv; [|exact E]. intros []; cbn; try congruence. destruct ty0; congruence.
    + destruct (opt_map as_str l) as [r|] eqn:E; cbn [or_else] in X; subst a;
        cbn [array_type elems is_structs]; [|repeat split; reflexivity].
      apply kind_name_of in K; [|discriminate]. repeat split; [now subst|].
      symmetry. eapply opt_map_inv; [|exact E]. intros []; cbn; congruence.
    + destruct (opt_map as_name l) as [r|] eqn:E; cbn [or_else] in X; subst a;
        cbn [array_type elems is_structs]; [|repeat split; reflexivity].
      apply kind_name_of in K; [|discriminate]. repeat split; [now subst|].
      symmetry. eapply opt_map_inv; [|exact E]. intros [| | | | | |i s| | | | | | | | | |]; cbn; try congruence.
      destruct (Z.eqb_spec i 0); congruence.
Qed.
Lemma array_new_bytes ty l a vs : array_new ty None l = Ok a -> w_array vs a = w_array vs (AProps ty l).
Proof.
  intros H. apply array_new_ok in H as (_ & E & S1). rewrite w_array_elems by exact S1. rewrite E. reflexivity.
Qed.
Lemma svals_seqs vs l : seqs (w_sval vs) l = seqs (w_prop vs false) (map PSValue l).
Proof. rewrite seqs_map. reflexivity. Qed.
(** An array of structs is its count, the shared header and the elements. *)
Lemma array_new_struct_bytes ty f t g l a vs : array_new ty (Some (f, t, g)) l = Ok a ->
  w_array vs a = match seqs (w_prop vs false) l with
                 | Fail x => Fail x
                 | Ok (b, n) =>
                   w_u32 (len l) +> w_string f +> w_string (s2z "StructProperty") +> w_u64 (len b)
                   +> w_string t +> w_guid g +> w_u8 0 +> emit b n
                 end.
Proof.
  intros H. apply array_new_ok in H as (_ & E & _ & ws & ->). cbn [elems] in E. subst l.
  change (w_array vs (AStructs f t g ws)) with
    (match seqs (w_sval vs) ws with
     | Fail x => Fail x
     | Ok (b, n) => w_u32 (len ws) +> w_string f +> w_string (kind_name KStruct) +> w_u64 (len b)
                    +> w_string t +> w_guid g +> w_u8 0 +> emit b n
     end).
  rewrite svals_seqs, len_map. reflexivity.
Qed.
(** When it fails. *)
Lemma array_new_fails ty info l : (forall a, array_new ty info l <> Ok a) <->
  info <> None /\ (ty <> kind_name KStruct \/ exists p, In p l /\ forall v, p <> PSValue v).
Proof.
  unfold array_new. destruct info as [[[f t] g]|].
  2:{ split; [intros H; exfalso; eapply H; reflexivity|intros [H _]; now destruct H]. }
  assert (ST : kind_of ty = KStruct \/ kind_of ty <> KStruct) by (destruct (kind_of ty); (now left) || (right; discriminate)).
  destruct ST as [K|K].
  - rewrite K. assert (Hn : ty = kind_name KStruct) by (apply kind_name_of; [exact K|discriminate]).
    destruct (opt_map as_sval l) as [vs|] eqn:E.
    + split; [intros H; exfalso; eapply H; reflexivity|]. intros [_ [H|(p & Hp & H)]]; [contradiction|].
      apply opt_map_inv with (g := PSValue) in E; [|intros []; cbn; congruence]. subst l.
      apply in_map_iff in Hp as (v & <- & _). exfalso. eapply H. reflexivity.
    + split; [|intros _ a X; discriminate]. intros _. split; [discriminate|]. right. clear K Hn.
      induction l as [|p l IH]; [discriminate|]. cbn [opt_map] in E. destruct (as_sval p) as [v|] eqn:Ep.
      * destruct (opt_map as_sval l); [discriminate|]. destruct (IH eq_refl) as (q & Hq & H). exists q. split; [now right|exact H].
      * exists p. split; [now left|]. intros v ->. discriminate.
  - split.
    + intros _. split; [discriminate|]. left. intros ->. apply K. reflexivity.
    + intros _ a. destruct (kind_of ty); try discriminate. now destruct K.
Qed.

(** ** Maps *)
Lemma as_key_prop kk p s : as_key kk p = Some s -> p = key_prop kk s.
Proof.
  destruct kk, p; cbn; try discriminate.
  - destruct ty; congruence.
  - destruct v; try discriminate. destruct (Z.eqb_spec index 0); congruence.
  - destruct v; congruence.
Qed.
Lemma key_same kk a b : same (key_prop kk a) (key_prop kk b) = str_eqb a b.
Proof. unfold same. destruct kk; cbn [key_prop prop_eqb opt_eqb andb Z.eqb]; reflexivity. Qed.
Lemma entries_inv {V} kk (f : property -> option V) (g : V -> property) l r :
  (forall p v, f p = Some v -> p = g v) -> distinct same l = true -> entries kk f l = Some r ->
  l = map (fun e => (key_prop kk (fst e), g (snd e))) r.
Proof.
  intros Hf D E. unfold entries in E.
  destruct (opt_map _ l) as [r'|] eqn:Eo; [|discriminate]. injection E as <-.
  apply opt_map_inv with (g := fun e => (key_prop kk (fst e), g (snd e))) in Eo.
  2:{ intros [k v] [s w]; cbn [fst snd]. destruct (as_key kk k) as [s'|] eqn:Ek; [|discriminate].
      destruct (f v) as [w'|] eqn:Ev; [|discriminate]. intros X. injection X as <- <-.
      apply as_key_prop in Ek. apply Hf in Ev. now subst. }
  rewrite Eo. f_equal. symmetry. apply ins_all_fresh. rewrite Eo in D. clear -D.
  induction r' as [|[a v] r IH]; cbn [map distinct fresh fst snd] in *; [reflexivity|].
  apply andb_true_iff in D as [D1 D2]. rewrite IH by exact D2. rewrite andb_true_r.
  rewrite forallb_map in D1. cbn [fst] in D1. rewrite forallb_forall in *. intros e He.
  specialize (D1 e He). rewrite ?key_same in D1. destruct e as [b w]; cbn [fst] in *.
  exact D1 || (rewrite str_eqb_sym; exact D1).
Qed.
Lemma keyk_name_of kt kk : keyk_of kt = Some kk -> kt = keyk_name kk.
Proof.
  unfold keyk_of. destruct (kind_of kt) eqn:E; try discriminate;
      intros X; injection X as <-; (apply kind_name_of in E; [exact E|discriminate]).
Qed.
Lemma map_new_ok kt vt flags l : distinct same l = true ->
  map_key_type (map_new kt vt flags l) = kt /\ map_value_type (map_new kt vt flags l) = vt
  /\ mflags (map_new kt vt flags l) = flags /\ mentries (map_new kt vt flags l) = l.
Proof.
  intros D. unfold map_new.
  destruct (keyk_of kt) as [kk|] eqn:Ek; [|repeat split; reflexivity].
  apply keyk_name_of in Ek. destruct (Z.eqb_spec flags 0) as [->|]; [|repeat split; reflexivity].
  assert (HP : map_key_type (or_else (entries kk Some l) (MProp kk vt) (MGen kt vt 0 l)) = kt
    /\ map_value_type (or_else (entries kk Some l) (MProp kk vt) (MGen kt vt 0 l)) = vt
    /\ mflags (or_else (entries kk Some l) (MProp kk vt) (MGen kt vt 0 l)) = 0
    /\ mentries (or_else (entries kk Some l) (MProp kk vt) (MGen kt vt 0 l)) = l).
  { destruct (entries kk Some l) as [r|] eqn:E; cbn [or_else]; [|repeat split; reflexivity].
    apply (entries_inv kk Some (fun p => p)) in E; [|intros p v X; congruence|exact D].
    cbn [map_key_type map_value_type mflags mentries]. repeat split; [now subst|]. now rewrite <- E. }
  destruct (kind_of vt) eqn:Kv; try exact HP.
  - destruct k; try exact HP.
    destruct (entries kk as_int l) as [r|] eqn:E; cbn [or_else]; [|repeat split; reflexivity].
    apply (entries_inv kk as_int (PNum I32)) in E; [|intros [[]| | | | | | | | | | | | | | | |]; cbn; congruence|exact D].
    cbn [map_key_type map_value_type mflags mentries]. apply kind_name_of in Kv; [|discriminate].
    repeat split; [now subst|now subst|now rewrite <- E].
  - destruct (entries kk as_bool l) as [r|] eqn:E; cbn [or_else]; [|repeat split; reflexivity].
    apply (entries_inv kk as_bool PBool) in E; [|intros []; cbn; congruence|exact D].
    cbn [map_key_type map_value_type mflags mentries]. apply kind_name_of in Kv; [|discriminate].
    repeat split; [now subst|now subst|now rewrite <- E].
  - destruct kk; try exact HP.
    destruct (entries KkStr as_str l) as [r|] eqn:E; cbn [or_else]; [|repeat split; reflexivity].
    apply (entries_inv KkStr as_str PStr) in E; [|intros []; cbn; congruence|exact D].
    cbn [map_key_type map_value_type mflags mentries]. apply kind_name_of in Kv; [|discriminate].
    repeat split; [now subst|now subst|now rewrite <- E].
Qed.
Lemma map_new_bytes kt vt flags l vs : distinct same l = true ->
  w_map vs (map_new kt vt flags l) = w_map vs (MGen kt vt flags l).
Proof.
  intros D. destruct (map_new_ok kt vt flags l D) as (_ & _ & F & E).
  rewrite !w_map_entries, F, E. reflexivity.
Qed.
