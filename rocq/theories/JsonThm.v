(** Consequences of the JSON lemmas, as used by PropJson.v. *)
From Coq Require Import ZArith List Bool String Lia ZifyBool ZifyNat.
From Verif Require Import Base Str Types Versions Text Props File Spec BaseFacts AcceptFile Guid GuidThm
  Device Whole WholeSave Samples Json JsonSpec JsonText JsonProp JsonFile JsonTyped JsonWell JsonBack JsonPanic.
Import ListNotations.
Open Scope Z_scope.

Definition still : hashing := fun _ _ _ => false.
Lemma still_calm : calm still.
Proof. intros l k i. reflexivity. Qed.

Lemma file_calm hp g : calm hp -> t_file same g = true ->
  from_json hp (to_json g) = if fin_file g then JOk g else JErr.
Proof. intros C. apply file_json. intros l. now apply insert_calm. Qed.
Lemma file_any hp g : t_file eqv g = true -> from_json hp (to_json g) = if fin_file g then JOk g else JErr.
Proof. apply file_json. intros l. apply insert_any. Qed.
Lemma prop_calm hp p : calm hp -> t_prop same p = true ->
  d_prop hp (e_prop p) = if fin_prop p then JOk p else JErr.
Proof. intros C. apply (proj1 (prop_json hp same (fun l => insert_calm hp l C))). Qed.
Lemma prop_any hp p : t_prop eqv p = true -> d_prop hp (e_prop p) = if fin_prop p then JOk p else JErr.
Proof. apply (proj1 (prop_json hp eqv (insert_any hp))). Qed.
Lemma property_calm hp p : calm hp -> t_prop same p = true ->
  d_property hp (e_prop p) = if fin_prop p then JOk p else JErr.
Proof. intros. rewrite property_j. now apply prop_calm. Qed.
Lemma property_any hp p : t_prop eqv p = true -> d_property hp (e_prop p) = if fin_prop p then JOk p else JErr.
Proof. intros. rewrite property_j. now apply prop_any. Qed.
Lemma json_injective g g' : t_file same g = true -> t_file same g' = true ->
  fin_file g = true -> fin_file g' = true -> to_json g = to_json g' -> g = g'.
Proof.
  intros T T' F F' E. pose proof (file_calm still g still_calm T) as A.
  pose proof (file_calm still g' still_calm T') as B. rewrite F, E in A. rewrite F' in B. congruence.
Qed.
Lemma loaded_typed z o v b g : load z o v b = Ok g -> t_file same g = true.
Proof.
  intros H. destruct (load_inv _ _ _ _ _ H) as (_ & p & L). eapply file_typed. eapply load_ok. exact L.
Qed.
Lemma loaded_json hp z o v b g : calm hp -> load z o v b = Ok g ->
  from_json hp (to_json g) = if fin_file g then JOk g else JErr.
Proof. intros C H. apply file_calm; auto. eapply loaded_typed; eauto. Qed.
Lemma loaded_well z o v b g : load z o v b = Ok g -> j_ok (to_json g) = true.
Proof. intros H. eapply file_well, loaded_typed. eassumption. Qed.
Lemma read_again hp j g : calm hp -> j_fit j = true -> from_json hp j = JOk g ->
  from_json hp (to_json g) = if fin_file g then JOk g else JErr.
Proof. intros C J H. apply file_calm; auto. eapply file_good; eauto. Qed.

(** ** Strings of one-byte characters do not panic *)
Lemma ascii_parse s : is_str s = true -> guid_parse s = Panicked -> exists c, In c s /\ 128 <= c.
Proof.
  intros Hs P. apply parse_panic_iff in P as (t & pre & g & r & C & _ & -> & _ & S); [|exact Hs].
  assert (X : exists c, In c r /\ 128 <= c).
  { destruct r as [|c r]; [contradiction|]. cbn [straddles] in S. unfold width in S.
    destruct S as [S|[_ S]].
    - exists c. split; [now left|]. destruct (Z.ltb_spec c 128); lia.
    - destruct r as [|d r]; [contradiction|]. exists d. split; [right; now left|].
      destruct (Z.ltb_spec d 128); lia. }
  destruct X as (c & I & L). exists c. split; [|exact L].
  destruct C as (l & m & q & m1 & F & _ & _ & _ & M & M1).
  enough (In c m) as J.
  { assert (K : In c (l ++ m ++ q)) by (apply in_or_app; right; apply in_or_app; now left).
    rewrite <- F in K. now apply filter_In in K. }
  assert (J : In c m1).
  { destruct M1 as [->|[<- _]]; [apply in_or_app; left|]; apply in_or_app; now right. }
  destruct M as [->|[-> _]]; [now right|exact J].
Qed.
Lemma occurs_str s j : j_fit j = true -> occurs s j -> is_str s = true.
Proof.
  intros J O. induction O as [|l v I|l k v I O IH|l v I O IH]; cbn [j_fit] in J; auto; rewrite forallb_forall in J; specialize (J _ I); auto.
  - now apply andb_true_iff in J.
  - apply andb_true_iff in J as [_ J]. auto.
Qed.
Lemma panic_char hp j : j_fit j = true -> from_json hp j = JPanic ->
  exists s c, occurs s j /\ guid_parse s = Panicked /\ In c s /\ 128 <= c.
Proof.
  intros J P. destruct (file_safe hp j P) as (s & O & G). pose proof (occurs_str s j J O) as S.
  destruct (ascii_parse s S G) as (c & I & L). eauto 6.
Qed.
Lemma own_no_panic hp g : t_file eqv g = true -> from_json hp (to_json g) <> JPanic.
Proof. intros T. rewrite file_any by exact T. now destruct (fin_file g). Qed.

(** ** Witnesses *)
Definition one (p : property) : gfile := GFile DDefault hdr4 [(s2z "x", p)].
Definition key_json (k : str) : json :=
  JObj [(s2z "header", JObj
           [(s2z "type", JStr (s2z "Version2")); (s2z "package_file_version", JInt 522);
            (s2z "engine_version", e_engine (h_engine hdr4)); (s2z "custom_version_format", JInt 3);
            (s2z "custom_versions", JObj [(k, JInt 1)]); (s2z "save_game_class_name", JStr [])]);
        (s2z "properties", JObj [])].
Definition float_json (b : Z) : json :=
  JObj [(s2z "header", e_header hdr4);
        (s2z "properties", JObj [(s2z "x", JObj [(s2z "type", JStr (s2z "FloatProperty")); (s2z "value", JFloat b)])])].
Lemma not_injective : exists g g', t_file same g = true /\ t_file same g' = true
  /\ to_json g = to_json g' /\ g <> g'.
Proof.
  exists (one (PNum F32 2139095040)), (one (PNum F32 2143289344)).
  split; [vm_compute; reflexivity|]. split; [vm_compute; reflexivity|]. split; [vm_compute; reflexivity|].
  intros E. injection E. discriminate.
Qed.
Lemma lost : exists z o b g, load z o GDefault b = Ok g /\ from_json still (to_json g) = JErr.
Proof.
  exists (Zlib (fun x => x) (fun x => (x, ZDone))), o_sample, sample_bytes, (GFile DDefault (fst sample) (snd sample)).
  split; vm_compute; reflexivity.
Qed.
(** 1e300 *)
Lemma overflow : exists j g, j_ok j = true /\ from_json still j = JOk g
  /\ from_json still (to_json g) = JErr.
Proof.
  exists (float_json 9094988921128908188), (one (PNum F32 2139095040)).
  split; [vm_compute; reflexivity|]. split; vm_compute; reflexivity.
Qed.
Lemma panics : exists j, j_ok j = true /\ forall hp, from_json hp j = JPanic.
Proof.
  exists (key_json (8364 :: s2z "20304-0506-0708-090A-0B0CFFFFFFFF")).
  split; [vm_compute; reflexivity|]. intros hp. vm_compute. reflexivity.
Qed.
Lemma json_merging : exists hp g, t_file same g = true /\ fin_file g = true
  /\ from_json hp (to_json g) <> JOk g.
Proof.
  exists (fun _ _ _ => true), (GFile DDefault (fst twin_keys) (snd twin_keys)).
  split; [vm_compute; reflexivity|]. split; [vm_compute; reflexivity|]. vm_compute. discriminate.
Qed.

(** ** The tag *)
Lemma prop_tag p : exists l, e_prop p = JObj ((s2z "type", JStr (json_type p)) :: l).
Proof.
  destruct p; cbn [e_prop json_type]; unfold tagged; eauto. destruct k; cbn [num_name]; eauto.
Qed.
Lemma file_shape g : exists pre h l, to_json g = JObj (pre ++ [(s2z "header", h); (s2z "properties", JObj l)])
  /\ (pre = [] <-> g_version g = DDefault)
  /\ Forall2 (fun e f => fst e = fst f /\ snd e = e_prop (snd f)) l (g_props g).
Proof.
  exists (e_dversion (g_version g)), (e_header (g_header g)), (map (fun '(k, p) => (k, e_prop p)) (g_props g)).
  split; [reflexivity|]. split.
  - unfold e_dversion. destruct (g_version g); split; congruence.
  - induction (g_props g) as [|[k p] l IH]; cbn [map]; constructor; auto.
Qed.
