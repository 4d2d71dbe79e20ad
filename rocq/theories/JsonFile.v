(** The JSON form of files: reading back, and what the binary reader guarantees. *)
From Coq Require Import ZArith List Bool String Lia ZifyBool ZifyNat.
From Verif Require Import Base Str Types Versions Text Props File Spec BaseFacts Decode Induct
  DecodeProp EqFacts Guid GuidThm Accept AcceptFile Json JsonSpec JsonFloat JsonText JsonProp.
Import ListNotations.
Open Scope Z_scope.

(** ** Insertion of distinct keys *)
Definition calm (hp : hashing) : Prop := forall l k i, hp l k i = false.
Lemma insert_fold hp (sep : property -> property -> bool) :
  (forall k k', sep k k' = false -> same k k' = false /\ (eqv k k' = false \/ calm hp)) ->
  forall l acc, distinct sep (acc ++ l) = true ->
  fold_left (fun acc e => mins (hp acc (fst e)) acc (fst e) (snd e)) l acc = acc ++ l.
Proof.
  intros Hs. induction l as [|[k v] l IH]; intros acc H; cbn [fold_left fst snd].
  - now rewrite app_nil_r.
  - rewrite mins_new.
    + rewrite IH; rewrite <- app_assoc; auto.
    + intros e He. pose proof (distinct_mid sep acc k v _ H e He) as E.
      destruct (Hs _ _ E) as [E1 [E2|E2]]; split; auto.
Qed.
Lemma insert_calm hp l : calm hp -> distinct same l = true -> m_insert hp l = l.
Proof. intros C H. apply (insert_fold hp same) with (acc := []); auto. Qed.
Lemma insert_any hp l : distinct eqv l = true -> m_insert hp l = l.
Proof.
  intros H. apply (insert_fold hp eqv) with (acc := []); auto.
  intros k k' E. split; auto. destruct (same k k') eqn:S; auto. apply same_eqv in S. congruence.
Qed.

(** ** Headers and files *)
Lemma guidkeys_j l : forallb (fun '(g, v) => guid_ok g && u_ok 4 v) l = true ->
  d_entries d_u32 (map (fun '(g, v) => (guid_display g, JInt v)) l)
  = JOk (map (fun '(g, v) => (guid_display g, v)) l)
  /\ d_guidkeys (map (fun '(g, v) => (guid_display g, v)) l) = JOk l.
Proof.
  induction l as [|[g v] l IH]; [easy|]. cbn [forallb map d_entries d_guidkeys]. intros H. andbs.
  rewrite u32_j by auto. cbn [jbind]. destruct IH as [I1 I2]; auto. rewrite I1.
  unfold d_guidstr. rewrite display_parse by (unfold guid_ok in *; lia). cbn [jbind]. now rewrite I2.
Qed.
Lemma versions_j l : distinct guid_eqb l = true ->
  forallb (fun '(g, v) => guid_ok g && u_ok 4 v) l = true ->
  d_versions (JObj (map (fun '(g, v) => (guid_display g, JInt v)) l)) = JOk l.
Proof.
  intros D H. unfold d_versions. destruct (guidkeys_j l H) as [-> E]. cbn [jbind]. rewrite E. cbn [jbind].
  now rewrite ins_all_fresh by (rewrite <- distinct_fresh; auto).
Qed.
Lemma engine_j e : u_ok 2 (fe_major e) && u_ok 2 (fe_minor e) && u_ok 2 (fe_patch e)
  && u_ok 4 (fe_change e) = true -> d_engine (e_engine e) = JOk e.
Proof.
  intros H. andbs. unfold d_engine, e_engine. rewrite d_struct_obj. look. rewrite ?u16_j by auto. cbn [jbind].
  look. rewrite ?u16_j by auto. cbn [jbind]. look. rewrite ?u16_j by auto. cbn [jbind]. look.
  rewrite ?u32_j by auto. destruct e. reflexivity.
Qed.
Lemma header_j h : t_header h = true -> d_header (e_header h) = JOk h.
Proof.
  unfold t_header. intros H. andbs. unfold d_header, e_header. cbn [app].
  rewrite !d_once_t.
  2:{ destruct (h_ue5 h); reflexivity. }
  rewrite need_hit.
  replace (d_name [s2z "Version2"; s2z "Version3"]
    (JStr (match h_ue5 h with None => s2z "Version2" | Some _ => s2z "Version3" end)))
    with (JOk (match h_ue5 h with None => 0 | Some _ => 1 end)) by now destruct (h_ue5 h).
  cbn [jbind].
  rewrite d_once_t by (destruct (h_ue5 h); reflexivity).
  unfold d_version. look. rewrite u32_j by auto. cbn [jbind].
  assert (E : d_engine (e_engine (h_engine h)) = JOk (h_engine h)) by (apply engine_j; bsplit; auto).
  destruct (h_ue5 h) as [v|] eqn:U; cbn [option_map e_opt app Z.eqb]; look.
  - rewrite u32_j by auto. cbn [jbind]. look. rewrite E. cbn [jbind]. look. rewrite u32_j by auto.
    cbn [jbind]. look. rewrite versions_j by auto. cbn [jbind]. destruct h; cbn in *. subst. reflexivity.
  - rewrite E. cbn [jbind]. look. rewrite u32_j by auto.
    cbn [jbind]. look. rewrite versions_j by auto. cbn [jbind]. destruct h; cbn in *. subst. reflexivity.
Qed.
Lemma dversion_j c : d_dversion (JObj [(s2z "Palworld", JStr (ctype_name c))]) = JOk (DPalworld c).
Proof. destruct c; reflexivity. Qed.

Section Files.
Context (hp : hashing) (sep : property -> property -> bool).
Hypothesis separate : forall l, distinct sep l = true -> m_insert hp l = l.
Lemma property_j p : d_property hp (e_prop p) = d_prop hp (e_prop p).
Proof. destruct p; reflexivity. Qed.
Lemma props_j l : distinct str_eqb l = true ->
  forallb (fun '(k, p) => is_str k && t_prop sep p) l = true ->
  d_map (d_property hp) (JObj (map (fun '(k, p) => (k, e_prop p)) l))
  = if forallb (fun '(_, p) => fin_prop p) l then JOk l else JErr.
Proof.
  intros D H. apply d_map_back; auto. apply (Forall_typed2 is_str (t_prop sep)); auto.
  apply Forall_forall. intros e _ T. unfold back. rewrite property_j.
  now apply (proj1 (prop_json hp sep separate)).
Qed.
Lemma file_json g : t_file sep g = true ->
  from_json hp (to_json g) = if fin_file g then JOk g else JErr.
Proof.
  unfold t_file, fin_file. intros H. andbs. unfold to_json, from_json, e_dversion. rewrite d_struct_obj.
  destruct g as [v h l]. cbn [g_version g_header g_props] in *.
  destruct v as [|c]; cbn [app]; look.
  - rewrite header_j by auto. cbn [jbind]. look. rewrite props_j by auto. split_if.
  - rewrite dversion_j. cbn [jbind]. look. rewrite header_j by auto. cbn [jbind]. look.
    rewrite props_j by auto. split_if.
Qed.
End Files.

