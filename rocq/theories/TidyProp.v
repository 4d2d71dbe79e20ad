(** Canonical form, properties. *)
From Coq Require Import ZArith List Bool String Lia ZifyBool ZifyNat.
From Verif Require Import Base Str Guid Types Versions Text Props File Spec BaseFacts StrFacts Decode KindFacts
  DecodeProp DecodeMain DecodeAll StrThm EqFacts MapFacts HeaderThm OrderThm Grammar GrammarBase GrammarText GrammarCtor
  GrammarProp GrammarComplete Induct Tidy TidyText.
Import ListNotations.
Open Scope Z_scope.

Scheme tidy_prop_ind2 := Induction for tidy_prop Sort Prop
with tidy_elems_ind2 := Induction for tidy_elems Sort Prop
with tidy_entries_ind2 := Induction for tidy_entries Sort Prop
with tidy_structs_ind2 := Induction for tidy_structs Sort Prop
with tidy_struct_ind2 := Induction for tidy_struct Sort Prop
with tidy_fields_ind2 := Induction for tidy_fields Sort Prop.
Combined Scheme tidy_mut from tidy_prop_ind2, tidy_elems_ind2, tidy_entries_ind2, tidy_structs_ind2, tidy_struct_ind2, tidy_fields_ind2.

Lemma spread_flatten l : spread l = flatten l.
Proof. unfold spread, flatten. apply flat_map_ext. now intros [k ps]. Qed.
Lemma groups_nonempty (l : list (str * list property)) :
  Forall (fun e => snd e <> []) l <-> forallb (fun '(k, ps) => negb (len ps =? 0)) l = true.
Proof.
  rewrite Forall_forall, forallb_forall. split; intros H [k ps] Hin; specialize (H _ Hin); cbn [snd] in *.
  - destruct ps; [congruence|]. rewrite len_cons. pose proof (len_nonneg ps). lia.
  - intros ->. discriminate.
Qed.
Lemma grouped_spread l : distinct str_eqb l = true -> Forall (fun e => snd e <> []) l -> grouped (spread l) = l.
Proof.
  intros D N. rewrite <- regroup_grouped, spread_flatten. apply regroup_flatten; [exact D|]. now apply groups_nonempty.
Qed.
Lemma many_mono {A} (R S : A -> list byte -> Prop) l b : (forall a x, R a x -> S a x) -> many R l b -> many S l b.
Proof. intros H M. induction M; constructor; auto. Qed.
Lemma pair_in p b : tidy_pair p b -> is_pair p b.
Proof. intros (x & y & A & B & ->). exists x, y. auto using tidy_text_of. Qed.

Section Prop_.
Context (o : opts) (vs : list (guid * Z)).

(** ** Inside the grammar *)
Lemma bytev_in size v b : tidy_bytev size v b -> is_bytev o size v b.
Proof. intros H. destruct H; constructor; auto using tidy_text_of; lia. Qed.
Lemma plain_in ty p b : tidy_plain vs ty p b -> is_plain vs ty p b.
Proof.
  intros H. destruct H; constructor; auto using tidy_stored, tidy_text_of, pair_in.
  - now apply (many_mono tidy_pair _ _ _ pair_in).
  - now apply (many_mono tidy_pair _ _ _ pair_in).
  - now apply (many_mono line _ _ _ tidy_text_of).
  - now apply tidy_in_text.
Qed.
Lemma distinct_same (l : list (property * property)) : distinct same l = true -> collapsed same l l.
Proof.
  intros H. rewrite <- (ins_all_fresh same l H) at 2. apply ins_all_collapsed; [exact same_rf|exact same_sy|exact same_tr].
Qed.
Lemma tidy_in :
  (forall path ty hdr size p b, tidy_prop o vs path ty hdr size p b -> is_prop o vs path ty hdr size p b)
  /\ (forall path ty size l b, tidy_elems o vs path ty size l b -> is_elems o vs path ty size l b)
  /\ (forall path kt vt l b, tidy_entries o vs path kt vt l b -> is_entries o vs path kt vt l b)
  /\ (forall path ty l b, tidy_structs o vs path ty l b -> is_structs o vs path ty l b)
  /\ (forall path ty v b, tidy_struct o vs path ty v b -> is_struct o vs path ty v b)
  /\ (forall path l b, tidy_fields o vs path l b -> is_fields o vs path l b).
Proof.
  apply tidy_mut; intros; subst;
    try (econstructor; eauto using tidy_stored, tidy_text_of, bytev_in, plain_in, distinct_same; fail).
  - eapply p_map with (l := l) (l' := l) (flags := flags); [apply tidy_text_of; eassumption|apply tidy_text_of; eassumption|..]; eauto using distinct_same; try reflexivity; assumption.
  - constructor; [assumption|]. now apply (many_mono line _ _ _ tidy_text_of).
  - rewrite <- (grouped_spread l) at 1 by assumption. constructor; auto using tidy_text_of.
Qed.

(** ** What is written *)
Lemma wr_many {A} (R : A -> list byte -> Prop) f l b : (forall a x, R a x -> writes (f a) x) ->
  many R l b -> writes (seqs f l) b.
Proof. intros H M. induction M; [apply wr_skip|]. apply wr_seq; auto. Qed.
Lemma wr_pair p b : tidy_pair p b -> writes (w_string (fst p) +> w_string (snd p)) b.
Proof. intros (x & y & A & B & ->). apply wr_seq; now apply wr_string. Qed.
Lemma wr_pair' p b : tidy_pair p b -> writes ((fun '(a, c) => w_string a +> w_string c) p) b.
Proof. destruct p. apply wr_pair. Qed.
Lemma wr_head name c i extra body x b : writes extra x -> writes body b ->
  writes (with_header true name c i extra body) (str_bytes name ++ framed i x b).
Proof.
  intros E [n ->]. unfold with_header, framed.
  change (Byte.x00 :: b) with (le_bytes 1 0 ++ b).
  apply wr_seq; [destruct c; apply wr_emit|]. apply wr_seq; [apply wr_int|]. apply wr_seq; [apply wr_int|].
  apply wr_seq; [exact E|]. apply wr_seq; [apply wr_int|apply wr_emit].
Qed.
Lemma num_bytes_eq k z b : num_bytes k z b -> b = le_bytes (Z.to_nat (num_width k)) z.
Proof. unfold num_bytes. destruct k; cbn [num_spec num_width]; intros [-> _]; reflexivity. Qed.
Lemma wr_num k z b : num_bytes k z b -> writes (w_int (num_width k) z) b.
Proof. intros H. apply num_bytes_eq in H as ->. apply wr_int. Qed.
Lemma wr_plain ty p b : tidy_plain vs ty p b -> ty = type_of p /\
  exists body, writes body b /\ forall hdr, w_prop vs hdr p = with_header hdr ty true 0 skip body.
Proof.
  intros H. destruct H; (split; [try (destruct k); reflexivity|]); eexists;
    (split; [|intros hdr; try (destruct k); reflexivity]).
  - now apply wr_num.
  - now apply wr_fstring.
  - now apply wr_string.
  - now apply wr_pair.
  - apply wr_seq; [apply wr_int|]. now apply (wr_many tidy_pair _ _ _ wr_pair').
  - apply wr_seq; [apply wr_int|]. now apply (wr_many tidy_pair _ _ _ wr_pair').
  - apply wr_seq; [apply wr_int|]. apply wr_seq; [|now apply wr_string]. now apply (wr_many line _ _ _ wr_string).
  - now apply (wr_text vs).
Qed.
Lemma wr_bytev size v b : tidy_bytev size v b -> writes (w_bytev v) b.
Proof. intros H. destruct H; [apply wr_emit|apply wr_emit|now apply wr_string]. Qed.
Lemma wr_nums ks l b : many2 num_bytes ks l b -> writes (w_nums ks l) b.
Proof. intros H. induction H; [apply wr_skip|]. apply wr_seq; [now apply wr_num|assumption]. Qed.
Lemma view_elems a ty l : array_view a = Some (ty, l) ->
  DecodeProp.is_structs a = false /\ array_type a = ty /\ elems a = l.
Proof. destruct a; cbn [array_view]; intros H; try discriminate; injection H as <- <-; auto. Qed.
Lemma wr_flat f l b : writes (seqs (fun '(k, p) => f k p) (spread l)) b ->
  writes (seqs (fun '(k, ps) => seqs (fun p => f k p) ps) l) b.
Proof.
  revert b. induction l as [|[k ps] l IH]; intros b H; cbn [spread flat_map] in H; [exact H|].
  destruct H as [n H]. apply seqs_app in H as (x & n1 & y & n2 & H1 & H2 & -> & _). apply wr_seq.
  - exists n1. rewrite seqs_map in H1. exact H1.
  - apply IH. now exists n2.
Qed.

Lemma w_structs f ty g l b n : seqs (w_sval vs) l = Ok (b, n) ->
  w_array vs (AStructs f ty g l) = w_u32 (len l) +> w_string f +> w_string (kind_name KStruct) +> w_u64 (len b)
    +> w_string ty +> w_guid g +> w_u8 0 +> emit b n.
Proof. intros H. cbn [w_array]. change (seqs _ l) with (seqs (w_sval vs) l). now rewrite H. Qed.
Definition named_w : str * property -> out := fun '(k, p) => w_string k +> w_prop vs true p.
Lemma tidy_writes :
  (forall path ty hdr size p b, tidy_prop o vs path ty hdr size p b ->
     ty = type_of p /\ writes (w_prop vs hdr p) ((if hdr then str_bytes ty else []) ++ b))
  /\ (forall path ty size l b, tidy_elems o vs path ty size l b -> writes (seqs (w_prop vs false) l) b)
  /\ (forall path kt vt l b, tidy_entries o vs path kt vt l b ->
     writes (seqs (fun e => w_prop vs false (fst e) +> w_prop vs false (snd e)) l) b)
  /\ (forall path ty l b, tidy_structs o vs path ty l b -> writes (seqs (w_sval vs) l) b)
  /\ (forall path ty v b, tidy_struct o vs path ty v b -> writes (w_sval vs v) b)
  /\ (forall path l b, tidy_fields o vs path l b -> writes (seqs named_w l) b).
Proof.
  apply tidy_mut; intros; subst; try (split; [reflexivity|]); cbn [app].
  - match goal with H : tidy_plain _ _ _ _ |- _ => apply wr_plain in H as (-> & body0 & W0 & E0) end.
    split; [reflexivity|]. rewrite E0. exact W0.
  - match goal with H : tidy_plain _ _ _ _ |- _ => apply wr_plain in H as (-> & body0 & W0 & E0) end.
    split; [reflexivity|]. rewrite E0. apply wr_head; [apply wr_skip|exact W0].
  - apply wr_int.
  - cbn [w_prop w_pbool]. apply wr_seq; [apply wr_emit|]. rewrite app_assoc. apply wr_seq; [apply wr_emit|].
    apply wr_seq; [apply wr_int|apply wr_emit].
  - now apply (wr_bytev size).
  - cbn [w_prop w_pbyte]. match goal with H : tidy_bytev _ _ _ |- _ => apply wr_bytev in H as [q ->] end.
    unfold framed. apply wr_seq; [apply wr_emit|]. rewrite app_assoc. apply wr_seq.
    { unfold u4. rewrite <- le8_split by assumption. apply wr_int. }
    apply wr_seq; [now apply wr_fstring|]. change (Byte.x00 :: b) with ([Byte.x00] ++ b).
    apply wr_seq; [apply wr_emit|apply wr_emit].
  - now apply wr_string.
  - apply wr_head; [now apply wr_fstring|now apply wr_string].
  - now apply wr_fstring.
  - apply wr_head; [apply wr_skip|now apply wr_fstring].
  - apply wr_emit.
  - apply wr_head; [apply wr_skip|apply wr_emit].
  - assumption.
  - apply wr_head; [|assumption]. apply wr_seq; [now apply wr_string|apply wr_emit].
  - match goal with H : is_array _ _ _ |- _ => destruct H as [H _]; apply view_elems in H as (S & <- & <-) end.
    apply wr_head; [now apply wr_string|]. rewrite w_array_elems by exact S. apply wr_seq; [apply wr_int|assumption].
  - apply wr_head; [now apply wr_string|].
    match goal with H : writes (seqs (w_sval vs) l) _ |- _ => destruct H as [q0 H];
      match goal with |- writes _ ?x => change (writes (w_array vs (AStructs f ty g l)) x) end; rewrite (w_structs f ty g l _ _ H) end.
    apply wr_seq; [apply wr_int|]. apply wr_seq; [now apply wr_string|]. apply wr_seq; [now apply wr_string|].
    apply wr_seq; [apply wr_int|]. apply wr_seq; [now apply wr_string|]. apply wr_seq; [apply wr_emit|].
    change (Byte.x00 :: y) with ([Byte.x00] ++ y). apply wr_seq; apply wr_emit.
  - apply wr_head; [now apply wr_string|]. repeat (apply wr_seq; [apply wr_int|]). assumption.
  - match goal with H : is_map _ _ _ _ _ |- _ => destruct H as [H _]; rewrite map_view_parts in H; injection H as <- <- <- <- end.
    apply wr_head; [apply wr_seq; now apply wr_string|]. rewrite w_map_entries.
    repeat (apply wr_seq; [apply wr_int|]). assumption.
  - apply wr_skip.
  - apply wr_seq; [|assumption]. match goal with H : ty = type_of p /\ _ |- _ => apply H end.
  - apply wr_skip.
  - rewrite app_assoc. apply wr_seq; [|assumption]. cbn [fst snd].
    apply wr_seq; [match goal with H : kt = type_of k /\ _ |- _ => apply H end|].
    match goal with H : vt = type_of v /\ _ |- _ => apply H end.
  - apply wr_skip.
  - apply wr_seq; assumption.
  - cbn [w_sval]. unfold w_fixed. destruct x; cbn [fixed_spec] in *;
      match goal with H : _ = (name, lwc, ks) |- _ => injection H as <- <- <- end; cbn [fixed_lwc layout];
      try match goal with H : forall d, Some _ = Some d -> _ |- _ => rewrite (H _ eq_refl) end; cbn [Bool.eqb]; now apply wr_nums.
  - apply wr_emit.
  - apply wr_seq; [apply wr_emit|]. now apply (wr_many line _ _ _ wr_string).
  - apply wr_seq; [|now apply wr_string]. apply (wr_flat (fun k p => w_string k +> w_prop vs true p)). assumption.
  - apply wr_skip.
  - match goal with H : ty = type_of p /\ _ |- _ => destruct H as [-> H] end.
    replace (x ++ y ++ z ++ w) with ((x ++ y ++ z) ++ w) by now rewrite !app_assoc.
    apply wr_seq; [|assumption]. apply wr_seq; [now apply wr_string|].
    match goal with H : line (type_of p) y |- _ => apply tidy_line in H as [_ ->] end. assumption.
Qed.
End Prop_.
