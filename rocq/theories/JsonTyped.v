(** Representable values are typed. *)
From Coq Require Import ZArith List Bool String Lia ZifyBool ZifyNat.
From Verif Require Import Base Str Types Versions Text Props File Spec BaseFacts Decode Induct
  DecodeProp Accept Device JsonSpec.
Import ListNotations.
Open Scope Z_scope.

Lemma str_ok_is s : str_ok s = true -> is_str s = true.
Proof. unfold str_ok. intros H. now andbs. Qed.
Lemma ostr_ok_is s : ostr_ok s = true -> ois_str s = true.
Proof. destruct s; [apply str_ok_is|reflexivity]. Qed.
Lemma name_ok_is b s : name_ok b s = true -> ois_str s = true.
Proof. destruct s; [|reflexivity]. cbn. intros H. andbs. now apply str_ok_is. Qed.
#[local] Hint Resolve str_ok_is ostr_ok_is name_ok_is : core.
Lemma forallb_imp {A} (f g : A -> bool) l : (forall x, In x l -> f x = true -> g x = true) ->
  forallb f l = true -> forallb g l = true.
Proof. rewrite !forallb_forall. auto. Qed.
Lemma text_typed vs :
  (forall t, text_ok vs t = true -> t_text t = true)
  /\ (forall h, hist_ok vs h = true -> t_hist h = true)
  /\ (forall a, arg_ok vs a = true -> t_arg a = true).
Proof.
  apply text_all; cbn [text_ok hist_ok arg_ok t_text t_hist t_arg]; intros;
    repeat match goal with H : _ && _ = true |- _ => apply andb_true_iff in H as [? ?] end;
    bsplit; eauto.
  - eapply forallb_imp; [|eassumption]. intros [k v] I H'. rewrite Forall_forall in *. andbs. bsplit; auto.
    now apply (H0 _ I).
  - eapply forallb_imp; [|eassumption]. intros v I H'. rewrite Forall_forall in *. auto.
  - eapply forallb_imp; [|eassumption]. intros [k v] I H'. rewrite Forall_forall in *. andbs. bsplit; auto.
    now apply (H0 _ I).
Qed.

Ltac inside := eapply forallb_imp; [|eassumption]; cbv beta; intros x I H';
  repeat match goal with y : _ * _ |- _ => destruct y end; cbv beta iota in *;
  repeat match goal with H : _ && _ = true |- _ => apply andb_true_iff in H as [? ?] end;
  repeat match goal with F : Forall _ _ |- _ => rewrite Forall_forall in F; specialize (F _ I); cbn [fst snd] in F end.
Lemma prop_typed o vs sep :
  (forall p hdr path, wf_prop o vs sep hdr path p = true -> t_prop sep p = true)
  /\ (forall v path ty, wf_sval o vs sep path ty v = true -> t_sval sep v = true)
  /\ (forall a path, wf_array o vs sep path a = true -> t_array sep a = true)
  /\ (forall m path, wf_map o vs sep path m = true -> t_map sep m = true).
Proof.
  apply prop_all; cbn [wf_prop wf_sval wf_array wf_map t_prop t_sval t_array t_map]; intros;
    repeat match goal with H : _ && _ = true |- _ => apply andb_true_iff in H as [? ?] end;
    bsplit; eauto; try solve [inside; bsplit; eauto].
  - destruct v; cbn in *; auto.
  - eapply (proj1 (text_typed vs)). eassumption.
  - destruct hdr; auto. match goal with E : (i =? 0) = true |- _ => apply Z.eqb_eq in E; subst i end. reflexivity.
  - destruct (hints _ _) in *; [eauto|discriminate].
  - inside. bsplit; eauto. eapply forallb_imp; [|eassumption]. intros y J.
    match goal with F : Forall _ _ |- _ => rewrite Forall_forall in F; apply (F y J) end.
  - inside. match goal with F : _ /\ _ |- _ => destruct F end. bsplit; eauto.
Qed.

Lemma between a b n z : in_range a b z = true -> 0 <= a -> b <= 2 ^ (8 * n) - 1 -> u_ok n z = true.
Proof. unfold in_range, u_ok. generalize (2 ^ (8 * n) - 1). unfold in_range. lia. Qed.
Lemma file_typed o sep g : file_ok o sep (file_of g) = true -> t_file sep g = true.
Proof.
  unfold file_ok, file_of, t_file, t_header, header_ok, props_ok. cbn [fst snd]. intros H.
  repeat match goal with H : _ && _ = true |- _ => apply andb_true_iff in H as [? ?] end.
  bsplit; auto using str_ok_is.
  - eapply between; [eassumption|lia|discriminate].
  - destruct (h_ue5 (g_header g)); auto. eapply between; [eassumption|lia|discriminate].
  - match goal with E : (_ =? 3) = true |- _ => apply Z.eqb_eq in E; rewrite E end. reflexivity.
  - eapply forallb_imp; [|eassumption]. intros [k p] _ H'.
    repeat match goal with H : _ && _ = true |- _ => apply andb_true_iff in H as [? ?] end.
    bsplit; auto using str_ok_is. eapply (proj1 (prop_typed o _ sep)); eassumption.
Qed.
