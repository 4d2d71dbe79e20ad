(** What [blur] forgets is not hashed. *)
From Coq Require Import ZArith List Bool String Lia ZifyBool ZifyNat.
From Verif Require Import Base Str Types Versions Guid Hash BaseFacts Spec StrFacts Decode Induct EqFacts HashFacts
  Json JsonSpec HashSpec HashFloat HashTell HashTellAll.
Import ListNotations.
Open Scope Z_scope.

Lemma f64_blur z : u_ok 8 z = true -> h_f64 (blur64 z) = h_f64 z.
Proof. intros H. unfold h_f64. rewrite canon64_blur; [reflexivity|]. unfold u_ok, in_range in H. change (2 ^ (8 * 8)) with 18446744073709551616 in H. lia. Qed.
Lemma num_blur k z : num_ok k z = true -> h_num k (blur_num k z) = h_num k z.
Proof. destruct k; try reflexivity. apply f64_blur. Qed.
Lemma nums_blur ks : forall l, nums_ok ks l = true -> h_nums ks (blur_nums ks l) = h_nums ks l.
Proof.
  induction ks as [|k ks IH]; intros [|z l] H; try reflexivity. cbn [nums_ok blur_nums h_nums] in *. andbs.
  rewrite num_blur, IH; auto.
Qed.
Lemma vec_blur {T} (f : T -> list byte) g (Q : T -> bool) l : Forall (fun x => Q x = true -> f (g x) = f x) l ->
  forallb Q l = true -> h_vec f (map g l) = h_vec f l.
Proof.
  intros F H. unfold h_vec, len. rewrite map_length. f_equal. induction F as [|x l X F IH]; [reflexivity|].
  cbn [forallb map flat_map] in *. andbs. rewrite X, IH; auto.
Qed.
Lemma map_blur {K V} (f : K -> list byte) (g : V -> list byte) (a : K -> K) (b : V -> V) (Q : K * V -> bool) l :
  Forall (fun e => Q e = true -> f (a (fst e)) = f (fst e) /\ g (b (snd e)) = g (snd e)) l -> forallb Q l = true ->
  h_map f g (map (fun e => (a (fst e), b (snd e))) l) = h_map f g l.
Proof.
  intros F H. unfold h_map. induction F as [|[k v] l X F IH]; [reflexivity|].
  cbn [forallb map flat_map fst snd] in *. andbs. destruct X as [-> ->]; auto. rewrite IH; auto.
Qed.

Lemma text_blur :
  (forall a, t_text a = true -> h_text (blur_text a) = h_text a)
  /\ (forall a, t_hist a = true -> h_hist (blur_hist a) = h_hist a)
  /\ (forall a, t_arg a = true -> h_arg (blur_arg a) = h_arg a).
Proof.
  apply text_all; intros; cbn [blur_text blur_hist blur_arg t_text t_hist t_arg] in *; andbs; try reflexivity; hrw.
  all: try (do 2 f_equal; first [now auto|eapply (map_blur h_str h_arg (fun x => x) blur_arg); [|eassumption];
    eapply Forall_impl; [|eassumption]; intros [k v] IH E; cbn [fst snd] in *; andbs; now auto|eapply vec_blur; eassumption]; fail).
  all: cbn [h_hist h_arg]; try (repeat f_equal; auto using f64_blur; fail).
  all: rewrite ?f64_blur by assumption; repeat match goal with IH : ?P = true -> _ = _ |- _ => rewrite IH by assumption; clear IH end; reflexivity.
Qed.
Section Typed.
Variable sep : property -> property -> bool.
Lemma prop_blur :
  (forall a, t_prop sep a = true -> h_prop (blur a) = h_prop a)
  /\ (forall a, t_sval sep a = true -> h_sval (blur_sval a) = h_sval a)
  /\ (forall a, t_array sep a = true -> h_array (blur_array a) = h_array a)
  /\ (forall a, t_map sep a = true -> h_mapp (blur_map a) = h_mapp a).
Proof.
  pose proof (proj1 text_blur) as T.
  apply prop_all; intros; cbn [blur blur_sval blur_array blur_map t_prop t_sval t_array t_map] in *; andbs; try reflexivity; hrw.
  all: try (cbn [h_prop h_sval]; f_equal; auto using num_blur, nums_blur; fail).
  all: try (erewrite vec_blur by eassumption; reflexivity).
  all: repeat match goal with IH : ?P = true -> _ = _ |- _ => rewrite IH by assumption; clear IH end; try reflexivity.
  all: rewrite ?T by assumption; try reflexivity.
  - f_equal. eapply (map_blur h_str (h_vec h_prop) (fun x => x) (map blur)); [|eassumption].
    eapply Forall_impl; [|eassumption]. intros [k v] IH E; cbn [fst snd] in *. andbs. split; [reflexivity|]. eapply vec_blur; eassumption.
  - do 2 f_equal. eapply (map_blur h_str h_prop (fun x => x) blur); [|eassumption].
    eapply Forall_impl; [|eassumption]. intros [k' v] IH E; cbn [fst snd] in *. andbs. auto.
  - do 4 f_equal. eapply (map_blur h_prop h_prop blur blur); [|eassumption].
    eapply Forall_impl; [|eassumption]. intros [k' v] IH E; cbn [fst snd] in *. andbs. destruct IH. auto.
Qed.
End Typed.
