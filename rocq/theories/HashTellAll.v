(** Texts and values are told apart by what they feed to the hasher. *)
From Coq Require Import ZArith List Bool String Lia ZifyBool ZifyNat.
From Verif Require Import Base Str Types Versions Guid Hash BaseFacts Spec StrFacts Decode Induct EqFacts HashFacts
  Json JsonSpec HashSpec HashFloat HashTell.
Import ListNotations.
Open Scope Z_scope.

Lemma blurred_list {A} (eq : A -> A -> bool) g (l : list A) : forall l', list_eqb eq (map g l) (map g l') = list_eqb (blurred eq g) l l'.
Proof. induction l as [|x l IH]; intros [|y l']; cbn [map list_eqb]; try reflexivity. now rewrite IH. Qed.
Lemma opt_nonempty {T} (f : T -> list byte) o : h_opt f o <> [].
Proof. destruct o; discriminate. Qed.
Lemma str_nonempty x : h_str x <> [].
Proof. unfold h_str. intros E. apply app_eq_nil in E as [_ E]. discriminate. Qed.
Lemma arg_nonempty x : h_arg x <> [].
Proof. destruct x; discriminate. Qed.
Lemma prop_nonempty x : h_prop x <> [].
Proof. destruct x; try discriminate; destruct inline; discriminate. Qed.
Lemma sval_nonempty x : h_sval x <> [].
Proof. destruct x; discriminate. Qed.
Lemma tells_list {T} (f : T -> list byte) eq Q (P : T -> bool) (N : forall x, f x <> []) l :
  Forall (fun a => P a = true -> Q a = true -> tells f eq Q a) l -> forallb P l = true -> forallb Q l = true ->
  tells (h_vec f) (list_eqb eq) (forallb Q) l.
Proof.
  intros F X Y. apply tells_vec; [exact N|]. rewrite forallb_forall in X, Y. rewrite Forall_forall in *. auto.
Qed.
Lemma tells_each {T} (f : T -> list byte) eq (Q : T -> bool) (N : forall x, f x <> [])
  (H : forall x, Q x = true -> tells f eq Q x) l :
  forallb Q l = true -> tells (h_vec f) (list_eqb eq) (forallb Q) l.
Proof. intros F. apply tells_vec; [exact N|]. now apply (Forall_tells f eq Q Q). Qed.
Ltac assocs := repeat match goal with E : _ = _ :> list byte |- _ => progress rewrite <- ?app_assoc in E
  | L : len _ < big |- _ => progress rewrite <- ?app_assoc in L end.
(** By an induction hypothesis. *)
Ltac peelih := match goal with
  | IH : ?F -> ?T -> tells ?f _ _ ?a, H : ?F, E : ?f ?a ++ _ = _ |- _ => peelwith (IH H)
  | IH : Forall _ ?l, H : forallb _ ?l = true, E : h_vec h_arg ?l ++ _ = _ |- _ =>
    peelwith (tells_list h_arg _ _ _ arg_nonempty l IH H)
  | IH : Forall _ ?l, H : forallb _ ?l = true, E : h_vec h_prop ?l ++ _ = _ |- _ =>
    peelwith (tells_list h_prop _ _ _ prop_nonempty l IH H)
  | IH : Forall _ ?l, H : forallb _ ?l = true, E : h_vec h_sval ?l ++ _ = _ |- _ =>
    peelwith (tells_list h_sval _ _ _ sval_nonempty l IH H)
  end.

Lemma text_tells :
  (forall a, flat_text a = true -> t_text a = true -> tells h_text (blurred (text_eqb true) blur_text) t_text a)
  /\ (forall a, flat_hist a = true -> t_hist a = true -> tells h_hist (blurred (hist_eqb true) blur_hist) t_hist a)
  /\ (forall a, flat_arg a = true -> t_arg a = true -> tells h_arg (blurred (arg_eqb true) blur_arg) t_arg a).
Proof.
  apply text_all; intros; intros y s' t' B L E; try discriminate; destruct y.
  all: rewrite ?hh_text in *; cbn [h_hist h_arg] in E, L; assocs.
  all: try clash.
  all: cbn [flat_text flat_hist flat_arg t_text t_hist t_arg] in *; unfold blurred; cbn [blur_text blur_hist blur_arg]; qrwg;
    cbn [hist_eqb arg_eqb]; rewrite ?blurred_list; andbs.
  all: try samedisc; repeat first [peel1|peelih].
  all: rewrite ?andb_true_r; try (split; [reflexivity|assumption]).
Qed.

Lemma bool_nonempty x : h_bool x <> []. Proof. discriminate. Qed.
Lemma f32_nonempty x : h_f32 x <> []. Proof. discriminate. Qed.
Lemma int4_nonempty x : h_int 4 x <> []. Proof. discriminate. Qed.
Lemma tells_free {T} (f : T -> list byte) eq (N : forall x, f x <> []) (H : forall x, tells f eq anyb x) l :
  tells (h_vec f) (list_eqb eq) anyb l.
Proof.
  intros l' s t _ L E. refine (tells_vec f eq anyb l N _ l' s t _ L E); [|apply forallb_forall; reflexivity].
  apply Forall_forall. auto.
Qed.
Lemma tells_bytes l : True -> tells (h_vec (fun b => [b])) (list_eqb Byte.eqb) anyb l.
Proof. intros _. apply tells_free; [discriminate|apply tells_byte]. Qed.
Lemma tells_bools l : True -> tells (h_vec h_bool) (list_eqb Bool.eqb) anyb l.
Proof. intros _. apply tells_free; [discriminate|apply tells_bool]. Qed.
Definition t_pair (d : str * str) : bool := let '(a, b) := d in is_str a && is_str b.
Lemma tells_strs2 (l : list (str * str)) : forallb t_pair l = true ->
  tells (h_vec (fun d => h_str (fst d) ++ h_str (snd d))) (list_eqb (pair_eqb str_eqb str_eqb)) (forallb t_pair) l.
Proof.
  apply tells_each.
  - intros x E. apply app_eq_nil in E as [E _]. now apply str_nonempty in E.
  - intros [a b] H. unfold t_pair in H. andbs. apply tells_pair; now apply tells_str.
Qed.
Ltac peelvec := match goal with
  | E : h_vec (fun b => [b]) ?l ++ _ = _ |- _ => peelwith (tells_bytes l)
  | E : h_vec h_bool ?l ++ _ = _ |- _ => peelwith (tells_bools l)
  | E : h_vec h_str ?l ++ _ = _ |- _ => peelwith (tells_each h_str str_eqb is_str str_nonempty tells_str l)
  | E : h_vec (h_opt h_str) ?l ++ _ = _ |- _ => peelwith (tells_each (h_opt h_str) _ ois_str (opt_nonempty h_str) tells_ostr l)
  | E : h_vec h_f32 ?l ++ _ = _ |- _ => peelwith (tells_each h_f32 f32_eqb (u_ok 4) f32_nonempty tells_f32 l)
  | E : h_vec (h_int 4) ?l ++ _ = _ |- _ => peelwith (tells_each (h_int 4) Z.eqb (s_ok 4) int4_nonempty tells_s4 l)
  | E : h_vec _ ?l ++ _ = _ |- _ => peelwith (tells_strs2 l)
  end.

Section Tells.
Variable sep : property -> property -> bool.
Notation tp := (t_prop sep). Notation ts := (t_sval sep). Notation ta := (t_array sep).
Lemma prop_tells :
  (forall a, flat a = true -> tp a = true -> tells h_prop (blurred (prop_eqb true) blur) tp a)
  /\ (forall a, flat_sval a = true -> ts a = true -> tells h_sval (blurred (sval_eqb true) blur_sval) ts a)
  /\ (forall a, flat_array a = true -> ta a = true -> tells h_array (blurred (array_eqb true) blur_array) ta a)
  /\ (forall m : mapp, True).
Proof.
  pose proof (proj1 text_tells) as TT.
  apply prop_all; intros; try exact I; intros y s' t' B L E; try discriminate; destruct y.
  all: cbn [h_prop h_sval h_array] in E, L; assocs.
  all: try clash.
  all: try (match goal with E : h_disc (num_disc ?k) ++ _ = h_disc (num_disc ?j) ++ _ |- _ =>
      let D := fresh in assert (D : k = j) by (apply disc_split in E as [D _];
        [now apply num_disc_eq|apply num_disc_range|apply num_disc_range]); subst j
    | E : h_disc (fixed_disc ?k) ++ _ = h_disc (fixed_disc ?j) ++ _ |- _ =>
      let D := fresh in assert (D : k = j) by (apply disc_split in E as [D _];
        [now apply fixed_disc_eq|apply fixed_disc_range|apply fixed_disc_range]); subst j end).
  all: try (match goal with E : h_disc (if ?b then _ else _) ++ _ = _ |- _ => destruct b
      | E : _ = h_disc (if ?b then _ else _) ++ _ |- _ => destruct b end);
    try (match goal with E : _ = h_disc (if ?b then _ else _) ++ _ |- _ => destruct b end); try clash.
  all: try (match goal with E : h_disc (num_disc ?k) ++ _ = h_disc ?z ++ _ |- _ => is_ground z; destruct k
      | E : h_disc (fixed_disc ?k) ++ _ = h_disc ?z ++ _ |- _ => is_ground z; destruct k
      | E : h_disc ?z ++ _ = h_disc (num_disc ?k) ++ _ |- _ => is_ground z; destruct k
      | E : h_disc ?z ++ _ = h_disc (fixed_disc ?k) ++ _ |- _ => is_ground z; destruct k end; clash).
  all: cbn [flat flat_sval flat_array t_prop t_sval t_array] in *; unfold blurred; cbn [blur blur_sval blur_array]; qrwg;
    cbn [prop_eqb sval_eqb array_eqb]; rewrite ?blurred_list; andbs.
  all: try samedisc.
  all: try match goal with H : flat_text ?a = true, X : h_text ?a ++ _ = _ |- _ => pose proof (TT a) end.
  all: repeat first [peel1|peelvec|peelih].
  all: try match goal with |- context [num_same ?k ?k] => replace (num_same k k) with true by (symmetry; now apply numk_eq)
     | |- context [fixed_same ?k ?k] => replace (fixed_same k k) with true by (symmetry; now apply fixed_eq) end.
  all: rewrite ?andb_true_r; try (split; [reflexivity|assumption]).
Qed.

(** ** A map in last place *)
Lemma map_end {K V} (f : K -> list byte) (g : V -> list byte) keq veq (Q : K -> bool) (R : V -> bool) l :
  (forall x, f x <> []) ->
  Forall (fun e => tells f keq Q (fst e) /\ tells g veq R (snd e)) l ->
  forall l2, forallb (fun '(k, v) => Q k && R v) l2 = true -> len (h_map f g l) < big ->
  h_map f g l = h_map f g l2 -> map_eqb keq veq true l l2 = true.
Proof.
  intros N F l2 B L E. unfold map_eqb. revert l2 B L E.
  induction F as [|[k v] l [X Y] _ IH]; intros [|[k2 v2] l2] B L E; unfold h_map in *; cbn [flat_map entries_eqb fst snd forallb] in *.
  - reflexivity.
  - exfalso. symmetry in E. rewrite <- app_assoc in E. apply app_eq_nil in E as [E _]. exact (N _ E).
  - exfalso. rewrite <- app_assoc in E. apply app_eq_nil in E as [E _]. exact (N _ E).
  - andbs. rewrite <- !app_assoc in *.
    destruct (peel f keq Q k k2 _ _ X ltac:(assumption) L E) as (-> & E1 & L1).
    destruct (peel g veq R v v2 _ _ Y ltac:(assumption) L1 E1) as (-> & E2 & L2). now apply IH.
Qed.
Lemma entries_tell {K V} (f : K -> list byte) (g : V -> list byte) keq veq (Q : K -> bool) (R : V -> bool) l l2 :
  (forall x, f x <> []) -> (forall x, Q x = true -> tells f keq Q x) -> (forall x, R x = true -> tells g veq R x) ->
  forallb (fun '(k, v) => Q k && R v) l = true -> forallb (fun '(k, v) => Q k && R v) l2 = true ->
  len (h_map f g l) < big -> h_map f g l = h_map f g l2 -> map_eqb keq veq true l l2 = true.
Proof.
  intros N X Y A B L E. apply (map_end f g keq veq Q R l N); auto. apply Forall_forall. intros [k v] I. rewrite forallb_forall in A.
  specialize (A _ I). cbn beta iota in A. andbs. cbn [fst snd]. auto.
Qed.
Lemma end_tells {T} (f : T -> list byte) eq Q a b : tells f eq Q a -> Q b = true -> len (f a) < big -> f a = f b -> eq a b = true.
Proof. intros X B L E. apply (X b [] []); auto; now rewrite !app_nil_r. Qed.

Lemma blurred_values {K V} keq (veq : V -> V -> bool) g (l : list (K * V)) : forall l',
  map_eqb keq veq true (map (fun e => (fst e, g (snd e))) l) (map (fun e => (fst e, g (snd e))) l') = map_eqb keq (blurred veq g) true l l'.
Proof. unfold map_eqb. induction l as [|[k v] l IH]; intros [|[k' v'] l']; cbn [map entries_eqb fst snd]; try reflexivity. now rewrite IH. Qed.
Lemma blurred_pairs {K V} (keq : K -> K -> bool) (veq : V -> V -> bool) f g (l : list (K * V)) : forall l',
  map_eqb keq veq true (map (fun e => (f (fst e), g (snd e))) l) (map (fun e => (f (fst e), g (snd e))) l')
  = map_eqb (blurred keq f) (blurred veq g) true l l'.
Proof. unfold map_eqb. induction l as [|[k v] l IH]; intros [|[k' v'] l']; cbn [map entries_eqb fst snd]; try reflexivity. now rewrite IH. Qed.
Lemma tells_ext {T} (f : T -> list byte) eq eq' Q a : (forall x y, eq x y = eq' x y) -> tells f eq Q a -> tells f eq' Q a.
Proof. intros X H b s t B L E. rewrite <- X. exact (H b s t B L E). Qed.

Lemma flat_values (l : list (str * property)) : forallb (fun e => flat (snd e)) l = true ->
  forallb (fun '(k, p) => is_str k && tp p) l = true ->
  Forall (fun e => tells h_str str_eqb is_str (fst e) /\ tells h_prop (blurred (prop_eqb true) blur) tp (snd e)) l.
Proof.
  intros F A. rewrite forallb_forall in F, A. apply Forall_forall. intros [k p] I.
  specialize (F _ I). specialize (A _ I). cbn beta iota in A. cbn [snd] in F. andbs. cbn [fst snd].
  split; [now apply tells_str|]. now apply prop_tells.
Qed.
Lemma flat_pairs (l : list (property * property)) : forallb (fun e => flat (fst e) && flat (snd e)) l = true ->
  forallb (fun '(k, p) => tp k && tp p) l = true ->
  Forall (fun e => tells h_prop (blurred (prop_eqb true) blur) tp (fst e) /\ tells h_prop (blurred (prop_eqb true) blur) tp (snd e)) l.
Proof.
  intros F A. rewrite forallb_forall in F, A. apply Forall_forall. intros [k p] I.
  specialize (F _ I). specialize (A _ I). cbn beta iota in A. cbn [fst snd] in F. andbs. cbn [fst snd].
  split; now apply prop_tells.
Qed.
Lemma flat_fields (l : list (str * list property)) : forallb (fun e => forallb flat (snd e)) l = true ->
  forallb (fun '(k, ps) => is_str k && forallb tp ps) l = true ->
  Forall (fun e => tells h_str str_eqb is_str (fst e)
    /\ tells (h_vec h_prop) (blurred (list_eqb (prop_eqb true)) (map blur)) (forallb tp) (snd e)) l.
Proof.
  intros F A. rewrite forallb_forall in F, A. apply Forall_forall. intros [k p] I.
  specialize (F _ I). specialize (A _ I). cbn beta iota in A. cbn [fst snd] in F. andbs. cbn [fst snd].
  split; [now apply tells_str|].
  apply (tells_ext _ (list_eqb (blurred (prop_eqb true) blur))); [intros; symmetry; apply blurred_list|].
  refine (tells_list h_prop (blurred (prop_eqb true) blur) tp flat prop_nonempty p _ F _); [|assumption].
  apply Forall_forall. intros x _. apply prop_tells.
Qed.
Lemma flat_args (l : list (str * farg)) : forallb (fun e => flat_arg (snd e)) l = true ->
  forallb (fun '(k, v) => is_str k && t_arg v) l = true ->
  Forall (fun e => tells h_str str_eqb is_str (fst e) /\ tells h_arg (blurred (arg_eqb true) blur_arg) t_arg (snd e)) l.
Proof.
  intros F A. rewrite forallb_forall in F, A. apply Forall_forall. intros [k p] I.
  specialize (F _ I). specialize (A _ I). cbn beta iota in A. cbn [snd] in F. andbs. cbn [fst snd].
  split; [now apply tells_str|]. now apply text_tells.
Qed.
Lemma s4_int : forall z, s_ok 4 z = true -> tells (h_int 4) Z.eqb (s_ok 4) z.
Proof. exact tells_s4. Qed.
Lemma keyed_bools (l : list (str * bool)) : forallb (fun '(k, _) => is_str k) l = true ->
  forallb (fun '(k, v) => is_str k && anyb v) l = true.
Proof. rewrite !forallb_forall. intros H [k v] I. specialize (H _ I). cbn beta iota in *. now rewrite H. Qed.

Lemma map_ends a b : ends_flat_map a = true -> t_map sep a = true -> t_map sep b = true -> len (h_mapp a) < big ->
  h_mapp a = h_mapp b -> mapp_eqb true (blur_map a) (blur_map b) = true.
Proof.
  intros F A B L E.
  destruct a as [k l|k l|k t l|l|kt vt fl l], b as [k' l'|k' l'|k' t' l'|l'|kt' vt' fl' l'];
    cbn [h_mapp] in E, L.
  all: try (exfalso; try destruct k; try destruct k'; cbn [keyk_disc Z.add] in E; revert E; apply disc_clash; reflexivity).
  all: try (match goal with |- mapp_eqb _ (blur_map (_ ?j _)) (blur_map (_ ?i _)) = _ => assert (i = j) by
     (destruct i, j; try reflexivity; cbn [keyk_disc] in E; exfalso; revert E; apply disc_clash; reflexivity); subst i
   | |- mapp_eqb _ (blur_map (_ ?j _ _)) (blur_map (_ ?i _ _)) = _ => assert (i = j) by
     (destruct i, j; try reflexivity; cbn [keyk_disc] in E; exfalso; revert E; apply disc_clash; reflexivity); subst i end).
  all: cbn [ends_flat_map t_map] in *; cbn [blur_map]; qrwg; rewrite ?blurred_values, ?blurred_pairs; andbs; samedisc.
  all: try (replace (keyk_same k k) with true by (symmetry; now apply keyk_eq)); cbn [andb].
  - eapply (entries_tell h_str h_bool str_eqb Bool.eqb is_str anyb); eauto using str_nonempty, tells_str, tells_bool, keyed_bools.
  - eapply (entries_tell h_str (h_int 4) str_eqb Z.eqb is_str (s_ok 4)); eauto using str_nonempty, tells_str, s4_int.
  - peel1. eapply map_end; eauto using str_nonempty, flat_values.
  - eapply (entries_tell h_str (h_opt h_str) str_eqb (opt_eqb str_eqb) is_str ois_str); eauto using str_nonempty, tells_str, tells_ostr.
  - peel1. peel1. peel1. cbn [andb]. eapply map_end; eauto using prop_nonempty, flat_pairs.
Qed.
Lemma sval_ends a b : ends_flat_sval a = true -> ts a = true -> ts b = true -> len (h_sval a) < big ->
  h_sval a = h_sval b -> sval_eqb true (blur_sval a) (blur_sval b) = true.
Proof.
  intros F A B L E. destruct (flat_sval a) eqn:G.
  { apply (end_tells h_sval (blurred (sval_eqb true) blur_sval) ts); auto. now apply prop_tells. }
  destruct a as [x n|g|l|l]; try discriminate. destruct b as [x n|g|l'|l']; cbn [h_sval] in E, L.
  - exfalso; destruct x; revert E; apply disc_clash; reflexivity.
  - clash.
  - clash.
  - samedisc. cbn [blur_sval]. rewrite q_scustom, blurred_values. cbn [ends_flat_sval t_sval] in *. andbs.
    eapply map_end; eauto using str_nonempty, flat_fields.
Qed.
Lemma text_ends a b : ends_flat_text a = true -> t_text a = true -> t_text b = true -> len (h_text a) < big ->
  h_text a = h_text b -> text_eqb true (blur_text a) (blur_text b) = true.
Proof.
  intros F A B L E. destruct (flat_text a) eqn:G.
  { apply (end_tells h_text (blurred (text_eqb true) blur_text) t_text); auto. now apply text_tells. }
  destruct a as [f h]. destruct h as [| | |t l| |t l| | | | | | | | ]; cbn [ends_flat_text] in F; try congruence.
  all: destruct b as [f' h']; rewrite !hh_text in *; cbn [t_text] in *; andbs.
  all: match goal with E : h_int 4 ?a ++ _ = _ |- _ => peelwith (tells_u4 a) end; qrwg.
  all: destruct h'; cbn [h_hist] in *; try clash.
  all: try (match goal with E : _ = h_disc 0 |- _ => rewrite <- (app_nil_r (h_disc 0)) in E; clash end).
  all: samedisc; cbn [t_hist] in *; andbs; pose proof (proj1 text_tells t); cbn [blur_text blur_hist]; qrwg; rewrite ?blurred_values; peelih; cbn [andb].
  all: repeat match goal with Y : (_ =? _) = true |- _ => rewrite Y; clear Y end; cbn [andb].
  all: eapply map_end; eauto using str_nonempty, flat_args.
Qed.
Lemma prop_ends a b : ends_flat a = true -> tp a = true -> tp b = true -> len (h_prop a) < big ->
  h_prop a = h_prop b -> prop_eqb true (blur a) (blur b) = true.
Proof.
  intros F A B L E. destruct (flat a) eqn:G.
  { apply (end_tells h_prop (blurred (prop_eqb true) blur) tp); auto. now apply prop_tells. }
  destruct a as [k z|x|n v|n v|v|t|i v|v|o f|i l|l o|n r|a|t f l|m|g t v|v]; cbn [ends_flat] in F; try congruence.
  all: destruct b as [k' z'|x'|n' v'|n' v'|v'|t'|i' v'|v'|o' f'|i' l'|l' o'|n' r'|a'|t' f' l'|m'|g' t' v'|v'];
    cbn [h_prop] in E, L; try clash;
    try (exfalso; try destruct k'; try destruct i'; revert E; apply disc_clash; reflexivity).
  all: samedisc; cbn [t_prop] in *; andbs; cbn [blur]; qrwg.
  - now apply text_ends.
  - now apply map_ends.
  - peel1. peel1. cbn [andb]. now apply sval_ends.
  - now apply sval_ends.
Qed.
End Tells.
