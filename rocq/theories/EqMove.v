(** Two values are equal exactly if, after moving entries of maps, they are the same (C32). *)
From Coq Require Import ZArith List Bool String Lia ZifyBool ZifyNat Permutation.
From Verif Require Import Base Str Types Versions BaseFacts Spec Decode Induct EqFacts EqSym EqSpec EqLevel UniqThm.
Import ListNotations.
Open Scope Z_scope.

(** ** Matching the entries of two maps *)
Lemma matching {A B} (R : A -> B -> Prop) l : forall l',
  excl (fun x x' => exists y, R x y /\ R x' y) l -> List.length l = List.length l' ->
  (forall e, In e l -> exists e', In e' l' /\ R e e') ->
  exists l'', Permutation l'' l' /\ Forall2 R l l''.
Proof.
  induction l as [|x l IH]; intros l' D L H.
  - destruct l'; [|discriminate]. exists []. split; constructor.
  - destruct (H x (or_introl eq_refl)) as (y & I & E). apply in_split in I as (a & b & ->). destruct D as [D D'].
    destruct (IH (a ++ b)) as (l'' & P & F); [assumption| | |].
    + rewrite !app_length in *. cbn [List.length] in L. lia.
    + intros e He. destruct (H e (or_intror He)) as (e' & I & Ee). exists e'. split; [|exact Ee].
      apply in_app_or in I as [I|[<-|I]]; [apply in_or_app; now left| |apply in_or_app; now right].
      exfalso. apply (D e He). eauto.
    + exists (y :: l''). split; [|now constructor]. rewrite P. apply Permutation_middle.
Qed.
Lemma apart {K V} (keq : K -> K -> bool) (veq : V -> V -> bool) l :
  (forall x y z, keq x y = true -> keq y z = true -> keq x z = true) ->
  Forall (fun e => forall y, keq (fst e) y = true -> keq y (fst e) = true) l -> distinct keq l = true ->
  excl (fun x x' => exists y, (keq (fst x) (fst y) = true /\ veq (snd x) (snd y) = true)
    /\ (keq (fst x') (fst y) = true /\ veq (snd x') (snd y) = true)) l.
Proof.
  intros T F D. induction F as [|[k v] r F1 F IH]; cbn [excl]; auto.
  cbn [distinct] in D. andbs. split; [|auto].
  intros y I (z & (A & _) & B & _). rewrite forallb_forall in *.
  match goal with H : forall _, In _ r -> negb _ = true |- _ => specialize (H y I) end.
  rewrite (T (fst y) (fst z) k) in *; auto; discriminate.
Qed.
Lemma list_2 {A} (f : A -> A -> bool) l l' : Forall2 (fun a b => f a b = true) l l' -> list_eqb f l l' = true.
Proof. apply list_eqb_forall2. Qed.
Lemma entries_2 {K V} (keq : K -> K -> bool) (veq : V -> V -> bool) l l' :
  Forall2 (fun e e' => keq (fst e) (fst e') = true /\ veq (snd e) (snd e') = true) l l' -> map_eqb keq veq true l l' = true.
Proof.
  unfold map_eqb. induction 1 as [|[k v] [k' v'] l l' [A B] _ IH]; cbn [entries_eqb fst snd] in *; [reflexivity|]. now rewrite A, B, IH.
Qed.
Lemma forall2_perm {A B} (R : A -> B -> Prop) l2 l2' : Permutation l2 l2' -> forall l1, Forall2 R l1 l2 ->
  exists l1', Permutation l1 l1' /\ Forall2 R l1' l2'.
Proof.
  induction 1 as [|x l l' _ IH|x y l|l l' l'' _ IH1 _ IH2]; intros l1 F.
  - inversion F; subst. exists []. split; constructor.
  - inversion F as [|a ? r ? Ha Hr]; subst. destruct (IH _ Hr) as (r' & P & G). exists (a :: r'). split; constructor; auto.
  - inversion F as [|a ? r ? Ha Hr]; subst. inversion Hr as [|b ? r' ? Hb Hr']; subst.
    exists (b :: a :: r'). split; [constructor|constructor; auto].
  - destruct (IH1 _ F) as (m & P & G). destruct (IH2 _ G) as (m' & P' & G'). exists m'. split; [now transitivity m|exact G'].
Qed.
Lemma forall2_split {A B C} (P : A -> B -> Prop) (Q : B -> C -> Prop) (R : A -> C -> Prop) l l' :
  Forall (fun a => forall c, R a c -> exists b, P a b /\ Q b c) l -> Forall2 R l l' -> exists m, Forall2 P l m /\ Forall2 Q m l'.
Proof.
  intros F H. induction H as [|a c l l' H _ IH].
  - exists []. split; constructor.
  - inversion F as [|? ? Ha Hl]; subst. destruct (Ha c H) as (b & X & Y). destruct (IH Hl) as (m & Z & W).
    exists (b :: m). split; constructor; auto.
Qed.
Lemma list_move {A} (e s : A -> A -> bool) (M : A -> A -> Prop) l :
  Forall (fun a => forall c, e a c = true -> exists b, M a b /\ s b c = true) l ->
  forall l', list_eqb e l l' = true -> exists m, Forall2 M l m /\ list_eqb s m l' = true.
Proof.
  intros F l' H. apply list_eqb_forall2 in H.
  destruct (forall2_split M (fun b c => s b c = true) _ l l' F H) as (m & X & Y). exists m. split; [exact X|now apply list_eqb_forall2].
Qed.
Lemma map_move {K V} (keq ks : K -> K -> bool) (veq vs : V -> V -> bool) (M : K * V -> K * V -> Prop) l :
  (forall x y z, keq x y = true -> keq y z = true -> keq x z = true) ->
  Forall (fun e => forall y, keq (fst e) y = true -> keq y (fst e) = true) l -> distinct keq l = true ->
  Forall (fun e => forall c, keq (fst e) (fst c) = true /\ veq (snd e) (snd c) = true ->
    exists b, M e b /\ ks (fst b) (fst c) = true /\ vs (snd b) (snd c) = true) l ->
  forall l', map_eqb keq veq false l l' = true -> exists m, shuffled M l m /\ map_eqb ks vs true m l' = true.
Proof.
  intros T S D F l' H. unfold map_eqb in H at 1. apply andb_true_iff in H as [L H]. rewrite submap_iff in H.
  destruct (matching _ l l' (apart keq veq l T S D) ltac:(unfold len in L; lia) H) as (l'' & P & G).
  destruct (forall2_split M (fun b c => ks (fst b) (fst c) = true /\ vs (snd b) (snd c) = true) _ l l'' F G) as (m & X & Y).
  destruct (forall2_perm _ _ _ P m Y) as (m' & P' & Z). exists m'. split; [econstructor; eassumption|now apply entries_2].
Qed.
(** ** Back *)
Lemma map_back {K V} (keq : K -> K -> bool) (veq : V -> V -> bool) (M : K * V -> K * V -> Prop) l l' :
  Forall (fun e => forall c, M e c -> keq (fst e) (fst c) = true /\ veq (snd e) (snd c) = true) l ->
  shuffled M l l' -> map_eqb keq veq false l l' = true.
Proof.
  intros F [m G P]. unfold map_eqb. apply andb_true_iff. split.
  - pose proof (forall2_length _ _ _ G). apply Permutation_length in P. unfold len. lia.
  - apply submap_iff. intros e He. assert (X : exists c, In c m /\ M e c).
    { clear - G He. induction G as [|a b l m H _ IH]; [destruct He|]. destruct He as [->|He].
      - exists b. split; [now left|exact H].
      - destruct (IH He) as (c & I & X). exists c. split; [now right|exact X]. }
    destruct X as (c & I & X). exists c. split; [eapply Permutation_in; eassumption|]. rewrite Forall_forall in F. now apply F.
Qed.
Lemma list_back {A} (f : A -> A -> bool) (M : A -> A -> Prop) l : Forall (fun a => forall c, M a c -> f a c = true) l ->
  forall l', Forall2 M l l' -> list_eqb f l l' = true.
Proof.
  intros F l' H. apply list_eqb_forall2. induction H; constructor; inversion F; auto.
Qed.

Lemma text_back :
  (forall a b, moved_text a b -> text_eqb false a b = true)
  /\ (forall a b, moved_hist a b -> hist_eqb false a b = true)
  /\ (forall a b, moved_arg a b -> arg_eqb false a b = true).
Proof.
  assert (N : forall (l : list (str * farg)) l', Forall (fun e => forall b, moved_arg (snd e) b -> arg_eqb false (snd e) b = true) l ->
    shuffled (fun e e' => fst e = fst e' /\ moved_arg (snd e) (snd e')) l l' -> map_eqb str_eqb (arg_eqb false) false l l' = true).
  { intros l l' F. apply map_back. eapply Forall_impl; [|exact F]. cbv beta. intros e He c [-> X]. split; [apply str_eqb_refl|auto]. }
  apply text_all; intros; match goal with H : moved_text _ _ |- _ => inversion H | H : moved_hist _ _ |- _ => inversion H | H : moved_arg _ _ |- _ => inversion H end;
    subst; try apply text_refl; qrwg; sub2;
    auto using Z.eqb_refl, ostr_refl, str_eqb_refl; try (eapply list_back; eassumption); qrefl1.
Qed.
Lemma prop_back :
  (forall a b, moved a b -> prop_eqb false a b = true)
  /\ (forall a b, moved_sval a b -> sval_eqb false a b = true)
  /\ (forall a b, moved_array a b -> array_eqb false a b = true)
  /\ (forall a b, moved_map a b -> mapp_eqb false a b = true).
Proof.
  pose proof (proj1 text_back) as TB.
  assert (P : forall K V (keq : K -> K -> bool) (veq : V -> V -> bool) l l', (forall k, keq k k = true) -> (forall v, veq v v = true) ->
    Permutation l l' -> map_eqb keq veq false l l' = true).
  { intros K V keq veq l l' R S H. apply (map_back keq veq eq).
    - apply Forall_any. intros e c <-. auto.
    - econstructor; [|exact H]. clear. induction l; constructor; auto. }
  apply prop_all; intros; match goal with H : moved _ _ |- _ => inversion H | H : moved_sval _ _ |- _ => inversion H
      | H : moved_array _ _ |- _ => inversion H | H : moved_map _ _ |- _ => inversion H end;
    subst; try apply prop_refl; qrwg; sub2;
    auto using Z.eqb_refl, ostr_refl, str_eqb_refl, guid_eqb_refl, keyk_refl, Bool.eqb_reflx; try (eapply list_back; eassumption).
  - eapply map_back; [|eassumption]. eapply Forall_impl; [|eassumption]. cbv beta. intros e He c [-> X].
    split; [apply str_eqb_refl|]. eapply list_back; eassumption.
  - eapply map_back; [|eassumption]. eapply Forall_impl; [|eassumption]. cbv beta. intros e He c [-> X].
    split; [apply str_eqb_refl|]. auto.
  - eapply map_back; [|eassumption]. eapply Forall_impl; [|eassumption]. cbv beta. intros e [A B] c [X Y]. auto.
Qed.

(** ** There *)
Lemma str_move (e b : str) : str_eqb e b = true -> e = b. Proof. apply str_eqb_eq. Qed.
Lemma text_move :
  (forall a, uniq_text a = true -> forall b, text_eqb false a b = true -> exists c, moved_text a c /\ text_eqb true c b = true)
  /\ (forall a, uniq_hist a = true -> forall b, hist_eqb false a b = true -> exists c, moved_hist a c /\ hist_eqb true c b = true)
  /\ (forall a, uniq_arg a = true -> forall b, arg_eqb false a b = true -> exists c, moved_arg a c /\ arg_eqb true c b = true).
Proof.
  assert (N : forall (l : list (str * farg)), Forall (fun e => uniq_arg (snd e) = true -> forall b, arg_eqb false (snd e) b = true ->
      exists c, moved_arg (snd e) c /\ arg_eqb true c b = true) l ->
    distinct str_eqb l = true -> forallb (fun e => uniq_arg (snd e)) l = true ->
    forall l', map_eqb str_eqb (arg_eqb false) false l l' = true ->
    exists m, shuffled (fun e e' => fst e = fst e' /\ moved_arg (snd e) (snd e')) l m /\ map_eqb str_eqb (arg_eqb true) true m l' = true).
  { intros l F D U. apply map_move; [apply str_trans|apply Forall_any; intros; now apply str_symT|exact D|].
    apply (Forall_impb _ (fun e => uniq_arg (snd e))); [|exact U]. eapply Forall_impl; [|exact F]. cbv beta.
    intros e He Ue c [A B]. destruct (He Ue _ B) as (v & X & Y). exists (fst e, v). cbn [fst snd]. auto. }
  apply text_all; intros; match goal with H : _ false _ ?b = true |- _ => is_var b; destruct b; try discriminate H end;
    try (eexists; split; [constructor|eassumption]; fail);
    match goal with H : _ false _ _ = true |- _ => qrw H end;
    rewrite ?u_named, ?u_argument, ?u_ordered in *; cbn [uniq_text uniq_hist uniq_arg] in *; andbs.
  - destruct (H ltac:(assumption) _ ltac:(eassumption)) as (c & X & Y). exists (FText f c). split; [now constructor|]. rewrite q_text. sub2; auto.
  - destruct (H ltac:(assumption) _ ltac:(eassumption)) as (c & X & Y).
    destruct (N l H0 ltac:(assumption) ltac:(assumption) _ ltac:(eassumption)) as (m & Z & W).
    exists (HNamed c m). split; [now constructor|]. qrwg. sub2; auto.
  - destruct (H ltac:(assumption) _ ltac:(eassumption)) as (c & X & Y).
    destruct (list_move (arg_eqb false) (arg_eqb true) moved_arg l (Forall_impb _ _ l H0 ltac:(assumption)) _ ltac:(eassumption)) as (m & Z & W).
    exists (HOrdered c m). split; [now constructor|]. qrwg. sub2; auto.
  - destruct (H ltac:(assumption) _ ltac:(eassumption)) as (c & X & Y).
    destruct (N l H0 ltac:(assumption) ltac:(assumption) _ ltac:(eassumption)) as (m & Z & W).
    exists (HArgument c m). split; [now constructor|]. qrwg. sub2; auto.
  - destruct (H ltac:(assumption) _ ltac:(eassumption)) as (w & X & Y). exists (HNumber w o c). split; [now constructor|]. qrwg. sub2; auto.
  - destruct (H ltac:(assumption) _ ltac:(eassumption)) as (w & X & Y). exists (HPercent w o c). split; [now constructor|]. qrwg. sub2; auto.
  - destruct (H ltac:(assumption) _ ltac:(eassumption)) as (w & X & Y). exists (HCurrency d w o c). split; [now constructor|]. qrwg. sub2; auto.
  - destruct (H ltac:(assumption) _ ltac:(eassumption)) as (w & X & Y). exists (HTransform w x). split; [now constructor|]. qrwg. sub2; auto.
  - destruct (H ltac:(assumption) _ ltac:(eassumption)) as (w & X & Y). exists (AText w). split; [now constructor|]. qrwg. auto.
Qed.
Lemma prop_move :
  (forall a, uniq a = true -> forall b, prop_eqb false a b = true -> exists c, moved a c /\ prop_eqb true c b = true)
  /\ (forall a, uniq_sval a = true -> forall b, sval_eqb false a b = true -> exists c, moved_sval a c /\ sval_eqb true c b = true)
  /\ (forall a, uniq_array a = true -> forall b, array_eqb false a b = true -> exists c, moved_array a c /\ array_eqb true c b = true)
  /\ (forall a, uniq_map a = true -> forall b, mapp_eqb false a b = true -> exists c, moved_map a c /\ mapp_eqb true c b = true).
Proof.
  assert (SP : forall V (veq : V -> V -> bool) (l : list (str * V)), distinct str_eqb l = true ->
    forall l', map_eqb str_eqb veq false l l' = true -> exists m, Permutation l m /\ map_eqb str_eqb veq true m l' = true).
  { intros V veq l D l' H.
    destruct (map_move str_eqb str_eqb veq veq eq l str_trans ltac:(apply Forall_any; intros; now apply str_symT) D) with (l' := l') as (m & [m' E P] & Y).
    - apply Forall_any. intros e c X. exists e. auto.
    - exact H.
    - exists m. split; [|exact Y]. replace l with m'; [exact P|]. clear - E. induction E; congruence. }
  apply prop_all; intros; match goal with H : _ false _ ?b = true |- _ => is_var b; destruct b; try discriminate H end;
    try (eexists; split; [constructor|eassumption]; fail);
    match goal with H : _ false _ _ = true |- _ => qrw H end;
    rewrite ?u_pset, ?u_scustom, ?u_astructs, ?u_aprops, ?u_mprop, ?u_mgen in *; cbn [uniq uniq_sval uniq_array uniq_map] in *; andbs.
  - destruct (proj1 text_move _ ltac:(eassumption) _ ltac:(eassumption)) as (c & X & Y). exists (PText c). split; [now constructor|]. qrwg. auto.
  - destruct (H ltac:(assumption) _ ltac:(eassumption)) as (c & X & Y). exists (PArray c). split; [now constructor|]. qrwg. auto.
  - destruct (list_move (prop_eqb false) (prop_eqb true) moved l (Forall_impb _ _ l H ltac:(assumption)) _ ltac:(eassumption)) as (m & Z & W).
    exists (PSet t f m). split; [now constructor|]. qrwg. sub2; auto.
  - destruct (H ltac:(assumption) _ ltac:(eassumption)) as (c & X & Y). exists (PMap c). split; [now constructor|]. qrwg. auto.
  - destruct (H ltac:(assumption) _ ltac:(eassumption)) as (c & X & Y). exists (PStruct g t c). split; [now constructor|]. qrwg. sub2; auto.
  - destruct (H ltac:(assumption) _ ltac:(eassumption)) as (c & X & Y). exists (PSValue c). split; [now constructor|]. qrwg. auto.
  - destruct (map_move str_eqb str_eqb (list_eqb (prop_eqb false)) (list_eqb (prop_eqb true))
      (fun e e' => fst e = fst e' /\ Forall2 moved (snd e) (snd e')) l str_trans ltac:(apply Forall_any; intros; now apply str_symT) ltac:(assumption))
      with (l' := l0) as (m & X & Y); [|assumption|].
    + apply (Forall_impb _ (fun e => forallb uniq (snd e))); [|assumption]. eapply Forall_impl; [|exact H]. cbv beta.
      intros e He Ue c [A B].
      destruct (list_move (prop_eqb false) (prop_eqb true) moved (snd e) (Forall_impb _ _ _ He Ue) _ B) as (v & X & Y).
      exists (fst e, v). cbn [fst snd]. auto.
    + exists (SCustom m). split; [now constructor|]. qrwg. auto.
  - destruct (list_move (sval_eqb false) (sval_eqb true) moved_sval l (Forall_impb _ _ l H ltac:(assumption)) _ ltac:(eassumption)) as (m & Z & W).
    exists (AStructs f t g m). split; [now constructor|]. qrwg. sub2; auto.
  - destruct (list_move (prop_eqb false) (prop_eqb true) moved l (Forall_impb _ _ l H ltac:(assumption)) _ ltac:(eassumption)) as (m & Z & W).
    exists (AProps t m). split; [now constructor|]. qrwg. sub2; auto.
  - destruct (SP _ Bool.eqb l ltac:(assumption) _ ltac:(eassumption)) as (m & X & Y). exists (MBool k m). split; [now constructor|]. qrwg. sub2; auto.
  - destruct (SP _ Z.eqb l ltac:(assumption) _ ltac:(eassumption)) as (m & X & Y). exists (MInt k m). split; [now constructor|]. qrwg. sub2; auto.
  - destruct (map_move str_eqb str_eqb (prop_eqb false) (prop_eqb true)
      (fun e e' => fst e = fst e' /\ moved (snd e) (snd e')) l str_trans ltac:(apply Forall_any; intros; now apply str_symT) ltac:(assumption))
      with (l' := l0) as (m & X & Y); [|assumption|].
    + apply (Forall_impb _ (fun e => uniq (snd e))); [|assumption]. eapply Forall_impl; [|exact H]. cbv beta.
      intros e He Ue c [A B]. destruct (He Ue _ B) as (v & X & Y). exists (fst e, v). cbn [fst snd]. auto.
    + exists (MProp k vt m). split; [now constructor|]. qrwg. sub2; auto.
  - destruct (SP _ (opt_eqb str_eqb) l ltac:(assumption) _ ltac:(eassumption)) as (m & X & Y). exists (MStrStr m). split; [now constructor|]. qrwg. auto.
  - match goal with U : forallb _ l = true |- _ => pose proof U as UU end.
    destruct (map_move (prop_eqb false) (prop_eqb true) (prop_eqb false) (prop_eqb true)
      (fun e e' => moved (fst e) (fst e') /\ moved (snd e) (snd e')) l) with (l' := l0) as (m & X & Y);
      [exact (proj1 (prop_trans false))| |assumption| |assumption|].
    + apply (Forall_impb _ (fun e => uniq (fst e) && uniq (snd e))); [|exact UU]. apply Forall_any. intros e Ue y. andbs.
      now apply (proj1 (prop_sym false)).
    + apply (Forall_impb _ (fun e => uniq (fst e) && uniq (snd e))); [|exact UU]. eapply Forall_impl; [|exact H]. cbv beta.
      intros e [He Hf] Ue c [A B]. andbs. destruct (He ltac:(assumption) _ A) as (k & X & Y), (Hf ltac:(assumption) _ B) as (v & Z & W).
      exists (k, v). cbn [fst snd]. auto.
    + exists (MGen kt vt f m). split; [now constructor|]. qrwg. sub2; auto.
Qed.
Lemma eqv_moved a b : uniq a = true -> (eqv a b = true <-> exists c, moved a c /\ level c = level b).
Proof.
  intros U. split.
  - intros H. destruct (proj1 prop_move a U b H) as (c & M & S). exists c. split; [exact M|]. now apply same_level.
  - intros (c & M & S). apply (proj1 (prop_trans false) a c b); [now apply (proj1 prop_back)|].
    apply same_level in S. now apply (proj1 prop_mono).
Qed.
