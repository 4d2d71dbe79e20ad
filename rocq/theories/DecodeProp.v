(** Reading back what a writer emits: properties and files. *)
From Coq Require Import ZArith List Bool String Lia ZifyBool ZifyNat.
From Verif Require Import Base Str Types Versions Text Props File Spec BaseFacts StrFacts Decode KindFacts.
Import ListNotations.
Open Scope Z_scope.

Lemma seqs_map {A B} (f : B -> out) (g : A -> B) l : seqs f (map g l) = seqs (fun a => f (g a)) l.
Proof. induction l; cbn; congruence. Qed.
Lemma seqs_ext {A} (f g : A -> out) l : (forall a, In a l -> f a = g a) -> seqs f l = seqs g l.
Proof.
  induction l as [|a l IH]; intros H; cbn; [reflexivity|].
  rewrite (H a) by now left. rewrite IH; [reflexivity|]. intros. apply H. now right.
Qed.
Lemma seqs_app {A} (f : A -> out) l1 l2 x n : seqs f (l1 ++ l2) = Ok (x, n) <->
  exists x1 n1 x2 n2, seqs f l1 = Ok (x1, n1) /\ seqs f l2 = Ok (x2, n2)
    /\ x = x1 ++ x2 /\ n = n1 + n2.
Proof.
  revert x n. induction l1 as [|a l1 IH]; intros x n; cbn [seqs app].
  - split.
    + intros H. exists [], 0, x, n. auto.
    + intros (x1 & n1 & x2 & n2 & E1 & E2 & -> & ->). injection E1 as <- <-. exact E2.
  - split.
    + intros H. apply seq_ok in H as (y1 & m1 & y2 & m2 & E1 & E2 & -> & ->).
      apply IH in E2 as (x1 & n1 & x2 & n2 & E2 & E3 & -> & ->).
      exists (y1 ++ x1), (m1 + n1), x2, n2. rewrite E1, E2. cbn. rewrite app_assoc, Z.add_assoc. auto.
    + intros (x1 & n1 & x2 & n2 & E1 & E2 & -> & ->).
      apply seq_ok in E1 as (y1 & m1 & y2 & m2 & E1 & E3 & -> & ->).
      rewrite E1. assert (H : seqs f (l1 ++ l2) = Ok (y2 ++ x2, m2 + n2)).
      { apply IH. exists y2, m2, x2, n2. auto. }
      rewrite H. cbn. now rewrite app_assoc, Z.add_assoc.
Qed.
Lemma seqs_len {A} (f : A -> out) (k : Z) l x n :
  (forall a b m, In a l -> f a = Ok (b, m) -> len b = k) -> seqs f l = Ok (x, n) ->
  len x = k * len l.
Proof.
  revert x n. induction l as [|a l IH]; intros x n H E; cbn [seqs] in E.
  - injection E as <- <-. change (len (@nil byte)) with 0; change (len (@nil A)) with 0; clear; lia.
  - apply seq_ok in E as (y1 & m1 & y2 & m2 & E1 & E2 & -> & ->).
    rewrite len_app, len_cons. rewrite (IH y2 m2); auto.
    + rewrite (H a y1 m1); auto; [|now left]. lia.
    + intros; eapply H; eauto. now right.
Qed.
Lemma seqs_len_ge {A} (f : A -> out) (k : Z) l x n :
  (forall a b m, In a l -> f a = Ok (b, m) -> k <= len b) -> seqs f l = Ok (x, n) ->
  k * len l <= len x.
Proof.
  revert x n. induction l as [|a l IH]; intros x n H E; cbn [seqs] in E.
  - injection E as <- <-. change (len (@nil byte)) with 0; change (len (@nil A)) with 0; clear; lia.
  - apply seq_ok in E as (y1 & m1 & y2 & m2 & E1 & E2 & -> & ->).
    rewrite len_app, len_cons. specialize (IH y2 m2).
    assert (k * len l <= len y2). { apply IH; auto. intros; eapply H; eauto. now right. }
    assert (k <= len y1) by (eapply H; eauto; now left). lia.
Qed.
Lemma seqs_in {A} (f : A -> out) l x n a : seqs f l = Ok (x, n) -> In a l ->
  exists b m, f a = Ok (b, m) /\ len b <= len x.
Proof.
  revert x n. induction l as [|a' l IH]; intros x n E []; cbn [seqs] in E;
    apply seq_ok in E as (y1 & m1 & y2 & m2 & E1 & E2 & -> & ->); rewrite len_app.
  - subst a'. exists y1, m1. pose proof (len_nonneg y2). split; auto. lia.
  - destruct (IH _ _ E2 H) as (b & m & ? & ?). exists b, m. pose proof (len_nonneg y1). split; auto. lia.
Qed.
Lemma opt_map_map {A B} (f : B -> option A) (g : A -> B) l :
  (forall a, f (g a) = Some a) -> opt_map f (map g l) = Some l.
Proof. intros H. induction l as [|a l IH]; cbn; [reflexivity|]. now rewrite H, IH. Qed.

Lemma le_bytes_app n m z : le_bytes (n + m) z = le_bytes n z ++ le_bytes m (z / 2 ^ (8 * Z.of_nat n)).
Proof.
  revert z. induction n as [|n IH]; intros z.
  - change (2 ^ (8 * Z.of_nat 0)) with 1. now rewrite Z.div_1_r.
  - cbn [le_bytes Nat.add app]. f_equal. rewrite IH. f_equal. f_equal.
    rewrite pow256_S. rewrite Z.div_div; [reflexivity|lia|]. apply Z.pow_pos_nonneg; lia.
Qed.
Lemma le8_split z : 0 <= z < 4294967296 -> le_bytes 8 z = le_bytes 4 z ++ le_bytes 4 0.
Proof.
  intros H. change 8%nat with (4 + 4)%nat. rewrite le_bytes_app. f_equal.
  change (2 ^ (8 * Z.of_nat 4)) with 4294967296. now rewrite Z.div_small.
Qed.

(** ** Headers *)
Lemma header_inv name c idx extra body bs q :
  with_header true name c idx extra body = Ok (bs, q) ->
  exists b nb be ne, body = Ok (b, nb) /\ extra = Ok (be, ne)
    /\ bs = str_bytes name ++ le_bytes 4 (len b) ++ le_bytes 4 idx ++ be ++ le_bytes 1 0 ++ b.
Proof.
  unfold with_header. destruct body as [[b nb]|]; [|discriminate]. intros E.
  apply seq_ok in E as (b1 & q1 & b2 & q2 & E1 & E & -> & ->).
  apply seq_ok in E as (b3 & q3 & b4 & q4 & E2 & E & -> & ->).
  apply seq_ok in E as (b5 & q5 & b6 & q6 & E3 & E & -> & ->).
  apply seq_ok in E as (be & ne & b7 & q7 & E4 & E & -> & ->).
  apply seq_ok in E as (b8 & q8 & b9 & q9 & E5 & E & -> & ->).
  exists b, nb, be, ne. injection E2 as <- <-. injection E3 as <- <-. injection E5 as <- <-.
  injection E as <- <-.
  assert (b1 = str_bytes name) as ->.
  { destruct c; unfold w_string, emit in E1; injection E1 as <- <-; reflexivity. }
  auto.
Qed.
Lemma dec_u32 st z : 0 <= z < 4294967296 -> decodes st r_u32 (le_bytes 4 z) z.
Proof. intros H. apply (dec_uint st 4 z). now apply u32_ok. Qed.
Lemma dec_u8_0 st : decodes st r_u8 (le_bytes 1 0) 0.
Proof. apply (dec_uint st 1 0). reflexivity. Qed.
Lemma dec_index0 st : decodes st r_index0 (le_bytes 4 0) tt.
Proof. unfold r_index0. eapply dec_bind_last; [apply dec_u32; lia|]. intros p t. cbn. now rewrite Z.add_0_r. Qed.
Lemma dec_term st : decodes st r_term (le_bytes 1 0) tt.
Proof. unfold r_term. eapply dec_bind_last; [apply dec_u8_0|]. intros p t. cbn. now rewrite Z.add_0_r. Qed.
Lemma dec_zero_u8 st s : decodes st (zero_or s r_u8) (le_bytes 1 0) tt.
Proof. unfold zero_or. eapply dec_bind_last; [apply dec_u8_0|]. apply dec_ret. Qed.
Lemma dec_zero_u32 st s : decodes st (zero_or s r_u32) (le_bytes 4 0) tt.
Proof. unfold zero_or. eapply dec_bind_last; [apply dec_u32; lia|]. apply dec_ret. Qed.
Lemma dec_sized st {A} (r : reader A) b x : decodes st r b x -> decodes st (sized (len b) r) b x.
Proof.
  intros H p t. unfold sized, bind, position. cbn [pos]. rewrite H. cbn [pos].
  replace (p + len b - p) with (len b) by lia. now rewrite Z.eqb_refl.
Qed.
Lemma dec_headed st {V A} (vars : reader V) (body : Z -> V -> reader A) be v b x :
  len b < 4294967296 -> decodes st vars be v -> decodes st (body (len b) v) b x ->
  decodes st (headed vars body) (le_bytes 4 (len b) ++ le_bytes 4 0 ++ be ++ le_bytes 1 0 ++ b) x.
Proof.
  intros L Hv Hb. unfold headed. pose proof (len_nonneg b).
  eapply dec_bind; [apply dec_u32; lia|].
  eapply dec_bind; [apply dec_index0|].
  eapply dec_bind; [apply Hv|].
  eapply dec_bind; [apply dec_term|]. now apply dec_sized.
Qed.
Lemma dec_headed_index st {A} (body : Z -> reader A) i b x :
  len b < 4294967296 -> u_ok 4 i = true -> decodes st (body i) b x ->
  decodes st (headed_index body) (le_bytes 4 (len b) ++ le_bytes 4 i ++ le_bytes 1 0 ++ b) x.
Proof.
  intros L Hi Hb. unfold headed_index. pose proof (len_nonneg b).
  eapply dec_bind; [apply dec_u32; lia|].
  eapply dec_bind; [apply (dec_uint st 4 i Hi)|].
  eapply dec_bind; [apply dec_term|]. now apply dec_sized.
Qed.

(** ** Grouping of repeated fields *)
Definition flatten (l : list (str * list property)) : list (str * property) :=
  flat_map (fun '(k, ps) => map (fun p => (k, p)) ps) l.
Definition regroup (acc : list (str * list property)) (fl : list (str * property)) :=
  fold_left (fun a e => group_add a (fst e) (snd e)) fl acc.
Fixpoint chain (acc : list (str * list property)) (fl : list (str * property)) : bool :=
  match fl with
  | [] => true
  | (k, p) :: r => index_ok acc k p && chain (group_add acc k p) r
  end.

Lemma lookup_last (acc : list (str * list property)) k g :
  forallb (fun e => negb (str_eqb k (fst e))) acc = true ->
  lookup str_eqb k (acc ++ [(k, g)]) = Some g.
Proof.
  induction acc as [|[k' g'] acc IH]; cbn.
  - now rewrite str_eqb_refl.
  - rewrite andb_true_iff, negb_true_iff. intros [-> H]. auto.
Qed.
Lemma lookup_absent {V} (acc : list (str * V)) k :
  forallb (fun e => negb (str_eqb k (fst e))) acc = true -> lookup str_eqb k acc = None.
Proof.
  induction acc as [|[k' g'] acc IH]; cbn; auto.
  rewrite andb_true_iff, negb_true_iff. intros [-> H]. auto.
Qed.
Lemma ins_last (acc : list (str * list property)) k g g' :
  forallb (fun e => negb (str_eqb k (fst e))) acc = true ->
  ins str_eqb (acc ++ [(k, g)]) k g' = acc ++ [(k, g')].
Proof.
  induction acc as [|[k' h] acc IH]; cbn.
  - now rewrite str_eqb_refl.
  - rewrite andb_true_iff, negb_true_iff. intros [-> H]. now rewrite IH.
Qed.
Lemma add_last acc k g p : forallb (fun e => negb (str_eqb k (fst e))) acc = true ->
  group_add (acc ++ [(k, g)]) k p = acc ++ [(k, g ++ [p])].
Proof. intros H. unfold group_add, group. now rewrite lookup_last, ins_last. Qed.
Lemma add_first acc k p : forallb (fun e => negb (str_eqb k (fst e))) acc = true ->
  group_add acc k p = acc ++ [(k, [p])].
Proof. intros H. unfold group_add, group. rewrite lookup_absent by auto. now apply ins_new. Qed.
Lemma regroup_run acc k g ps : forallb (fun e => negb (str_eqb k (fst e))) acc = true ->
  regroup (acc ++ [(k, g)]) (map (fun p => (k, p)) ps) = acc ++ [(k, g ++ ps)].
Proof.
  intros H. revert g. induction ps as [|p ps IH]; intros g; cbn.
  - now rewrite app_nil_r.
  - rewrite add_last by auto. unfold regroup in IH. rewrite IH. now rewrite <- app_assoc.
Qed.
Lemma chain_run acc k g ps rest_ : forallb (fun e => negb (str_eqb k (fst e))) acc = true ->
  indices_ok (len g) ps = true ->
  chain (acc ++ [(k, g ++ ps)]) rest_ = true ->
  chain (acc ++ [(k, g)]) (map (fun p => (k, p)) ps ++ rest_) = true.
Proof.
  intros H. revert g. induction ps as [|p ps IH]; intros g Hi Hr; cbn [map app chain].
  - now rewrite app_nil_r in Hr.
  - cbn [indices_ok] in Hi. andbs. rewrite add_last by auto.
    unfold index_ok, group. rewrite lookup_last by auto.
    apply andb_true_iff. split.
    + unfold prop_index. unfold field_index in *. now rewrite Z.eqb_sym.
    + apply IH; [rewrite len_app, len_cons, len_nil|now rewrite <- app_assoc].
      now replace (len g + (1 + 0)) with (len g + 1) by lia.
Qed.
Lemma regroup_app acc a b : regroup acc (a ++ b) = regroup (regroup acc a) b.
Proof. apply fold_left_app. Qed.
Lemma fresh_split {V} (acc : list (str * V)) k v l : fresh str_eqb (acc ++ (k, v) :: l) = true ->
  forallb (fun e => negb (str_eqb k (fst e))) acc = true
  /\ fresh str_eqb ((acc ++ [(k, v)]) ++ l) = true.
Proof.
  intros H. rewrite <- app_assoc. cbn [app]. split; auto.
  induction acc as [|[k' v'] acc IH]; cbn in *; auto. andbs.
  rewrite forallb_app in *. cbn in *. andbs. now rewrite IH, andb_true_r by auto.
Qed.
Lemma regroup_flatten l : forall acc, fresh str_eqb (acc ++ l) = true ->
  forallb (fun '(k, ps) => negb (len ps =? 0)) l = true ->
  regroup acc (flatten l) = acc ++ l.
Proof.
  induction l as [|[k ps] l IH]; intros acc Hf Hl; cbn [flatten flat_map].
  - cbn. now rewrite app_nil_r.
  - cbn [forallb] in Hl. andbs. destruct (fresh_split _ _ _ _ Hf) as [Ha Hf'].
    rewrite regroup_app. destruct ps as [|p ps]; [discriminate|].
    cbn [map]. change (regroup acc ((k, p) :: map (fun p0 => (k, p0)) ps))
      with (regroup (group_add acc k p) (map (fun p0 => (k, p0)) ps)).
    rewrite add_first by auto. rewrite regroup_run by auto. cbn [app].
    fold (flatten l). rewrite IH; auto. now rewrite <- app_assoc.
Qed.
Lemma chain_flatten l : forall acc, fresh str_eqb (acc ++ l) = true ->
  forallb (fun '(k, ps) => negb (len ps =? 0) && indices_ok 0 ps) l = true ->
  chain acc (flatten l) = true.
Proof.
  induction l as [|[k ps] l IH]; intros acc Hf Hl; cbn [flatten flat_map]; auto.
  cbn [forallb] in Hl. andbs. destruct (fresh_split _ _ _ _ Hf) as [Ha Hf'].
  destruct ps as [|p ps]; [discriminate|]. cbn [map app chain indices_ok] in *. andbs.
  rewrite add_first by auto. unfold index_ok, group. rewrite lookup_absent by auto.
  apply andb_true_iff. split.
  - change (len (@nil property)) with 0. unfold prop_index, field_index in *. now rewrite Z.eqb_sym.
  - apply chain_run; auto.
Qed.
Lemma seqs_flatten (f : str -> property -> out) l x n :
  seqs (fun '(k, ps) => seqs (fun p => f k p) ps) l = Ok (x, n) ->
  seqs (fun '(k, p) => f k p) (flatten l) = Ok (x, n).
Proof.
  revert x n. induction l as [|[k ps] l IH]; intros x n E; cbn [flatten flat_map seqs] in *; auto.
  apply seq_ok in E as (y1 & m1 & y2 & m2 & E1 & E2 & -> & ->).
  apply seqs_app. exists y1, m1, y2, m2. fold (flatten l). repeat split; auto.
  now rewrite seqs_map.
Qed.

(** ** Map insertion *)
Section Map.
Context (o : opts) (sep : property -> property -> bool).
Hypothesis Hsep : forall k k', sep k k' = false ->
  same k k' = false /\ (eqv k k' = false \/ forall pos i, probe o pos i = false).

Lemma hit_none pr k l i :
  (forall e, In e l -> eqv k (fst e) = false \/ forall i, pr i = false) -> hit pr k l i = None.
Proof.
  revert i. induction l as [|[k' v'] l IH]; intros i H; cbn [hit]; auto.
  rewrite IH by (intros; apply H; now right).
  destruct (H (k', v') (or_introl eq_refl)) as [E|E]; cbn [fst] in *.
  - now rewrite E. - rewrite E. now rewrite andb_false_r.
Qed.
Lemma mins_new pr l k v :
  (forall e, In e l -> same k (fst e) = false /\ (eqv k (fst e) = false \/ forall i, pr i = false)) ->
  mins pr l k v = l ++ [(k, v)].
Proof.
  intros H. unfold mins. rewrite hit_none by (intros; now apply H).
  apply ins_new, forallb_forall. intros e He. now rewrite (proj1 (H e He)).
Qed.
Lemma distinct_mid {V} (eqb : property -> property -> bool) (acc : list (property * V)) k v l :
  distinct eqb (acc ++ (k, v) :: l) = true -> forall e, In e acc -> eqb k (fst e) = false.
Proof.
  induction acc as [|[k' v'] acc IH]; cbn [app distinct In]; [intros _ e []|].
  rewrite andb_true_iff, forallb_app, andb_true_iff. cbn [forallb fst].
  intros [[_ H1] H2] e [<-|Hin]; cbn [fst]; auto.
  apply andb_true_iff in H1 as [H1 _]. now apply negb_true_iff in H1.
Qed.
Lemma mins_fold (l : list (property * property * Z)) : forall acc,
  distinct sep (acc ++ map fst l) = true ->
  fold_left (fun acc e => mins (probe o (snd e)) acc (fst (fst e)) (snd (fst e))) l acc
  = acc ++ map fst l.
Proof.
  induction l as [|[[k v] z] l IH]; intros acc H; cbn [fold_left map fst snd].
  - now rewrite app_nil_r.
  - cbn [map fst] in H. rewrite mins_new.
    + rewrite IH; rewrite <- app_assoc; auto.
    + intros e He. pose proof (distinct_mid sep acc k v _ H e He) as E.
      destruct (Hsep _ _ E) as [E1 [E2|E2]]; split; auto.
Qed.
Lemma mins_all_distinct l : distinct sep (map fst l) = true -> mins_all o l = map fst l.
Proof. intros H. apply (mins_fold l []). exact H. Qed.
End Map.

(** ** Arrays as lists of elements *)
Definition elems (a : arrayp) : list property :=
  match a with
  | ABools l => map PBool l
  | ABytes l => map (fun b => PByte None (BByte b)) l
  | AEnums l => map (PEnum None) l
  | AFloats l => map (PNum F32) l
  | AInts l => map (PNum I32) l
  | ANames l => map (PName 0) l
  | AStrings l => map PStr l
  | AStructs _ _ _ l => map PSValue l
  | AProps _ l => l
  end.
Definition is_structs (a : arrayp) : bool := match a with AStructs _ _ _ _ => true | _ => false end.
Lemma w_array_elems vs a : is_structs a = false ->
  w_array vs a = w_u32 (len (elems a)) +> seqs (w_prop vs false) (elems a).
Proof.
  destruct a; intros H; try discriminate; cbn [w_array elems];
    rewrite ?len_map, ?seqs_map; reflexivity.
Qed.

Section Elems.
Context (o : opts) (vs : list (guid * Z)) (sep : property -> property -> bool).
Lemma forallb_map {A B} (f : B -> bool) (g : A -> B) l :
  forallb f (map g l) = forallb (fun a => f (g a)) l.
Proof. induction l; cbn; congruence. Qed.
Lemma uniform_map {A} (g : A -> property) l :
  (forall a, match g a with PUnknown _ _ => False | PByte _ _ => False | _ => True end) ->
  uniform (map g l) = true.
Proof. intros H. destruct l as [|a l]; cbn [map]; auto. specialize (H a). destruct (g a); tauto || reflexivity. Qed.
Lemma forallb_ext {A} (f g : A -> bool) l : (forall a, f a = g a) -> forallb f l = forallb g l.
Proof. intros H. induction l; cbn; congruence. Qed.
Lemma forallb_true {A} (f : A -> bool) l : (forall a, f a = true) -> forallb f l = true.
Proof. intros H. apply forallb_forall. auto. Qed.

Lemma count32_map {A B} (f : A -> B) l : count32 (map f l) = count32 l.
Proof. unfold count32. now rewrite len_map. Qed.

Lemma as_byte_none l : existsb is_named l = true -> opt_map as_byte l = None.
Proof.
  induction l as [|p l IH]; cbn [existsb opt_map]; [discriminate|].
  rewrite orb_true_iff. intros [H|H].
  - destruct p; try discriminate. destruct v; try discriminate. cbn. now destruct name.
  - rewrite IH by auto. now destruct (as_byte p).
Qed.

Lemma wf_elems path a : is_structs a = false -> wf_array o vs sep path a = true ->
  str_ok (array_type a) = true /\ count32 (elems a) = true /\ uniform (elems a) = true
  /\ forallb (fun p => str_eqb (array_type a) (type_of p) && wf_prop o vs sep false path p) (elems a) = true
  /\ array_new (array_type a) None (elems a) = Ok a /\ kind_of (array_type a) <> KStruct.
Proof.
  destruct a as [l|l|l|l|l|l|l|? ? ? l|ty l]; intros Hs H; try discriminate;
    cbn [wf_array array_type elems] in *; rewrite ?count32_map; andbs;
    repeat match goal with
    | |- _ /\ _ => split
    | |- str_ok _ = true => reflexivity
    | |- kind_of _ <> _ => vm_compute; discriminate
    | |- uniform (map _ _) = true => apply uniform_map; intros; exact I
    | |- array_new _ None _ = Ok _ =>
        unfold array_new; rewrite kind_of_kind_name; rewrite opt_map_map by (intros; reflexivity);
        reflexivity
    | |- forallb _ (map _ _) = true =>
        rewrite forallb_map; cbn [type_of wf_prop name_ok negb bytev_ok andb];
        (apply forallb_true; intros; reflexivity) || idtac
    end; auto.
  all: try (match goal with H : forallb ?f ?l = true |- forallb ?g ?l = true =>
        rewrite <- H; apply forallb_ext; intros x; reflexivity end).
  - destruct l as [|b l]; [reflexivity|]. cbn. rewrite forallb_map. now apply forallb_true.
  - unfold array_new.
    assert (Hsp : array_special ty = false) by (now apply negb_true_iff).
    destruct (kind_of ty) as [k| | | | | | | | | | | | | | |] eqn:Ek; try reflexivity;
      try (assert (Hn : kind_of ty <> KOther) by (rewrite Ek; discriminate);
           apply kind_of_name in Hn; rewrite Ek in Hn; subst ty;
           try (vm_compute in Hsp; discriminate)).
    + destruct k; try reflexivity; vm_compute in Hsp; discriminate.
    + rewrite as_byte_none; [reflexivity|].
      match goal with H : _ || _ = true |- _ => apply orb_true_iff in H as [H|H]; auto end.
      vm_compute in H. discriminate.
  - intros Ek. assert (Hn : kind_of ty <> KOther) by (rewrite Ek; discriminate).
    apply kind_of_name in Hn. rewrite Ek in Hn. subst ty.
    match goal with H : negb (array_special _) = true |- _ => vm_compute in H end. discriminate.
Qed.

(** The element size handed down fits every element. *)
Definition sug_ok (sug : option Z) (p : property) : Prop :=
  match p with
  | PUnknown _ raw => sug = Some (len raw)
  | PByte _ (BByte _) => sug = None \/ sug = Some 1
  | PByte _ (BName _) => exists e, sug = Some e /\ 3 <= e
  | _ => True
  end.
Lemma sug_uniform ty path l bs q : l <> [] -> uniform l = true ->
  forallb (fun p => str_eqb ty (type_of p) && wf_prop o vs sep false path p) l = true ->
  seqs (w_prop vs false) l = Ok (bs, q) ->
  forall p, In p l -> sug_ok (Some (len bs / len l)) p.
Proof.
  intros Hne Hu Hw E p Hin. destruct l as [|p0 l]; [congruence|]. clear Hne.
  assert (Hpos : 0 < len (p0 :: l)) by (rewrite len_cons; pose proof (len_nonneg l); lia).
  unfold uniform in Hu. rewrite forallb_forall in Hw.
  pose proof (Hw p0 (or_introl eq_refl)) as W0. pose proof (Hw p Hin) as W1.
  apply andb_true_iff in W0 as [T0 W0]. apply andb_true_iff in W1 as [T1 W1].
  apply str_eqb_eq in T0. apply str_eqb_eq in T1. subst ty.
  destruct p as [| |nm [b|s]| | | | | | | | |name raw| | | | |]; cbn [sug_ok]; auto.
  - right. f_equal. assert (K : len bs = 1 * len (p0 :: l)).
    { eapply seqs_len; [|exact E]. intros a b0 m Ha Ea.
      assert (Hb : is_byte a = true).
      { destruct p0 as [k ?| |? [|]| | | | | | |inl ?| |? ?| | | | |];
          try (vm_compute in T1; discriminate T1);
          try (destruct k; vm_compute in T1; discriminate T1);
          try (destruct inl; vm_compute in T1; discriminate T1);
          try (rewrite forallb_forall in Hu; (now apply Hu) || (apply Hu in Hin; discriminate Hin)). }
      destruct a as [| |? []| | | | | | | | | | | | | |]; try discriminate Hb.
      cbn in Ea. injection Ea as <- <-. reflexivity. }
    rewrite K, Z.mul_1_l. apply Z.div_same. lia.
  - exists (len bs / len (p0 :: l)). split; auto.
    assert (K : 5 * len (p0 :: l) <= len bs).
    { eapply seqs_len_ge; [|exact E]. intros a b0 m Ha Ea.
      assert (Hb : is_named a = true).
      { destruct p0 as [k ?| |? [|]| | | | | | |inl ?| |? ?| | | | |];
          try (vm_compute in T1; discriminate T1);
          try (destruct k; vm_compute in T1; discriminate T1);
          try (destruct inl; vm_compute in T1; discriminate T1);
          try (rewrite forallb_forall in Hu; (now apply Hu) || (apply Hu in Hin; discriminate Hin)). }
      destruct a as [| |? []| | | | | | | | | | | | | |]; try discriminate Hb.
      cbn in Ea. injection Ea as <- <-. apply len_str_bytes. }
    apply Z.le_trans with 5; [lia|]. apply Z.div_le_lower_bound; lia.
  - f_equal. assert (K : len bs = len raw * len (p0 :: l)).
    { cbn [type_of wf_prop] in *. andbs.
      assert (Ho : mem (type_of p0) known_types = false) by (rewrite T1; now apply negb_true_iff).
      destruct p0 as [k| | | | | | | | |inl| |name0 raw0| | | | |]; cbn [type_of] in Ho;
        try (vm_compute in Ho; discriminate Ho);
        try (destruct k; vm_compute in Ho; discriminate Ho);
        try (destruct inl; vm_compute in Ho; discriminate Ho).
      rewrite forallb_forall in Hu. pose proof (Hu _ Hin) as Hr. cbn [is_raw] in Hr.
      apply Z.eqb_eq in Hr. rewrite Hr.
      eapply seqs_len; [|exact E]. intros a b0 m Ha Ea. apply Hu in Ha.
      destruct a; try discriminate Ha. cbn [is_raw] in Ha. apply Z.eqb_eq in Ha.
      cbn in Ea. injection Ea as <- <-. exact Ha. }
    rewrite K. apply Z.div_mul. lia.
Qed.
End Elems.
