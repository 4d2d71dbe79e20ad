(** The variants are numbered in declared order; values that feed the same bytes to the hasher. *)
From Coq Require Import ZArith List Bool String Lia ZifyBool ZifyNat.
From Verif Require Import Base Str Types Versions Text Props File Guid Hash BaseFacts Spec StrFacts Decode Induct EqFacts
  HashFacts RoundTrip Json JsonSpec HashSpec HashTell HashTellAll Samples.
Import ListNotations.
Open Scope Z_scope.

(** ** Discriminants *)
Lemma prop_position p : exists i r name l, h_prop p = h_disc (Z.of_nat i) ++ r
  /\ nth_error prop_order i = Some name /\ e_prop p = JObj ((s2z "type", JStr (s2z name)) :: l).
Proof.
  destruct p as [k z|x|n v|n v|v|t|i v|v|o f|i l|l o|n r|a|t f l|m|g t v|v]; try destruct k; try destruct i;
  match goal with |- context [h_prop ?p] => let h := eval cbn [h_prop num_disc] in (h_prop p) in match h with h_disc ?n ++ _ =>
    let m := eval vm_compute in (Z.to_nat n) in exists m end end; do 3 eexists; (split; [reflexivity|]);
    (split; [reflexivity|]); reflexivity.
Qed.
Lemma hist_position h : exists i r name l, h_hist h = h_disc (Z.of_nat i) ++ r
  /\ nth_error hist_order i = Some name /\ e_hist h = (s2z "history", JStr (s2z name)) :: l.
Proof.
  destruct h; match goal with |- context [h_hist ?p] => let h := eval cbn [h_hist] in (h_hist p) in
    match h with h_disc ?n ++ _ => let m := eval vm_compute in (Z.to_nat n) in exists m
    | h_disc ?n => exists 0%nat, [] end end; try (do 3 eexists); repeat eexists.
Qed.
Lemma arg_position a : exists i r name j, h_arg a = h_disc (Z.of_nat i) ++ r
  /\ nth_error arg_order i = Some name /\ e_arg a = JObj [(s2z name, j)].
Proof.
  destruct a; match goal with |- context [h_arg ?p] => let h := eval cbn [h_arg] in (h_arg p) in
    match h with h_disc ?n ++ _ => let m := eval vm_compute in (Z.to_nat n) in exists m end end; do 3 eexists;
    (split; [reflexivity|]); (split; [reflexivity|]); reflexivity.
Qed.
Lemma sval_position v : exists i r name, h_sval v = h_disc (Z.of_nat i) ++ r
  /\ nth_error sval_order i = Some name /\ fst (e_sval v) = s2z name.
Proof.
  destruct v as [x l|g|l|l]; try destruct x;
  match goal with |- context [h_sval ?p] => let h := eval cbn [h_sval fixed_disc] in (h_sval p) in
    match h with h_disc ?n ++ _ => let m := eval vm_compute in (Z.to_nat n) in exists m end end; do 2 eexists;
    (split; [reflexivity|]); (split; [reflexivity|]); reflexivity.
Qed.

(** ** Keys that collide *)
Definition field (j : nat) : str * list property := (repeat 97 (S j), [PBool true]).
Definition fields (i n : nat) : list (str * list property) := map field (List.seq i n).
(** The first [i] of [n] fields inside an inner struct, the others after it. *)
Definition key (n i : nat) : property :=
  PSValue (SCustom ((s2z "s", [PStruct zero_guid (s2z "T") (SCustom (fields 0 i))]) :: fields i (n - i))).
Definition keys (n : nat) : list property := map (key n) (List.seq 0 (S n)).
Lemma key_stream n i : (i <= n)%nat -> h_prop (key n i) = h_prop (key n 0).
Proof.
  intros L. unfold key, fields. rewrite !hh_psvalue, !hh_scustom. f_equal. f_equal.
  unfold h_map. cbn [flat_map fst snd]. unfold h_vec at 1 3. cbn [flat_map]. rewrite !hh_pstruct, !hh_scustom.
  unfold h_map. rewrite !app_nil_r, <- !app_assoc. do 6 f_equal. cbn [List.seq map flat_map app].
  rewrite <- flat_map_app, <- map_app. f_equal. f_equal. replace (n - 0)%nat with (i + (n - i))%nat by lia.
  now rewrite seq_app.
Qed.
Lemma entries_len {K V} (keq : K -> K -> bool) (veq : V -> V -> bool) s a : forall b, map_eqb keq veq s a b = true -> len a = len b.
Proof.
  destruct s; unfold map_eqb; [|intros; andbs; lia].
  induction a as [|[k v] a IH]; intros [|[k' v'] b]; cbn [entries_eqb]; try discriminate; auto.
  intros; andbs. rewrite !len_cons. f_equal. auto.
Qed.
Lemma key_differ s n i j : (i < j <= n)%nat -> prop_eqb s (key n j) (key n i) = false.
Proof.
  intros L. destruct (prop_eqb _ _ _) eqn:E; [|reflexivity]. exfalso. unfold key in E.
  rewrite q_psvalue, q_scustom in E. apply entries_len in E. rewrite !len_cons in E. unfold fields, len in E.
  rewrite !map_length, !seq_length in E. lia.
Qed.
Lemma keys_distinct {V} s n (v : V) : forall i m, (i + m <= S n)%nat ->
  distinct (prop_eqb s) (map (fun i => (key n i, v)) (List.seq i m)) = true.
Proof.
  intros i m. revert i. induction m as [|m IH]; intros i L; cbn [List.seq map distinct]; [reflexivity|].
  rewrite IH by lia. rewrite andb_true_r. apply forallb_forall. intros e I. apply in_map_iff in I as (j & <- & I).
  apply in_seq in I. cbn [fst]. rewrite key_differ; [reflexivity|lia].
Qed.
Lemma repeat_str n : Z.of_nat n <= 131071 -> str_ok (repeat 97 n) = true.
Proof.
  intros L. unfold str_ok. apply andb_true_intro. split.
  - unfold is_str. apply forallb_forall. intros x I. apply repeat_spec in I. now subst.
  - assert (U : units (repeat 97 n) = Z.of_nat n).
    { clear L. induction n as [|n IH]; [reflexivity|]. cbn [repeat units]. change (97 <? 65536) with true. cbn [units]. lia. }
    lia.
Qed.
Lemma repeat_ne n j : n <> j -> str_eqb (repeat 97 n) (repeat 97 j) = false.
Proof.
  intros N. destruct (str_eqb _ _) eqn:E; [|reflexivity]. apply str_eqb_eq in E.
  apply (f_equal (@List.length Z)) in E. rewrite !repeat_length in E. contradiction.
Qed.
Lemma repeat_first j c r : c <> 97 -> str_eqb (repeat 97 (S j)) (c :: r) = false.
Proof.
  intros N. destruct (str_eqb _ _) eqn:E; [|reflexivity]. apply str_eqb_eq in E. cbn [repeat] in E. congruence.
Qed.
Lemma fields_distinct n : forall i, distinct str_eqb (fields i n) = true.
Proof.
  induction n as [|n IH]; intros i; cbn [fields List.seq map]; [reflexivity|]. unfold field at 1. cbn [distinct].
  apply andb_true_intro. split; [|apply IH]. apply forallb_forall. intros e I. apply in_map_iff in I as (j & <- & I).
  apply in_seq in I. cbn [field fst]. rewrite repeat_ne; [reflexivity|lia].
Qed.
Lemma fields_distinct_s (v : list property) i n : distinct str_eqb ((s2z "s", v) :: fields i n) = true.
Proof.
  cbn [distinct]. apply andb_true_intro. split; [|apply fields_distinct]. apply forallb_forall.
  intros e I. apply in_map_iff in I as (j & <- & I). unfold field. cbn [fst].
  change (s2z "s") with [115]. now rewrite repeat_first by lia.
Qed.
Lemma fields_typed sep n : forall i, forallb (fun '(k, ps) => is_str k && forallb (t_prop sep) ps) (fields i n) = true.
Proof.
  intros i. apply forallb_forall. intros e I. apply in_map_iff in I as (j & <- & I). unfold field.
  cbn [forallb t_prop]. rewrite andb_true_r. apply forallb_forall. intros x X. apply repeat_spec in X. now subst.
Qed.
Lemma t_custom sep l : t_sval sep (SCustom l)
  = distinct str_eqb l && forallb (fun '(k, ps) => is_str k && forallb (t_prop sep) ps) l.
Proof. reflexivity. Qed.
Lemma key_typed sep n i : t_prop sep (key n i) = true.
Proof.
  unfold key. change (t_prop sep (PSValue ?v)) with (t_sval sep v). rewrite t_custom, fields_distinct_s.
  change (forallb ?f (?x :: ?l)) with (f x && forallb f l). rewrite fields_typed. cbv beta iota. cbn [forallb].
  change (t_prop sep (PStruct zero_guid (s2z "T") ?v)) with (true && t_sval sep v). rewrite t_custom, fields_distinct, fields_typed.
  reflexivity.
Qed.
Lemma fields_wf o vs sep path i n : Z.of_nat (i + n) <= 131071 -> forallb (fun '(k, ps) =>
         str_ok k && negb (str_eqb k (s2z "None")) && negb (len ps =? 0)
         && (negb (dbg o) || indices_ok 0 ps)
         && forallb (wf_prop o vs sep true (k :: path)) ps) (fields i n) = true.
Proof.
  intros L. apply forallb_forall. intros e I. apply in_map_iff in I as (j & <- & I). apply in_seq in I. unfold field.
  rewrite repeat_str by lia. change (s2z "None") with [78; 111; 110; 101]. rewrite repeat_first by lia.
  cbn [forallb wf_prop]. change (negb (len [PBool true] =? 0)) with true. change (indices_ok 0 [PBool true]) with true.
  rewrite orb_true_r. reflexivity.
Qed.
Lemma wf_custom o vs sep path ty l : wf_sval o vs sep path ty (SCustom l)
  = negb (mem ty known_structs) && distinct str_eqb l && forallb (fun '(k, ps) =>
         str_ok k && negb (str_eqb k (s2z "None")) && negb (len ps =? 0)
         && (negb (dbg o) || indices_ok 0 ps)
         && forallb (wf_prop o vs sep true (k :: path)) ps) l.
Proof. reflexivity. Qed.
Lemma wf_inner o vs sep path v : wf_prop o vs sep false path (PSValue v)
  = match hints o (dotted (s2z "StructProperty" :: path)) with
    | Some ty => wf_sval o vs sep (s2z "StructProperty" :: path) ty v | None => false end.
Proof. reflexivity. Qed.
Lemma wf_mgen o vs sep path kt vt f l : wf_prop o vs sep true path (PMap (MGen kt vt f l))
  = (str_ok kt && str_ok vt && u_ok 4 f && count32 l && distinct sep l && map_generic kt f l
    && forallb (fun '(k, v) =>
         str_eqb kt (type_of k) && self_sized k && wf_prop o vs sep false (s2z "Key" :: s2z "MapProperty" :: path) k
         && str_eqb vt (type_of v) && self_sized v && wf_prop o vs sep false (s2z "Value" :: s2z "MapProperty" :: path) v) l).
Proof. reflexivity. Qed.
Lemma wf_struct o vs sep path v : wf_prop o vs sep true path (PStruct zero_guid (s2z "T") v)
  = wf_sval o vs sep (s2z "StructProperty" :: path) (s2z "T") v.
Proof.
  change (wf_prop o vs sep true path (PStruct zero_guid (s2z "T") v))
    with (guid_ok zero_guid && str_ok (s2z "T") && wf_sval o vs sep (s2z "StructProperty" :: path) (s2z "T") v).
  replace (guid_ok zero_guid) with true by (vm_compute; reflexivity).
  replace (str_ok (s2z "T")) with true by (vm_compute; reflexivity). reflexivity.
Qed.
Lemma forallb_cons {A} (f : A -> bool) x l : forallb f (x :: l) = f x && forallb f l. Proof. reflexivity. Qed.
(** One property, a map with these keys. *)
Definition o_keys : opts := Opts true (hint_at "m.MapProperty.Key.StructProperty" "K" no_hints) quiet.
Definition crowd (n : nat) : header * list (str * property) :=
  (hdr4, [(s2z "m", PMap (MGen (s2z "StructProperty") (s2z "BoolProperty") 0
    (map (fun k => (k, PBool true)) (keys n))))]).
Lemma key_wf n i : (i <= n)%nat -> Z.of_nat n <= 131071 ->
  wf_prop o_keys (h_versions hdr4) (prop_eqb true) false [s2z "Key"; s2z "MapProperty"; s2z "m"] (key n i) = true.
Proof.
  intros I L. unfold key. rewrite wf_inner.
  replace (hints o_keys (dotted [s2z "StructProperty"; s2z "Key"; s2z "MapProperty"; s2z "m"])) with (Some (s2z "K"))
    by (vm_compute; reflexivity).
  rewrite wf_custom, fields_distinct_s, forallb_cons, fields_wf by lia.
  rewrite forallb_cons, wf_struct, wf_custom, fields_distinct, fields_wf by lia.
  replace (mem (s2z "K") known_structs) with false by (vm_compute; reflexivity).
  replace (mem (s2z "T") known_structs) with false by (vm_compute; reflexivity).
  replace (str_ok (s2z "s")) with true by (vm_compute; reflexivity).
  replace (str_eqb (s2z "s") (s2z "None")) with false by (vm_compute; reflexivity). reflexivity.
Qed.
Lemma crowd_ok n : Z.of_nat n <= 131071 -> file_ok o_keys same (crowd n) = true.
Proof.
  intros L. unfold file_ok, crowd. cbn [fst snd]. apply andb_true_intro. split; [vm_compute; reflexivity|].
  unfold props_ok. rewrite forallb_cons. cbn [forallb distinct]. rewrite wf_mgen.
  replace (str_ok (s2z "m")) with true by (vm_compute; reflexivity).
  replace (str_eqb (s2z "m") (s2z "None")) with false by (vm_compute; reflexivity).
  replace (str_ok (s2z "StructProperty")) with true by (vm_compute; reflexivity).
  replace (str_ok (s2z "BoolProperty")) with true by (vm_compute; reflexivity).
  replace (u_ok 4 0) with true by (vm_compute; reflexivity).
  unfold keys, same. rewrite !map_map, keys_distinct by lia.
  assert (C : count32 (map (fun x => (key n x, PBool true)) (List.seq 0 (S n))) = true).
  { unfold count32, len. rewrite map_length, seq_length. lia. }
  rewrite C. cbn [negb andb]. rewrite andb_true_r. apply andb_true_intro. split; [reflexivity|].
  apply forallb_forall. intros e I. apply in_map_iff in I as (i & <- & I). apply in_seq in I.
  rewrite key_wf by lia. unfold key. cbn [type_of self_sized]. vm_compute. reflexivity.
Qed.
Lemma crowd_loads n : Z.of_nat n <= 131071 -> exists b, save_plain (crowd n) = Ok b
  /\ (len b < 4294967296 -> load_plain o_keys b = Ok (crowd n)).
Proof.
  intros L. pose proof (crowd_ok n L) as F. destruct (wrote_file o_keys same _ F) as (b & S). exists b. split; [exact S|].
  intros B. refine (proj2 (save_load_iff o_keys (crowd n) b _ S B) F). reflexivity.
Qed.
Lemma crowd_keys n : len (keys n) = Z.of_nat n + 1
  /\ (forall a b, In a (keys n) -> In b (keys n) -> h_prop a = h_prop b)
  /\ distinct eqv (map (fun k => (k, tt)) (keys n)) = true
  /\ forallb (t_prop eqv) (keys n) = true.
Proof.
  unfold keys. split; [|split; [|split]].
  - unfold len. rewrite map_length, seq_length. lia.
  - intros a b A B. apply in_map_iff in A as (i & <- & A). apply in_map_iff in B as (j & <- & B).
    apply in_seq in A, B. rewrite key_stream, (key_stream n j); [reflexivity| |]; lia.
  - rewrite map_map. apply (keys_distinct false). lia.
  - apply forallb_forall. intros a A. apply in_map_iff in A as (i & <- & A). apply key_typed.
Qed.
