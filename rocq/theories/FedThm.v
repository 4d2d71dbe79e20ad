(** C74: what is hashed follows the declarations. *)
From Coq Require Import ZArith List Bool String Lia ZifyBool ZifyNat.
From Verif Require Import Base Str Guid Types Versions Text Props File Spec BaseFacts StrFacts Decode Induct Json JsonSpec
  Message Display Debug Hash HashFacts FedSpec.
From Verif Require NamesThm.
Import ListNotations.
Open Scope Z_scope.

(** ** Bytes *)
Lemma value_le b : value b = le_val b.
Proof. induction b as [|x b IH]; [reflexivity|]. cbn [value le_val]. now rewrite IH. Qed.
Lemma le_int w z : le w z (h_int w z).
Proof.
  unfold le, h_int. rewrite length_le_bytes, value_le, le_val_bytes. split; [reflexivity|].
  f_equal. rewrite Z.pow_mul_r by lia. reflexivity.
Qed.
Lemma le_one w z b c : le w z b -> le w z c -> b = c.
Proof.
  unfold le. rewrite (value_le b), (value_le c). intros [A B] [C D]. rewrite <- (le_bytes_val b), <- (le_bytes_val c). now rewrite A, B, C, D.
Qed.
Lemma utf8_cons c s l : scalar c = true -> utf8 s l -> utf8 (c :: s) (utf8_char c ++ l).
Proof.
  intros H U. apply scalar_iff in H. unfold utf8_char.
  destruct (Z.ltb_spec c 128); [apply u1; [lia|exact U]|].
  destruct (Z.ltb_spec c 2048).
  { replace c with (64 * (c / 64) + c mod 64) at 1 by (Z.to_euclidean_division_equations; lia).
    apply u2; [Z.to_euclidean_division_equations; lia|Z.to_euclidean_division_equations; lia|exact U]. }
  destruct (Z.ltb_spec c 65536).
  { replace c with (4096 * (c / 4096) + 64 * (c / 64 mod 64) + c mod 64) at 1 by (Z.to_euclidean_division_equations; lia).
    apply u3; [Z.to_euclidean_division_equations; lia ..|exact U]. }
  replace c with (262144 * (c / 262144) + 4096 * (c / 4096 mod 64) + 64 * (c / 64 mod 64) + c mod 64) at 1
    by (Z.to_euclidean_division_equations; lia).
  apply u4; [Z.to_euclidean_division_equations; lia ..|exact U].
Qed.
Lemma utf8_enc_ok s : is_str s = true -> utf8 s (utf8_enc s).
Proof.
  induction s as [|c s IH]; [constructor|]. unfold is_str in *. cbn [forallb]. intros H. apply andb_prop in H as [A B].
  unfold utf8_enc. cbn [flat_map]. apply utf8_cons; auto.
Qed.
Lemma utf8_bytes_range s l : utf8 s l -> Forall (fun x => 0 <= x < 256) l.
Proof. induction 1; repeat constructor; try lia; assumption. Qed.
Lemma b2z_all l : Forall (fun x => 0 <= x < 256) l -> map b2z (map z2b l) = l.
Proof. induction 1 as [|x l H _ IH]; [reflexivity|]. cbn [map]. rewrite IH, b2z_z2b, Z.mod_small by lia. reflexivity. Qed.
Lemma key32 z : u_ok 4 z = true -> float_key F32 z (canon32 z).
Proof.
  intros H. unfold u_ok, in_range in H. change (2 ^ (8 * 4)) with 4294967296 in H.
  exists (z / 2147483648), (z / 8388608 mod 256), (z mod 8388608).
  split; [Z.to_euclidean_division_equations; lia|]. change (2 ^ 8) with 256. change (2 ^ 23) with 8388608. change (2 ^ 31) with 2147483648.
  repeat split; try (Z.to_euclidean_division_equations; lia).
  unfold float_bits. change (2 ^ 8 - 1) with 255. change (2 ^ (8 - 1) - 1) with 127. change (2 ^ 52) with 4503599627370496.
  change (2 ^ 51) with 2251799813685248. change (2 ^ 11) with 2048. change (2 ^ 63) with 9223372036854775808. change (2 ^ 23) with 8388608.
  cbv zeta. unfold canon32, f32_nan. destruct (Z.ltb_spec 2139095040 (z mod 2147483648)) as [N|N].
  - left. repeat split; Z.to_euclidean_division_equations; lia.
  - right. split; [Z.to_euclidean_division_equations; lia|]. unfold decode32, raw_bits.
    destruct (Z.eqb_spec (z mod 2147483648) 0) as [E|E].
    + replace (z / 8388608 mod 256) with 0 by (Z.to_euclidean_division_equations; lia).
      replace (z mod 8388608) with 0 by (Z.to_euclidean_division_equations; lia).
      rewrite orb_true_r. reflexivity.
    + replace (z / 8388608 mod 256 - 127 - 23) with (z / 8388608 mod 256 - 150) by lia. f_equal.
      replace (z / 2147483648 mod 2) with (z / 2147483648) by (Z.to_euclidean_division_equations; lia).
      destruct (z / 8388608 mod 256 =? 0) eqn:E1, (z mod 8388608 =? 0) eqn:E2; cbn [andb]; rewrite ?orb_false_r; try reflexivity.
      exfalso. Z.to_euclidean_division_equations; lia.
Qed.
Lemma key64 z : u_ok 8 z = true -> float_key F64 z (canon64 z).
Proof.
  intros H. unfold u_ok, in_range in H. change (2 ^ (8 * 8)) with 18446744073709551616 in H.
  exists (z / 9223372036854775808), (z / 4503599627370496 mod 2048), (z mod 4503599627370496).
  split; [Z.to_euclidean_division_equations; lia|]. change (2 ^ 11) with 2048. change (2 ^ 52) with 4503599627370496. change (2 ^ 63) with 9223372036854775808.
  repeat split; try (Z.to_euclidean_division_equations; lia).
  unfold float_bits. change (2 ^ 11 - 1) with 2047. change (2 ^ (11 - 1) - 1) with 1023. change (2 ^ 52) with 4503599627370496.
  change (2 ^ 51) with 2251799813685248. change (2 ^ 11) with 2048. change (2 ^ 63) with 9223372036854775808.
  cbv zeta. unfold canon64, f64_nan. destruct (Z.ltb_spec 9218868437227405312 (z mod 9223372036854775808)) as [N|N].
  - left. repeat split; Z.to_euclidean_division_equations; lia.
  - right. split; [Z.to_euclidean_division_equations; lia|]. unfold decode64, raw_bits.
    destruct (Z.eqb_spec (z mod 9223372036854775808) 0) as [E|E].
    + replace (z / 4503599627370496 mod 2048) with 0 by (Z.to_euclidean_division_equations; lia).
      replace (z mod 4503599627370496) with 0 by (Z.to_euclidean_division_equations; lia).
      rewrite orb_true_r. reflexivity.
    + replace (z / 4503599627370496 mod 2048 - 1023 - 52) with (z / 4503599627370496 mod 2048 - 1075) by lia. f_equal.
      replace (z / 9223372036854775808 mod 2) with (z / 9223372036854775808) by (Z.to_euclidean_division_equations; lia).
      destruct (z / 4503599627370496 mod 2048 =? 0) eqn:E1, (z mod 4503599627370496 =? 0) eqn:E2; cbn [andb]; rewrite ?orb_false_r; try reflexivity.
      exfalso. Z.to_euclidean_division_equations; lia.
Qed.

(** ** Looking up declarations *)
Fixpoint find_row {A} (n : string) (l : list (string * A)) : option A :=
  match l with [] => None | (m, a) :: r => if String.eqb n m then Some a else find_row n r end.
Fixpoint find_place {A} (n : string) (l : list (string * A)) : option (nat * A) :=
  match l with
  | [] => None
  | (m, a) :: r => if String.eqb n m then Some (O, a) else match find_place n r with Some (i, a) => Some (S i, a) | None => None end
  end.
Lemma find_row_in {A} n (l : list (string * A)) a : find_row n l = Some a -> In (n, a) l.
Proof.
  induction l as [|[m x] l IH]; [discriminate|]. cbn [find_row]. destruct (String.eqb_spec n m).
  - intros E. injection E as ->. subst. now left.
  - right. auto.
Qed.
Lemma find_place_nth {A} n (l : list (string * A)) : forall i a, find_place n l = Some (i, a) -> nth_error l i = Some (n, a).
Proof.
  induction l as [|[m x] l IH]; intros i a; [discriminate|]. cbn [find_place]. destruct (String.eqb_spec n m).
  - intros E. injection E as <- ->. now subst.
  - destruct (find_place n l) as [[j y]|]; [|discriminate]. intros E. injection E as <- ->. cbn [nth_error]. auto.
Qed.
Definition variant (e n : string) : option (nat * payload) :=
  match find_row e enums with Some vs => find_place n vs | None => None end.
Lemma variant_at e n i p : variant e n = Some (i, p) -> exists vs, In (e, vs) enums /\ nth_error vs i = Some (n, p).
Proof.
  unfold variant. destruct (find_row e enums) as [vs|] eqn:E; [|discriminate]. intros H. exists vs.
  split; [now apply find_row_in|now apply find_place_nth].
Qed.

Section T.
Context (fl : bool -> num -> Z -> str) (sep : property -> property -> bool).
Notation fed := (fed fl).
Notation fed_list := (fed_list fl).
Notation fed_entries := (fed_entries fl).
Notation fed_fields := (fed_fields fl).

Lemma le_disc i z : z = Z.of_nat i -> le 8 (Z.of_nat i) (h_disc z).
Proof. intros ->. apply le_int. Qed.
Lemma fd_int' w z : fed (TInt w) (dg_int z) (h_int w z). Proof. apply fd_int, le_int. Qed.
Lemma fd_byte b : fed (TInt 1) (dg_int (b2z b)) [b].
Proof. apply fd_int. split; [reflexivity|]. cbn [value]. pose proof (b2z_range b). change (256 ^ Z.of_nat 1) with 256. rewrite Z.mod_small by lia. lia. Qed.
Lemma fd_bool b : fed TBool (dg_bool b) (h_bool b). Proof. destruct b; [apply fd_true|apply fd_false]. Qed.
Lemma fd_str' s : is_str s = true -> fed TStr (DStr s) (h_str s).
Proof.
  intros H. apply fd_str. pose proof (utf8_enc_ok s H) as U. rewrite b2z_all; [exact U|]. now apply utf8_bytes_range in U.
Qed.
Lemma fd_guid' g : guid_ok g = true -> fed TGuid (dg_guid g) (h_guid g).
Proof.
  intros H. unfold guid_ok in H. unfold h_guid, h_vec. replace (flat_map (fun b => [b]) g) with g.
  - apply fd_guid; [unfold len in H; lia|]. apply Z.eqb_eq in H. rewrite H. apply le_int.
  - clear. induction g as [|b g IH]; [reflexivity|]. cbn [flat_map app]. now rewrite <- IH.
Qed.
Lemma fd_opt {A} (f : A -> dtree) (h : A -> list byte) t o : (forall a, o = Some a -> fed t (f a) (h a)) -> fed (TOpt t) (dg_opt f o) (h_opt h o).
Proof.
  intros H. destruct o as [a|]; cbn [dg_opt h_opt]; [apply fd_some; [apply le_int|now apply H]|apply fd_none, le_int].
Qed.
Lemma fd_ostr o : ois_str o = true -> fed ostr (dg_opt DStr o) (h_opt h_str o).
Proof. intros H. apply fd_opt. intros a ->. now apply fd_str'. Qed.
Lemma fd_f32 z : u_ok 4 z = true -> fed (TFloat F32) (dg_num fl F32 z) (h_f32 z).
Proof. intros H. eapply fd_float; [apply key32, H|apply le_int]. Qed.
Lemma fd_f64 z : u_ok 8 z = true -> fed (TFloat F64) (dg_num fl F64 z) (h_f64 z).
Proof. intros H. eapply fd_float; [apply key64, H|apply le_int]. Qed.
Lemma fd_list_map {A} (f : A -> dtree) (h : A -> list byte) t l : (forall a, In a l -> fed t (f a) (h a)) -> fed_list t (map f l) (flat_map h l).
Proof.
  induction l as [|a l IH]; intros H; [constructor|]. cbn [map flat_map]. constructor; [apply H; now left|]. apply IH. intros x I. apply H. now right.
Qed.
Lemma fd_vec' {A} (f : A -> dtree) (h : A -> list byte) t l : (forall a, In a l -> fed t (f a) (h a)) -> fed (TVec t) (DList (map f l)) (h_vec h l).
Proof.
  intros H. unfold h_vec. apply fd_vec; [|now apply fd_list_map]. rewrite map_length. apply le_int.
Qed.
Lemma fd_map' {K V} (f : K -> dtree) (g : V -> dtree) (h : K -> list byte) (h' : V -> list byte) t u l :
  (forall e, In e l -> fed t (f (fst e)) (h (fst e)) /\ fed u (g (snd e)) (h' (snd e))) ->
  fed (TMap t u) (dg_hashable (map (fun e => (f (fst e), g (snd e))) l)) (h_map h h' l).
Proof.
  intros H. apply fd_map. unfold h_map. induction l as [|[k v] l IH]; [constructor|]. cbn [map flat_map fst snd]. rewrite <- app_assoc.
  destruct (H (k, v)) as [A B]; [now left|]. constructor; [exact A|exact B|]. apply IH. intros e I. apply H. now right.
Qed.
Lemma fd_smap {V} (g : V -> dtree) (h' : V -> list byte) u (l : list (str * V)) (Q : V -> bool) :
  forallb (fun '(k, v) => is_str k && Q v) l = true -> (forall e, In e l -> Q (snd e) = true -> fed u (g (snd e)) (h' (snd e))) ->
  fed (TMap TStr u) (dg_hashable (map (fun e => (DStr (fst e), g (snd e))) l)) (h_map h_str h' l).
Proof.
  intros F H. apply (fd_map' DStr g h_str h'). intros [k v] I. rewrite forallb_forall in F. specialize (F _ I). cbn in F. andbs.
  split; [now apply fd_str'|now apply H].
Qed.
Lemma ff_one n t d b : fed t d b -> fed_fields [(n, t)] [(s2z n, d)] b.
Proof. intros H. rewrite <- (app_nil_r b). repeat constructor. exact H. Qed.
Lemma fd_struct' n fs l b : find_row n structs = Some fs -> fed_fields fs l b -> fed (TRef n) (DStruct (s2z n) l) b.
Proof. intros H. apply fd_struct. now apply find_row_in. Qed.
Lemma fd_unit' e n i z : variant e n = Some (i, Unit) -> z = Z.of_nat i -> fed (TEnum e) (DWord (s2z n)) (h_disc z).
Proof. intros H E. apply variant_at in H as (vs & I & N). eapply fd_unit; eauto using le_disc. Qed.
Lemma fd_one' e n i z t d b : variant e n = Some (i, One t) -> z = Z.of_nat i -> fed t d b -> fed (TEnum e) (DTuple (s2z n) [d]) (h_disc z ++ b).
Proof. intros H E. apply variant_at in H as (vs & I & N). eapply fd_one; eauto using le_disc. Qed.
Lemma fd_fields' e n i z fs l b : variant e n = Some (i, Fields fs) -> z = Z.of_nat i -> fed_fields fs l b ->
  fed (TEnum e) (DStruct (s2z n) l) (h_disc z ++ b).
Proof. intros H E. apply variant_at in H as (vs & I & N). eapply fd_fields; eauto using le_disc. Qed.
Lemma fd_small' e vs z : find_row e smalls = Some vs -> 0 <= z < Z.of_nat (List.length vs) -> fed (TSmall e) (dg_unit (map s2z vs) z) (h_int 1 z).
Proof.
  intros F H. unfold dg_unit. destruct (nth_error vs (Z.to_nat z)) as [n|] eqn:E.
  - change (@nil Z) with (s2z ""). rewrite map_nth. rewrite (nth_error_nth vs (Z.to_nat z) ""%string E).
    eapply fd_small; [apply find_row_in, F|exact E|]. rewrite Z2Nat.id by lia. apply le_int.
  - apply nth_error_None in E. lia.
Qed.
Lemma fd_style z : in_range 0 4 z = true -> fed style (dg_unit style_names z) (h_int 1 z).
Proof. intros H. unfold in_range in H. eapply fd_small'; [reflexivity|]. cbn. lia. Qed.
Lemma fd_transform z : in_range 0 1 z = true -> fed transform (dg_unit transform_names z) (h_int 1 z).
Proof. intros H. unfold in_range in H. eapply fd_small'; [reflexivity|]. cbn. lia. Qed.
Lemma fd_rounding z : in_range 0 6 z = true -> fed rounding (dg_unit rounding_names z) (h_int 1 z).
Proof. intros H. unfold in_range in H. eapply fd_small'; [reflexivity|]. cbn. lia. Qed.

Ltac ffs := cbn [map fst snd]; repeat first [apply ff_one|apply ff_cons].
Ltac struct := eapply fd_struct'; [vm_compute; reflexivity|ffs].
Ltac one := eapply fd_one'; [vm_compute; reflexivity|reflexivity|].
Ltac flds := eapply fd_fields'; [vm_compute; reflexivity|reflexivity|ffs].
Ltac leaf := first [assumption|apply fd_int'|apply fd_bool|apply fd_byte|apply fd_str'; assumption|apply fd_ostr; assumption
  |apply fd_guid'; assumption|apply fd_style; assumption|apply fd_transform; assumption|apply fd_rounding; assumption
  |apply fd_f32; assumption|apply fd_f64; assumption].

Lemma fd_ticks z : fed (TRef "DateTime") (dg_ticks fl z) (h_int 8 z).
Proof. unfold dg_ticks, dg_fixed. cbn [field_names map layout dg_fields fixed_variant dg_num]. struct. leaf. Qed.
Lemma fd_numfmt o : numfmt_ok o = true -> fed (TRef "NumberFormattingOptions") (dg_numfmt o) (h_numfmt o).
Proof. unfold numfmt_ok. intros H. andbs. unfold dg_numfmt, h_numfmt. struct; leaf. Qed.
Lemma fd_onumfmt o : onumfmt_ok o = true -> fed (TOpt (TRef "NumberFormattingOptions")) (dg_opt dg_numfmt o) (h_opt h_numfmt o).
Proof. intros H. apply fd_opt. intros a ->. now apply fd_numfmt. Qed.
Ltac at_ H I := rewrite Forall_forall in H; specialize (H _ I).
Ltac typed T I := rewrite forallb_forall in T; specialize (T _ I); cbv beta iota in T.

Lemma fed_text :
  (forall t, t_text t = true -> fed (TRef "FText") (dg_text fl t) (h_text t))
  /\ (forall h, t_hist h = true -> fed (TEnum "FTextHistory") (dg_hist fl h) (h_hist h))
  /\ (forall a, t_arg a = true -> fed (TEnum "FormatArgumentValue") (dg_arg fl a) (h_arg a)).
Proof.
  apply text_all; intros; cbn [t_text t_hist t_arg] in *; andbs; cbn [dg_text dg_hist dg_arg h_text h_hist h_arg].
  - struct; [leaf|auto].
  - eapply fd_unit'; [vm_compute; reflexivity|reflexivity].
  - flds; leaf.
  - flds; leaf.
  - flds; [auto|]. eapply fd_smap; [eassumption|]. intros e I. at_ H0 I. auto.
  - flds; [auto|]. apply fd_vec'. intros a I. at_ H0 I. typed H2 I. auto.
  - flds; [auto|]. eapply fd_smap; [eassumption|]. intros e I. at_ H0 I. auto.
  - flds; [auto|now apply fd_onumfmt|leaf].
  - flds; [auto|now apply fd_onumfmt|leaf].
  - flds; [leaf|auto|now apply fd_onumfmt|leaf].
  - flds; [apply fd_ticks|leaf ..].
  - flds; [apply fd_ticks|leaf ..].
  - flds; [apply fd_ticks|leaf ..].
  - flds; [auto|leaf].
  - flds; leaf.
  - one; leaf.
  - one; leaf.
  - one; leaf.
  - one; leaf.
  - one; auto.
  - one; leaf.
  - one; leaf.
Qed.
Lemma fd_delegate p : is_str (fst p) = true -> is_str (snd p) = true ->
  fed (TRef "Delegate") (dg_delegate p) (h_str (fst p) ++ h_str (snd p)).
Proof. intros A B. unfold dg_delegate. struct; leaf. Qed.
Lemma fd_bytev v : t_bytev v = true -> fed (TEnum "BytePropertyValue") (dg_bytev v) (h_bytev v).
Proof. destruct v; cbn [t_bytev dg_bytev h_bytev]; intros H; one; leaf. Qed.
Lemma fd_num' k u z : num_ok k z = true -> type_suffix k = s2z u -> fed (TNum k u) (DWord (debug_num (fl true) k z)) (h_num k z).
Proof.
  intros H E. unfold debug_num. rewrite E. destruct k; cbn [printed h_num];
    try (apply fd_num; [discriminate|discriminate|apply le_int]).
  - eapply fd_fnum; [apply key32, H|apply le_int].
  - eapply fd_fnum; [apply key64, H|apply le_int].
Qed.
Lemma nums_cons k ks l : nums_ok (k :: ks) l = true -> exists z l', l = z :: l' /\ num_ok k z = true /\ nums_ok ks l' = true.
Proof. destruct l as [|z l]; cbn [nums_ok]; intros H; [discriminate H|]. apply andb_prop in H as [A H]. eauto. Qed.
Lemma nums_nil l : nums_ok [] l = true -> l = [].
Proof. now destruct l. Qed.
Lemma fd_fixed x l n : nums_ok (layout x) l = true -> fixed_variant x = s2z n -> fed (TRef n) (dg_fixed fl x l) (h_nums (layout x) l).
Proof.
  intros T E. unfold dg_fixed. rewrite E. assert (N : n = match x with XVector2F => "Vector2F" | XVector2D => "Vector2D" | XVectorF => "VectorF"
    | XVectorD => "VectorD" | XRotatorF => "RotatorF" | XRotatorD => "RotatorD" | XQuatF => "QuatF" | XQuatD => "QuatD" | XDateTime => "DateTime"
    | XTimespan => "Timespan" | XLinearColor => "LinearColor" | XIntPoint => "IntPoint" end%string).
  { destruct x; cbn [fixed_variant] in E; symmetry; apply NamesThm.s2z_inj; exact E. }
  subst n. clear E. destruct x; cbn [layout] in *;
  repeat (apply nums_cons in T as (? & ? & -> & ? & T)); apply nums_nil in T; subst;
  cbn [field_names map dg_fields h_nums h_num num_width]; rewrite ?app_nil_r; struct; leaf.
Qed.

Lemma fed_props :
  (forall p, t_prop sep p = true -> fed (TEnum "Property") (dg_prop fl p) (h_prop p))
  /\ (forall v, t_sval sep v = true -> fed (TEnum "StructPropertyValue") (dg_sval fl v) (h_sval v))
  /\ (forall a, t_array sep a = true -> fed (TEnum "ArrayProperty") (dg_array fl a) (h_array a))
  /\ (forall m, t_map sep m = true -> fed (TEnum "MapProperty") (dg_map fl m) (h_mapp m)).
Proof.
  apply prop_all.
  - intros k z T. cbn [t_prop dg_prop h_prop] in *. destruct k; cbn [num_name num_disc]; (one; apply fd_num'; [exact T|reflexivity]).
  - intros b T. cbn [dg_prop h_prop]. one. leaf.
  - intros n v T. cbn [t_prop dg_prop h_prop] in *. andbs. unfold dg_wrap. one. struct; [leaf|now apply fd_bytev].
  - intros t v T. cbn [t_prop dg_prop h_prop] in *. andbs. unfold dg_wrap. one. struct; leaf.
  - intros v T. cbn [t_prop dg_prop h_prop] in *. unfold dg_wrap. one. struct; leaf.
  - intros t T. cbn [t_prop dg_prop h_prop] in *. unfold dg_wrap. one. struct. now apply fed_text.
  - intros i v T. cbn [t_prop dg_prop h_prop] in *. andbs. unfold dg_wrap. one. struct; leaf.
  - intros v T. cbn [t_prop dg_prop h_prop] in *. unfold dg_wrap. one. struct; leaf.
  - intros a b T. cbn [t_prop dg_prop h_prop] in *. andbs. unfold dg_wrap. one. struct. now apply (fd_delegate (a, b)).
  - intros i l T. cbn [t_prop dg_prop h_prop] in *. unfold dg_wrap.
    assert (D : fed (TVec (TRef "Delegate")) (DList (map dg_delegate l)) (h_vec (fun d => h_str (fst d) ++ h_str (snd d)) l)).
    { apply fd_vec'. intros [a b] I. typed T I. andbs. now apply (fd_delegate (a, b)). }
    destruct i; (one; struct; struct; exact D).
  - intros l s T. cbn [t_prop dg_prop h_prop] in *. andbs. unfold dg_wrap. one. struct. struct; [|leaf].
    apply fd_vec'. intros a I. typed H I. leaf.
  - intros n r T. cbn [t_prop dg_prop h_prop] in *. unfold dg_wrap. one. struct; [leaf|]. apply fd_vec'. intros; leaf.
  - intros a IH T. cbn [t_prop dg_prop h_prop] in *. one. auto.
  - intros t f l IH T. cbn [t_prop dg_prop h_prop] in *. andbs. unfold dg_wrap. one. struct; [leaf|leaf|].
    apply fd_vec'. intros a I. at_ IH I. match goal with T : forallb _ l = true |- _ => typed T I end. auto.
  - intros m IH T. cbn [t_prop dg_prop h_prop] in *. one. auto.
  - intros g t v IH T. cbn [t_prop dg_prop h_prop] in *. andbs. unfold dg_wrap. one. struct; [leaf|leaf|auto].
  - intros v IH T. cbn [t_prop dg_prop h_prop] in *. one. auto.
  - intros x l T. cbn [t_sval dg_sval h_sval] in *. destruct x; cbn [fixed_variant fixed_disc];
      (one; apply fd_fixed; [exact T|reflexivity]).
  - intros g T. cbn [t_sval dg_sval h_sval] in *. one. leaf.
  - intros l T. cbn [t_sval dg_sval h_sval] in *. one. apply fd_vec'. intros a I. typed T I. leaf.
  - intros l IH T. cbn [t_sval dg_sval h_sval] in *. andbs. one.
    apply (fd_smap (fun ps => DList (map (dg_prop fl) ps)) (h_vec h_prop) (TVec (TEnum "Property")) l (forallb (t_prop sep))); [assumption|].
    intros e I F. at_ IH I. apply fd_vec'. intros a J. at_ IH J. typed F J. auto.
  - intros l T. cbn [t_array dg_array h_array] in *. flds. apply fd_vec'. intros; leaf.
  - intros l T. cbn [t_array dg_array h_array] in *. flds. apply fd_vec'. intros; leaf.
  - intros l T. cbn [t_array dg_array h_array] in *. flds. apply fd_vec'. intros a I. typed T I. leaf.
  - intros l T. cbn [t_array dg_array h_array] in *. flds. apply fd_vec'. intros a I. typed T I. leaf.
  - intros l T. cbn [t_array dg_array h_array] in *. flds. apply fd_vec'. intros; leaf.
  - intros l T. cbn [t_array dg_array h_array] in *. flds. apply fd_vec'. intros a I. typed T I. leaf.
  - intros l T. cbn [t_array dg_array h_array] in *. flds. apply fd_vec'. intros a I. typed T I. leaf.
  - intros f t g l IH T. cbn [t_array dg_array h_array] in *. andbs. flds; [leaf|leaf|leaf|].
    apply fd_vec'. intros a I. at_ IH I. match goal with T : forallb _ l = true |- _ => typed T I end. auto.
  - intros t l IH T. cbn [t_array dg_array h_array] in *. andbs. flds; [leaf|].
    apply fd_vec'. intros a I. at_ IH I. match goal with T : forallb _ l = true |- _ => typed T I end. auto.
  - intros k l T. cbn [t_map dg_map h_mapp] in *. andbs.
    assert (D : fed (TMap TStr TBool) (dg_hashable (map (fun e => (DStr (fst e), dg_bool (snd e))) l)) (h_map h_str h_bool l)).
    { apply (fd_map' DStr dg_bool h_str h_bool). intros [a b] I. match goal with T : forallb _ l = true |- _ => typed T I end. split; leaf. }
    unfold map_field, map_prefix, map_variant. destruct k; cbn [append]; flds; exact D.
  - intros k l T. cbn [t_map dg_map h_mapp] in *. andbs.
    assert (D : fed (TMap TStr (TInt 4)) (dg_hashable (map (fun e => (DStr (fst e), dg_int (snd e))) l)) (h_map h_str (h_int 4) l)).
    { eapply fd_smap; [eassumption|]. intros; leaf. }
    unfold map_field, map_prefix, map_variant. destruct k; cbn [append]; flds; exact D.
  - intros k vt l IH T. cbn [t_map dg_map h_mapp] in *. andbs.
    assert (D : fed (TMap TStr (TEnum "Property")) (dg_hashable (map (fun e => (DStr (fst e), dg_prop fl (snd e))) l)) (h_map h_str h_prop l)).
    { eapply fd_smap; [eassumption|]. intros e I. at_ IH I. auto. }
    unfold map_field, map_prefix, map_variant. destruct k; cbn [append]; (flds; [leaf|exact D]).
  - intros l T. cbn [t_map dg_map h_mapp] in *. andbs. flds. eapply fd_smap; [eassumption|]. intros; leaf.
  - intros kt vt f l IH T. cbn [t_map dg_map h_mapp] in *. andbs. flds; [leaf|leaf|leaf|].
    apply (fd_map' (dg_prop fl) (dg_prop fl) h_prop h_prop). intros [a b] I. at_ IH I.
    match goal with T : forallb _ l = true |- _ => typed T I end. andbs. destruct IH. auto.
Qed.
End T.
