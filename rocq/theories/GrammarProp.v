(** Properties: the reader accepts exactly the grammar. *)
From Coq Require Import ZArith List Bool String Lia ZifyBool ZifyNat.
From Verif Require Import Base Str Types Versions Text Props File Spec BaseFacts StrFacts Decode KindFacts
  DecodeProp DecodeMain StrThm EqFacts MapFacts CtorThm OrderThm HeaderThm Grammar GrammarBase GrammarText GrammarCtor.
Import ListNotations.
Open Scope Z_scope.

(** ** Names *)
Lemma type_names_iff ty : In ty type_names <-> mem ty known_types = true.
Proof. rewrite mem_in. unfold type_names, known_types. rewrite in_app_iff. cbn [map In]. tauto. Qed.
Lemma other_iff ty : ~ In ty type_names <-> kind_of ty = KOther.
Proof. rewrite kind_other, type_names_iff. destruct (mem ty known_types); split; congruence. Qed.
Lemma custom_name_iff ty : ~ In ty struct_names <-> skind_of ty = SkCustom.
Proof.
  rewrite skind_custom. change struct_names with known_structs. rewrite <- mem_in.
  destruct (mem ty known_structs); split; congruence.
Qed.
Lemma num_spec_name k : s2z (fst (fst (num_spec k))) = num_name k.
Proof. destruct k; reflexivity. Qed.
Lemma is_name ty k : kind_of ty = k -> k <> KOther -> ty = kind_name k.
Proof. apply kind_name_of. Qed.

(** ** The form of values of a given type *)
Lemma plain_typed vs vt v b : is_plain vs vt v b -> typed vt v.
Proof.
  intros H. destruct H; repeat split; intros E;
    try (exfalso; vm_compute in E; discriminate E); eauto;
    (destruct k; try (exfalso; vm_compute in E; discriminate E); eauto).
Qed.
Lemma prop_typed o vs path vt size v b : is_prop o vs path vt false size v b -> typed vt v.
Proof.
  intros H. inversion H; subst; try (eapply plain_typed; eassumption);
    try (repeat split; intros E; try (exfalso; vm_compute in E; discriminate E); eauto; fail).
  repeat split; intros ->; exfalso; match goal with N : ~ In _ _ |- _ => apply N end;
    apply type_names_iff; reflexivity.
Qed.
Lemma entries_typed o vs path kt vt l b : is_entries o vs path kt vt l b -> Forall (fun e => typed vt (snd e)) l.
Proof.
  intros H. induction H; constructor; auto. cbn [snd]. eapply prop_typed; eassumption.
Qed.
Lemma last_in {K V} (eqb : K -> K -> bool) k (l : list (K * V)) v :
  last_of eqb k l = Some v -> exists k', In (k', v) l.
Proof.
  induction l as [|[k' v'] l IH]; cbn [last_of]; [discriminate|].
  destruct (last_of eqb k l) as [w|].
  - intros X. injection X as ->. destruct (IH eq_refl) as [k2 H]. exists k2. now right.
  - destruct (eqb k k'); [|discriminate]. intros X. injection X as ->. exists k'. now left.
Qed.
Lemma collapsed_values {K V} (eqb : K -> K -> bool) (P : V -> Prop) (l m : list (K * V)) :
  collapsed eqb l m -> Forall (fun e => P (snd e)) l -> Forall (fun e => P (snd e)) m.
Proof.
  intros C H. rewrite Forall_forall in *. intros [k v] Hin. cbn [snd].
  assert (X : In (k, Some v) (map (fun e => (fst e, Some (snd e))) m)).
  { apply in_map_iff. exists (k, v). auto. }
  rewrite C in X. apply in_map_iff in X as (a & X & _). injection X as -> X.
  apply last_in in X as [k' X]. exact (H _ X).
Qed.
Lemma collapsed_same_distinct (l m : list (property * property)) : collapsed same l m -> distinct same m = true.
Proof.
  intros C. apply apart_distinct. rewrite (collapsed_keys _ _ _ C). apply (firsts_apart _ same_sy same_tr).
Qed.
Lemma map_iff o vs path kt vt flags l l' m b :
  is_entries o vs path kt vt l b -> collapsed same l l' -> (is_map kt vt flags l' m <-> m = map_new kt vt flags l').
Proof.
  intros H C. apply map_new_iff; [eapply collapsed_same_distinct; eassumption|].
  eapply collapsed_values; [eassumption|]. eapply entries_typed; eassumption.
Qed.

Section Quiet.
Context (o : opts) (vs : list (guid * Z)).
Hypothesis Q : forall p i, probe o p i = false.

Lemma quiet_collapsed l : collapsed same (map fst l) (mins_all o l).
Proof. apply mins_all_collapsed. left. exact Q. Qed.

(** ** Sound *)
Definition size_ok (s : option Z) : Prop := match s with Some z => 0 <= z | None => True end.
Section Sound.
Context (rp : preader) (n : nat).
Hypothesis Hrp : forall st ty hdr s, size_ok s -> sound st (rp ty hdr s) (is_prop o vs st ty hdr s).

Lemma one_byte (x : list byte) : len x = 1 -> x = [hd Byte.x00 x].
Proof.
  intros L. destruct x as [|c [|d x]]; [discriminate L|reflexivity|].
  rewrite !len_cons in L. pose proof (len_nonneg x). lia.
Qed.
Lemma so_bytev st s : sound st (r_bytev o s) (is_bytev o s).
Proof.
  unfold r_bytev. destruct s as [e|].
  - destruct (Z.eqb_spec e 0); cbn [andb].
    + subst e. destruct (dbg o) eqn:D; [apply so_fail|]. cbn [Z.eqb orb].
      eapply so_last; [apply so_string|]. intros s x H. apply bv_name; try lia; [congruence|exact H].
    + destruct ((e =? 1) || (e =? 2)) eqn:E.
      * eapply so_last; [apply so_take; lia|]. intros bs x [-> L].
        rewrite (one_byte _ L) at 2. apply bv_byte. lia.
      * eapply so_last; [apply so_string|]. intros s x H. apply bv_name; try lia. exact H.
  - eapply so_last; [apply so_take; lia|]. intros bs x [-> L].
    rewrite (one_byte _ L) at 2. constructor.
Qed.
Lemma so_delegate st : sound st r_delegate is_pair.
Proof.
  unfold r_delegate. eapply so_bind; [apply so_string|]. intros a x Ha.
  eapply so_last; [apply so_string|]. intros b y Hb. exists x, y. auto.
Qed.
Lemma so_check n0 st : sound st (check_size n0) (fun _ x => x = le_bytes 8 n0).
Proof.
  unfold check_size. eapply so_bind; [apply so_u64|]. intros v x [-> R]. apply so_position. intros p.
  destruct (Z.eqb_spec v n0); [subst; apply so_ret; now rewrite app_nil_r|apply so_fail].
Qed.
(** Fields. *)
Lemma so_custom m : forall st acc, sound st (r_custom m o rp acc)
  (fun g b => exists l x y, b = x ++ y /\ is_fields o vs st l x /\ text_of (s2z "None") y
     /\ (dbg o = true -> chain acc l = true) /\ g = regroup acc l).
Proof.
  induction m as [|m IH]; intros st acc; cbn [r_custom]; [apply so_fail|].
  eapply so_bind; [apply so_string|]. intros name x Hx. destruct (str_eqb name s_none) eqn:E.
  - apply str_eqb_eq in E. subst name. apply so_ret. rewrite app_nil_r.
    exists [], [], x. split; [reflexivity|]. split; [constructor|]. split; [exact Hx|]. auto.
  - eapply so_bind; [apply so_string|]. intros ty y Hy.
    eapply so_bind; [apply so_scoped, Hrp; exact I|]. intros p z Hz.
    destruct (dbg o && negb (index_ok acc name p)) eqn:D; [apply so_fail|].
    eapply so_weaken; [apply IH|]. intros g w (l & w1 & w2 & -> & Hl & Hn & Hc & ->).
    exists ((name, p) :: l), (x ++ y ++ z ++ w1), w2. rewrite <- !app_assoc. split; [reflexivity|].
    split; [|split; [exact Hn|split; [|reflexivity]]].
    + econstructor; eauto. intros ->. vm_compute in E. discriminate.
    + intros Dd. cbn [chain]. rewrite (Hc Dd), andb_true_r. rewrite Dd in D. cbn [andb] in D.
      now apply negb_false_iff.
Qed.
Lemma so_sval st ty : sound st (r_sval n o vs rp ty) (is_struct o vs st ty).
Proof.
  unfold r_sval. destruct (fixed_of vs (skind_of ty)) as [x|] eqn:F.
  - apply fixed_of_spec in F. eapply so_last; [apply so_mapM; intros k; apply so_num|].
    intros l b H. destruct F as [(-> & P & _)|(-> & P & _)];
      (destruct x; cbn [layout precision_ok] in *; eapply st_fixed; try reflexivity; try exact H;
       intros d E; try discriminate E; injection E as <-; try exact P; now apply negb_true_iff in P).
  - assert (HC : skind_of ty = SkCustom -> sound st (bind (r_custom n o rp []) (fun l => ret (SCustom l))) (is_struct o vs st ty)).
    { intros K. eapply so_last; [apply so_custom|]. intros g b (l & x & y & -> & Hl & Hn & Hc & ->).
      rewrite regroup_grouped. apply st_custom; auto; [now apply custom_name_iff|].
      intros D. apply indexed_chain. exact (Hc D). }
    destruct (skind_of ty) eqn:K; try (discriminate F); try (apply HC; reflexivity).
    + assert (ty = s2z "Guid") as -> by (rewrite (skind_of_name ty) by congruence; now rewrite K).
      eapply so_last; [apply so_guid|]. intros g x [<- L]. now apply st_guid.
    + assert (ty = s2z "GameplayTagContainer") as -> by (rewrite (skind_of_name ty) by congruence; now rewrite K).
      eapply so_bind; [apply so_count|]. intros c ? [-> R].
      eapply so_last; [apply so_rep; [lia|apply so_string]|]. intros l x [Hl <-].
      apply st_tags; [lia|exact Hl].
Qed.
Lemma many_elems st ty s l x : many (is_prop o vs st ty false s) l x -> is_elems o vs st ty s l x.
Proof. induction 1; econstructor; eauto. Qed.
Lemma many_svals st ty l x :
  many (fun p b => exists v, p = PSValue v /\ is_struct o vs st ty v b) l x ->
  exists r, l = map PSValue r /\ is_structs o vs st ty r x.
Proof.
  induction 1 as [|p l x y (v & -> & Hv) _ (r & -> & Hr)]; [exists []; split; [reflexivity|constructor]|].
  exists (v :: r). split; [reflexivity|]. now constructor.
Qed.
Lemma so_elems st ty s count : size_ok s -> 0 <= count ->
  sound st (rep count (rp ty false s)) (fun l x => is_elems o vs st ty s l x /\ len l = count).
Proof.
  intros Hs Hc. eapply so_weaken; [apply so_rep; [exact Hc|now apply Hrp]|]. intros l x [Hl E].
  split; [now apply many_elems|exact E].
Qed.
Lemma so_entries st kt vt count : 0 <= count ->
  sound st (rep count (r_entry rp kt vt)) (fun l x => is_entries o vs st kt vt (map fst l) x /\ len l = count).
Proof.
  intros Hc. eapply so_weaken.
  - apply so_rep; [exact Hc|]. unfold r_entry.
    eapply so_bind; [apply so_scoped, Hrp; exact I|]. intros k x Hk.
    eapply so_bind; [apply so_scoped, Hrp; exact I|]. intros v y Hv.
    apply so_position. intros p. apply so_ret. rewrite app_nil_r.
    instantiate (1 := fun e b => exists x y, b = x ++ y
      /\ is_prop o vs (s2z "Key" :: st) kt false None (fst (fst e)) x
      /\ is_prop o vs (s2z "Value" :: st) vt false None (snd (fst e)) y).
    exists x, y. auto.
  - intros l x [Hl E]. split; [|exact E]. clear E. induction Hl as [|[[k v] p] l x y (x1 & x2 & -> & H1 & H2) _ IH].
    + constructor.
    + rewrite <- app_assoc. cbn [map fst]. now constructor.
Qed.

Lemma so_array st length ty : word length -> sound (s2z "ArrayProperty" :: st) (r_array n o vs rp length ty)
  (fun p b => len b = length -> forall x, text_of ty x -> word (len b) ->
     forall size, is_prop o vs st (s2z "ArrayProperty") true size p (framed 0 x b)).
Proof.
  intros Hlen. unfold r_array. eapply so_bind; [apply so_u32|]. intros count ? [-> Hc].
  assert (HG : ty <> s2z "StructProperty" ->
    sound (s2z "ArrayProperty" :: st)
      (l <- rep count (rp ty false (if (0 <? count) && (4 <=? length) then Some ((length - 4) / count) else None)) ;;
       a <- of_outcome (array_new ty None l) ;; ret (PArray a))
      (fun p b => len (u4 count ++ b) = length -> forall x, text_of ty x -> word (len (u4 count ++ b)) ->
         forall size, is_prop o vs st (s2z "ArrayProperty") true size p (framed 0 x (u4 count ++ b)))).
  { intros NS. eapply so_bind; [apply so_elems; [|apply Hc]|].
    - destruct (Z.ltb_spec 0 count); cbn [andb]; [|exact I].
      destruct (Z.leb_spec 4 length); [|exact I]. cbn [size_ok]. apply Z.div_pos; lia.
    - intros l y [Hl <-]. destruct (array_new ty None l) as [a|] eqn:A; [|intros q b a c E; discriminate E].
      cbn [of_outcome]. apply so_last with (L := fun a' z => a' = a /\ z = []); [apply so_ret; auto|].
      intros a' z [-> ->] E x Hx Hw size. rewrite app_nil_r in *.
      eapply p_array with (l := l) (y := y); eauto; [|now apply array_new_iff].
      assert (E2 : length - 4 = len y) by (unfold u4 in E; rewrite len_app, len_le_bytes in E; lia).
      destruct l as [|p l]; [inversion Hl; subst; constructor|].
      destruct (Z.ltb_spec 0 (len (p :: l))); [|rewrite len_cons in *; pose proof (len_nonneg l); lia].
      pose proof (len_nonneg y).
      destruct (Z.leb_spec 4 length); [|lia]. cbn [andb] in Hl. now rewrite E2 in Hl. }
  destruct (kind_of ty) eqn:K; try (apply HG; intros ->; vm_compute in K; discriminate K).
  apply is_name in K; [|discriminate]. subst ty. clear HG.
  unfold r_struct_array.
  eapply so_bind with (L := fun r b => exists f ty g l xf xs xt y,
     r = (f, ty, g, map PSValue l) /\ len l = count /\ text_of f xf /\ text_of (s2z "StructProperty") xs
     /\ text_of ty xt /\ len g = 16 /\ b = xf ++ xs ++ le_bytes 8 (len y) ++ xt ++ g ++ Byte.x00 :: y
     /\ is_structs o vs (s2z "ArrayProperty" :: st) ty l y).
  - eapply so_bind; [apply so_string|]. intros f xf Hf. eapply so_bind; [apply so_string|]. intros ty xs Hs.
    destruct (str_eqb ty (kind_name KStruct)) eqn:E; cbn [negb]; [|apply so_fail].
    apply str_eqb_eq in E. subst ty.
    eapply so_bind; [apply so_u64|]. intros size ? [-> Hsz]. eapply so_bind; [apply so_string|]. intros ty xt Ht.
    eapply so_bind; [apply so_guid|]. intros g ? [<- Hg]. eapply so_bind; [apply so_term|]. intros u ? ->.
    apply (so_measured _ size (rep count (v <- r_sval n o vs rp ty ;; ret (PSValue v))) (fun l => (f, ty, g, l))
             (fun start stop => Err (EProperty (decimal (stop - start) ++ s2z " != " ++ decimal size) stop)) 
             (fun l x => exists r, l = map PSValue r /\ len r = count /\ is_structs o vs (s2z "ArrayProperty" :: st) ty r x)).
    + eapply so_weaken; [apply so_rep; [apply Hc|]|].
      * eapply so_last; [apply so_sval|]. intros v x Hv.
        instantiate (1 := fun p b => exists v, p = PSValue v /\ is_struct o vs (s2z "ArrayProperty" :: st) ty v b).
        exists v. auto.
      * intros l x [Hl El]. apply many_svals in Hl as (r & -> & Hr). exists r. rewrite len_map in El. auto.
    + intros l y (r & -> & Er & Hr) Ly. exists f, ty, g, r, xf, xs, xt, y. rewrite Ly.
      repeat (split; [assumption || reflexivity|]). exact Hr.
  - intros r b (f & ty & g & l & xf & xs & xt & y & -> & El & Hf & Hs & Ht & Hg & -> & Hl).
    cbn [fst snd]. unfold array_new. change (kind_of (kind_name KStruct)) with KStruct. cbv iota.
    rewrite opt_map_map by reflexivity. cbn [of_outcome].
    apply so_last with (L := fun a' z => a' = AStructs f ty g l /\ z = []); [apply so_ret; auto|].
    intros a' z [-> ->] E x Hx Hw size. rewrite app_nil_r in *. subst count.
    eapply p_structs with (xf := xf) (xs := xs) (xt := xt) (y := y); eauto.
Qed.
Lemma so_set st length ty : word length -> sound (s2z "SetProperty" :: st) (r_set o rp length ty)
  (fun p b => len b = length -> forall x, text_of ty x -> word (len b) ->
     forall size, is_prop o vs st (s2z "SetProperty") true size p (framed 0 x b)).
Proof.
  intros Hlen. unfold r_set. eapply so_bind; [apply so_u32|]. intros flags ? [-> Hf].
  eapply so_bind; [apply so_u32|]. intros count ? [-> Hc].
  destruct (Z.ltb_spec 0 count) as [C|C].
  - destruct ((length <? 8) && dbg o) eqn:D; [apply so_fail|].
    eapply so_last; [apply so_elems; [cbn [size_ok]; apply Z.div_pos; [apply Z.mod_pos_bound|]; lia|apply Hc]|].
    intros l y [Hl <-] E x Hx Hw size. unfold u4 in E. rewrite !len_app, !len_le_bytes in E.
    assert (E2 : (length - 8) mod 4294967296 = len y).
    { replace (length - 8) with (len y) by lia. apply Z.mod_small. pose proof (len_nonneg y). unfold word in Hlen. lia. }
    rewrite E2 in Hl. eapply p_set; eauto.
  - assert (count = 0) by (unfold word in Hc; lia). subst count.
    apply so_ret. intros E x Hx Hw size.
    eapply p_set with (l := []) (y := []); eauto. constructor.
Qed.
Lemma so_map st kt vt : sound (s2z "MapProperty" :: st) (r_map o rp kt vt)
  (fun p b => forall xk xv, text_of kt xk -> text_of vt xv -> word (len b) ->
     forall size, is_prop o vs st (s2z "MapProperty") true size p (framed 0 (xk ++ xv) b)).
Proof.
  unfold r_map. eapply so_bind; [apply so_u32|]. intros flags ? [-> Hf].
  eapply so_bind; [apply so_u32|]. intros count ? [-> Hc].
  eapply so_last; [apply so_entries, Hc|]. intros l y [Hl <-] xk xv Hk Hv Hw size.
  pose proof (quiet_collapsed l) as C.
  replace (len l) with (len (map fst l)) in * by apply len_map.
  eapply p_map with (flags := flags) (l := map fst l) (y := y); eauto; [now left|]. eapply map_iff; eauto.
Qed.
Lemma so_body st ty hdr size : size_ok size ->
  sound (ty :: st) (r_body n o vs rp ty hdr size) (is_prop o vs st ty hdr size).
Proof.
  intros Hsize. unfold r_body.
  assert (HP : forall (r : reader property), sound (ty :: st) r (fun p b => is_plain vs ty p b) ->
    sound (ty :: st) (plain hdr r) (is_prop o vs st ty hdr size)).
  { intros r H. eapply so_plain; [exact H| |]; intros ->; intros; [now apply p_plain_h|now apply p_plain]. }
  destruct (kind_of ty) eqn:K;
    try (match type of K with _ = KOther => fail 1 | _ => apply is_name in K; [|discriminate]; subst ty end).
  - (* numbers *)
    cbn [kind_name] in *. unfold r_pnum. destruct hdr.
    + eapply so_bind with (L := fun _ x => x = le_bytes 8 (num_width k) ++ [Byte.x00]).
      { eapply so_bind; [apply so_check|]. intros u ? ->. eapply so_weaken; [apply so_zero8|]. intros ? ? ->. reflexivity. }
      intros u ? ->. eapply so_last; [apply so_num|]. intros z b Hb.
      rewrite <- num_spec_name.
      replace ((le_bytes 8 (num_width k) ++ [Byte.x00]) ++ b) with (framed 0 [] b).
      * apply p_plain_h; [now constructor|].
        unfold num_bytes in Hb. destruct k; cbn [num_spec] in Hb; destruct Hb as [-> _]; rewrite len_le_bytes; split; lia.
      * unfold num_bytes in Hb. destruct k; cbn [num_spec] in Hb; destruct Hb as [-> _]; reflexivity.
    + apply so_bind with (L := fun _ x => x = []); [now apply so_ret|]. intros u ? ->.
      eapply so_last; [apply so_num|]. intros z b Hb. rewrite <- num_spec_name. apply p_plain. now constructor.
  - (* bytes *)
    unfold r_pbyte. destruct hdr.
    + eapply so_bind; [apply so_u32|]. intros e ? [-> He]. eapply so_bind; [apply so_zero32|]. intros u ? ->.
      eapply so_bind; [apply so_string|]. intros nm x Hx. eapply so_bind; [apply so_zero8|]. intros u' ? ->.
      eapply so_last; [apply so_bytev|]. intros v b Hb. now apply p_byte_h.
    + eapply so_last; [apply so_bytev|]. intros v b Hb. now apply p_byte.
  - (* booleans *)
    unfold r_pbool. destruct hdr.
    + eapply so_bind; [apply so_check|]. intros u ? ->. eapply so_bind; [apply so_bool|]. intros b ? ->.
      eapply so_bind; [apply so_zero8|]. intros u' ? ->. apply so_ret. rewrite app_nil_r.
      apply p_bool_h.
    + apply so_bind with (L := fun _ x => x = []); [now apply so_ret|]. intros u ? ->.
      eapply so_bind; [apply so_bool|]. intros b ? ->.
      apply so_bind with (L := fun _ x => x = []); [now apply so_ret|]. intros u' ? ->.
      apply so_ret. rewrite !app_nil_r. apply p_bool.
  - (* enums *)
    unfold r_penum. destruct hdr.
    + eapply so_headed with (L := fun t _ p b => exists v, p = PEnum (Some t) v /\ text_of v b); [apply so_string| |].
      * intros m t x Ht Hm. eapply so_last; [apply so_string|]. eauto.
      * intros m t x p b Ht Hm (v & -> & Hv) <-. now apply p_enum_h.
    + eapply so_last; [apply so_string|]. intros v b Hb. now apply p_enum.
  - apply HP. eapply so_last; [apply so_fstring|]. intros v b Hb. now apply pl_str.
  - unfold r_ptext. apply HP. eapply so_last; [apply so_text|]. intros v b Hb. now apply pl_text.
  - (* names *)
    unfold r_pname. destruct hdr.
    + unfold headed_index. eapply so_bind; [apply so_u32|]. intros m ? [-> Hm].
      eapply so_bind; [apply so_u32|]. intros i ? [-> Hi]. eapply so_bind; [apply so_term|]. intros u ? ->.
      eapply so_weaken; [apply so_sized; eapply so_last; [apply so_fstring|]|].
      * intros v x Hv. instantiate (1 := fun p b => exists v, p = PName i v /\ stored v b). exists v. auto.
      * intros p b [(v & -> & Hv) <-]. now apply p_name_h.
    + eapply so_last; [apply so_fstring|]. intros v b Hb. now apply p_name.
  - apply HP. eapply so_last; [apply so_string|]. intros v b Hb. now apply pl_object.
  - apply HP. eapply so_last; [apply so_delegate|]. intros v b Hb. now apply pl_delegate.
  - unfold r_pmulti. apply HP. eapply so_bind; [apply so_u32|]. intros c ? [-> Hc].
    eapply so_last; [apply so_rep; [apply Hc|apply so_delegate]|]. intros l b [Hl <-].
    destruct inline; [now apply pl_inline|now apply pl_sparse].
  - apply HP. eapply so_bind; [apply so_u32|]. intros c ? [-> Hc].
    eapply so_bind; [apply so_rep; [apply Hc|apply so_string]|]. intros l x [Hl <-].
    eapply so_last; [apply so_string|]. intros s y Hs. now apply pl_path.
  - (* structs *)
    destruct hdr.
    + unfold r_pstruct.
      eapply so_headed with (L := fun tg _ p b => exists v, p = PStruct (snd tg) (fst tg) v
          /\ is_struct o vs (s2z "StructProperty" :: st) (fst tg) v b)
        (LV := fun tg x => exists xt, x = xt ++ snd tg /\ text_of (fst tg) xt /\ len (snd tg) = 16).
      * eapply so_bind; [apply so_string|]. intros t xt Ht. eapply so_last; [apply so_guid|].
        intros g ? [<- Hg]. exists xt. auto.
      * intros m tg x _ Hm. eapply so_last; [apply so_sval|]. eauto.
      * intros m [t g] x p b (xt & -> & Ht & Hg) Hm (v & -> & Hv) <-. cbn [fst snd] in *. now apply p_struct_h.
    + unfold r_hinted. apply so_get_stk. apply so_position. intros p.
      destruct (hints o (join_path (kind_name KStruct :: st))) as [t|] eqn:Hh; [|apply so_fail].
      eapply so_last; [apply so_sval|]. intros v b Hv. rewrite dotted_join in Hh. eapply p_struct; eauto.
  - (* arrays *)
    destruct hdr; [|intros q b a c E; discriminate E].
    eapply so_headed with (LV := text_of) (L := fun t m p b => len b = m -> forall x, text_of t x -> word (len b) ->
       forall size, is_prop o vs st (s2z "ArrayProperty") true size p (framed 0 x b)); [apply so_string| |].
    + intros m t x Ht Hm. now apply so_array.
    + intros m t x p b Ht Hm H <-. now apply H.
  - destruct hdr; [|intros q b a c E; discriminate E].
    eapply so_headed with (LV := text_of) (L := fun t m p b => len b = m -> forall x, text_of t x -> word (len b) ->
       forall size, is_prop o vs st (s2z "SetProperty") true size p (framed 0 x b)); [apply so_string| |].
    + intros m t x Ht Hm. now apply so_set.
    + intros m t x p b Ht Hm H <-. now apply H.
  - destruct hdr; [|intros q b a c E; discriminate E].
    eapply so_headed with (LV := fun kv x => exists xk xv, x = xk ++ xv /\ text_of (fst kv) xk /\ text_of (snd kv) xv)
      (L := fun kv m p b => forall xk xv, text_of (fst kv) xk -> text_of (snd kv) xv -> word (len b) ->
       forall size, is_prop o vs st (s2z "MapProperty") true size p (framed 0 (xk ++ xv) b)).
    + eapply so_bind; [apply so_string|]. intros a x Ha. eapply so_last; [apply so_string|]. intros b y Hb. exists x, y. auto.
    + intros m t x Ht Hm. apply so_map.
    + intros m [kt vt] x p b (xk & xv & -> & Hk & Hv) Hm H <-. now apply H.
  - (* unknown types *)
    apply other_iff in K. destruct hdr.
    + unfold r_unknown_header, r_unknown. eapply so_bind; [apply so_u32|]. intros m ? [-> Hm].
      eapply so_bind; [apply so_zero32|]. intros u ? ->. eapply so_bind; [apply so_zero8|]. intros u' ? ->.
      eapply so_last; [apply so_take, Hm|]. intros raw x [-> <-]. now apply p_unknown_h.
    + destruct size as [m|]; [|intros q b a c E; discriminate E].
      unfold r_unknown. eapply so_last; [apply so_take, Hsize|]. intros raw x [-> <-]. now apply p_unknown.
Qed.
End Sound.
Lemma so_prop n : forall st ty hdr s, size_ok s -> sound st (r_prop n o vs ty hdr s) (is_prop o vs st ty hdr s).
Proof.
  induction n as [|n IH]; intros st ty hdr s Hs; cbn [r_prop]; [apply so_fail|].
  apply so_scoped. apply so_body; auto.
Qed.
End Quiet.
