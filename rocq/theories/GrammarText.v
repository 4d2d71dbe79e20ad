(** Texts: the reader accepts exactly the grammar. *)
From Coq Require Import ZArith List Bool String Lia ZifyBool ZifyNat.
From Verif Require Import Base Str Types Versions Text Props File Spec BaseFacts StrFacts Decode KindFacts
  DecodeProp DecodeMain StrThm MapFacts CtorThm OrderThm HeaderThm Grammar GrammarBase.
Import ListNotations.
Open Scope Z_scope.

Scheme is_text_ind2 := Induction for is_text Sort Prop
with is_hist_ind2 := Induction for is_hist Sort Prop
with is_arg_ind2 := Induction for is_arg Sort Prop
with is_args_ind2 := Induction for is_args Sort Prop
with is_named_ind2 := Induction for is_named Sort Prop.
Combined Scheme text_mut from is_text_ind2, is_hist_ind2, is_arg_ind2, is_args_ind2, is_named_ind2.

Lemma collapsed_str {V} (l : list (str * V)) : collapsed str_eqb l (ins_all str_eqb l).
Proof. apply ins_all_collapsed; [apply str_rf|apply str_sy|apply str_tr]. Qed.
Lemma collapsed_str_eq {V} (l m : list (str * V)) : collapsed str_eqb l m <-> m = ins_all str_eqb l.
Proof.
  split; [|intros ->; apply collapsed_str]. intros H. exact (collapsed_unique str_eqb _ _ _ H (collapsed_str l)).
Qed.

(** ** Formats *)
Section Fmt.
Context (st : list str).
Lemma so_numfmt : sound st r_numfmt is_numfmt.
Proof.
  unfold r_numfmt. eapply so_bind; [apply so_b32|]. intros a ? ->. eapply so_bind; [apply so_b32|]. intros b ? ->.
  eapply so_bind; [apply so_upto|]. intros r ? [-> Hr].
  eapply so_bind; [apply so_i32|]. intros c ? [-> Hc]. eapply so_bind; [apply so_i32|]. intros d ? [-> Hd].
  eapply so_bind; [apply so_i32|]. intros e ? [-> He]. eapply so_last; [apply so_i32|]. intros f ? [-> Hf].
  split; [reflexivity|]. split; [exact Hr|]. cbn [nf_mini nf_maxi nf_minf nf_maxf].
  apply Forall_cons; [exact Hc|]. apply Forall_cons; [exact Hd|]. apply Forall_cons; [exact He|].
  apply Forall_cons; [exact Hf|]. apply Forall_nil.
Qed.
Lemma de_numfmt f b : is_numfmt f b -> decodes st r_numfmt b f.
Proof.
  intros (-> & Hr & H). inversion H as [|? ? H1 T1]; subst. inversion T1 as [|? ? H2 T2]; subst.
  inversion T2 as [|? ? H3 T3]; subst. inversion T3 as [|? ? H4 T4]; subst.
  unfold r_numfmt. eapply dec_bind; [apply de_b32|]. eapply dec_bind; [apply de_b32|].
  eapply dec_bind; [apply de_upto; lia|].
  do 3 (eapply dec_bind; [apply de_i32; lia|]). eapply dec_bind_last; [apply de_i32; lia|].
  destruct f. apply dec_ret.
Qed.
Lemma so_optfmt : sound st r_optfmt is_optfmt.
Proof.
  unfold r_optfmt. eapply so_bind; [apply so_b32|]. intros [] ? ->.
  - eapply so_last; [apply so_numfmt|]. intros f x H. now constructor.
  - apply so_ret. rewrite app_nil_r. constructor.
Qed.
Lemma de_optfmt f b : is_optfmt f b -> decodes st r_optfmt b f.
Proof.
  intros H. unfold r_optfmt. destruct H as [|f b H].
  - eapply dec_bind_last; [apply (de_b32 st false)|]. apply dec_ret.
  - eapply dec_bind; [apply (de_b32 st true)|]. eapply dec_bind_last; [eapply de_numfmt; eassumption|apply dec_ret].
Qed.
End Fmt.

(** ** Sound *)
Lemma enum_of_in {A} (f : A -> Z) l z a : enum_of f l z = Some a -> f a = z.
Proof. intros H. apply find_some in H as [_ H]. lia. Qed.

Lemma so_tag st {A B} t (f : A -> Z) l (k : A -> reader B) (M : B -> list byte -> Prop) :
  (forall a, sound st (k a) (fun y z => M y (z2b (f a) :: z))) -> sound st (bind (r_enum t (enum_of f l)) k) M.
Proof.
  intros H. eapply so_bind; [apply so_enum|]. intros a x (z & -> & R & E). apply enum_of_in in E. subst z.
  apply H.
Qed.

Section Sound.
Context (vs : list (guid * Z)) (st : list str) (rt : reader ftext).
Hypothesis Hrt : sound st rt (is_text vs).
Lemma so_farg : sound st (r_farg vs rt) (is_arg vs).
Proof.
  unfold r_farg. apply so_tag. intros t. destruct t.
  - destruct (has_arg64 vs) eqn:V.
    + eapply so_last; [apply (so_sint st 8); lia|]. intros v x [-> Hv]. now apply a_int64.
    + eapply so_last; [apply (so_sint st 4); lia|]. intros v x [-> Hv]. now apply a_int.
  - destruct (has_arg64 vs) eqn:V.
    + eapply so_last; [apply (so_uint st 8)|]. intros v x [-> Hv]. now apply a_uint64.
    + eapply so_last; [apply (so_uint st 4)|]. intros v x [-> Hv]. now apply a_uint.
  - eapply so_last; [apply (so_uint st 4)|]. intros v x [-> Hv]. now apply a_float.
  - eapply so_last; [apply (so_uint st 8)|]. intros v x [-> Hv]. now apply a_double.
  - eapply so_last; [apply Hrt|]. intros v x H. now apply a_text.
  - apply so_fail.
Qed.
Lemma many_args l x : many (is_arg vs) l x -> is_args vs l x.
Proof. induction 1; constructor; auto. Qed.
Lemma many_named l x :
  many (fun e b => exists x y, b = x ++ y /\ text_of (fst e) x /\ is_arg vs (snd e) y) l x -> is_named vs l x.
Proof.
  induction 1 as [|[k a] l b z (x & y & -> & Hx & Hy) _ IH]; [constructor|].
  rewrite <- app_assoc. now constructor.
Qed.
Lemma so_named : sound st (r_named vs rt)
  (fun m b => exists l y, b = u4 (len l) ++ y /\ is_named vs l y /\ len l < 2147483648 /\ collapsed str_eqb l m).
Proof.
  unfold r_named. eapply so_bind; [apply so_count|]. intros n ? [-> Hn]. eapply so_last.
  - apply so_rep; [lia|]. eapply so_bind; [apply so_string|]. intros k x Hk.
    eapply so_last; [apply so_farg|]. intros a y Ha.
    instantiate (1 := fun e b => exists x y, b = x ++ y /\ text_of (fst e) x /\ is_arg vs (snd e) y).
    exists x, y. auto.
  - intros l y [Hl <-]. exists l, y. split; [reflexivity|]. split; [now apply many_named|].
    split; [lia|apply collapsed_str].
Qed.
Lemma so_hist : sound st (r_hist vs rt) (is_hist vs).
Proof.
  unfold r_hist. apply so_tag. intros t. unfold r_style, r_transform. destruct t.
  - destruct (has_culture vs) eqn:V.
    + eapply so_bind; [apply so_b32|]. intros [] ? ->.
      * eapply so_last; [apply so_fstring|]. intros s x H. now apply h_none.
      * apply so_ret. now apply h_empty.
    + apply so_ret. now apply h_old.
  - eapply so_bind; [apply so_fstring|]. intros a x Ha. eapply so_bind; [apply so_fstring|]. intros b y Hb.
    eapply so_last; [apply so_fstring|]. intros c z Hc. now apply h_base.
  - eapply so_bind; [apply Hrt|]. intros t x Ht. eapply so_last; [apply so_named|].
    intros m b (l & y & -> & Hl & Hn & Hc). now apply h_named.
  - eapply so_bind; [apply Hrt|]. intros t x Ht. eapply so_bind; [apply so_count|]. intros n ? [-> Hn].
    eapply so_last; [apply so_rep; [lia|apply so_farg]|]. intros l y [Hl <-]. apply h_ordered; auto using many_args. lia.
  - eapply so_bind; [apply Hrt|]. intros t x Ht. eapply so_last; [apply so_named|].
    intros m b (l & y & -> & Hl & Hn & Hc). now apply h_argument.
  - eapply so_bind; [apply so_farg|]. intros a x Ha. eapply so_bind; [apply so_optfmt|]. intros b y Hb.
    eapply so_last; [apply so_fstring|]. intros c z Hc. now apply h_number.
  - eapply so_bind; [apply so_farg|]. intros a x Ha. eapply so_bind; [apply so_optfmt|]. intros b y Hb.
    eapply so_last; [apply so_fstring|]. intros c z Hc. now apply h_percent.
  - eapply so_bind; [apply so_fstring|]. intros d w Hd.
    eapply so_bind; [apply so_farg|]. intros a x Ha. eapply so_bind; [apply so_optfmt|]. intros b y Hb.
    eapply so_last; [apply so_fstring|]. intros c z Hc. now apply h_currency.
  - eapply so_bind; [apply so_u64|]. intros t ? [-> Ht]. eapply so_bind; [apply so_upto|]. intros s ? [-> Hs].
    eapply so_last; [apply so_string|]. intros c x Hc. now apply h_date.
  - eapply so_bind; [apply so_u64|]. intros t ? [-> Ht]. eapply so_bind; [apply so_upto|]. intros s ? [-> Hs].
    eapply so_bind; [apply so_string|]. intros z x Hz. eapply so_last; [apply so_string|]. intros c y Hc. now apply h_time.
  - eapply so_bind; [apply so_u64|]. intros t ? [-> Ht]. eapply so_bind; [apply so_upto|]. intros s ? [-> Hs].
    eapply so_bind; [apply so_upto|]. intros u ? [-> Hu].
    eapply so_bind; [apply so_string|]. intros z x Hz. eapply so_last; [apply so_string|]. intros c y Hc. now apply h_datetime.
  - eapply so_bind; [apply Hrt|]. intros t x Ht. eapply so_last; [apply so_upto|]. intros k ? [-> Hk]. now apply h_transform.
  - eapply so_bind; [apply so_string|]. intros a x Ha. eapply so_last; [apply so_string|]. intros b y Hb. now apply h_table.
  - apply so_fail.
  - apply so_fail.
Qed.
End Sound.
Lemma so_text vs st n : sound st (r_text n vs) (is_text vs).
Proof.
  induction n as [|n IH]; cbn [r_text]; [apply so_fail|].
  eapply so_bind; [apply so_u32|]. intros f ? [-> Hf]. eapply so_last; [apply so_hist, IH|].
  intros h x Hh. now constructor.
Qed.

(** ** Complete *)
Ltac nonneg := repeat match goal with
  | x : list byte |- _ => lazymatch goal with _ : 0 <= len x |- _ => fail | _ => pose proof (len_nonneg x) end
  end.
Ltac lens L := unfold framed, u4 in L; rewrite ?len_cons, ?len_app, ?len_cons, ?len_app, ?len_cons, ?len_le_bytes in L; nonneg.
Section Complete.
Context (vs : list (guid * Z)) (st : list str).
Lemma de_htype t : decodes st (r_enum ETHistory (enum_of htype_z htypes)) (le_bytes 1 (htype_z t)) t.
Proof. apply de_enum; [destruct t; cbn; lia|apply enum_h]. Qed.
Lemma de_atype t : decodes st (r_enum ETArgument (enum_of atype_z atypes)) (le_bytes 1 (atype_z t)) t.
Proof. apply de_enum; [destruct t; cbn; lia|apply enum_a]. Qed.
Lemma de_tag {B} t c (k : htype -> reader B) b x : c = z2b (htype_z t) -> decodes st (k t) b x ->
  decodes st (bind (r_enum ETHistory (enum_of htype_z htypes)) k) (c :: b) x.
Proof. intros -> H. apply de_cons with (a := t); [apply de_htype|exact H]. Qed.
Lemma de_atag {B} t c (k : atype -> reader B) b x : c = z2b (atype_z t) -> decodes st (k t) b x ->
  decodes st (bind (r_enum ETArgument (enum_of atype_z atypes)) k) (c :: b) x.
Proof. intros -> H. apply de_cons with (a := t); [apply de_atype|exact H]. Qed.
Lemma de_rep_len {A} (r : reader A) l x : decodes st (repn (List.length l) r) x l -> decodes st (rep (len l) r) x l.
Proof.
  intros H. eapply dec_ext; [intros c; apply rep_repn|]. unfold len. now rewrite Nat2Z.id.
Qed.
Lemma de_named n l y : len l < 2147483648 ->
  decodes st (repn (List.length l) (k <- r_string ;; v <- r_farg vs (r_text n vs) ;; ret (k, v))) y l ->
  decodes st (r_named vs (r_text n vs)) (u4 (len l) ++ y) (ins_all str_eqb l).
Proof.
  intros L H. unfold r_named. pose proof (len_nonneg l). eapply dec_bind; [apply de_count; lia|].
  eapply dec_bind_last; [apply de_rep_len, H|apply dec_ret].
Qed.
Lemma complete :
  (forall t b, is_text vs t b -> forall n, len b < Z.of_nat n -> decodes st (r_text n vs) b t)
  /\ (forall h b, is_hist vs h b -> forall n, len b < Z.of_nat n -> decodes st (r_hist vs (r_text n vs)) b h)
  /\ (forall a b, is_arg vs a b -> forall n, len b < Z.of_nat n -> decodes st (r_farg vs (r_text n vs)) b a)
  /\ (forall l b, is_args vs l b -> forall n, len b < Z.of_nat n -> decodes st (repn (List.length l) (r_farg vs (r_text n vs))) b l)
  /\ (forall l b, is_named vs l b -> forall n, len b < Z.of_nat n ->
        decodes st (repn (List.length l) (k <- r_string ;; v <- r_farg vs (r_text n vs) ;; ret (k, v))) b l).
Proof.
  apply text_mut.
  - intros f h b Hf _ IH n L. unfold u4 in L. rewrite len_app, len_le_bytes in L. pose proof (len_nonneg b).
    destruct n as [|n]; [lia|]. cbn [r_text]. eapply dec_bind; [apply de_u32, Hf|].
    eapply dec_bind_last; [apply IH; lia|apply dec_ret].
  - intros V n L. unfold r_hist. apply (de_tag TNone); [reflexivity|]. rewrite V. apply dec_ret.
  - intros V n L. unfold r_hist. apply (de_tag TNone); [reflexivity|]. rewrite V.
    eapply dec_bind_last; [apply (de_b32 st false)|apply dec_ret].
  - intros s b V Hs n L. unfold r_hist. apply (de_tag TNone); [reflexivity|]. rewrite V.
    eapply dec_bind; [apply (de_b32 st true)|]. eapply dec_bind_last; [eapply de_fstring; eassumption|apply dec_ret].
  - intros a b c x y z Ha Hb Hc n L. unfold r_hist. apply (de_tag TBase); [reflexivity|].
    eapply dec_bind; [eapply de_fstring; eassumption|]. eapply dec_bind; [eapply de_fstring; eassumption|].
    eapply dec_bind_last; [eapply de_fstring; eassumption|apply dec_ret].
  - intros t l m x y _ IHt _ IHl Hn Hc n L. apply collapsed_str_eq in Hc. subst m. lens L.
    unfold r_hist. apply (de_tag TNamed); [reflexivity|]. eapply dec_bind; [apply IHt; lia|].
    eapply dec_bind_last; [|apply dec_ret]. apply de_named; [lia|]. apply IHl. lia.
  - intros t l x y _ IHt _ IHl Hn n L. lens L.
    unfold r_hist. apply (de_tag TOrdered); [reflexivity|]. eapply dec_bind; [apply IHt; lia|].
    eapply dec_bind; [apply de_count; pose proof (len_nonneg l); lia|].
    eapply dec_bind_last; [|apply dec_ret]. apply de_rep_len, IHl. lia.
  - intros t l m x y _ IHt _ IHl Hn Hc n L. apply collapsed_str_eq in Hc. subst m. lens L.
    unfold r_hist. apply (de_tag TArgument); [reflexivity|]. eapply dec_bind; [apply IHt; lia|].
    eapply dec_bind_last; [|apply dec_ret]. apply de_named; [lia|]. apply IHl. lia.
  - intros v o c x y z _ IHv Ho Hc n L. lens L. unfold r_hist. apply (de_tag TNumber); [reflexivity|].
    eapply dec_bind; [apply IHv; lia|]. eapply dec_bind; [eapply de_optfmt; eassumption|].
    eapply dec_bind_last; [eapply de_fstring; eassumption|apply dec_ret].
  - intros v o c x y z _ IHv Ho Hc n L. lens L. unfold r_hist. apply (de_tag TPercent); [reflexivity|].
    eapply dec_bind; [apply IHv; lia|]. eapply dec_bind; [eapply de_optfmt; eassumption|].
    eapply dec_bind_last; [eapply de_fstring; eassumption|apply dec_ret].
  - intros d v o c w x y z Hd _ IHv Ho Hc n L. lens L. unfold r_hist. apply (de_tag TCurrency); [reflexivity|].
    eapply dec_bind; [eapply de_fstring; eassumption|].
    eapply dec_bind; [apply IHv; lia|]. eapply dec_bind; [eapply de_optfmt; eassumption|].
    eapply dec_bind_last; [eapply de_fstring; eassumption|apply dec_ret].
  - intros t s c x Ht Hs Hc n L. unfold r_hist. apply (de_tag TDate); [reflexivity|].
    eapply dec_bind; [eapply de_u64; eassumption|]. eapply dec_bind; [apply de_upto; lia|].
    eapply dec_bind_last; [eapply de_string; eassumption|apply dec_ret].
  - intros t s z c x y Ht Hs Hz Hc n L. unfold r_hist. apply (de_tag TTime); [reflexivity|].
    eapply dec_bind; [eapply de_u64; eassumption|]. eapply dec_bind; [apply de_upto; lia|].
    eapply dec_bind; [eapply de_string; eassumption|]. eapply dec_bind_last; [eapply de_string; eassumption|apply dec_ret].
  - intros t s u z c x y Ht Hs Hu Hz Hc n L. unfold r_hist. apply (de_tag TDateTime); [reflexivity|].
    eapply dec_bind; [eapply de_u64; eassumption|]. eapply dec_bind; [apply de_upto; lia|].
    eapply dec_bind; [apply de_upto; lia|].
    eapply dec_bind; [eapply de_string; eassumption|]. eapply dec_bind_last; [eapply de_string; eassumption|apply dec_ret].
  - intros t k x _ IHt Hk n L. lens L. unfold r_hist. apply (de_tag TTransform); [reflexivity|].
    eapply dec_bind; [apply IHt; lia|]. eapply dec_bind_last; [apply de_upto; lia|apply dec_ret].
  - intros a b x y Ha Hb n L. unfold r_hist. apply (de_tag TTable); [reflexivity|].
    eapply dec_bind; [eapply de_string; eassumption|]. eapply dec_bind_last; [eapply de_string; eassumption|apply dec_ret].
  - intros z V Hz n L. unfold r_farg. apply (de_atag TyInt); [reflexivity|]. rewrite V.
    eapply dec_bind_last; [apply (dec_sint st 4); [lia|now apply s_in]|apply dec_ret].
  - intros z V Hz n L. unfold r_farg. apply (de_atag TyInt); [reflexivity|]. rewrite V.
    eapply dec_bind_last; [apply (dec_sint st 8); [lia|now apply s_in]|apply dec_ret].
  - intros z V Hz n L. unfold r_farg. apply (de_atag TyUInt); [reflexivity|]. rewrite V.
    eapply dec_bind_last; [apply (dec_uint st 4); now apply u_in|apply dec_ret].
  - intros z V Hz n L. unfold r_farg. apply (de_atag TyUInt); [reflexivity|]. rewrite V.
    eapply dec_bind_last; [apply (dec_uint st 8); now apply u_in|apply dec_ret].
  - intros z Hz n L. unfold r_farg. apply (de_atag TyFloat); [reflexivity|].
    eapply dec_bind_last; [apply (dec_uint st 4); now apply u_in|apply dec_ret].
  - intros z Hz n L. unfold r_farg. apply (de_atag TyDouble); [reflexivity|].
    eapply dec_bind_last; [apply (dec_uint st 8); now apply u_in|apply dec_ret].
  - intros t x _ IH n L. lens L. unfold r_farg. apply (de_atag TyText); [reflexivity|].
    eapply dec_bind_last; [apply IH; lia|apply dec_ret].
  - intros n L. cbn [repn List.length]. apply dec_ret.
  - intros a l x y _ IHa _ IHl n L. lens L. cbn [repn List.length]. eapply dec_bind; [apply IHa; lia|].
    eapply dec_bind_last; [apply IHl; lia|apply dec_ret].
  - intros n L. cbn [repn List.length]. apply dec_ret.
  - intros k a l x y z Hk _ IHa _ IHl n L. lens L. cbn [repn List.length]. rewrite app_assoc.
    eapply dec_bind.
    + eapply dec_bind; [eapply de_string; eassumption|]. eapply dec_bind_last; [apply IHa; lia|apply dec_ret].
    + eapply dec_bind_last; [apply IHl; lia|apply dec_ret].
Qed.
End Complete.
Lemma de_text vs st n t b : is_text vs t b -> len b < Z.of_nat n -> decodes st (r_text n vs) b t.
Proof. intros H L. exact (proj1 (complete vs st) t b H n L). Qed.
