(** Files through JSON text. *)
From Coq Require Import ZArith List Bool String Lia ZifyBool ZifyNat.
From Verif Require Import Base Str Types Versions Text Props File Spec Samples BaseFacts Decode Device Numeral Nearest MapFacts AcceptFile Depth
  Json JsonSpec JsonFile JsonWell JsonBack JsonThm JsonFloat JsonSyntax JsonGrammar JsonRead JsonComplete JsonPrint JsonDepth GrammarText.
Import ListNotations.
Open Scope Z_scope.

(** ** What is read is well formed *)
Lemma hex_range u x : hex_text u x -> 0 <= u < 65536.
Proof.
  assert (R : forall c v, In (c, v) hex_digits -> 0 <= v < 16).
  { intros c v I. cbv in I. repeat (destruct I as [E|I]; [injection E as <- <-; lia|]). destruct I. }
  intros [a b c d w y z t A B C D]. apply R in A, B, C, D. lia.
Qed.
Lemma is_str_app a b : is_str (a ++ b) = is_str a && is_str b.
Proof. apply forallb_app. Qed.
Lemma is_str_cons c s : is_str (c :: s) = scalar c && is_str s.
Proof. reflexivity. Qed.
Lemma chars_well x w : chars x w -> is_str w = true -> is_str x = true.
Proof.
  intros C. induction C as [|c s t A B D C IH|e c s t I C IH|u h s t H N C IH|u v h k s t H K U V C IH]; intros S; auto.
  - rewrite is_str_cons in *. apply andb_true_iff in S as [S1 S2]. now rewrite S1, IH.
  - rewrite !is_str_cons in S. rewrite is_str_cons. apply andb_true_iff in S as [_ S]. apply andb_true_iff in S as [_ S]. rewrite IH by exact S.
    unfold escapes in I. cbn [In] in I. repeat (destruct I as [E|I]; [injection E as <- <-; reflexivity|]). destruct I.
  - rewrite !is_str_cons, is_str_app in S. apply andb_true_iff in S as [_ S]. apply andb_true_iff in S as [_ S]. apply andb_true_iff in S as [_ S].
    rewrite is_str_cons, IH by exact S. apply hex_range in H. unfold scalar, in_range. lia.
  - rewrite !is_str_cons, is_str_app, !is_str_cons, is_str_app in S. repeat (apply andb_true_iff in S as [_ S]).
    rewrite is_str_cons, IH by exact S. unfold scalar, in_range. lia.
Qed.
Lemma quoted_well x s : quoted x s -> is_str s = true -> is_str x = true.
Proof.
  intros (w & C & ->) S. rewrite is_str_cons, is_str_app in S. apply andb_true_iff in S as [_ S]. apply andb_true_iff in S as [S _].
  now apply (chars_well x w).
Qed.
Lemma number_well j s : num_text j s -> j_ok j = true.
Proof.
  intros [i (N & D & _) V|i (N & D & _) V|neg i f x e y b W FX EY G R FI]; cbn [j_ok].
  - pose proof (value_nonneg i D). change (2 ^ 64) with 18446744073709551616 in V. unfold in_range. lia.
  - change (2 ^ 63) with 9223372036854775808 in V. unfold in_range. lia.
  - now rewrite (rounded_u8 _ _ _ R), FI.
Qed.
Definition pair_ok (e : str * json) : bool := let '(k, v) := e in is_str k && j_ok v.
Lemma text_well : (forall d j s, json_text d j s -> is_str s = true -> j_ok j = true)
  /\ (forall d l s, items d l s -> is_str s = true -> forallb j_ok l = true)
  /\ (forall d l s, members d l s -> is_str s = true -> forallb pair_ok l = true)
  /\ (forall d k v s, member d k v s -> is_str s = true -> pair_ok (k, v) = true).
Proof.
  apply json_text_all; try reflexivity.
  - intros j s N _. exact (number_well j s N).
  - intros x s Q S. exact (quoted_well x s Q S).
  - intros d l s _ IH S. rewrite is_str_cons, is_str_app in S. apply andb_true_iff in S as [_ S]. apply andb_true_iff in S as [S _]. exact (IH S).
  - intros d l m s _ IH C S. rewrite is_str_cons, is_str_app in S. apply andb_true_iff in S as [_ S]. apply andb_true_iff in S as [S _].
    specialize (IH S). apply collapsed_str_eq in C. subst m. cbn [j_ok]. apply andb_true_iff. split; [rewrite distinct_fresh; apply fresh_ins_all|].
    rewrite forallb_forall in IH. apply forallb_forall. intros e I. apply ins_all_elim in I. exact (IH e I).
  - intros d v a s b _ _ IH _ S. rewrite !is_str_app in S. apply andb_true_iff in S as [_ S]. apply andb_true_iff in S as [S _].
    cbn [forallb]. now rewrite IH.
  - intros d e v l a s b r _ _ IH _ _ IHr S. rewrite !is_str_app, is_str_cons in S. apply andb_true_iff in S as [_ S]. apply andb_true_iff in S as [S S'].
    repeat (apply andb_true_iff in S' as [_ S']). cbn [forallb]. now rewrite IH, IHr.
  - intros d k v s _ IH S. cbn [forallb]. now rewrite IH.
  - intros d e k v l s r _ IH _ IHr S. rewrite is_str_app, is_str_cons in S. apply andb_true_iff in S as [S S']. apply andb_true_iff in S' as [_ S'].
    cbn [forallb]. now rewrite IH, IHr.
  - intros d k v q a b c s e _ Q _ _ _ IH _ S. rewrite !is_str_app, is_str_cons, !is_str_app in S.
    apply andb_true_iff in S as [_ S]. apply andb_true_iff in S as [S1 S]. apply andb_true_iff in S as [_ S]. apply andb_true_iff in S as [_ S].
    apply andb_true_iff in S as [_ S]. apply andb_true_iff in S as [S2 _]. cbn [pair_ok]. now rewrite (quoted_well k q Q S1), IH.
Qed.
Lemma from_text_well s j : is_str s = true -> from_text s = POk j -> j_ok j = true.
Proof.
  intros S H. apply from_text_sound in H as (d & (a & t & b & _ & T & _ & ->) & _). rewrite !is_str_app in S.
  apply andb_true_iff in S as [_ S]. apply andb_true_iff in S as [S _]. destruct text_well as (W & _). exact (W d j t T S).
Qed.

(** ** Files *)
(** The text of a file, and the file of a text. *)
Definition file_text (float : Z -> str) (g : gfile) : str := print float (to_json g).
Definition text_file (hp : hashing) (s : str) : jres gfile := match from_text s with POk j => from_json hp j | PErr _ => JErr end.
Lemma typed_text hp float g : prints_floats float -> calm hp -> t_file same g = true ->
  text_file hp (file_text float g) = if fin_file g && (brackets (to_json g) <=? 127)%nat then JOk g else JErr.
Proof.
  intros FL C T. unfold text_file, file_text. rewrite printed_back; [|exact FL|eapply file_well; eassumption].
  destruct (brackets (to_json g) <=? 127)%nat; [|now rewrite andb_false_r]. rewrite andb_true_r. now apply file_calm.
Qed.
Lemma shallow_text hp float g : prints_floats float -> calm hp -> t_file same g = true -> fin_file g = true ->
  file_depth (g_header g, g_props g) <= 25 -> text_file hp (file_text float g) = JOk g.
Proof.
  intros FL C T F D. rewrite typed_text, F by assumption. pose proof (file_brackets g) as B. cbv zeta in B.
  now replace (brackets (to_json g) <=? 127)%nat with true by lia.
Qed.
Lemma deep_text hp float g : prints_floats float -> calm hp -> t_file same g = true ->
  127 <= file_depth (g_header g, g_props g) -> text_file hp (file_text float g) = JErr.
Proof.
  intros FL C T D. rewrite typed_text by assumption. pose proof (file_brackets g) as B. cbv zeta in B.
  replace (brackets (to_json g) <=? 127)%nat with false by lia. now rewrite andb_false_r.
Qed.

(** ** Files at the limits *)
(** Arrays of structs inside one another. *)
Fixpoint structs (n : nat) : property :=
  match n with
  | O => PBool true
  | S m => PArray (AStructs (s2z "s") (s2z "T") zero_guid [SCustom [(s2z "a", [structs m])]])
  end.
Definition structured (n : nat) : gfile := GFile DDefault hdr5 [(s2z "s", structs n)].
Definition texts (n : nat) : gfile := GFile DDefault hdr5 [(s2z "t", PText (nest n))].
Definition image (g : gfile) : list byte := bytes_of (g_header g, g_props g).
Definition no_zlib : zlib := Zlib (fun x => x) (fun x => (x, ZDone)).
Lemma structured_26 : load no_zlib o_plain GDefault (image (structured 25)) = Ok (structured 25)
  /\ fin_file (structured 25) = true /\ file_depth (hdr5, g_props (structured 25)) = 26 /\ brackets (to_json (structured 25)) = 128%nat.
Proof. vm_compute. repeat split. Qed.
Lemma texts_126 : load no_zlib o_plain GDefault (image (texts 124)) = Ok (texts 124)
  /\ fin_file (texts 124) = true /\ file_depth (hdr5, g_props (texts 124)) = 126 /\ brackets (to_json (texts 124)) = 127%nat.
Proof. vm_compute. repeat split. Qed.

(** ** Loaded files *)
Lemma loaded_text hp float z o v b g : prints_floats float -> calm hp -> load z o v b = Ok g ->
  text_file hp (file_text float g) = if fin_file g && (brackets (to_json g) <=? 127)%nat then JOk g else JErr.
Proof. intros FL C H. apply typed_text; auto. eapply loaded_typed; eauto. Qed.
Lemma loaded_shallow hp float z o v b g : prints_floats float -> calm hp -> load z o v b = Ok g -> fin_file g = true ->
  file_depth (g_header g, g_props g) <= 25 -> text_file hp (file_text float g) = JOk g.
Proof. intros FL C H. apply shallow_text; auto. eapply loaded_typed; eauto. Qed.
Lemma loaded_deep hp float z o v b g : prints_floats float -> calm hp -> load z o v b = Ok g ->
  127 <= file_depth (g_header g, g_props g) -> text_file hp (file_text float g) = JErr.
Proof. intros FL C H. apply deep_text; auto. eapply loaded_typed; eauto. Qed.
Lemma sharp_shallow : exists z o b g, load z o GDefault b = Ok g /\ fin_file g = true
  /\ file_depth (g_header g, g_props g) = 26
  /\ forall hp float, prints_floats float -> calm hp -> text_file hp (file_text float g) = JErr.
Proof.
  destruct structured_26 as (L & F & D & B). exists no_zlib, o_plain, (image (structured 25)), (structured 25).
  split; [exact L|]. split; [exact F|]. split; [exact D|]. intros hp float FL C.
  rewrite (loaded_text hp float _ _ _ _ _ FL C L), B. now rewrite andb_false_r.
Qed.
Lemma sharp_deep : exists z o b g, load z o GDefault b = Ok g /\ file_depth (g_header g, g_props g) = 126
  /\ forall hp float, prints_floats float -> calm hp -> text_file hp (file_text float g) = JOk g.
Proof.
  destruct texts_126 as (L & F & D & B). exists no_zlib, o_plain, (image (texts 124)), (texts 124).
  split; [exact L|]. split; [exact D|]. intros hp float FL C.
  rewrite (loaded_text hp float _ _ _ _ _ FL C L), B, F. reflexivity.
Qed.
(** A file that was read from any text. *)
Lemma read_text_again hp float s g : prints_floats float -> calm hp -> is_str s = true -> text_file hp s = JOk g ->
  text_file hp (file_text float g) = if fin_file g && (brackets (to_json g) <=? 127)%nat then JOk g else JErr.
Proof.
  intros FL C S H. unfold text_file in H. destruct (from_text s) as [j|] eqn:E; [|discriminate]. apply from_text_well in E; [|exact S].
  apply typed_text; auto. eapply file_good; [apply ok_fit|]; eauto.
Qed.
