(** [Debug] and [source] of errors (C75). *)
From Coq Require Import ZArith List Bool String Lia ZifyBool ZifyNat.
From Verif Require Import Base Str Types Versions Text Props File Message Display Debug BaseFacts StrThm Spec Numeral MessageThm
  NamesThm DebugSpec DebugShow DebugTree DebugThm ErrorText ErrorSpec ErrorUtf8 ErrorClean BlameSpec BlameThm.
Import ListNotations.
Open Scope string_scope.
Open Scope list_scope.
Open Scope Z_scope.

(** ** Trees *)
Definition variant (e : error) : string :=
  match e with
  | EHeader _ _ | EMagic _ => "InvalidHeader"
  | EValueSize _ _ _ => "InvalidValueSize"
  | EString _ _ => "InvalidString"
  | EStrTerm _ _ => "InvalidStringTerminator"
  | EBool _ _ => "InvalidBoolean"
  | EHint _ _ => "MissingHint"
  | EProperty _ _ => "InvalidProperty"
  | EEnum _ _ _ => "InvalidEnumValue"
  | EArrayIndex _ _ => "InvalidArrayIndex"
  | ETerm _ _ => "InvalidTerminator"
  | EUtf16 _ => "FromUtf16Error"
  | EUtf8 _ => "FromUtf8Error"
  | ESerialize _ => "InvalidValue"
  | EEof | EIo => ""
  end.
Definition outer (e : error) : string :=
  match e with EEof | EIo => "Io" | ESerialize _ => "Serialize" | _ => "Deserialize" end.
Definition is16 (e : error) : bool := match e with EUtf16 _ => true | _ => false end.

Lemma okc_app a b : okc a -> okc b -> okc (a ++ b). Proof. intros. apply Forall_app. auto. Qed.
Lemma word_okc s : word s -> okc s.
Proof. intros [_ F]. eapply Forall_impl; [|exact F]. unfold wordc. cbv beta. intros; lia. Qed.
Lemma signed_okc z : okc (Message.signed z). Proof. apply word_okc, signed_word. Qed.
Lemma items_okc l : okc (items l).
Proof.
  induction l as [|b [|b' l] IH]; [constructor|apply decimal_ok; apply b2z_nonneg|].
  change (okc (decimal (b2z b) ++ s2z ", " ++ items (b' :: l))). apply okc_app; [apply decimal_ok; apply b2z_nonneg|].
  apply okc_app; [apply ok_ascii|exact IH].
Qed.
Lemma magic_okc l : okc (s2z "Invalid PlZ magic " ++ listing l).
Proof. unfold listing. repeat apply okc_app; auto using ok_ascii, items_okc. Qed.
Lemma header_okc f v : okc (header_reason f v).
Proof. destruct f; cbn [header_reason]; repeat apply okc_app; auto using ok_ascii, signed_okc. Qed.
Lemma refusal_okc s m : refusal s = Some m -> okc m.
Proof. destruct s as [|x| |]; [|destruct x| |]; cbn [refusal lwc_reason]; intros E; try discriminate E; injection E as <-; apply ok_ascii. Qed.
Lemma sh_utf8 raw : shaped (dg_utf8 raw).
Proof.
  unfold dg_utf8. apply sh_struct; [wd|discriminate|]. constructor; [split; [wd|apply sh_lmap; intros; apply sh_int]|].
  constructor; [split; [wd|]|constructor]. apply sh_struct; [wd|discriminate|].
  constructor; [split; [wd|apply sh_int]|]. constructor; [split; [wd|apply sh_opt; intros; apply sh_int]|constructor].
Qed.
Lemma tup n l : word (s2z n) -> l <> [] -> s2z n <> s2z "Guid" -> Forall shaped l -> shaped (DTuple (s2z n) l).
Proof. intros. apply shaped_tuple. tauto. Qed.
Lemma shaped_err names lone raw e d : good_names names -> okerr e -> is16 e = false -> dg_error names lone raw e = Some d -> shaped d.
Proof.
  intros [_ G] O N D.
  assert (T : forall n l, word (s2z n) -> s2z n <> s2z "Guid" -> l <> [] -> Forall shaped l -> shaped (DTuple (s2z n) l))
    by (intros; apply tup; assumption).
  destruct e; cbn [dg_error dg_deser option_map] in D; try discriminate N; try discriminate D;
    try (injection D as <-; apply T; [wd|discriminate|discriminate|]; constructor; [|constructor];
         apply T; [wd|discriminate|discriminate|];
         repeat (constructor; [first [apply sh_int|apply sh_utf8|apply header_okc|apply magic_okc
            |exact O|apply is_str_pos, G|apply ok_ascii]|]); constructor).
  - injection D as <-. apply T; [wd|discriminate|discriminate|]. constructor; [|constructor]. apply sh_struct; [wd|discriminate|].
    constructor; [split; wd|]. constructor; [split; [wd|apply ok_ascii]|constructor].
  - match goal with s : serr |- _ => destruct (refusal s) as [m|] eqn:R end; [|discriminate D]. injection D as <-. apply T; [wd|discriminate|discriminate|].
    constructor; [|constructor]. apply T; [wd|discriminate|discriminate|]. constructor; [|constructor]. eapply refusal_okc; exact R.
Qed.

(** ** Trees tell errors *)
Lemma int_inj a b : dg_int a = dg_int b -> a = b.
Proof. intros E. injection E as E. now apply signed_inj. Qed.
Lemma bytes_inj l : forall l', map (fun b => dg_int (b2z b)) l = map (fun b => dg_int (b2z b)) l' -> l = l'.
Proof.
  induction l as [|b l IH]; intros [|b' l'] E; try discriminate E; [reflexivity|]. cbn [map] in E. injection E as E F.
  f_equal; [|now apply IH]. apply signed_inj in E. apply b2z_inj. exact E.
Qed.
Lemma utf8_inj l l' : dg_utf8 l = dg_utf8 l' -> l = l'.
Proof. unfold dg_utf8. intros E. apply bytes_inj. congruence. Qed.
Definition deserial (e : error) : bool := match e with EEof | EIo | ESerialize _ => false | _ => true end.
Lemma deser_variant names lone raw e d : dg_deser names lone raw e = Some d -> deserial e = true /\ exists l, l <> [] /\ d = DTuple (s2z (variant e)) l.
Proof. destruct e; cbn [dg_deser]; intros E; try discriminate E; injection E as <-; (split; [reflexivity|eexists; split; [|reflexivity]; discriminate]). Qed.
Lemma magic_text l f v : s2z "Invalid PlZ magic " ++ listing l = header_reason f v -> False.
Proof. destruct f; cbn [header_reason]; intros E; cbn in E; discriminate E. Qed.
Lemma deser_inj names lone D D' e e' d : good_names names ->
  dg_deser names lone (raw_of D e) e = Some d -> dg_deser names lone (raw_of D' e') e' = Some d -> e = e' /\ raw_of D e = raw_of D' e'.
Proof.
  intros [G _] E E'. destruct (deser_variant _ _ _ _ _ E) as (W & l & _ & X), (deser_variant _ _ _ _ _ E') as (W' & l' & _ & X').
  assert (V : variant e = variant e') by (apply s2z_inj; congruence). clear X X' l l'.
  destruct e; try discriminate W; destruct e'; try discriminate W'; try discriminate V; cbn [dg_deser] in E, E'; injection E as <-; injection E' as E';
    repeat match goal with H : dg_int _ = dg_int _ |- _ => apply int_inj in H; subst
           | H : Message.signed _ = Message.signed _ |- _ => apply signed_inj in H; subst end; cbn [raw_of]; try (split; congruence).
  - apply MessageThm.header_inj in E' as [-> ->]. auto.
  - exfalso. eapply magic_text. exact E'.
  - exfalso. eapply magic_text. symmetry. exact E'.
  - apply items_inj in E'. subst. auto.
  - apply G in E'. subst. auto.
  - cbn [raw_of] in E'. apply bytes_inj in E'. auto.
Qed.
Lemma error_inj names lone D D' e e' d : good_names names ->
  dg_error names lone (raw_of D e) e = Some d -> dg_error names lone (raw_of D' e') e' = Some d -> e = e' /\ raw_of D e = raw_of D' e'.
Proof.
  intros G E E'.
  assert (K : forall e D d, dg_error names lone (raw_of D e) e = Some d -> exists x, d = DTuple (s2z (outer e)) [x]
    /\ (deserial e = true -> dg_deser names lone (raw_of D e) e = Some x)
    /\ (forall s, e = ESerialize s -> exists m, refusal s = Some m /\ x = DTuple (s2z "InvalidValue") [DStr m])
    /\ e <> EIo).
  { clear. intros e D d E. destruct e; cbn [dg_error option_map] in E; try discriminate E;
      try (destruct (dg_deser _ _ _ _) as [x|] eqn:X; [|discriminate E]; injection E as <-; exists x; repeat split; [discriminate|discriminate]).
    - injection E as <-. eexists. repeat split; discriminate.
    - match goal with s : serr |- _ => destruct (refusal s) as [m|] eqn:R end; [|discriminate E]. injection E as <-. eexists. repeat split; try discriminate.
      intros s S. injection S as <-. eauto. }
  destruct (K _ _ _ E) as (x & X & A & B & C), (K _ _ _ E') as (x' & X' & A' & B' & C').
  assert (V : outer e = outer e') by (apply s2z_inj; congruence). assert (x = x') by congruence. subst x'.
  destruct (deserial e) eqn:W, (deserial e') eqn:W'.
  - apply (deser_inj names lone D D' e e' x G); auto.
  - exfalso. destruct e; try discriminate W; destruct e'; try discriminate W'; discriminate V.
  - exfalso. destruct e; try discriminate W; destruct e'; try discriminate W'; discriminate V.
  - destruct e; try discriminate W; destruct e'; try discriminate W'; try discriminate V; try contradiction; cbn [raw_of]; auto.
    destruct (B _ eq_refl) as (m & R & M), (B' _ eq_refl) as (m' & R' & M'). assert (m = m') by congruence. subst m'.
    rewrite (refusal_inj _ _ _ R R'). auto.
Qed.

(** ** Texts tell trees *)
Lemma some_inj {A} (a b : A) : Some a = Some b -> a = b. Proof. congruence. Qed.
Section Show.
Context (plain : Z -> bool).
Lemma tuple_name i n n' l l' : word n -> word n' -> show plain i (DTuple n l) = show plain i (DTuple n' l') -> n = n'.
Proof. intros W W' E. cbn [show] in E. change (s2z "(") with [40] in E. cbn [app] in E. apply word_split in E; [tauto|apply W|apply W'| |]; cbn [stops]; unfold wordc; lia. Qed.
Lemma tuple_inner i n d d' : show plain i (DTuple n [d]) = show plain i (DTuple n [d']) -> show plain (deeper i) d = show plain (deeper i) d'.
Proof.
  cbn [show map]. rewrite !inside_cons. cbn [rest]. intros E. do 3 apply app_inv_head in E. now apply app_inv_tail in E.
Qed.
Lemma tuple_second i n a d d' : show plain i (DTuple n [a; d]) = show plain i (DTuple n [a; d']) -> show plain (deeper i) d = show plain (deeper i) d'.
Proof.
  cbn [show map]. rewrite !inside_cons. cbn [rest]. intros E. do 5 apply app_inv_head in E. now apply app_inv_tail in E.
Qed.
Lemma variant_word e : deserial e = true -> word (s2z (variant e)).
Proof. destruct e; intros W; try discriminate W; wd. Qed.
Lemma outer_word e : word (s2z (outer e)). Proof. destruct e; wd. Qed.
Lemma is16_no lone names i D e p m : is16 e = false ->
  debug_error names lone plain i (raw_of D e) e = Some m -> debug_error names lone plain i [] (EUtf16 p) = Some m -> False.
Proof.
  intros N E E'. unfold debug_error in *. cbn [dg_error dg_deser option_map] in E'. apply some_inj in E'.
  destruct (dg_error names lone (raw_of D e) e) as [d|] eqn:X; [|discriminate E]. cbn [option_map] in E. apply some_inj in E. rewrite <- E' in E.
  destruct e; try discriminate N; cbn [dg_error] in X;
    try (destruct (dg_deser _ _ _ _) as [x|] eqn:Y; [|discriminate X]; cbn [option_map] in X; apply some_inj in X; subst d; apply tuple_inner in E;
         destruct (deser_variant _ _ _ _ _ Y) as (W & l & _ & ->); apply tuple_name in E; [|now apply variant_word|wd]; apply s2z_inj in E; discriminate E).
  - apply some_inj in X; subst d. apply tuple_name in E; [|wd|wd]. discriminate E.
  - discriminate X.
  - match goal with s : serr |- _ => destruct (refusal s) end; [|discriminate X]. cbn [option_map] in X. apply some_inj in X; subst d. apply tuple_name in E; [|wd|wd]. discriminate E.
Qed.
Lemma text_inj names lone i D D' e e' m : good_names names -> okerr e -> okerr e' ->
  debug_error names lone plain i (raw_of D e) e = Some m -> debug_error names lone plain i (raw_of D' e') e' = Some m ->
  e = e' /\ raw_of D e = raw_of D' e'.
Proof.
  intros G O O' E E'. destruct (is16 e) eqn:N, (is16 e') eqn:N'.
  - destruct e; try discriminate N. destruct e'; try discriminate N'. cbn [raw_of] in *. split; [|reflexivity].
    unfold debug_error in E, E'. cbn [dg_error dg_deser option_map] in E, E'. apply some_inj in E. apply some_inj in E'. subst m.
    apply tuple_inner, tuple_second, show_inj in E'; [|apply sh_int|apply sh_int]. apply int_inj in E'. now subst.
  - exfalso. destruct e; try discriminate N. eapply is16_no; [exact N'|exact E'|exact E].
  - exfalso. destruct e'; try discriminate N'. eapply is16_no; [exact N|exact E|exact E'].
  - unfold debug_error in E, E'.
    destruct (dg_error names lone (raw_of D e) e) as [d|] eqn:X; [|discriminate E].
    destruct (dg_error names lone (raw_of D' e') e') as [d'|] eqn:X'; [|discriminate E'].
    cbn [option_map] in E, E'. assert (d = d') by (apply (show_inj plain i); [eapply shaped_err; [exact G|exact O|exact N|exact X]|eapply shaped_err; [exact G|exact O'|exact N'|exact X']|congruence]).
    subst d'. exact (error_inj names lone D D' e e' d G X X').
Qed.
Lemma text_line names lone D e m : good_names names -> okerr e -> ~ In 10 lone ->
  debug_error names lone plain None (raw_of D e) e = Some m -> ~ In 10 m.
Proof.
  intros G O L E. destruct (is16 e) eqn:N.
  - destruct e; try discriminate N. unfold debug_error in E. cbn [dg_error dg_deser option_map] in E. apply some_inj in E.
    assert (A : m = s2z "Deserialize(FromUtf16Error(" ++ lone ++ s2z ", " ++ Message.signed position ++ s2z "))")
      by (rewrite <- E; cbn [show map inside join deeper option_map dg_int app]; rewrite <- ?app_assoc; reflexivity).
    rewrite A, !in_app_iff. pose proof (show_line plain (dg_int position) (sh_int position)) as Z. cbn [show dg_int] in Z.
    intros [H|[H|[H|[H|H]]]]; auto; cbn in H; repeat (destruct H as [H|H]; [discriminate H|]); exact H.
  - unfold debug_error in E. destruct (dg_error names lone (raw_of D e) e) as [d|] eqn:X; [|discriminate E]. injection E as <-.
    apply show_line. eapply shaped_err; [exact G|exact O|exact N|exact X].
Qed.
End Show.

(** ** Both texts follow the declarations *)
Lemma hex_piece p : 0 <= p -> exists h, at_position p = s2z " at position " ++ s2z "0x" ++ h ++ [] /\ hex_numeral h p.
Proof. intros P. destruct (hexadecimal_ok p P) as (h & E & H). exists h. split; [|exact H]. unfold at_position. rewrite E, app_nil_r. reflexivity. Qed.
Lemma tree_utf8 lone raw : ~ utf8 raw -> field_tree lone raw FNot8 (dg_utf8 raw).
Proof.
  intros U. unfold dg_utf8. destruct (utf8_error raw) as [[v x]|] eqn:E; [|apply error_none in E; contradiction].
  apply error_iff in E. cbn [fst snd].
  assert (B : Forall2 (fun b t => exists s, numeral s (b2z b) /\ t = DWord s) raw (map (fun b => dg_int (b2z b)) raw)).
  { clear. induction raw as [|b l IH]; cbn [map]; constructor; [|exact IH]. exists (decimal (b2z b)). pose proof (b2z_nonneg b).
    split; [now apply decimal_numeral|]. unfold dg_int, Message.signed. now replace (b2z b <? 0) with false by lia. }
  destruct x as [k|]; cbn [dg_opt dg_int].
  - apply (TBad lone raw v k); auto using signed_ok.
  - apply (TCut lone raw v); auto using signed_ok.
Qed.
Lemma FillEnd l k f s : nth_error l k = Some f -> printed f s -> filled l [Hole k] s.
Proof. intros. rewrite <- (app_nil_r s). eapply FillHole; eauto. constructor. Qed.
Ltac pieces := repeat match goal with
  | |- filled _ (Lit _ :: _) _ => apply FillLit
  | |- filled _ [] _ => apply FillNone
  | |- filled _ [Hole _] _ => eapply FillEnd; [reflexivity|apply PrText]
  | |- filled _ (Hole _ :: _) _ => eapply FillHole; [reflexivity|first [apply PrNum, signed_ok|apply PrText]|]
  | |- filled _ (Hex _ :: _) _ => eapply FillHex; [reflexivity|eassumption|]
  end.
Ltac find_in := repeat first [left; reflexivity|right].
Lemma error_shown names lone raw e d : placed e -> (forall p, e = EUtf8 p -> ~ utf8 raw) -> dg_error names lone raw e = Some d ->
  exists m, message names e = Some m /\ shown lone raw d m.
Proof.
  intros P U E. unfold placed in P.
  assert (N : forall z, field_tree lone raw (FNum z) (dg_int z)) by (intros; apply TNum, signed_ok).
  destruct e; cbn [dg_error dg_deser option_map] in E; try discriminate E; cbn [place] in P; cbn [message];
    try (apply some_inj in E; subst d).
  - eexists. split; [reflexivity|]. constructor.
  - eexists. split; [reflexivity|]. eapply (ShDeserialize lone raw "InvalidHeader" _ [FText _]); [find_in|repeat constructor|]. pieces.
  - eexists. split; [reflexivity|]. eapply (ShDeserialize lone raw "InvalidHeader" _ [FText _]); [find_in|repeat constructor|]. pieces.
  - destruct (hex_piece position P) as (h & H & X). rewrite H. eexists. split; [reflexivity|].
    eapply (ShDeserialize lone raw "InvalidValueSize" _ [FNum expected; FNum got; FNum position]); [find_in|auto|]. pieces.
  - destruct (hex_piece position P) as (h & H & X). rewrite H. eexists. split; [reflexivity|].
    eapply (ShDeserialize lone raw "InvalidString" _ [FNum length; FNum position]); [find_in|auto|]. pieces.
  - destruct (hex_piece position P) as (h & H & X). rewrite H. eexists. split; [reflexivity|].
    eapply (ShDeserialize lone raw "InvalidStringTerminator" _ [FNum terminator; FNum position]); [find_in|auto|]. pieces.
  - destruct (hex_piece position P) as (h & H & X). rewrite H. eexists. split; [reflexivity|].
    eapply (ShDeserialize lone raw "InvalidBoolean" _ [FNum value; FNum position]); [find_in|auto|]. pieces.
  - destruct (hex_piece position P) as (h & H & X). rewrite H. eexists. split; [reflexivity|].
    eapply (ShDeserialize lone raw "MissingHint" _ [FText _; FText path; FNum position]); [find_in|auto using TText|]. pieces.
  - destruct (hex_piece position P) as (h & H & X). rewrite H. eexists. split; [reflexivity|].
    eapply (ShDeserialize lone raw "InvalidProperty" _ [FText what; FNum position]); [find_in|auto using TText|]. pieces.
  - destruct (hex_piece position P) as (h & H & X). rewrite H. eexists. split; [reflexivity|].
    eapply (ShDeserialize lone raw "InvalidEnumValue" _ [FText (names t); FNum value; FNum position]); [find_in|auto using TText|].
    change (s2z "`" ++ s2z " at position " ++ s2z "0x" ++ h ++ []) with (s2z "` at position " ++ s2z "0x" ++ h ++ []). pieces.
  - destruct (hex_piece position P) as (h & H & X). rewrite H. eexists. split; [reflexivity|].
    eapply (ShDeserialize lone raw "InvalidArrayIndex" _ [FNum index; FNum position]); [find_in|auto|]. pieces.
  - destruct (hex_piece position P) as (h & H & X). rewrite H. eexists. split; [reflexivity|].
    eapply (ShDeserialize lone raw "InvalidTerminator" _ [FNum terminator; FNum position]); [find_in|auto|]. pieces.
  - destruct (hex_piece position P) as (h & H & X). rewrite H. eexists. split; [reflexivity|].
    eapply (ShDeserialize lone raw "FromUtf16Error" _ [FNot16; FNum position]); [find_in|auto using TNot16|].
    change (s2z "Invalid UTF-16 string" ++ s2z " at position " ++ s2z "0x" ++ h ++ []) with (s2z "Invalid UTF-16 string at position " ++ s2z "0x" ++ h ++ []). pieces.
  - destruct (hex_piece position P) as (h & H & X). rewrite H. eexists. split; [reflexivity|].
    pose proof (tree_utf8 lone raw (U _ eq_refl)).
    eapply (ShDeserialize lone raw "FromUtf8Error" _ [FNot8; FNum position]); [find_in|auto|].
    change (s2z "Invalid UTF-8 string" ++ s2z " at position " ++ s2z "0x" ++ h ++ []) with (s2z "Invalid UTF-8 string at position " ++ s2z "0x" ++ h ++ []). pieces.
  - match goal with s : serr |- _ => destruct (refusal s) as [m|] eqn:R end; [|discriminate E]. apply some_inj in E. subst d.
    eexists. split; [reflexivity|]. eapply (ShSerialize lone raw "InvalidValue" _ [FText m]); [find_in|repeat constructor|]. pieces.
Qed.

(** ** The bytes of a string that is not UTF-8 *)
Definition no8 {A} (r : reader A) : Prop := forall c p, r c <> Fail (Err (EUtf8 p)).
Lemma no8_bind {A B} (r : reader A) (k : A -> reader B) : no8 r -> (forall a, no8 (k a)) -> no8 (bind r k).
Proof. intros H K c p. unfold bind. destruct (r c) as [[a c']|f] eqn:E; [apply K|]. intros X. injection X as ->. exact (H c p E). Qed.
Lemma no8_take n : no8 (take n). Proof. intros c p. unfold take. destruct (_ <=? _); discriminate. Qed.
Lemma no8_uint w : no8 (r_uint w).
Proof. apply no8_bind; [apply no8_take|]. intros ? ? ?. discriminate. Qed.
Lemma no8_sint w : no8 (r_sint w).
Proof. apply no8_bind; [apply no8_uint|]. intros ? ? ?. discriminate. Qed.
Lemma no8_palworld z : no8 (r_palworld z).
Proof.
  unfold r_palworld. apply no8_bind; [apply no8_uint|intros n]. apply no8_bind; [apply no8_uint|intros n']. apply no8_bind; [apply no8_take|intros m].
  destruct (negb _); [intros ? ?; discriminate|]. apply no8_bind.
  - unfold r_enum. apply no8_bind; [apply no8_sint|intros v]. destruct (enum_of _ _ _); [intros ? ?; discriminate|]. apply no8_bind; [intros ? ?; discriminate|]. intros q ? ?. discriminate.
  - intros x c p. destruct x; unfold take, zread_exact, zread_to_end.
    + destruct (_ <=? _); discriminate.
    + destruct (_ <=? _); [discriminate|]. destruct (snd _); discriminate.
    + destruct (snd _); discriminate.
Qed.
Lemma load_data z o v b p : load z o v b = Fail (Err (EUtf8 p)) -> load_plain o (data_of z v b) = Fail (Err (EUtf8 p)).
Proof.
  destruct v; cbn [load data_of].
  - destruct (load_plain o b) as [[h ps]|f]; [discriminate|]. congruence.
  - destruct (r_palworld z (Cur 0 b [])) as [[[c d] k]|f] eqn:R.
    + destruct (load_plain o d) as [[h ps]|f]; [discriminate|]. congruence.
    + intros E. injection E as ->. exfalso. exact (no8_palworld z _ _ R).
Qed.
Lemma len_cut {A} (pre r : list A) : skipn (Z.to_nat (len pre)) (pre ++ r) = r.
Proof. unfold len. rewrite Nat2Z.id, skipn_app, skipn_all, Nat.sub_diag. reflexivity. Qed.
Lemma load_raw z o v b p : load z o v b = Fail (Err (EUtf8 p)) ->
  exists pre body t, data_of z v b = pre ++ le_bytes 4 (len body + 1) ++ body ++ Byte.x00 :: t /\ len pre = p
  /\ string_at (data_of z v b) p = body /\ ~ utf8 body.
Proof.
  intros E. apply load_data in E. destruct (load_blames o _ _ E ltac:(discriminate)) as (pre & d & t & X & A & _).
  cbn [about blamed] in A. destruct A as (body & L & P & D & U). exists pre, body, t. rewrite X, D, <- !app_assoc. split; [reflexivity|].
  split; [auto|]. split; [|exact U]. unfold string_at. subst p. rewrite len_cut. cbv zeta.
  assert (L4 : List.length (le_bytes 4 (len body + 1)) = 4%nat) by reflexivity.
  rewrite firstn_app, L4, Nat.sub_diag, firstn_O, app_nil_r, (firstn_all2 (le_bytes 4 (len body + 1))) by (rewrite L4; lia).
  rewrite skipn_app, L4, Nat.sub_diag, (skipn_all2 (le_bytes 4 (len body + 1))) by (rewrite L4; lia). cbn [skipn app].
  rewrite le_val_bytes. change (2 ^ (8 * Z.of_nat 4)) with 4294967296. rewrite Z.mod_small by (unfold len in *; lia).
  replace (len body + 1 - 1) with (len body) by lia. unfold len. rewrite Nat2Z.id, firstn_app, Nat.sub_diag, firstn_O, app_nil_r. apply firstn_all.
Qed.

(** ** Loads and saves *)
(** The error of a load or save, with the bytes of the string that is not UTF-8. *)
Definition failed (e : error) (raw : list byte) : Prop :=
  (exists z o v b, load z o v b = Fail (Err e) /\ raw = raw_of (data_of z v b) e)
  \/ (exists z g d d', save z g d = (Fail (Err e), d') /\ raw = []).
Lemma failed_reported e raw : failed e raw -> reported e.
Proof. intros [(z & o & v & b & L & _)|(z & g & d & d' & S & _)]; [left|right]; eauto. Qed.
Lemma failed_ok e raw : failed e raw -> okerr e /\ exists D, raw = raw_of D e.
Proof.
  intros [(z & o & v & b & L & R)|(z & g & d & d' & S & R)]; [split; [eapply load_clean; exact L|eauto]|].
  apply save_refused in S as [(x & -> & _)|[-> _]]; (split; [exact I|exists []; exact R]).
Qed.
Lemma failed_not8 e raw : failed e raw -> forall p, e = EUtf8 p -> ~ utf8 raw.
Proof.
  intros [(z & o & v & b & L & R)|(z & g & d & d' & S & R)] p ->.
  - destruct (load_raw _ _ _ _ _ L) as (pre & body & r & _ & _ & B & U). cbn [raw_of] in R. now rewrite R, B.
  - apply save_refused in S as [(x & X & _)|[X _]]; discriminate X.
Qed.
Section Loads.
Context (names : etype -> str) (lone : str) (plain : Z -> bool).
Lemma debug_tells i e raw e' raw' m : good_names names -> failed e raw -> failed e' raw' ->
  debug_error names lone plain i raw e = Some m -> debug_error names lone plain i raw' e' = Some m -> e = e' /\ raw = raw'.
Proof.
  intros G F F' E E'. destruct (failed_ok _ _ F) as (O & D & ->), (failed_ok _ _ F') as (O' & D' & ->).
  exact (text_inj plain names lone i D D' e e' m G O O' E E').
Qed.
Lemma debug_line e raw m : good_names names -> ~ In 10 lone -> failed e raw -> debug_error names lone plain None raw e = Some m -> ~ In 10 m.
Proof.
  intros G N F E. destruct (failed_ok _ _ F) as (O & D & ->). eapply text_line; [exact G|exact O|exact N|exact E].
Qed.
Lemma debug_shown i e raw : failed e raw ->
  e = EIo \/ exists t m, debug_error names lone plain i raw e = Some (show plain i t) /\ message names e = Some m /\ shown lone raw t m.
Proof.
  intros F. unfold debug_error. destruct (dg_error names lone raw e) as [t|] eqn:D.
  - right. destruct (error_shown _ _ _ _ _ (reported_placed _ (failed_reported _ _ F)) (failed_not8 _ _ F) D) as (m & M & S). exists t, m. auto.
  - left. destruct e; cbn [dg_error dg_deser option_map] in D; try discriminate D; [reflexivity|]. exfalso.
    destruct F as [(z & o & v & b & L & _)|(z & g & d & d' & S & _)].
    + destruct (load_text names z o v b _ L) as [[m M]|[H _]]; [|discriminate H]. cbn [message] in M.
      match goal with s : serr |- _ => destruct (refusal s) end; discriminate.
    + pose proof (save_refused _ _ _ _ _ S) as [(x & X & _ & P)|[X _]]; injection X as ->; [destruct x|]; try discriminate D; discriminate P.
Qed.
End Loads.
Lemma source_text z o v b e : load z o v b = Fail (Err e) ->
  match source (raw_of (data_of z v b) e) e with
  | None => forall p, e <> EUtf8 p /\ e <> EUtf16 p
  | Some s => (exists p, e = EUtf16 p) /\ s = s2z "invalid utf-16: lone surrogate found"
    \/ exists p pre body t, e = EUtf8 p /\ data_of z v b = pre ++ le_bytes 4 (len body + 1) ++ body ++ Byte.x00 :: t /\ len pre = p
       /\ raw_of (data_of z v b) e = body /\ utf8_text body s
  end.
Proof.
  intros L. destruct e; cbn [source]; try (intros p; split; discriminate); [left; eauto|].
  destruct (load_raw _ _ _ _ _ L) as (pre & body & t & D & P & R & U). cbn [raw_of]. rewrite R.
  destruct (utf8_error body) as [[w x]|] eqn:E; [|apply error_none in E; contradiction]. apply error_iff in E.
  destruct x as [k|]; right; exists position, pre, body, t.
  - split; [reflexivity|]. split; [exact D|]. split; [exact P|]. split; [reflexivity|]. apply (UBad body w k); auto using signed_ok.
  - split; [reflexivity|]. split; [exact D|]. split; [exact P|]. split; [reflexivity|]. apply (UCut body w); auto using signed_ok.
Qed.
