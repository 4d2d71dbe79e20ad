(** [{:#?}] is [{:?}] on several lines (C76). *)
From Coq Require Import ZArith List Bool String Lia ZifyBool ZifyNat.
From Verif Require Import Base Str Types Message Numeral MessageThm Debug DebugSpec DebugShow LayoutSpec.
Import ListNotations.
Open Scope Z_scope.

Definition dlead (p : dplace) (d : nat) : str := match p with DFresh => new_line 4 d | _ => [] end.
Definition dout (p : dplace) : Prop := match p with DFresh | DElse => True | _ => False end.
Lemma in_word_iff c : in_word c = true <-> wordc c. Proof. unfold in_word, wordc. lia. Qed.
Lemma word_step c : wordc c -> bclosing c = false /\ (c =? 32) = false /\ bopening c = false /\ (c =? 44) = false /\ (c =? 34) = false /\ in_word c = true.
Proof. unfold wordc, bclosing, bopening, closing, opening, in_word. lia. Qed.
(** Steps. *)
Lemma st_word d p c r : p = DFresh \/ p = DElse -> wordc c ->
  debug_lines d p (c :: r) = dlead p d ++ c :: debug_lines d (if guid_ahead (c :: r) then DInGuid else DInWord) r.
Proof. intros P W. destruct (word_step c W) as (A & B & C & D & E & F). destruct P as [-> | ->]; cbn [debug_lines]; now rewrite A, B, C, D, E, F. Qed.
Lemma st_inword d c r : wordc c -> debug_lines d DInWord (c :: r) = c :: debug_lines d DInWord r.
Proof. intros W. destruct (word_step c W) as (A & B & C & D & E & F). cbn [debug_lines]. now rewrite A, B, C, D, E, F. Qed.
Lemma st_stops d r : stops r -> debug_lines d DInWord r = debug_lines d DElse r.
Proof.
  destruct r as [|c r]; [reflexivity|]. cbn [stops debug_lines]. intros W. destruct (in_word c) eqn:E; [apply in_word_iff in E; contradiction|]. reflexivity.
Qed.
Lemma st_string d c r : debug_lines d DString (c :: r) = c :: debug_lines d (if c =? 92 then DEscaped else if c =? 34 then DElse else DString) r.
Proof. reflexivity. Qed.
Lemma st_escaped d c r : debug_lines d DEscaped (c :: r) = c :: debug_lines d DString r.
Proof. reflexivity. Qed.
Lemma st_open d p c r : dout p -> c = 40 \/ c = 91 \/ c = 123 -> debug_lines d p (c :: r) = dlead p d ++ c :: debug_lines (S d) DFresh r.
Proof. intros P H. destruct p; try destruct P; destruct H as [->|[->| ->]]; reflexivity. Qed.
Lemma st_quote d p r : dout p -> debug_lines d p (34 :: r) = dlead p d ++ 34 :: debug_lines d DString r.
Proof. intros P. destruct p; try destruct P; reflexivity. Qed.
Lemma st_comma d r : debug_lines d DElse (44 :: r) = 44 :: debug_lines d DFresh r.
Proof. reflexivity. Qed.
Lemma st_colon d r : debug_lines d DElse (58 :: r) = 58 :: debug_lines d DElse r.
Proof. reflexivity. Qed.
Lemma st_skip d r : debug_lines d DFresh (32 :: r) = debug_lines d DFresh r.
Proof. reflexivity. Qed.
Lemma st_space d c r : c <> 125 -> debug_lines d DElse (32 :: c :: r) = 32 :: debug_lines d DElse (c :: r).
Proof.
  intros N. assert (A : forall X Y : str, match c with 125 => X | _ => Y end = Y).
  { intros X Y. destruct c as [|q|q]; try reflexivity. do 7 (try (destruct q as [q|q|]; try reflexivity)). contradiction. }
  cbn [debug_lines]. change (bclosing 32) with false. change (32 =? 32) with true. cbv iota. apply A.
Qed.
Lemma st_close d pad close r : closes pad close ->
  debug_lines (S d) DElse (pad ++ close ++ r) = 44 :: line d ++ close ++ debug_lines d DElse r.
Proof. intros (c & -> & [[-> H]|[-> ->]]); [destruct H as [->|[->| ->]]|]; reflexivity. Qed.
Lemma st_pad d pad close r : closes pad close -> debug_lines d DFresh (pad ++ r) = debug_lines d DFresh r.
Proof. intros (c & -> & [[-> H]|[-> ->]]); reflexivity. Qed.
Lemma st_empty d close r : closes [] close -> debug_lines (S d) DFresh (close ++ r) = close ++ debug_lines d DElse r.
Proof. intros (c & -> & [[_ H]|[H _]]); [destruct H as [->|[->| ->]]; reflexivity|discriminate H]. Qed.

(** Words. *)
Lemma words_in d s : forall r, Forall wordc s -> stops r -> debug_lines d DInWord (s ++ r) = s ++ debug_lines d DElse r.
Proof.
  induction s as [|c s IH]; intros r F S; [now apply st_stops|]. inversion F; subst. cbn [app]. rewrite st_inword by assumption. now rewrite IH.
Qed.
Lemma words d p s r : dout p -> word s -> stops r -> guid_ahead (s ++ r) = false -> debug_lines d p (s ++ r) = dlead p d ++ s ++ debug_lines d DElse r.
Proof.
  intros P [N F] S G. destruct s as [|c s]; [contradiction|]. inversion F; subst. cbn [app] in *.
  rewrite st_word; [|destruct p; try destruct P; auto|assumption]. rewrite G, words_in by assumption. reflexivity.
Qed.
(** The digits of a guid come behind this word and a bracket only. *)
Lemma ahead s : guid_ahead s = true -> exists c r, s = s2z "Guid" ++ 40 :: c :: r /\ in_guid c = true.
Proof.
  assert (Z : forall n z, {z = n} + {z <> n}) by (intros; apply Z.eq_dec).
  intros H. destruct s as [|a [|b [|e [|f [|g [|h s]]]]]]; try discriminate H;
  unfold guid_ahead in H;
  repeat match type of H with (match ?x with _ => _ end) = true => is_var x; destruct x; try discriminate H end.
  exists h, s. auto.
Qed.
Lemma not_ahead s r : word s -> stops r -> (s = s2z "Guid" -> forall c t, r = 40 :: c :: t -> in_guid c = false) -> guid_ahead (s ++ r) = false.
Proof.
  intros [N F] S G. destruct (guid_ahead (s ++ r)) eqn:E; [|reflexivity]. apply ahead in E as (c & t & E & I).
  apply word_split in E; [|exact F| |exact S|cbn; unfold wordc; lia].
  - destruct E as [-> ->]. rewrite (G eq_refl c t eq_refl) in I. discriminate I.
  - change (s2z "Guid") with [71; 117; 105; 100]. unfold wordc. repeat (apply Forall_cons; [lia|]). apply Forall_nil.
Qed.
Lemma words_end d p s r : dout p -> word s -> ends r -> debug_lines d p (s ++ r) = dlead p d ++ s ++ debug_lines d DElse r.
Proof.
  intros P W R. apply words; [exact P|exact W|now apply ends_stops|]. apply not_ahead; [exact W|now apply ends_stops|].
  intros _ c t ->. cbn [ends] in R. lia.
Qed.
(** Guids. *)
Lemma st_guid d c r : debug_lines d DInGuid (c :: r) = c :: debug_lines d (if c =? 41 then DElse else DInGuid) r.
Proof. reflexivity. Qed.
Lemma digits_in d s : forall r, Forall guidc s -> debug_lines d DInGuid (s ++ 41 :: r) = s ++ 41 :: debug_lines d DElse r.
Proof.
  induction s as [|c s IH]; intros r F; [reflexivity|]. inversion F; subst. cbn [app debug_lines].
  replace (c =? 41) with false by (unfold guidc in *; lia). now rewrite IH.
Qed.
Lemma guids d p s r : dout p -> s <> [] -> Forall guidc s ->
  debug_lines d p ((s2z "Guid(" ++ s ++ s2z ")") ++ r) = dlead p d ++ (s2z "Guid(" ++ s ++ s2z ")") ++ debug_lines d DElse r.
Proof.
  intros P N F. rewrite <- !app_assoc. change (s2z "Guid(") with [71; 117; 105; 100; 40]. change (s2z ")") with [41]. cbn [app].
  destruct s as [|c s]; [contradiction|]. pose proof F as F'. inversion F'; subst.
  rewrite st_word; [|destruct p; try destruct P; auto|unfold wordc; lia].
  replace (guid_ahead _) with true by (cbn; symmetry; unfold in_guid, guidc in *; lia).
  pose proof (digits_in d (c :: s) r F) as H3. cbn [app] in H3. cbn [app]. f_equal. f_equal.
  do 4 (rewrite st_guid; cbn [Z.eqb Pos.eqb]). now rewrite H3.
Qed.
(** Strings. *)
Lemma quotes plain d s : forall r, Forall (fun c => 0 <= c) s -> debug_lines d DString (flat_map (esc plain) s ++ 34 :: r) = flat_map (esc plain) s ++ 34 :: debug_lines d DElse r.
Proof.
  induction s as [|c s IH]; intros r F; [reflexivity|]. inversion F; subst. cbn [flat_map]. rewrite <- !app_assoc, <- IH by assumption.
  generalize (flat_map (esc plain) s ++ 34 :: r). intros t.
  destruct (esc_cases plain c ltac:(assumption)) as [(k & -> & _)|[(-> & N & N')|(h & -> & X)]]; cbn [app].
  - now rewrite st_string, st_escaped.
  - rewrite st_string. now replace (c =? 92) with false by lia; replace (c =? 34) with false by lia.
  - rewrite st_string, st_escaped. cbn [Z.eqb Pos.eqb]. rewrite st_string. cbn [Z.eqb Pos.eqb]. do 3 f_equal.
    destruct X as (_ & X & _). rewrite <- !app_assoc. cbn [app]. induction h as [|a h IHh]; [reflexivity|]. inversion X; subst. cbn [app].
    rewrite st_string. replace (a =? 92) with false by (unfold hex_digit in *; lia); replace (a =? 34) with false by (unfold hex_digit in *; lia).
    f_equal. now apply IHh.
Qed.

(** ** Items *)
Section Items.
Context {A : Type} (f g : A -> str) (d : nat) (pad close : str).
Hypothesis (C : closes pad close).
Lemma items l : forall x r,
  (forall y, In y (x :: l) -> forall r, ends r -> debug_lines (S d) DFresh (f y ++ r) = line (S d) ++ g y ++ debug_lines (S d) DElse r) ->
  debug_lines (S d) DFresh (f x ++ rest None pad close (map f l) ++ r) = line (S d) ++ g x ++ rest (Some d) pad close (map g l) ++ debug_lines d DElse r.
Proof.
  induction l as [|y l IH]; intros x r H.
  - cbn [map rest stop]. rewrite H; [|now left|exact (ends_stop None pad close r C)]. rewrite <- !app_assoc. rewrite st_close by exact C.
    cbn [app]. rewrite <- !app_assoc. reflexivity.
  - cbn [map rest]. rewrite <- !app_assoc. rewrite H; [|now left|exact (ends_sep None _)]. do 2 f_equal.
    cbn [sep]. change (s2z ", ") with [44; 32]. cbn [app]. rewrite st_comma, st_skip, IH; [|intros z I; apply H; now right]. reflexivity.
Qed.
Lemma insides l r : l <> [] ->
  (forall y, In y l -> forall r, ends r -> debug_lines (S d) DFresh (f y ++ r) = line (S d) ++ g y ++ debug_lines (S d) DElse r) ->
  debug_lines (S d) DFresh (inside None pad close (map f l) ++ r) = inside (Some d) pad close (map g l) ++ debug_lines d DElse r.
Proof.
  intros N H. destruct l as [|x l]; [contradiction|]. cbn [map]. rewrite !inside_cons, <- !app_assoc. cbn [pre].
  rewrite (st_pad _ pad close) by exact C. now apply items.
Qed.
Lemma maybe l r : pad = [] ->
  (forall y, In y l -> forall r, ends r -> debug_lines (S d) DFresh (f y ++ r) = line (S d) ++ g y ++ debug_lines (S d) DElse r) ->
  debug_lines (S d) DFresh (inside None pad close (map f l) ++ r) = inside (Some d) pad close (map g l) ++ debug_lines d DElse r.
Proof.
  intros P H. destruct l as [|x l]; [|now apply insides]. cbn [map inside]. subst pad. now apply st_empty.
Qed.
End Items.

(** ** Trees *)
Lemma fresh d : dlead DFresh d = line d. Proof. reflexivity. Qed.
Section Trees.
Context (plain : Z -> bool).
Lemma colon d p k k' v r : shaped v ->
  (forall r, ends r -> debug_lines d p (k ++ r) = dlead p d ++ k' ++ debug_lines d DElse r) ->
  (forall r, ends r -> debug_lines d DElse (show plain None v ++ r) = show plain (Some d) v ++ debug_lines d DElse r) -> ends r ->
  debug_lines d p ((k ++ s2z ": " ++ show plain None v) ++ r) = dlead p d ++ (k' ++ s2z ": " ++ show plain (Some d) v) ++ debug_lines d DElse r.
Proof.
  intros V K H R. rewrite <- !app_assoc. change (s2z ": ") with [58; 32]. cbn [app]. rewrite K by (cbn; tauto). do 2 f_equal.
  rewrite st_colon. f_equal. rewrite <- (H r R). destruct (show_opens plain None v V) as (c & t & -> & O). cbn [app].
  apply st_space. intros ->. unfold opens, wordc in O. lia.
Qed.
Lemma lines_tree : forall t, shaped t -> forall d p r, dout p -> ends r ->
  debug_lines d p (show plain None t ++ r) = dlead p d ++ show plain (Some d) t ++ debug_lines d DElse r.
Proof.
  apply (tree_all (fun t => shaped t -> forall d p r, dout p -> ends r ->
    debug_lines d p (show plain None t ++ r) = dlead p d ++ show plain (Some d) t ++ debug_lines d DElse r)).
  - intros s W d p r P R. now apply words_end.
  - intros s W d p r P R. cbn [show]. unfold quote. cbn [app]. rewrite st_quote by exact P. f_equal. f_equal. rewrite <- !app_assoc. now apply quotes.
  - intros s [N F] d p r P R. now apply guids.
  - intros n l IH W d p r P R. apply shaped_struct in W as (W & N & F). rewrite Forall_forall in IH, F.
    destruct l as [|e l]; [contradiction|]. cbn [show deeper option_map]. set (l' := e :: l) in *. rewrite <- !app_assoc. change (s2z " {") with [32; 123]. cbn [app].
    rewrite words; [|exact P|exact W|cbn; unfold wordc; lia|apply not_ahead; [exact W|cbn; unfold wordc; lia|intros _ c t X; discriminate X]].
    do 2 f_equal. rewrite st_space by lia. rewrite st_open by (try exact I; lia). cbn [dlead app]. do 2 f_equal.
    apply (insides _ _ d _ _ closes_struct); [exact N|]. intros y Y q Q. rewrite <- fresh.
    apply colon; [apply F; exact Y| | |exact Q].
    + intros q' Q'. apply words_end; [exact I|apply F; exact Y|exact Q'].
    + intros q' Q'. now apply (IH y Y (proj2 (F y Y)) (S d) DElse q' I).
  - intros n l IH W d p r P R. apply shaped_tuple in W as (W & N & G & F). rewrite Forall_forall in IH, F.
    cbn [show deeper option_map]. rewrite <- !app_assoc. change (s2z "(") with [40]. cbn [app].
    rewrite words; [|exact P|exact W|cbn; unfold wordc; lia|].
    + do 2 f_equal. rewrite st_open by (try exact I; lia). cbn [dlead app]. f_equal.
      apply (insides _ _ d _ _ closes_tuple); [exact N|]. intros y Y q Q. rewrite <- fresh. now apply (IH y Y (F y Y) (S d) DFresh q I).
    + apply not_ahead; [exact W|cbn; unfold wordc; lia|]. intros E c t X. specialize (G E). destruct l as [|[] l]; try destruct G.
      cbn [map] in X. rewrite inside_cons in X. cbn [show pre] in X. change (s2z "Guid(") with [71; 117; 105; 100; 40] in X. cbn [app] in X. injection X as X _. subst c. reflexivity.
  - intros l IH W d p r P R. apply (proj1 (shaped_list _)) in W. rewrite Forall_forall in IH, W.
    cbn [show deeper option_map]. rewrite <- !app_assoc. change (s2z "[") with [91]. cbn [app]. rewrite st_open by (try exact P; lia). do 2 f_equal.
    apply (maybe _ _ d _ _ closes_list); [reflexivity|]. intros y Y q Q. rewrite <- fresh. now apply (IH y Y (W y Y) (S d) DFresh q I).
  - intros l IH W d p r P R. apply (proj1 (shaped_map _)) in W. rewrite Forall_forall in IH, W.
    cbn [show deeper option_map]. rewrite <- !app_assoc. change (s2z "{") with [123]. cbn [app]. rewrite st_open by (try exact P; lia). do 2 f_equal.
    apply (maybe _ _ d _ _ closes_map); [reflexivity|]. intros y Y q Q. rewrite <- fresh. destruct (IH y Y) as [K V], (W y Y) as [SK SV].
    apply colon; [exact SV| | |exact Q].
    + intros q' Q'. now apply (K SK (S d) DFresh q' I).
    + intros q' Q'. now apply (V SV (S d) DElse q' I).
Qed.
Lemma tree_layout t : shaped t -> show plain (Some 0%nat) t = debug_lines 0 DElse (show plain None t).
Proof. intros S. pose proof (lines_tree t S 0 DElse [] I I) as H. cbn [dlead app debug_lines] in H. rewrite !app_nil_r in H. now rewrite H. Qed.
End Trees.
