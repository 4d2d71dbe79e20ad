(** The end of the input in containers (C73). *)
From Coq Require Import ZArith List Bool String Lia ZifyBool ZifyNat.
From Verif Require Import Base Str Types Versions Text Props File BaseFacts Decode StrFacts ReaderFacts SourceThm LostThm OpenThm.
Import ListNotations.
Open Scope Z_scope.

(** ** Specification *)
(** What follows the bytes of a file decides its load. *)
Definition left_open (o : opts) (d : list byte) : Prop := exists t t', load_plain o (d ++ t) <> load_plain o (d ++ t').
Definition firstz (n : Z) (l : list byte) : list byte := firstn (Z.to_nat n) l.
(** The content that is unpacked of the payload [x] of a container, where it is whole; [n] bytes are declared. *)
Inductive holds (z : zlib) (n : Z) (x : list byte) : ctype -> list byte -> Prop :=
| HoldsNone : n <= len x -> holds z n x CNone (firstz n x)
| HoldsZlib : n <= len (fst (inflate z x)) -> holds z n x CZlib (firstz n (fst (inflate z x)))
| HoldsTwice y e e' d : inflate z x = (y, e) -> inflate z y = (d, e') -> e' <> ZBad -> (e' = ZShort -> e <> ZBad) -> holds z n x CTwice d.
(** There is less than is declared. *)
Inductive lacks (z : zlib) (n : Z) (x : list byte) : ctype -> Prop :=
| LacksNone : len x < n -> lacks z n x CNone
| LacksZlib y e : inflate z x = (y, e) -> e <> ZBad -> len y < n -> lacks z n x CZlib.
(** The frame is cut; it is too early to say whether it is one, or it is one so far. *)
Definition cut_frame (b : list byte) : Prop := len b < 11 \/ exists a, len a = 8 /\ b = a ++ map z2b [80; 108; 90].

(** ** Proofs *)
Lemma plain_eof o d : load_plain o d = Fail (Err EEof) <-> left_open o d.
Proof. apply open_iff. Qed.
Lemma packed z o c n field x : 0 <= n < 4294967296 -> len field = 4 ->
  load z o GPalworld (container c n field x) =
  match
    match c with
    | CNone => if n <=? len x then Ok (firstz n x) else Fail (Err EEof)
    | CZlib => zread_exact n (inflate z x)
    | CTwice => zread_to_end (zagain z (inflate z x))
    end
  with
  | Ok d => match load_plain o d with Ok (h, ps) => Ok (GFile (DPalworld c) h ps) | Fail f => Fail f end
  | Fail f => Fail f
  end.
Proof.
  intros N F. unfold load. rewrite palworld_steps, container_eq. unfold bind.
  rewrite (dec_take_n [] 4 (le_bytes 4 n) (len_le_bytes 4 n)), (dec_take_n [] 4 field F), (dec_take_n [] 3 plz_magic eq_refl).
  change (list_eqb Byte.eqb plz_magic plz_magic) with true. cbn [negb].
  rewrite (dec_take_n [] 1 (le_bytes 1 (ctype_z c)) (len_le_bytes 1 _)).
  assert (E : enum_of ctype_z ctypes (to_signed 1 (le_val (le_bytes 1 (ctype_z c)))) = Some c) by (destruct c; reflexivity).
  cbv zeta. rewrite E, le_val_bytes. change (2 ^ (8 * Z.of_nat 4)) with 4294967296. rewrite Z.mod_small by exact N. cbn [rest].
  destruct c.
  - unfold take. cbn [rest]. destruct (n <=? len x); reflexivity.
  - destruct (zread_exact n (inflate z x)); reflexivity.
  - destruct (zread_to_end _); reflexivity.
Qed.
Lemma content z o c n x :
  match
    match c with
    | CNone => if n <=? len x then Ok (firstz n x) else Fail (Err EEof)
    | CZlib => zread_exact n (inflate z x)
    | CTwice => zread_to_end (zagain z (inflate z x))
    end
  with
  | Ok d => match load_plain o d with Ok (h, ps) => Ok (GFile (DPalworld c) h ps) | Fail f => Fail f end
  | Fail f => Fail f
  end = Fail (Err EEof) <-> lacks z n x c \/ exists d, holds z n x c d /\ left_open o d.
Proof.
  assert (L : forall d, match load_plain o d with Ok (h, ps) => Ok (GFile (DPalworld c) h ps) | Fail f => Fail f end = Fail (Err EEof) <-> left_open o d).
  { intros d. rewrite <- plain_eof. destruct (load_plain o d) as [[h ps]|f]; [split; discriminate|]. split; congruence. }
  destruct c.
  - destruct (n <=? len x) eqn:E.
    + rewrite L. split; [intros O; right; eexists; split; [constructor; lia|exact O]|].
      intros [H|(d & H & O)]; [inversion H; lia|]. inversion H. subst. exact O.
    + split; [intros _; left; constructor; lia|reflexivity].
  - unfold zread_exact. destruct (inflate z x) as [y e] eqn:I. cbn [fst snd]. destruct (n <=? len y) eqn:E.
    + rewrite L. split; [intros O; right; eexists; split; [constructor; rewrite I; cbn [fst]; lia|rewrite I; exact O]|].
      intros [H|(d & H & O)]; [inversion H as [|y' e' I' NB LN]; rewrite I in I'; injection I' as <- <-; lia|].
      inversion H. subst. rewrite I in O. exact O.
    + split.
      * intros H. left. apply (LacksZlib z n x y e I); [intros ->; discriminate H|lia].
      * intros [H|(d & H & O)]; [inversion H as [|y' e' I' NB LN]; rewrite I in I'; injection I' as <- <-; destruct e; congruence|].
        inversion H. rewrite I in *. cbn [fst] in *. lia.
  - unfold zread_to_end, zagain, zover. destruct (inflate z x) as [y e] eqn:I. cbn [fst snd]. destruct (inflate z y) as [d e'] eqn:I'. cbn [fst snd].
    assert (U : forall d0, holds z n x CTwice d0 <-> d0 = d /\ e' <> ZBad /\ (e' = ZShort -> e <> ZBad)).
    { intros d0. split.
      - intros H. inversion H as [| |y1 e1 e2 d1 A B C D]. rewrite I in A. injection A as <- <-. rewrite I' in B. injection B as <- <-. auto.
      - intros (-> & A & B). exact (HoldsTwice z n x y e e' d I I' A B). }
    assert (NL : ~ lacks z n x CTwice) by (intros H; inversion H).
    assert (X : left_open o d <-> (lacks z n x CTwice \/ exists d0, holds z n x CTwice d0 /\ left_open o d0) \/ e' = ZBad /\ left_open o d \/ e' = ZShort /\ e = ZBad /\ left_open o d).
    { split.
      - intros O. destruct e'; [| |right; left; auto]; [left; right; exists d; rewrite U; repeat split; congruence|].
        destruct e; [| |right; right; auto]; left; right; exists d; rewrite U; repeat split; congruence.
      - intros [[H|(d0 & H & O)]|[[_ O]|(_ & _ & O)]]; [destruct (NL H)| |exact O|exact O]. apply U in H as (-> & _). exact O. }
    assert (B : e' = ZBad \/ e' = ZShort /\ e = ZBad -> ~ (lacks z n x CTwice \/ exists d0, holds z n x CTwice d0 /\ left_open o d0)).
    { intros Q [H|(d0 & H & _)]; [destruct (NL H)|]. apply U in H as (_ & A & C). destruct Q as [Q|[Q Q']]; [congruence|]. exact (C Q Q'). }
    destruct e', e; cbv iota; try (split; [discriminate|intros H; exfalso; apply B in H; auto]); rewrite L, X; split; auto;
      (intros [H|[[H _]|(H & H' & _)]]; [exact H|discriminate..]).
Qed.
Lemma shorts z o b : len b < 11 -> load z o GPalworld b = Fail (Err EEof).
Proof.
  intros H. do 11 (destruct b as [|? b]; [reflexivity|]). unfold len in H. cbn [List.length] in H. lia.
Qed.
Lemma eleven (b : list byte) : 11 <= len b -> exists a f m r, b = a ++ f ++ m ++ r /\ len a = 4 /\ len f = 4 /\ len m = 3.
Proof.
  intros H. do 11 (destruct b as [|? b]; [unfold len in H; cbn [List.length] in H; lia|]).
  eexists [_; _; _; _], [_; _; _; _], [_; _; _], b. repeat split.
Qed.
Lemma box_eof z o b : load z o GPalworld b = Fail (Err EEof) <->
  cut_frame b
  \/ exists c n field x, b = container c n field x /\ 0 <= n < 4294967296 /\ len field = 4
     /\ (lacks z n x c \/ exists d, holds z n x c d /\ left_open o d).
Proof.
  split.
  - intros E. destruct (Z_lt_ge_dec (len b) 11) as [S|S]; [left; left; exact S|].
    destruct (eleven b ltac:(lia)) as (a & f & m & r & -> & A & F & M). clear S. pose proof E as E0. unfold load in E. rewrite palworld_steps in E. unfold bind in E.
    rewrite (dec_take_n [] 4 a A), (dec_take_n [] 4 f F), (dec_take_n [] 3 m M) in E.
    destruct (list_eqb Byte.eqb m plz_magic) eqn:Q; cbn [negb] in E; [|discriminate E].
    assert (m = plz_magic) by (apply (list_eqb_eq Byte.eqb byte_eqb_eq); exact Q). subst m. clear Q.
    destruct r as [|k x].
    { left. right. exists (a ++ f). split; [rewrite len_app; lia|]. rewrite <- app_assoc, app_nil_r. reflexivity. }
    right. change (k :: x) with ([k] ++ x) in E. rewrite (dec_take_n [] 1 [k] eq_refl) in E. cbv zeta in E.
    destruct (enum_of ctype_z ctypes (to_signed 1 (le_val [k]))) as [c|] eqn:K; [|discriminate E]. clear E.
    assert (KK : [k] = le_bytes 1 (ctype_z c)).
    { clear -K. destruct k; vm_compute in K; try discriminate K; injection K as <-; reflexivity. }
    assert (EQ : a ++ f ++ plz_magic ++ k :: x = container c (le_val a) f x).
    { rewrite container_eq, <- KK. rewrite (le_bytes_val' 4 a A). reflexivity. }
    exists c, (le_val a), f, x. pose proof (le_val_range a) as V. rewrite A in V. change (2 ^ (8 * 4)) with 4294967296 in V.
    split; [exact EQ|]. split; [exact V|]. split; [exact F|]. rewrite EQ, packed in E0 by assumption. now apply content in E0.
  - intros [[S|(a & A & ->)]|(c & n & f & x & -> & N & F & H)].
    + now apply shorts.
    + do 8 (destruct a as [|? a]; [unfold len in A; cbn [List.length] in A; lia|]). destruct a; [reflexivity|]. unfold len in A. cbn [List.length] in A. lia.
    + rewrite packed by assumption. now apply content.
Qed.
(** The content of an uncompressed container that is all there stays cut, whatever follows the container. *)
Lemma box_final z o n field x t : 0 <= n <= len x -> n < 4294967296 -> len field = 4 ->
  load z o GPalworld (container CNone n field x ++ t) = load z o GPalworld (container CNone n field x).
Proof.
  intros N B F. replace (container CNone n field x ++ t) with (container CNone n field (x ++ t)) by (rewrite !container_eq, <- !app_assoc; reflexivity).
  rewrite !packed by (assumption || lia). rewrite len_app. pose proof (len_nonneg t). replace (n <=? len x + len t) with true by lia. replace (n <=? len x) with true by lia.
  unfold firstz. rewrite firstn_app. replace (Z.to_nat n - List.length x)%nat with 0%nat by (unfold len in N; lia). rewrite firstn_O, app_nil_r. reflexivity.
Qed.
