(** In a container the content asks. *)
From Coq Require Import ZArith List Bool String Lia ZifyBool ZifyNat.
From Verif Require Import Base Str Types Versions Text Props File BaseFacts StrFacts Spec Decode ReaderFacts SourceThm LostThm OpenThm OpenBox AskSpec AskBack.
Import ListNotations.
Open Scope Z_scope.

Definition unpacked (z : zlib) (n : Z) (x : list byte) (c : ctype) : outcome (list byte) :=
  match c with
  | CNone => if n <=? len x then Ok (firstz n x) else Fail (Err EEof)
  | CZlib => zread_exact n (inflate z x)
  | CTwice => zread_to_end (zagain z (inflate z x))
  end.
Lemma unpacked_iff z n x c d : unpacked z n x c = Ok d <-> holds z n x c d.
Proof.
  unfold unpacked. destruct c.
  - destruct (n <=? len x) eqn:E; split; intros H; try discriminate.
    + injection H as <-. constructor. lia.
    + inversion H. reflexivity.
    + inversion H. lia.
  - unfold zread_exact. destruct (inflate z x) as [y e] eqn:I. cbn [fst snd]. destruct (n <=? len y) eqn:E; split; intros H.
    + injection H as <-. replace y with (fst (inflate z x)) by (now rewrite I). constructor. rewrite I. cbn [fst]. lia.
    + inversion H. rewrite I. reflexivity.
    + destruct e; discriminate.
    + inversion H. rewrite I in *. cbn [fst] in *. lia.
  - unfold zread_to_end, zagain, zover. destruct (inflate z x) as [y e] eqn:I. cbn [fst snd]. destruct (inflate z y) as [d0 e'] eqn:I'. cbn [fst snd].
    split.
    + intros H. assert (d0 = d /\ e' <> ZBad /\ (e' = ZShort -> e <> ZBad)) as (-> & A & B).
      { destruct e', e; cbv iota in H; try discriminate H; injection H as <-; repeat split; congruence. }
      exact (HoldsTwice z n x y e e' d I I' A B).
    + intros H. inversion H as [| |y1 e1 e2 d1 A B C D]. rewrite I in A. injection A as <- <-. rewrite I' in B. injection B as <- <-.
      destruct e', e; cbv iota; try reflexivity; exfalso; first [now apply C|now apply D].
Qed.
Lemma unpacked_fail z n x c f : unpacked z n x c = Fail f -> f = Err EEof \/ f = Err EIo.
Proof.
  unfold unpacked, zread_exact, zread_to_end. destruct c.
  - destruct (_ <=? _); intros H; [discriminate|]. left. congruence.
  - destruct (_ <=? _); [discriminate|]. destruct (snd _); intros H; injection H as <-; auto.
  - destruct (snd _); intros H; try discriminate; injection H as <-; auto.
Qed.
Lemma box_hint z o b path p : load z o GPalworld b = Fail (Err (EHint path p)) <->
  exists c n field x d, b = container c n field x /\ 0 <= n < 4294967296 /\ len field = 4
    /\ holds z n x c d /\ load_plain o d = Fail (Err (EHint path p)).
Proof.
  assert (P : forall c n field x, 0 <= n < 4294967296 -> len field = 4 ->
    (load z o GPalworld (container c n field x) = Fail (Err (EHint path p))
     <-> exists d, holds z n x c d /\ load_plain o d = Fail (Err (EHint path p)))).
  { intros c n field x N F. rewrite packed by assumption. fold (unpacked z n x c). split.
    - destruct (unpacked z n x c) as [d|f] eqn:U.
      + intros E. exists d. apply unpacked_iff in U. split; [exact U|]. destruct (load_plain o d) as [[]|]; congruence.
      + apply unpacked_fail in U as [->| ->]; discriminate.
    - intros (d & H & E). apply unpacked_iff in H. rewrite H, E. reflexivity. }
  split.
  - intros E. destruct (Z_lt_ge_dec (len b) 11) as [S|S]; [rewrite (shorts z o b S) in E; discriminate|].
    destruct (eleven b ltac:(lia)) as (a & f & m & r & -> & A & F & M). clear S. pose proof E as E0. unfold load in E. rewrite palworld_steps in E. unfold bind in E.
    rewrite (dec_take_n [] 4 a A), (dec_take_n [] 4 f F), (dec_take_n [] 3 m M) in E.
    destruct (list_eqb Byte.eqb m plz_magic) eqn:Q; cbn [negb] in E; [|discriminate E].
    assert (m = plz_magic) by (apply (list_eqb_eq Byte.eqb byte_eqb_eq); exact Q). subst m. clear Q.
    destruct r as [|k x]; [discriminate E|].
    change (k :: x) with ([k] ++ x) in E. rewrite (dec_take_n [] 1 [k] eq_refl) in E. cbv zeta in E.
    destruct (enum_of ctype_z ctypes (to_signed 1 (le_val [k]))) as [c|] eqn:K; [|discriminate E]. clear E.
    assert (KK : [k] = le_bytes 1 (ctype_z c)).
    { clear -K. destruct k; vm_compute in K; try discriminate K; injection K as <-; reflexivity. }
    assert (EQ : a ++ f ++ plz_magic ++ k :: x = container c (le_val a) f x).
    { rewrite container_eq, <- KK. rewrite (le_bytes_val' 4 a A). reflexivity. }
    pose proof (le_val_range a) as V. rewrite A in V. change (2 ^ (8 * 4)) with 4294967296 in V.
    rewrite EQ in E0. apply P in E0 as (d & H1 & H2); [|exact V|exact F].
    exists c, (le_val a), f, x, d. auto 6.
  - intros (c & n & field & x & d & -> & N & F & H & E). apply P; eauto.
Qed.
(** A container asks for what its content asks for; positions count from the start of the content. *)
Theorem ask_box z o b path p :
  load z o GPalworld b = Fail (Err (EHint path p))
  <-> exists c n field x d t way, b = container c n field x /\ 0 <= n < 4294967296 /\ len field = 4
    /\ holds z n x c (d ++ t) /\ p = len d /\ path = dotted way /\ hints o path = None /\ file_asks (calm o) d way.
Proof.
  rewrite box_hint. split.
  - intros (c & n & field & x & y & -> & N & F & H & E). apply ask_iff in E as (d & t & way & -> & E2).
    exists c, n, field, x, d, t, way. auto.
  - intros (c & n & field & x & d & t & way & -> & N & F & H & E). exists c, n, field, x, (d ++ t).
    repeat (split; [assumption || reflexivity|]). apply ask_iff. exists d, t, way. auto.
Qed.
