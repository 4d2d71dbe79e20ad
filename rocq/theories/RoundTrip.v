(** Loading, saving and loading again. *)
From Coq Require Import ZArith List Bool String Lia ZifyBool ZifyNat.
From Verif Require Import Base Str Types Versions Text Props File Spec BaseFacts StrFacts Decode DecodeProp
  DecodeMain DecodeFile Induct AcceptFile EqFacts.
Import ListNotations.
Open Scope Z_scope.

(** The same options with another hash function. *)
Definition with_probe (o : opts) (pr : Z -> nat -> bool) : opts := Opts (dbg o) (hints o) pr.

Lemma apart_eqv o k k' : eqv k k' = false -> apart o k k'.
Proof.
  intros H. split; [|now left]. destruct (same k k') eqn:E; auto. apply same_eqv in E. congruence.
Qed.
Lemma apart_same o k k' : (forall pos i, probe o pos i = false) -> same k k' = false -> apart o k k'.
Proof. intros P H. split; auto. Qed.

Lemma reload_quiet o pr f b t : file_ok o same f = true -> (forall p i, pr p i = false) ->
  save_plain f = Ok b -> len b < 4294967296 -> load_plain (with_probe o pr) (b ++ t) = Ok f.
Proof.
  intros H P. apply (load_written (with_probe o pr) same); [|exact H].
  intros k k'. now apply apart_same.
Qed.
Lemma reload_any o pr f b t : file_ok o eqv f = true ->
  save_plain f = Ok b -> len b < 4294967296 -> load_plain (with_probe o pr) (b ++ t) = Ok f.
Proof.
  intros H. apply (load_written (with_probe o pr) eqv); [|exact H].
  intros k k'. now apply apart_eqv.
Qed.

Lemma load_save_load o pr b f : load_plain o b = Ok f ->
  exists b', save_plain f = Ok b'
    /\ (len b' < 4294967296 -> (forall p i, pr p i = false) \/ file_ok o eqv f = true ->
        forall t, load_plain (with_probe o pr) (b' ++ t) = Ok f).
Proof.
  intros E. apply load_ok in E. destruct (wrote_file o same f E) as [b' W]. exists b'. split; auto.
  intros L [P|H] t; [eapply reload_quiet|eapply reload_any]; eassumption.
Qed.

Lemma save_load_iff o f b : (forall p i, probe o p i = false) -> save_plain f = Ok b -> len b < 4294967296 ->
  (load_plain o b = Ok f <-> file_ok o same f = true).
Proof.
  intros P E L. split; [apply load_ok|]. intros H.
  pose proof (reload_quiet o (probe o) f b [] H P E L) as R. rewrite app_nil_r in R.
  destruct o; exact R.
Qed.

Lemma save_injective o f f' b : file_ok o same f = true -> file_ok o same f' = true ->
  save_plain f = Ok b -> save_plain f' = Ok b -> len b < 4294967296 -> f = f'.
Proof.
  intros H H' E E' L.
  pose proof (reload_quiet o (fun _ _ => false) f b [] H ltac:(auto) E L) as R.
  pose proof (reload_quiet o (fun _ _ => false) f' b [] H' ltac:(auto) E' L) as R'. congruence.
Qed.
