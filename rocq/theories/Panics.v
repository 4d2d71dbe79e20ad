(** Inputs that make a read panic, one for every site. *)
From Coq Require Import ZArith List Bool String.
From Verif Require Import Base Str Types Versions Text Props File BaseFacts Spec Samples Sane ReadThm
  RoundTrip Device Whole WholeSave.
Import ListNotations.
Open Scope Z_scope.

Definition sb (s : string) : list byte := str_bytes (s2z s).
Definition panic_input (s : psite) : list byte :=
  match s with
  | PSeparator => raw_file (s2z "a") (s2z "IntProperty") (le_bytes 8 4 ++ le_bytes 1 1 ++ le_bytes 4 0)
  | PIndicator => raw_file (s2z "a") (s2z "BoolProperty") (le_bytes 8 0 ++ le_bytes 1 1 ++ le_bytes 1 1)
  | PArrayIndex => raw_file (s2z "a") (s2z "ByteProperty") (le_bytes 4 1 ++ le_bytes 4 1)
  | PByteLength =>
    raw_file (s2z "a") (s2z "ByteProperty") (le_bytes 4 0 ++ le_bytes 4 0 ++ sb "None" ++ le_bytes 1 0)
  | PSetLength =>
    raw_file (s2z "a") (s2z "SetProperty")
      (le_bytes 4 7 ++ le_bytes 4 0 ++ sb "IntProperty" ++ le_bytes 1 0 ++ le_bytes 4 0 ++ le_bytes 4 1)
  | PArrayStruct =>
    raw_file (s2z "a") (s2z "ArrayProperty")
      (le_bytes 4 99 ++ le_bytes 4 0 ++ sb "StructProperty" ++ le_bytes 1 0 ++ le_bytes 4 1
       ++ sb "a" ++ sb "IntProperty")
  | PStructIndex =>
    raw_file (s2z "a") (s2z "StructProperty")
      (le_bytes 4 99 ++ le_bytes 4 0 ++ sb "T" ++ zero_guid ++ le_bytes 1 0
       ++ sb "n" ++ sb "NameProperty" ++ le_bytes 4 6 ++ le_bytes 4 1 ++ le_bytes 1 0 ++ sb "x")
  | PCapacity =>
    raw_file (s2z "a") (s2z "StructProperty")
      (le_bytes 4 4 ++ le_bytes 4 0 ++ sb "GameplayTagContainer" ++ zero_guid ++ le_bytes 1 0 ++ le_bytes 4 (-1))
  | PHistory =>
    raw_file (s2z "a") (s2z "TextProperty")
      (le_bytes 4 99 ++ le_bytes 4 0 ++ le_bytes 1 0 ++ le_bytes 4 0 ++ le_bytes 1 12)
  | PGender =>
    raw_file (s2z "a") (s2z "TextProperty")
      (le_bytes 4 99 ++ le_bytes 4 0 ++ le_bytes 1 0 ++ le_bytes 4 0 ++ le_bytes 1 4 ++ le_bytes 1 5)
  | PArgWidth | PBoolBody | PUtf8Slice => []
  end.
Lemma panics_reached d s : read_panic d s ->
  load_plain (Opts d no_hints quiet) (panic_input s) = Fail (Panic s).
Proof. destruct s, d; cbn [read_panic]; intros H; try contradiction; try discriminate; vm_compute; reflexivity. Qed.

(** Reading any part of what was saved from a loaded file cannot panic. *)
Lemma reread_no_panic o pr b f b' n : load_plain o b = Ok f -> save_plain f = Ok b' -> len b' < 4294967296 ->
  (forall p i, pr p i = false) \/ file_ok o eqv f = true ->
  load_plain (with_probe o pr) (firstn n b') = Ok f
  \/ load_plain (with_probe o pr) (firstn n b') = Fail (Err EEof).
Proof.
  intros L W Hl Hp. destruct (load_save_load o pr b f L) as (b1 & W1 & R). rewrite W in W1. injection W1 as <-.
  specialize (R Hl Hp []). rewrite app_nil_r in R. unfold load_plain in R.
  destruct (parse (with_probe o pr) b') as [[g c]|] eqn:E; [|discriminate]. injection R as ->.
  rewrite (truncated _ _ _ _ n E). destruct (_ <=? _); auto.
Qed.
