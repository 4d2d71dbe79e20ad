(** Claim C52: editing a value when the new part has another length. *)
From Coq Require Import ZArith List Bool String Lia.
From Verif Require Import Base Str Types Versions Text Props File Spec Samples Patch Grow.
Import ListNotations.
Open Scope Z_scope.

(** * C52: the size fields around an edit follow, nothing else changes *)

(** Replacing a part inside a property ([enclosed], Grow.v) replaces its bytes by the
    bytes of the new part and each of the [i] size fields around it by the new size
    ([resized], Grow.v).  The new property can always be written if the new part can. *)
Theorem C52_part : forall vs x x' bx k bx' k',
  part_bytes vs x = Ok (bx, k) -> part_bytes vs x' = Ok (bx', k') ->
  forall i y y' b n, enclosed x x' i y y' -> part_bytes vs y = Ok (b, n) ->
  exists b' n', part_bytes vs y' = Ok (b', n') /\ resized bx bx' i b b'.
Proof. exact grow_part. Qed.
Print Assumptions C52_part.
(** The same for a file. *)
Theorem C52_file : forall h l1 l2 name p p' x x' bx k bx' k',
  part_bytes (h_versions h) x = Ok (bx, k) -> part_bytes (h_versions h) x' = Ok (bx', k') ->
  forall i, enclosed x x' i (PartP true p) (PartP true p') ->
  forall b, save_plain (h, l1 ++ (name, p) :: l2) = Ok b ->
  exists b', save_plain (h, l1 ++ (name, p') :: l2) = Ok b' /\ resized bx bx' i b b'.
Proof. exact grow_file. Qed.
Print Assumptions C52_file.
(** Every edit in the sense of C49 is covered. *)
Theorem C52_every_edit : forall x x' y y', edit x x' y y' <-> exists i, enclosed x x' i y y'.
Proof. exact enclosed_edit. Qed.
Print Assumptions C52_every_edit.
(** The file grows or shrinks by as much as the part. *)
Theorem C52_length : forall x x' i b b', resized x x' i b b' -> len b' - len b = len x' - len x.
Proof. exact resized_len. Qed.
Print Assumptions C52_length.

(** An integer deep inside an array of structs becomes a string: two size fields
    around it, and with the struct that holds the array three. *)
Example C52_applies :
  let x := PartP true (PNum I32 1) in let x' := PartP true (PStr (Some (s2z "longer"))) in
  let field p := SCustom ([(s2z "m", [PBool true])] ++ (s2z "n", [PBool false] ++ p :: []) :: []) in
  let arr p := PArray (AStructs (s2z "structs") (s2z "Item") zero_guid ([SCustom []] ++ field p :: [])) in
  let whole p := PStruct zero_guid (s2z "Outer") (SCustom ([] ++ (s2z "a", [] ++ arr p :: []) :: [])) in
  enclosed x x' 2 (PartP true (arr (PNum I32 1))) (PartP true (arr (PStr (Some (s2z "longer")))))
  /\ enclosed x x' 3 (PartP true (whole (PNum I32 1))) (PartP true (whole (PStr (Some (s2z "longer")))))
  /\ exists b b' k k' c j, part_bytes [] x = Ok (b, k) /\ part_bytes [] x' = Ok (b', k') /\ len b' = len b + 7
       /\ part_bytes [] (PartP true (whole (PNum I32 1))) = Ok (c, j).
Proof.
  cbv zeta. split; [|split].
  - exact (EncStructs _ _ 0 true _ _ _ _ _ _ _ (EncField _ _ 0 _ _ _ _ _ _ _ (EncHere _ _))).
  - exact (EncStruct _ _ 2 true _ _ _ _ (EncField _ _ 2 _ _ _ _ _ _ _
      (EncStructs _ _ 0 true _ _ _ _ _ _ _ (EncField _ _ 0 _ _ _ _ _ _ _ (EncHere _ _))))).
  - do 6 eexists. repeat split; vm_compute; reflexivity.
Qed.
