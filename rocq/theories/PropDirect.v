(** Claim C63: JSON text written straight from files. *)
From Coq Require Import ZArith List Bool String QArith.
From Verif Require Import Base Str Types Versions Text Props File Spec Samples Device Numeral Nearest
  Json JsonFile JsonThm JsonSyntax JsonGrammar JsonPrint JsonWhole JsonDirect Singles SinglesThm DirectThm JsonSpec.
Import ListNotations.
Open Scope Z_scope.

(** C63.  What a single becomes is determined by its text ... *)
Theorem C63_determined : forall float32, prints_singles float32 ->
  exists r, forall b, u_ok 4 b = true -> finite32 b = true -> forall c, reread float32 b c <-> c = r b.
Proof. exact reread_function. Qed.
Print Assumptions C63_determined.
(** ... and is that single or a neighbour of it; the latter only if its last bit is set. *)
Theorem C63_near : forall float32 b c, prints_singles float32 -> u_ok 4 b = true -> finite32 b = true -> reread float32 b c ->
  c = b \/ (Z.odd b = true /\ (c = b + 1 \/ c = b - 1)).
Proof. exact (fun float32 b c FL => reread_near float32 FL b c). Qed.
Print Assumptions C63_near.
(** The double in between is then exactly half way between the two. *)
Theorem C63_half_way : forall q m d a, 0 <= m < 2139095040 -> nearest32 q m -> nearest64 q d -> nearest32 (number 52 (-1074) d) a ->
  a = m \/ (Z.even a = true /\ (a = m + 1 \/ a = m - 1)
            /\ (number 52 (-1074) d + number 52 (-1074) d == number 23 (-149) m + number 23 (-149) a)%Q).
Proof. exact twice. Qed.
Print Assumptions C63_half_way.

(** A file that can be loaded comes back from the text written straight from it as the
    file in which each single has become what its text says, if its floats are finite and
    its JSON form nests at most 127 brackets, and not at all otherwise. *)
Theorem C63_file : forall float32 float r, prints_singles float32 -> prints_floats float ->
  (forall b, u_ok 4 b = true -> finite32 b = true -> reread float32 b (r b)) ->
  forall hp z o v b g, load z o v b = Ok g ->
  text_file hp (direct_text float32 float g) = (if fin_file g && (brackets (to_json g) <=? 127)%nat then JOk (r_file r (m_insert hp) g) else JErr)
  /\ text_file hp (direct_pretty float32 float g) = if fin_file g && (brackets (to_json g) <=? 127)%nat then JOk (r_file r (m_insert hp) g) else JErr.
Proof. exact loaded_direct. Qed.
Print Assumptions C63_file.
(** So it comes back unchanged exactly if each of its singles does. *)
Theorem C63_unchanged : forall float32 float hp z o v b g, prints_singles float32 -> prints_floats float -> calm hp -> load z o v b = Ok g ->
  text_file hp (direct_text float32 float g) = JOk g
  <-> fin_file g = true /\ (brackets (to_json g) <= 127)%nat /\ forall x, In x (singles g) -> reread float32 x x.
Proof. exact loaded_direct_back. Qed.
Print Assumptions C63_unchanged.
Theorem C63_even : forall float32 float hp z o v b g, prints_singles float32 -> prints_floats float -> calm hp -> load z o v b = Ok g ->
  fin_file g = true -> (brackets (to_json g) <= 127)%nat -> (forall x, In x (singles g) -> Z.even x = true) ->
  text_file hp (direct_text float32 float g) = JOk g.
Proof. exact loaded_even. Qed.
Print Assumptions C63_even.
(** It need not come back unchanged, unlike from the text of its [Value] (C62): the
    shortest text of a single can denote a number whose nearest double is half way to
    the next single. *)
Theorem C63_all_refuted : exists z o b g g', load z o GDefault b = Ok g /\ fin_file g = true /\ g' <> g
  /\ (exists float32, prints_singles float32 /\ forall x, In x (singles g) -> shortest float32 x)
  /\ forall float32 float hp, prints_singles float32 -> (forall x, In x (singles g) -> shortest float32 x) -> prints_floats float ->
     text_file hp (direct_text float32 float g) = JOk g' /\ (calm hp -> text_file hp (file_text float g) = JOk g).
Proof. exact direct_refuted. Qed.
Print Assumptions C63_all_refuted.
(** There are printers with which all files do: those that write all digits. *)
Theorem C63_printer : prints_singles exact32 /\ forall b, u_ok 4 b = true -> finite32 b = true -> reread exact32 b b.
Proof. exact exact32_kept. Qed.
Print Assumptions C63_printer.

(** Printed singles have fewer digits; what is read is then another file. *)
Definition float_file : gfile :=
  GFile DDefault hdr5 [(s2z "f", PNum F32 1069547520); (s2z "g", PArray (AFloats [unlucky; 8])); (s2z "d", PNum F64 4609434218613702656)].
Example C63_applies :
  load no_zlib o_plain GDefault (image float_file) = Ok float_file
  /\ fin_file float_file = true
  /\ singles float_file = [1069547520; unlucky; 8]
  /\ map (read_back shortest32) (singles float_file) = [1069547520; unlucky + 1; 8]
  /\ print (w_float shortest32 exact_float) (JArr [w_single unlucky; w_single 2139095040; w_single 1325400064])
     = s2z "[7.038531e-26,null,2147483648.0]"
  /\ text_file (fun _ _ _ => false) (direct_text shortest32 exact_float float_file)
     = JOk (r_file (read_back shortest32) (fun l => l) float_file).
Proof. vm_compute. repeat split. Qed.
