(** The repository's own tests, run on the model (tests/gvas.rs,
    tests/serde_tests).  They are tests of the translation, not proofs about the code; the
    larger save files of tests/gvas.rs are left out. *)
From Coq Require Import ZArith List Bool String.
From Verif Require Import Base Str Types Versions Text Props File Guid Samples Message Json JsonSyntax JsonFrom
  RepoFiles RepoTests.
Import ListNotations.
Open Scope list_scope.
Open Scope Z_scope.

Definition no_hash : hashing := fun _ _ _ => false.
Definition lines (l : list string) : str := flat_map (fun x => s2z x ++ [10]) l.
Definition a_opts (h : str -> option str) : opts := Opts true h quiet.
Definition loaded (h : str -> option str) (l : list string) : outcome gfile :=
  load no_zlib (a_opts h) GDefault (hex l).

(** tests/gvas.rs:11-47: read, write, compare the bytes, read again, compare the values. *)
Definition gvas_file (h : str -> option str) (l : list string) (size : Z) : Prop :=
  len (hex l) = size /\
  match loaded h l with
  | Ok g => fst (save no_zlib g (Dev [] 0)) = Ok tt
            /\ content (snd (save no_zlib g (Dev [] 0))) = hex l
            /\ load no_zlib (a_opts h) GDefault (content (snd (save no_zlib g (Dev [] 0)))) = Ok g
  | Fail _ => False
  end.
(** tests/serde_tests/serde_json_template.rs:36-60: the stated text is read as the file,
    straight and by way of a value. *)
Definition json_text (h : str -> option str) (l t : list string) : Prop :=
  match loaded h l, from_text (lines t) with
  | Ok g, POk j => read_direct no_hash (lines t) = JOk g /\ from_json no_hash j = JOk g
  | _, _ => False
  end.
(** ... and written like this (files without singles, whose digits are not modelled). *)
Definition json_same (h : str -> option str) (l t : list string) : Prop :=
  match loaded h l, from_text (lines t) with Ok g, POk j => to_json g = j | _, _ => False end.

Example regression_01 : gvas_file no_hints regression_01_hex 1079. Proof. vm_compute. repeat split. Qed.
Example options : gvas_file no_hints options_hex 1197. Proof. vm_compute. repeat split. Qed.
Example tagcontainer : gvas_file no_hints tagcontainer_hex 1388. Proof. vm_compute. repeat split. Qed.
Example delegate : gvas_file no_hints delegate_hex 1575. Proof. vm_compute. repeat split. Qed.
Example assert_failed : gvas_file no_hints assert_failed_hex 2437. Proof. vm_compute. repeat split. Qed.
Example slot1 : gvas_file no_hints slot1_hex 2503. Proof. vm_compute. repeat split. Qed.
Example saveslot_03 : gvas_file saveslot_03_hints saveslot_03_hex 2817. Proof. vm_compute. repeat split. Qed.
Example package_version_525 : gvas_file no_hints package_version_525_hex 6076. Proof. vm_compute. repeat split. Qed.
Example vector2d : gvas_file no_hints vector2d_hex 10752. Proof. vm_compute. repeat split. Qed.
Example profile_0 : gvas_file profile_0_hints profile_0_hex 20237. Proof. vm_compute. repeat split. Qed.

(** The container: what zlib delivers for this file is given.  The second length field
    comes back four too high (C27). *)
Definition this_zlib : zlib := Zlib (fun _ => skipn 12 (hex palworld_packed)) (fun _ => (hex palworld_unpacked, ZDone)).
Example palworld_zlib :
  match load this_zlib (a_opts no_hints) GPalworld (hex palworld_packed) with
  | Ok g => g_version g = DPalworld CZlib
            /\ fst (save this_zlib g (Dev [] 0)) = Ok tt
            /\ content (snd (save this_zlib g (Dev [] 0)))
               = firstn 4 (hex palworld_packed) ++ le_bytes 4 (le_val (firstn 4 (skipn 4 (hex palworld_packed))) + 4)
                 ++ skipn 8 (hex palworld_packed)
            /\ save_plain (g_header g, g_props g) = Ok (hex palworld_unpacked)
  | Fail _ => False
  end.
Proof. vm_compute. repeat split. Qed.

Example regression_01_text : json_text no_hints regression_01_hex regression_01_json. Proof. vm_compute. split; reflexivity. Qed.
Example tagcontainer_text : json_text no_hints tagcontainer_hex tagcontainer_json. Proof. vm_compute. split; reflexivity. Qed.
Example slot1_text : json_text no_hints slot1_hex slot1_json. Proof. vm_compute. split; reflexivity. Qed.
Example saveslot_03_text : json_text saveslot_03_hints saveslot_03_hex saveslot_03_json. Proof. vm_compute. split; reflexivity. Qed.
Example vector2d_text : json_text no_hints vector2d_hex vector2d_json. Proof. vm_compute. split; reflexivity. Qed.
Example profile_0_text : json_text profile_0_hints profile_0_hex profile_0_json. Proof. vm_compute. split; reflexivity. Qed.
Example regression_01_written : json_same no_hints regression_01_hex regression_01_json. Proof. vm_compute. reflexivity. Qed.
Example tagcontainer_written : json_same no_hints tagcontainer_hex tagcontainer_json. Proof. vm_compute. reflexivity. Qed.

(** tests/common/options.rs and delegate.rs. *)
Definition versions (l : list (string * Z)) : list (guid * Z) :=
  map (fun '(s, v) => (match guid_parse (s2z s) with Parsed g => g | _ => [] end, v)) l.
Example options_expected : loaded no_hints options_hex = Ok (GFile DDefault
  (Header 518 None (FEngine 4 25 3 13942748 (s2z "++UE4+Release-4.25")) 3 (versions options_versions)
     (s2z "/Game/UI/BP_SaveOptions.BP_SaveOptions_C"))
  [(s2z "Slider1", PNum F32 1042946017); (s2z "Slider2", PNum F32 1049667061)]).
Proof. vm_compute. reflexivity. Qed.
Definition delegate_str : str := s2z "/Temp/UEDPIE_0_Untitled_1.Untitled_1:PersistentLevel.Saver1_Blueprint_2".
Example delegate_expected : loaded no_hints delegate_hex = Ok (GFile DDefault
  (Header 517 None (FEngine 4 23 1 9631420 (s2z "++UE4+Release-4.23")) 3 (versions delegate_versions)
     (s2z "/Script/SaveFileTest.TestSaveGame"))
  [(s2z "DynamicDelegate", PDelegate delegate_str (s2z "FirstBinding"));
   (s2z "MulticastDelegate", PMulti true [(delegate_str, s2z "FirstBinding"); (delegate_str, s2z "SecondBinding")]);
   (s2z "MulticastSparseDelegate", PMulti false [(delegate_str, s2z "FirstBinding")])]).
Proof. vm_compute. reflexivity. Qed.
(** regression_01.rs: the guid is the same after writing. *)
Example regression_01_guid : match loaded no_hints regression_01_hex with
  | Ok g => lookup str_eqb (s2z "Thing") (g_props g) =
            Some (PStruct zero_guid (s2z "Guid")
                    (SGuid (hex ["D49982B3DF3DD549B4AE57C71D5838E4"%string])))
  | Fail _ => False
  end.
Proof. vm_compute. reflexivity. Qed.

