(** Custom versions, engine versions.  No proofs in this file. *)
From Coq Require Import ZArith List Bool String.
From Verif Require Import Base Str.
Import ListNotations.
Open Scope Z_scope.

(** [Guid::from_u32], types.rs:21-23 and 46-54. *)
Definition guid_of_u32 (l : list Z) : guid := flat_map (le_bytes 4) l.

(** GUIDs of the two custom version enums, custom_version.rs:251 and 435. *)
Definition editor_guid : guid :=
  guid_of_u32 [0xE4B068ED; 0xF49442E9; 0xA231DA0B; 0x2E46BB41].
Definition ue5_guid : guid :=
  guid_of_u32 [0xD89B5E42; 0x24BD4D46; 0x8412ACA8; 0xDF641779].

(** [FEditorObjectVersion::CultureInvariantTextSerializationKeyStability]
    (custom_version.rs:208) and the two [FUE5ReleaseStreamObjectVersion]
    enumerators that the code tests (custom_version.rs:312 and 360). *)
Definition v_culture := 32.
Definition v_arg64 := 12.
Definition v_lwc := 28.

(** [PropertyOptions::get_custom_version], mod.rs:449-457. *)
Definition get_version (vs : list (guid * Z)) (g : guid) : Z :=
  match lookup guid_eqb g vs with Some v => v | None => 0 end.
(** [PropertyOptions::supports_version], mod.rs:460-466. *)
Definition supports (vs : list (guid * Z)) (g : guid) (required : Z) : bool :=
  required <=? get_version vs g.

Definition has_lwc (vs : list (guid * Z)) := supports vs ue5_guid v_lwc.
Definition has_arg64 (vs : list (guid * Z)) := supports vs ue5_guid v_arg64.
Definition has_culture (vs : list (guid * Z)) := supports vs editor_guid v_culture.

(** [FEngineVersion], engine_version.rs:12-23. *)
Record fengine := FEngine { fe_major : Z; fe_minor : Z; fe_patch : Z; fe_change : Z; fe_branch : str }.

(** [FEngineVersion::read], engine_version.rs:50-63. *)
Definition r_fengine : reader fengine :=
  a <- r_u16 ;; b <- r_u16 ;; c <- r_u16 ;; d <- r_u32 ;; s <- r_string ;;
  ret (FEngine a b c d s).
(** [FEngineVersion::write], engine_version.rs:67-75. *)
Definition w_fengine (v : fengine) : out :=
  w_int 2 (fe_major v) +> w_int 2 (fe_minor v) +> w_int 2 (fe_patch v)
  +> w_int 4 (fe_change v) +> w_string (fe_branch v).
