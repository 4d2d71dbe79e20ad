(** Version enumerations and tables.  No proofs in this file. *)
From Coq Require Import ZArith List Bool String.
From Verif Require Import Base Versions.
Import ListNotations.
Open Scope Z_scope.

(** [EngineVersion], engine_version.rs:119-193; [UE4 n] is [VER_UE4_n]. *)
Inductive engine := EUnknown | EOldest | UE4 (n : Z) | UE5 (n : Z) | EAutomatic | EAutomaticPlusOne.

(** [FEngineVersion::get_version], engine_version.rs:78-113: the arms of the match. *)
Definition engine_table : list (Z * Z * engine) :=
  [(4, 0, UE4 0); (4, 1, UE4 1); (4, 2, UE4 2); (4, 3, UE4 3); (4, 4, UE4 4); (4, 5, UE4 5);
   (4, 6, UE4 6); (4, 7, UE4 7); (4, 8, UE4 8); (4, 9, UE4 9); (4, 10, UE4 10); (4, 11, UE4 11);
   (4, 12, UE4 12); (4, 13, UE4 13); (4, 14, UE4 14); (4, 15, UE4 15); (4, 16, UE4 16);
   (4, 17, UE4 17); (4, 18, UE4 18); (4, 19, UE4 19); (4, 20, UE4 20); (4, 21, UE4 21);
   (4, 22, UE4 22); (4, 23, UE4 23); (4, 24, UE4 24); (4, 25, UE4 25); (4, 26, UE4 26);
   (4, 27, UE4 27); (5, 0, UE5 0); (5, 1, UE5 1); (5, 2, UE5 2)].
Fixpoint find_engine (l : list (Z * Z * engine)) (major minor : Z) : engine :=
  match l with
  | [] => EUnknown
  | (a, b, e) :: r => if (major =? a) && (minor =? b) then e else find_engine r major minor
  end.
Definition engine_of (v : fengine) : engine := find_engine engine_table (fe_major v) (fe_minor v).

(** Discriminant of an enumerator: the first is [base], each next one more.
    Enums of custom_version.rs:75-430 and object_version.rs:5-47. *)
Fixpoint discriminant (base : Z) (l : list string) (name : string) : option Z :=
  match l with
  | [] => None
  | n :: r => if String.eqb n name then Some base else discriminant (base + 1) r name
  end.

(** [FEditorObjectVersion], custom_version.rs:75-246 ([LatestVersion] is given as
    [VersionPlusOne + 1], which is also its place). *)
Definition editor_names : list string :=
  ["BeforeCustomVersionWasAdded"; "GatheredTextProcessVersionFlagging";
   "GatheredTextPackageCacheFixesV1"; "RootMetaDataSupport"; "GatheredTextPackageCacheFixesV2";
   "TextFormatArgumentDataIsVariant"; "SplineComponentCurvesInStruct";
   "ComboBoxControllerSupportUpdate"; "RefactorMeshEditorMaterials"; "AddedFontFaceAssets";
   "UPropertryForMeshSection"; "WidgetGraphSchema"; "AddedBackgroundBlurContentSlot";
   "StableUserDefinedEnumDisplayNames"; "AddedInlineFontFaceAssets";
   "UPropertryForMeshSectionSerialize"; "FastWidgetTemplates"; "MaterialThumbnailRenderingChanges";
   "NewSlateClippingSystem"; "MovieSceneMetaDataSerialization";
   "GatheredTextEditorOnlyPackageLocId"; "AddedAlwaysSignNumberFormattingOption";
   "AddedMaterialSharedInputs"; "AddedMorphTargetSectionIndices";
   "SerializeInstancedStaticMeshRenderData"; "MeshDescriptionNewSerializationMovedToRelease";
   "MeshDescriptionNewAttributeFormat"; "ChangeSceneCaptureRootComponent";
   "StaticMeshDeprecatedRawMesh"; "MeshDescriptionBulkDataGuid"; "MeshDescriptionRemovedHoles";
   "ChangedWidgetComponentWindowVisibilityDefault"; "CultureInvariantTextSerializationKeyStability";
   "ScrollBarThicknessChange"; "RemoveLandscapeHoleMaterial"; "MeshDescriptionTriangles";
   "ComputeWeightedNormals"; "SkeletalMeshBuildRefactor";
   "SkeletalMeshMoveEditorSourceDataToPrivateAsset"; "NumberParsingOptionsNumberLimitsAndClamping";
   "SkeletalMeshSourceDataSupport16bitOfMaterialNumber"; "VersionPlusOne"; "LatestVersion"]%string.
(** [FUE5ReleaseStreamObjectVersion], custom_version.rs:272-430. *)
Definition ue5_names : list string :=
  ["BeforeCustomVersionWasAdded"; "ReflectionMethodEnum";
   "WorldPartitionActorDescSerializeHLODInfo"; "RemovingTessellation";
   "LevelInstanceSerializeRuntimeBehavior"; "PoseAssetRuntimeRefactor";
   "WorldPartitionActorDescSerializeActorFolderPath"; "HairStrandsVertexFormatChange";
   "AddChaosMaxLinearAngularSpeed"; "PackedLevelInstanceVersion"; "PackedLevelInstanceBoundsFix";
   "CustomPropertyAnimGraphNodesUseOptionalPinManager"; "TextFormatArgumentData64bitSupport";
   "MaterialLayerStacksAreNotParameters"; "MaterialInterfaceSavedCachedData";
   "AddClothMappingLODBias"; "AddLevelActorPackagingScheme";
   "WorldPartitionActorDescSerializeAttachParent";
   "ConvertedActorGridPlacementToSpatiallyLoadedFlag";
   "ActorGridPlacementDeprecateDefaultValueFixup"; "PackedLevelActorUseWorldPartitionActorDesc";
   "AddLevelActorFolders"; "RemoveSkeletalMeshLODModelBulkDatas";
   "ExcludeBrightnessFromEncodedHDRCubemap"; "VolumetricCloudSampleCountUnification";
   "PoseAssetRawDataGUID"; "ConvolutionBloomIntensity";
   "WorldPartitionHLODActorDescSerializeHLODSubActors"; "LargeWorldCoordinates";
   "BlueprintPinsUseRealNumbers"; "UpdatedDirectionalLightShadowDefaults";
   "GeometryCollectionConvexDefaults"; "ChaosClothFasterDamping";
   "WorldPartitionLandscapeActorDescSerializeLandscapeActorGuid";
   "AddedInertiaTensorAndRotationOfMassAddedToConvex"; "ChaosInertiaConvertedToVec3";
   "SerializeFloatPinDefaultValuesAsSinglePrecision"; "AnimLayeredBoneBlendMasks";
   "StoreReflectionCaptureEncodedHDRDataInRG11B10Format"; "RawAnimSequenceTrackSerializer";
   "RemoveDuplicatedStyleInfo"; "LinkedAnimGraphMemberReference";
   "DynamicMeshComponentsDefaultUseExternalTangents"; "MediaCaptureNewResizeMethods";
   "RigVMSaveDebugMapInGraphFunctionData"; "LocalExposureDefaultChangeFrom1";
   "WorldPartitionActorDescSerializeActorIsListedInSceneOutliner";
   "OpenColorIODisabledDisplayConfigurationDefault"; "WorldPartitionExternalDataLayers";
   "ChaosClothFictitiousAngularVelocitySubframeFix"; "SinglePrecisonParticleDataPT";
   "OrthographicAutoNearFarPlane"]%string.
(** [EUnrealEngineObjectUE5Version], object_version.rs:4-47; starts at 1000. *)
Definition object_names : list string :=
  ["InitialVersion"; "NamesReferencedFromExportData"; "PayloadToc"; "OptionalResources";
   "LargeWorldCoordinates"; "RemoveObjectExportPackageGuid"; "TrackObjectExportIsInherited";
   "FsoftobjectpathRemoveAssetPathFnames"; "AddSoftobjectpathList"; "DataResources";
   "ScriptSerializationOffset"; "PropertyTagExtensionAndOverridableSerialization";
   "PropertyTagCompleteTypeName"]%string.

(** [FEditorObjectVersion::VERSION_MAPPINGS], custom_version.rs:248-269. *)
Definition editor_rows : list (engine * string) :=
  [(EAutomatic, "LatestVersion"); (EAutomaticPlusOne, "VersionPlusOne");
   (UE4 26, "SkeletalMeshSourceDataSupport16bitOfMaterialNumber");
   (UE4 25, "SkeletalMeshMoveEditorSourceDataToPrivateAsset");
   (UE4 24, "SkeletalMeshBuildRefactor"); (UE4 23, "RemoveLandscapeHoleMaterial");
   (UE4 22, "MeshDescriptionRemovedHoles"); (UE4 21, "MeshDescriptionNewAttributeFormat");
   (UE4 20, "SerializeInstancedStaticMeshRenderData");
   (UE4 19, "AddedMorphTargetSectionIndices"); (UE4 17, "GatheredTextEditorOnlyPackageLocId");
   (UE4 16, "MaterialThumbnailRenderingChanges"); (UE4 15, "AddedInlineFontFaceAssets");
   (UE4 14, "AddedFontFaceAssets"); (UE4 13, "SplineComponentCurvesInStruct");
   (UE4 12, "GatheredTextPackageCacheFixesV1"); (EOldest, "BeforeCustomVersionWasAdded")]%string.
Definition mapped (l : list string) (rows : list (engine * string)) : list (engine * option Z) :=
  map (fun r => (fst r, discriminant 0 l (snd r))) rows.
Definition editor_mappings := mapped editor_names editor_rows.
