(** Concrete values used as non-vacuity examples next to the theorems. *)
From Coq Require Import ZArith List Bool String.
From Verif Require Import Base Str Types Versions Text Props File.
Import ListNotations.
Open Scope Z_scope.

Definition no_hints : str -> option str := fun _ => None.
Definition hint_at (path ty : string) (h : str -> option str) : str -> option str :=
  fun p => if str_eqb p (s2z path) then Some (s2z ty) else h p.
Definition quiet : Z -> nat -> bool := fun _ _ => false.
Definition noisy : Z -> nat -> bool := fun _ _ => true.

(** Debug build, with hints for the untyped structs of [sample]. *)
Definition o_sample : opts :=
  Opts true
    (hint_at "set.SetProperty.StructProperty" "Vector"
    (hint_at "map.MapProperty.Key.StructProperty" "Pair"
    (hint_at "map.MapProperty.Value.StructProperty" "Guid" no_hints))) quiet.
Definition o_plain : opts := Opts true no_hints quiet.

Definition zero_guid : guid := repeat Byte.x00 16.
Definition a_guid : guid := map z2b [1;2;3;4;5;6;7;8;9;10;11;12;13;14;15;16].

(** A UE4 header and a UE5 header with large world coordinates. *)
Definition hdr4 : header :=
  Header 0x20A None (FEngine 4 27 2 18319896 (s2z "++UE4+Release-4.27")) 3
    [(a_guid, 7); (editor_guid, 40)] (s2z "/Script/Game.SaveGame").
Definition hdr5 : header :=
  Header 0x20D (Some 1009) (FEngine 5 2 1 26001984 (s2z "++UE5+Release-5.2")) 3
    [(ue5_guid, 30); (editor_guid, 40)] (s2z "/Script/Game.SaveGame").

Definition text1 : ftext :=
  FText 2 (HNamed (FText 0 (HBase None (Some (s2z "key")) (Some (s2z "{n} items"))))
             [(s2z "n", AText (FText 1 HEmpty)); (s2z "x", ADouble 4607182418800017408)]).
Definition text2 : ftext :=
  FText 18 (HCurrency (Some (s2z "EUR")) (AFloat 1065353216)
              (Some (NumFmt true false 3 1 2 (-1) 4)) None).

(** One property of every kind, nested containers included.  "h" "e-acute" makes
    one string non-ASCII, 128512 is outside the basic plane. *)
Definition sample_props : list (str * property) :=
  [ (s2z "i8", PNum I8 (-128)); (s2z "u64", PNum U64 18446744073709551615);
    (s2z "nan", PNum F32 2143289345); (s2z "double", PNum F64 9223372036854775808);
    (s2z "flag", PBool true);
    (s2z "byte", PByte (Some (s2z "None")) (BByte Byte.xff));
    (s2z "named", PByte (Some (s2z "EKind")) (BName (s2z "EKind::A")));
    (s2z "enum", PEnum (Some (s2z "EKind")) (s2z "EKind::B"));
    (s2z "str", PStr (Some [104; 233; 128512])); (s2z "null", PStr None);
    (s2z "text", PText text1); (s2z "money", PText text2);
    (s2z "name", PName 3 (Some (s2z "n")));
    (s2z "obj", PObject (s2z "/Game/X")); (s2z "del", PDelegate (s2z "o") (s2z "f"));
    (s2z "multi", PMulti true [(s2z "o", s2z "f"); (s2z "p", s2z "g")]);
    (s2z "path", PFieldPath [s2z "a"; s2z "b"] (s2z "owner"));
    (s2z "odd", PUnknown (s2z "OddProperty") (map z2b [1; 2; 3]));
    (s2z "bytes", PArray (ABytes (map z2b [0; 255])));
    (s2z "ints", PArray (AInts [1; -1; 2147483647]));
    (s2z "odds", PArray (AProps (s2z "OddProperty")
                  [PUnknown (s2z "OddProperty") [Byte.x01]; PUnknown (s2z "OddProperty") [Byte.x02]]));
    (s2z "structs", PArray (AStructs (s2z "structs") (s2z "Item") zero_guid
                     [SCustom [(s2z "n", [PNum I32 1])]; SCustom []]));
    (s2z "set", PSet (s2z "StructProperty") 0
                  [PSValue (SFixed XVectorF [0; 1; 2]); PSValue (SFixed XVectorF [3; 4; 5])]);
    (s2z "nb", PMap (MBool KkName [(s2z "a", true); (s2z "b", false)]));
    (s2z "map", PMap (MGen (s2z "StructProperty") (s2z "StructProperty") 0
                  [(PSValue (SCustom [(s2z "x", [PNum I32 1]); (s2z "y", [PNum I32 2])]),
                    PSValue (SGuid a_guid));
                   (PSValue (SCustom [(s2z "y", [PNum I32 2]); (s2z "x", [PNum I32 3])]),
                    PSValue (SGuid zero_guid))]));
    (s2z "struct", PStruct zero_guid (s2z "Custom")
                  (SCustom [(s2z "when", [PStruct zero_guid (s2z "DateTime") (SFixed XDateTime [5])]);
                            (s2z "names", [PName 0 None; PName 1 (Some (s2z "x"))]);
                            (s2z "tags", [PStruct zero_guid (s2z "GameplayTagContainer")
                                            (STags [s2z "a.b"; s2z "c"])])])) ].
Definition sample : header * list (str * property) := (hdr4, sample_props).

(** The bytes of a saved value, [nil] when saving fails. *)
Definition bytes_of (f : header * list (str * property)) : list byte :=
  match save_plain f with Ok b => b | Fail _ => [] end.
Definition sample_bytes : list byte := bytes_of sample.

(** A file with one property whose bytes are given, in the UE4 header. *)
Definition raw_file (name ty : str) (body : list byte) : list byte :=
  match w_header hdr4 with
  | Ok (h, _) => h ++ str_bytes name ++ str_bytes ty ++ body
                 ++ str_bytes (s2z "None") ++ le_bytes 4 0
  | Fail _ => []
  end.
