(** The repository's own tests, run on the model (tests/gvas_tests).  They are
    tests of the translation, not proofs about the code. *)
From Coq Require Import ZArith List Bool String.
From Verif Require Import Base Str Types Versions Text Props File Guid Samples Message Json.
Import ListNotations.
Open Scope list_scope.
Open Scope Z_scope.

Definition no_zlib : zlib := Zlib (fun b => b) (fun b => (b, ZDone)).
Definition hex (l : list string) : list byte :=
  match hex_bytes (flat_map s2z l) with JOk b => b | _ => [] end.
(** errors.rs, test_file.rs. *)
Definition type_names : etype -> str := fun _ => [].
Definition said {A} (r : outcome A) : option str :=
  match r with Fail (Err e) => message type_names e | _ => None end.
Definition zs (l : list Z) : list byte := map z2b l.
Example unexpected_eof : said (load no_zlib o_plain GDefault []) = Some (s2z "failed to fill whole buffer").
Proof. vm_compute. reflexivity. Qed.
Example invalid_header : said (load no_zlib o_plain GDefault (map z2b (s2z "GVAZ"))) =
  Some (s2z "Invalid header: File type 1514231367 not recognized").
Proof. vm_compute. reflexivity. Qed.
Example file_err : said (load no_zlib o_plain GDefault (zs [0; 0; 0; 0])) =
  Some (s2z "Invalid header: File type 0 not recognized").
Proof. vm_compute. reflexivity. Qed.
Example version_err : said (load no_zlib o_plain GDefault (map z2b (s2z "GVAS") ++ le_bytes 4 0x7DC2293F)) =
  Some (s2z "Invalid header: GVAS version 2109876543 not supported").
Proof. vm_compute. reflexivity. Qed.

Definition try_prop (ty : string) (b : list Z) : outcome (property * cur) :=
  r_prop 10 o_plain [] (s2z ty) true None (Cur 0 (zs b) []).
Definition invalid_array_index : list Z := [0; 0; 0; 0; 1; 0; 0; 0].
Example array_index :
  map (fun ty => try_prop ty invalid_array_index)
    ["StrProperty"; "EnumProperty"; "ArrayProperty"; "SetProperty"; "MapProperty"]%string
  = repeat (Fail (Err (EArrayIndex 1 4))) 5.
Proof. vm_compute. reflexivity. Qed.
Definition invalid_terminator : list Z := [0; 0; 0; 0; 0; 0; 0; 0; 1].
Definition invalid_terminator_enum : list Z := [0; 0; 0; 0; 0; 0; 0; 0; 1; 0; 0; 0; 0; 1].
Definition invalid_terminator_map : list Z := [0; 0; 0; 0; 0; 0; 0; 0; 1; 0; 0; 0; 0; 1; 0; 0; 0; 0; 1].
Example terminator :
  try_prop "StrProperty" invalid_terminator = Fail (Err (ETerm 1 8))
  /\ try_prop "EnumProperty" invalid_terminator_enum = Fail (Err (ETerm 1 13))
  /\ try_prop "ArrayProperty" invalid_terminator_enum = Fail (Err (ETerm 1 13))
  /\ try_prop "SetProperty" invalid_terminator_enum = Fail (Err (ETerm 1 13))
  /\ try_prop "MapProperty" invalid_terminator_map = Fail (Err (ETerm 1 18)).
Proof. vm_compute. repeat split. Qed.
Definition invalid_length_str : list Z := [0; 0; 0; 0; 0; 0; 0; 0; 0; 0; 0; 0; 0].
Definition invalid_length_enum : list Z := [0; 0; 0; 0; 0; 0; 0; 0; 1; 0; 0; 0; 0; 0; 1; 0; 0; 0; 0].
Definition invalid_length_array : list Z := [0; 0; 0; 0; 0; 0; 0; 0; 1; 0; 0; 0; 0; 0; 0; 0; 0; 0].
Definition invalid_length_set : list Z := [0; 0; 0; 0; 0; 0; 0; 0; 1; 0; 0; 0; 0; 0; 0; 0; 0; 0; 0; 0; 0; 0].
Definition invalid_length_map : list Z :=
  [0; 0; 0; 0; 0; 0; 0; 0; 1; 0; 0; 0; 0; 1; 0; 0; 0; 0; 0; 0; 0; 0; 0; 0; 0; 0; 0].
Example value_size :
  try_prop "StrProperty" invalid_length_str = Fail (Err (EValueSize 0 4 9))
  /\ try_prop "EnumProperty" invalid_length_enum = Fail (Err (EValueSize 0 5 14))
  /\ try_prop "ArrayProperty" invalid_length_array = Fail (Err (EValueSize 0 4 14))
  /\ try_prop "SetProperty" invalid_length_set = Fail (Err (EValueSize 0 8 14))
  /\ try_prop "MapProperty" invalid_length_map = Fail (Err (EValueSize 0 8 19)).
Proof. vm_compute. repeat split. Qed.

(** test_cursor.rs. *)
Definition test_bytes : list byte := zs [5; 0; 0; 0; 116; 101; 115; 116; 0].
Definition sign_bytes : list byte := zs [0xfe; 0xff; 0xff; 0xff; 0xa7; 0; 0; 0].
Definition wrote (o : out) : list byte := match o with Ok (b, _) => b | Fail _ => [] end.
Definition got {A} (r : reader A) (b : list byte) : outcome A :=
  match r (Cur 0 b []) with Ok (a, _) => Ok a | Fail f => Fail f end.
Example write_string :
  wrote (w_string (s2z "test")) = test_bytes /\ wrote (w_string [0xA7]) = sign_bytes
  /\ wrote (w_fstring (Some (s2z "test"))) = test_bytes /\ wrote (w_fstring (Some [0xA7])) = sign_bytes
  /\ wrote (w_fstring None) = zs [0; 0; 0; 0].
Proof. vm_compute. repeat split. Qed.
Example read_string :
  got r_string test_bytes = Ok (s2z "test") /\ got r_string sign_bytes = Ok [0xA7]
  /\ said (got r_string (zs [0; 0; 0; 0])) = Some (s2z "Invalid string size 0 at position 0x0")
  /\ said (got r_string (zs [1; 0; 0; 0; 116])) = Some (s2z "Invalid string terminator 116 at position 0x5")
  /\ said (got r_string (zs [0xff; 0xff; 0xff; 0xff; 116; 101])) =
     Some (s2z "Invalid string terminator 25972 at position 0x6")
  /\ got r_fstring test_bytes = Ok (Some (s2z "test")) /\ got r_fstring sign_bytes = Ok (Some [0xA7])
  /\ got r_fstring (zs [0; 0; 0; 0]) = Ok None
  /\ said (got r_fstring (zs [1; 0; 0; 0; 116])) = Some (s2z "Invalid string terminator 116 at position 0x5")
  /\ said (got r_fstring (zs [0xff; 0xff; 0xff; 0xff; 116; 101])) =
     Some (s2z "Invalid string terminator 25972 at position 0x6").
Proof. vm_compute. repeat split. Qed.

(** test_guid.rs. *)
Definition guid_0 : guid := repeat Byte.x00 16.
Definition guid_1 : guid := zs [1; 0; 0; 0; 0; 0; 0; 0; 0; 0; 0; 0; 0; 0; 0; 0].
Definition guid_2 : guid := zs [0; 1; 2; 3; 4; 5; 6; 7; 8; 9; 10; 11; 12; 13; 14; 15].
Definition guid_3 : guid :=
  zs [0x38; 0x05; 0xEC; 0x1D; 0xD2; 0x5F; 0x45; 0xA9; 0xEC; 0x42; 0xAA; 0x65; 0x80; 0x41; 0x6A; 0xC5].
Definition guids := [guid_0; guid_1; guid_2; guid_3].
Example guid_constructor : map guid_display guids =
  map s2z ["0"; "01000000-0000-0000-0000-000000000000"; "00010203-0405-0607-0809-0A0B0C0D0E0F";
           "3805EC1D-D25F-45A9-EC42-AA6580416AC5"]%string.
Proof. vm_compute. reflexivity. Qed.
Definition u128s : list Z :=
  [0; 1; 0x0f0e0d0c0b0a09080706050403020100; 0xc56a418065aa42eca9455fd21dec0538].
Example guid_from_u128 : map guid_to_u128 guids = u128s /\ map guid_of_u128 u128s = guids.
Proof. vm_compute. split; reflexivity. Qed.
Definition u32s : list (list Z) :=
  [[0; 0; 0; 0]; [1; 0; 0; 0]; [0x03020100; 0x07060504; 0x0b0a0908; 0x0f0e0d0c];
   [0x1dec0538; 0xa9455fd2; 0x65aa42ec; 0xc56a4180]].
Example guid_from_u32 : map guid_to_u32 guids = u32s /\ map guid_of_u32 u32s = guids.
Proof. vm_compute. split; reflexivity. Qed.
Example guid_from_str :
  map (fun s => guid_parse (s2z s))
    ["3805EC1D-D25F-45A9-EC42-AA6580416AC5"; "{3805EC1D-D25F-45A9-EC42-AA6580416AC5}";
     "3805ec1d-d25f-45a9-ec42-aa6580416ac5"; "{3805ec1d-d25f-45a9-ec42-aa6580416ac5}";
     "3805ec1dd25f45a9ec42aa6580416ac5"; "{3805ec1dd25f45a9ec42aa6580416ac5}"]%string
  = repeat (Parsed guid_3) 6
  /\ map (fun s => guid_parse (s2z s))
       ["3805ec1d-d25f-45a9-ec42-aa658041"; "x805ec1d-h25f-45a9-ec42-aa6580416ac5"]%string
     = [Rejected; Rejected].
Proof. vm_compute. split; reflexivity. Qed.

(** name_arrayindex.rs. *)
Definition name_data : list byte := hex
  ["0d0000004e616d6550726f706572747900"; "1d00000001000000"; "0019000000";
   "515539315f496e76657374696761"; "7465546f7765725f423200"]%string.
Definition a_name : property := PName 1 (Some (s2z "QU91_InvestigateTower_B2")).

(** test_property.rs:26-57: written with its header and read back, all bytes used. *)
Definition test_property (p : property) : Prop :=
  match w_prop [] true p with
  | Ok (b, _) =>
    match r_string (Cur 0 b []) with
    | Ok (ty, c) =>
      match r_prop 10 o_plain [] ty true None c with
      | Ok (q, c') => q = p /\ rest c' = [] /\ stk c' = []
      | Fail _ => False
      end
    | Fail _ => False
    end
  | Fail _ => False
  end.
Example name_property_with_array_index :
  wrote (w_prop [] true a_name) = name_data /\ test_property a_name.
Proof. vm_compute. repeat split. Qed.
Definition an_array (ty : string) (info : option (str * str * guid)) (l : list property) : property :=
  match array_new (s2z ty) info l with Ok a => PArray a | Fail _ => PBool false end.
Definition vec (l : list Z) : svalue := SFixed XVectorF l.
Definition test_properties : list property :=
  [PNum I8 127; PByte (Some (s2z "Test ByteProperty")) (BByte Byte.x02);
   PByte (Some (s2z "Test NamespacedByteproperty")) (BName (s2z "TestEnum::Value0"));
   PNum I16 32767; PNum U16 65535; PNum I32 2147483647; PNum U32 4294967295; PNum I64 9223372036854775807;
   PNum U64 18446744073709551615; PNum F32 1150959616; PNum F64 4653142004841054208; PBool true;
   PStr (Some (s2z "test string")); PEnum (Some (s2z "type")) (s2z "value");
   PStruct guid_0 (s2z "Vector") (vec [0; 1065353216; 1073741824]);
   an_array "FloatProperty" None [];
   an_array "FloatProperty" None [PNum F32 0; PNum F32 1065353216];
   an_array "StructProperty" (Some (s2z "FieldName", s2z "Vector", guid_0))
     [PSValue (vec [0; 1065353216; 1073741824]); PSValue (vec [1077936128; 1082130432; 1084227584])];
   an_array "TextProperty" None
     [PText (FText 0 HEmpty) (* new_none(0, None), text_property.rs:84-94 *);
      PText (FText 0 (HBase (Some (s2z "identifier")) (Some (s2z "{0}<br>{1}")) (Some (s2z "test<br>test"))))];
   PSet (s2z "FloatProperty") 0 [PNum F32 1166477312];
   PMap (map_new (s2z "StrProperty") (s2z "FloatProperty") 0
           [(PStr (Some (s2z "key1")), PNum F32 3212836864); (PStr (Some (s2z "key2")), PNum F32 1056964608)])].
Example properties : Forall test_property test_properties.
Proof. unfold test_properties. repeat (apply Forall_cons; [vm_compute; repeat split|]). apply Forall_nil. Qed.
