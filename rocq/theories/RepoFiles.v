(** Save files of the repository (resources/test), in hexadecimal, with the hints and the JSON text
    that the tests state for them (tests/common).  Generated by tools/repo_files.py.
    No proofs in this file. *)
From Coq Require Import ZArith List String.
From Verif Require Import Base Str Samples.
Import ListNotations.
Local Open Scope string_scope.

(** resources/test/regression_01.bin, 1079 bytes. *)
Definition regression_01_hex : list string :=
  ["475641530200000005020000040017000100bcf69200130000002b2b5545342b52656c656173652d342e323300030000002d00000022d5549cbe4f26";
   "a846072194d082b46117000000e432d8b00d4f891fb77ecfaca24afd360a0000002843c6e1534d2ca2868e6ca38cbd1764000000003cc15e37fb48e4";
   "06f08400b57e712a2603000000ed68b0e4e94294f40bda31a241bb462e220000003f74fccf8044b043df14919373201d1723000000b5492bb0e94420";
   "bbb73204a36003e452020000005c10e4a4b549a159c440c5a7eedf7e5400000000c931c839dc47e65a179c449a7c8e1c3e00000000331bf078984fea";
   "ebea84b4b9a25ab9cc000000000f383166e0434d2d27cf09805aa95669000000009f8bf812fc4a75880cd97ca629bd3a381f0000004ce75a7b104c70";
   "d2985758a95a2a210b0b000000186929d7dd4bd61da864e29d8438c13c020000007852a1c2fe4ae7bfff90176c55f71d5301000000d4a3ac6ec14cec";
   "40ed8b86b7c58f420903000000dd75e5292746a3e076d2109deadc2c23110000005da643af4749d37f8e3e739805bbc1d902000000ec6c266b8f4bc7";
   "1ed9e40ba307fc420901000000613df70dea473fa2e98927b79a49410c0100000086181d60844f64acded316aad6c7ea0d1b000000d6bcff9d58014f";
   "49821221e288a8923c06000000acd0aef26f41fe9a7faa6486fcd626fa010000000b1f4f17a545c6b4e82e3fb17d91fbd009000000e79e7f713a49b0";
   "e93291b3880781381b06000000b3dc7d8ebb47da80a246d39ff64d989301000000cdb08acbde4b8ce7931362a862efe91400000000f20a68fba34bef";
   "59b519a8ba3d44c873010000009186e0af52490d3a3b6773b61e2df27c02000000bdfdb52e104dac018ff33681daa59333050000004f359d502f49e6";
   "f6b28549a71c633c0700000000eab762a43a4e99f41fecc199b2e1248202000000194d0c4370495471699b6987e5b090df0d000000bd32feaa144c95";
   "53255e6ab6ddd13210010000008ee1af23584ee14c52c2618db7be53b90800000040eb564adc11f5107e34d392e76ac9b202000000004a8ad7974658";
   "e8b519a8bab4467d481100000086f879551f4c3a937b08ba832fb961630100000052be2f610b4053da914f0d917c85b19f01000000367a23a4c941ea";
   "caf818a28ff31b685804000000753f4e80494b8870068cd6a4dcb67e3c05000000ed0a3111614d552ea39a67af2c08a1c511000000965196abfc08d8";
   "458d22d7b79e56ad7801000000f37abb24834f4656c22d2f1fff96ad490400000012e426fb4d4b151f0a557293702f1d96030000001e0000002f5363";
   "726970742f53617665546573742e546573745361766547616d6500060000005468696e67000f00000053747275637450726f70657274790010000000";
   "000000000500000047756964000000000000000000000000000000000000d49982b3df3dd549b4ae57c71d5838e4050000004e6f6e650000000000"].
(** tests/common/regression.rs; one line each. *)
Definition regression_01_json : list string :=
  ["{";
   "  ""header"": {";
   "    ""type"": ""Version2"",";
   "    ""package_file_version"": 517,";
   "    ""engine_version"": {";
   "      ""major"": 4,";
   "      ""minor"": 23,";
   "      ""patch"": 1,";
   "      ""change_list"": 9631420,";
   "      ""branch"": ""++UE4+Release-4.23""";
   "    },";
   "    ""custom_version_format"": 3,";
   "    ""custom_versions"": {";
   "      ""22D5549C-BE4F-26A8-4607-2194D082B461"": 23,";
   "      ""E432D8B0-0D4F-891F-B77E-CFACA24AFD36"": 10,";
   "      ""2843C6E1-534D-2CA2-868E-6CA38CBD1764"": 0,";
   "      ""3CC15E37-FB48-E406-F084-00B57E712A26"": 3,";
   "      ""ED68B0E4-E942-94F4-0BDA-31A241BB462E"": 34,";
   "      ""3F74FCCF-8044-B043-DF14-919373201D17"": 35,";
   "      ""B5492BB0-E944-20BB-B732-04A36003E452"": 2,";
   "      ""5C10E4A4-B549-A159-C440-C5A7EEDF7E54"": 0,";
   "      ""C931C839-DC47-E65A-179C-449A7C8E1C3E"": 0,";
   "      ""331BF078-984F-EAEB-EA84-B4B9A25AB9CC"": 0,";
   "      ""0F383166-E043-4D2D-27CF-09805AA95669"": 0,";
   "      ""9F8BF812-FC4A-7588-0CD9-7CA629BD3A38"": 31,";
   "      ""4CE75A7B-104C-70D2-9857-58A95A2A210B"": 11,";
   "      ""186929D7-DD4B-D61D-A864-E29D8438C13C"": 2,";
   "      ""7852A1C2-FE4A-E7BF-FF90-176C55F71D53"": 1,";
   "      ""D4A3AC6E-C14C-EC40-ED8B-86B7C58F4209"": 3,";
   "      ""DD75E529-2746-A3E0-76D2-109DEADC2C23"": 17,";
   "      ""5DA643AF-4749-D37F-8E3E-739805BBC1D9"": 2,";
   "      ""EC6C266B-8F4B-C71E-D9E4-0BA307FC4209"": 1,";
   "      ""613DF70D-EA47-3FA2-E989-27B79A49410C"": 1,";
   "      ""86181D60-844F-64AC-DED3-16AAD6C7EA0D"": 27,";
   "      ""D6BCFF9D-5801-4F49-8212-21E288A8923C"": 6,";
   "      ""ACD0AEF2-6F41-FE9A-7FAA-6486FCD626FA"": 1,";
   "      ""0B1F4F17-A545-C6B4-E82E-3FB17D91FBD0"": 9,";
   "      ""E79E7F71-3A49-B0E9-3291-B3880781381B"": 6,";
   "      ""B3DC7D8E-BB47-DA80-A246-D39FF64D9893"": 1,";
   "      ""CDB08ACB-DE4B-8CE7-9313-62A862EFE914"": 0,";
   "      ""F20A68FB-A34B-EF59-B519-A8BA3D44C873"": 1,";
   "      ""9186E0AF-5249-0D3A-3B67-73B61E2DF27C"": 2,";
   "      ""BDFDB52E-104D-AC01-8FF3-3681DAA59333"": 5,";
   "      ""4F359D50-2F49-E6F6-B285-49A71C633C07"": 0,";
   "      ""EAB762A4-3A4E-99F4-1FEC-C199B2E12482"": 2,";
   "      ""194D0C43-7049-5471-699B-6987E5B090DF"": 13,";
   "      ""BD32FEAA-144C-9553-255E-6AB6DDD13210"": 1,";
   "      ""8EE1AF23-584E-E14C-52C2-618DB7BE53B9"": 8,";
   "      ""40EB564A-DC11-F510-7E34-D392E76AC9B2"": 2,";
   "      ""004A8AD7-9746-58E8-B519-A8BAB4467D48"": 17,";
   "      ""86F87955-1F4C-3A93-7B08-BA832FB96163"": 1,";
   "      ""52BE2F61-0B40-53DA-914F-0D917C85B19F"": 1,";
   "      ""367A23A4-C941-EACA-F818-A28FF31B6858"": 4,";
   "      ""753F4E80-494B-8870-068C-D6A4DCB67E3C"": 5,";
   "      ""ED0A3111-614D-552E-A39A-67AF2C08A1C5"": 17,";
   "      ""965196AB-FC08-D845-8D22-D7B79E56AD78"": 1,";
   "      ""F37ABB24-834F-4656-C22D-2F1FFF96AD49"": 4,";
   "      ""12E426FB-4D4B-151F-0A55-7293702F1D96"": 3";
   "    },";
   "    ""save_game_class_name"": ""/Script/SaveTest.TestSaveGame""";
   "  },";
   "  ""properties"": {";
   "    ""Thing"": {";
   "      ""type"": ""StructProperty"",";
   "      ""type_name"": ""Guid"",";
   "      ""Guid"": ""D49982B3-DF3D-D549-B4AE-57C71D5838E4""";
   "    }";
   "  }";
   "}"].

(** resources/test/Options.sav, 1197 bytes. *)
Definition options_hex : list string :=
  ["475641530200000006020000040019000300dcbfd400130000002b2b5545342b52656c656173652d342e3235000300000032000000ed0a3111614d55";
   "2ea39a67af2c08a1c511000000f37abb24834f4656c22d2f1fff96ad49050000002923a576b545230941d8ae98d86a2fcf020000000769bc5fae40c8";
   "5584f1678e3ff1ff5e0100000012e426fb4d4b151f0a557293702f1d9603000000fa7af5fc8342765058e6a9b9322da0ff3d00000022d5549cbe4f26";
   "a846072194d082b4611e000000e432d8b00d4f891fb77ecfaca24afd360a0000002843c6e1534d2ca2868e6ca38cbd1764000000003cc15e37fb48e4";
   "06f08400b57e712a2604000000ed68b0e4e94294f40bda31a241bb462e260000003f74fccf8044b043df14919373201d1725000000b5492bb0e94420";
   "bbb73204a36003e452020000005c10e4a4b549a159c440c5a7eedf7e5400000000c931c839dc47e65a179c449a7c8e1c3e00000000331bf078984fea";
   "ebea84b4b9a25ab9cc040000000f383166e0434d2d27cf09805aa95669000000009f8bf812fc4a75880cd97ca629bd3a382b0000004ce75a7b104c70";
   "d2985758a95a2a210b0c000000186929d7dd4bd61da864e29d8438c13c030000007852a1c2fe4ae7bfff90176c55f71d5301000000d4a3ac6ec14cec";
   "40ed8b86b7c58f420903000000dd75e5292746a3e076d2109deadc2c23110000005da643af4749d37f8e3e739805bbc1d907000000ec6c266b8f4bc7";
   "1ed9e40ba307fc420901000000613df70dea473fa2e98927b79a49410c0100000086181d60844f64acded316aad6c7ea0d1f000000d6bcff9d58014f";
   "49821221e288a8923c0a000000acd0aef26f41fe9a7faa6486fcd626fa010000000b1f4f17a545c6b4e82e3fb17d91fbd00a000000834af9356c4058";
   "e2f50918a37c241096250000006ec18fb6e2421b8b5c2153b4fe448805010000000685e1b2c2cf7342bbf44ea507ba8b750100000050326854af4899";
   "809698c88bb7f9adfb00000000194d0c4370495471699b6987e5b090df0e000000bd32feaa144c9553255e6ab6ddd13210010000008ee1af23584ee1";
   "4c52c2618db7be53b90b000000eab762a43a4e99f41fecc199b2e1248202000000bdfdb52e104dac018ff33681daa59333050000004f359d502f49e6";
   "f6b28549a71c633c0700000000e79e7f713a49b0e93291b3880781381b0600000040eb564adc11f5107e34d392e76ac9b202000000004a8ad7974658";
   "e8b519a8bab4467d481100000086f879551f4c3a937b08ba832fb961630100000052be2f610b4053da914f0d917c85b19f01000000367a23a4c941ea";
   "caf818a28ff31b685804000000753f4e80494b8870068cd6a4dcb67e3c05000000f20a68fba34bef59b519a8ba3d44c873020000000eb75099174e1a";
   "b40dfaccbbd67f815701000000965196abfc08d8458d22d7b79e56ad7801000000290000002f47616d652f55492f42505f536176654f7074696f6e73";
   "2e42505f536176654f7074696f6e735f430008000000536c6964657231000e000000466c6f617450726f706572747900040000000000000000e1172a";
   "3e08000000536c6964657232000e000000466c6f617450726f706572747900040000000000000000f5a5903e050000004e6f6e650000000000"].
(** tests/common/options.rs, the custom versions of [expected]. *)
Definition options_versions : list (string * Z) :=
  [("ED0A3111-614D-552E-A39A-67AF2C08A1C5", 17);
   ("F37ABB24-834F-4656-C22D-2F1FFF96AD49", 5);
   ("2923A576-B545-2309-41D8-AE98D86A2FCF", 2);
   ("0769BC5F-AE40-C855-84F1-678E3FF1FF5E", 1);
   ("12E426FB-4D4B-151F-0A55-7293702F1D96", 3);
   ("FA7AF5FC-8342-7650-58E6-A9B9322DA0FF", 61);
   ("22D5549C-BE4F-26A8-4607-2194D082B461", 30);
   ("E432D8B0-0D4F-891F-B77E-CFACA24AFD36", 10);
   ("2843C6E1-534D-2CA2-868E-6CA38CBD1764", 0);
   ("3CC15E37-FB48-E406-F084-00B57E712A26", 4);
   ("ED68B0E4-E942-94F4-0BDA-31A241BB462E", 38);
   ("3F74FCCF-8044-B043-DF14-919373201D17", 37);
   ("B5492BB0-E944-20BB-B732-04A36003E452", 2);
   ("5C10E4A4-B549-A159-C440-C5A7EEDF7E54", 0);
   ("C931C839-DC47-E65A-179C-449A7C8E1C3E", 0);
   ("331BF078-984F-EAEB-EA84-B4B9A25AB9CC", 4);
   ("0F383166-E043-4D2D-27CF-09805AA95669", 0);
   ("9F8BF812-FC4A-7588-0CD9-7CA629BD3A38", 43);
   ("4CE75A7B-104C-70D2-9857-58A95A2A210B", 12);
   ("186929D7-DD4B-D61D-A864-E29D8438C13C", 3);
   ("7852A1C2-FE4A-E7BF-FF90-176C55F71D53", 1);
   ("D4A3AC6E-C14C-EC40-ED8B-86B7C58F4209", 3);
   ("DD75E529-2746-A3E0-76D2-109DEADC2C23", 17);
   ("5DA643AF-4749-D37F-8E3E-739805BBC1D9", 7);
   ("EC6C266B-8F4B-C71E-D9E4-0BA307FC4209", 1);
   ("613DF70D-EA47-3FA2-E989-27B79A49410C", 1);
   ("86181D60-844F-64AC-DED3-16AAD6C7EA0D", 31);
   ("D6BCFF9D-5801-4F49-8212-21E288A8923C", 10);
   ("ACD0AEF2-6F41-FE9A-7FAA-6486FCD626FA", 1);
   ("0B1F4F17-A545-C6B4-E82E-3FB17D91FBD0", 10);
   ("834AF935-6C40-58E2-F509-18A37C241096", 37);
   ("6EC18FB6-E242-1B8B-5C21-53B4FE448805", 1);
   ("0685E1B2-C2CF-7342-BBF4-4EA507BA8B75", 1);
   ("50326854-AF48-9980-9698-C88BB7F9ADFB", 0);
   ("194D0C43-7049-5471-699B-6987E5B090DF", 14);
   ("BD32FEAA-144C-9553-255E-6AB6DDD13210", 1);
   ("8EE1AF23-584E-E14C-52C2-618DB7BE53B9", 11);
   ("EAB762A4-3A4E-99F4-1FEC-C199B2E12482", 2);
   ("BDFDB52E-104D-AC01-8FF3-3681DAA59333", 5);
   ("4F359D50-2F49-E6F6-B285-49A71C633C07", 0);
   ("E79E7F71-3A49-B0E9-3291-B3880781381B", 6);
   ("40EB564A-DC11-F510-7E34-D392E76AC9B2", 2);
   ("004A8AD7-9746-58E8-B519-A8BAB4467D48", 17);
   ("86F87955-1F4C-3A93-7B08-BA832FB96163", 1);
   ("52BE2F61-0B40-53DA-914F-0D917C85B19F", 1);
   ("367A23A4-C941-EACA-F818-A28FF31B6858", 4);
   ("753F4E80-494B-8870-068C-D6A4DCB67E3C", 5);
   ("F20A68FB-A34B-EF59-B519-A8BA3D44C873", 2);
   ("0EB75099-174E-1AB4-0DFA-CCBBD67F8157", 1);
   ("965196AB-FC08-D845-8D22-D7B79E56AD78", 1)]%Z.

(** resources/test/tagcontainer.sav, 1388 bytes. *)
Definition tagcontainer_hex : list string :=
  ["47564153020000000a02000004001b00020000000000130000002b2b5545342b52656c656173652d342e3237000300000034000000fb0c82a75943a7";
   "20142c548c50cf239606000000fa7af5fc8342765058e6a9b9322da0ff44000000a7fbd240e54c484b755a38b09e494e88070000002923a576b54523";
   "0941d8ae98d86a2fcf050000000769bc5fae40c85584f1678e3ff1ff5e010000004e7ce782a5432333c5136bb4f30d31970000000022d5549cbe4f26";
   "a846072194d082b4612b000000e432d8b00d4f891fb77ecfaca24afd360a0000002843c6e1534d2ca2868e6ca38cbd1764000000003cc15e37fb48e4";
   "06f08400b57e712a2604000000ed68b0e4e94294f40bda31a241bb462e280000003f74fccf8044b043df14919373201d1725000000b5492bb0e94420";
   "bbb73204a36003e452030000005c10e4a4b549a159c440c5a7eedf7e5400000000c931c839dc47e65a179c449a7c8e1c3e00000000331bf078984fea";
   "ebea84b4b9a25ab9cc0e0000000f383166e0434d2d27cf09805aa95669000000009f8bf812fc4a75880cd97ca629bd3a382d0000004ce75a7b104c70";
   "d2985758a95a2a210b0d000000186929d7dd4bd61da864e29d8438c13c030000007852a1c2fe4ae7bfff90176c55f71d5301000000d4a3ac6ec14cec";
   "40ed8b86b7c58f420903000000dd75e5292746a3e076d2109deadc2c23110000005da643af4749d37f8e3e739805bbc1d90f000000ec6c266b8f4bc7";
   "1ed9e40ba307fc420901000000613df70dea473fa2e98927b79a49410c0100000086181d60844f64acded316aad6c7ea0d2f000000686308e7584c23";
   "6b701b3984915e261601000000d6bcff9d58014f49821221e288a8923c0a000000acd0aef26f41fe9a7faa6486fcd626fa010000000b1f4f17a545c6";
   "b4e82e3fb17d91fbd00a000000834af9356c4058e2f50918a37c241096290000006ec18fb6e2421b8b5c2153b4fe448805010000000685e1b2c2cf73";
   "42bbf44ea507ba8b75010000003689f564ba421bfd897296ba4efad0d50100000027d80e6f954809a68d99919ca40e189002000000e79e7f713a49b0";
   "e93291b3880781381b0800000050326854af4899809698c88bb7f9adfb00000000194d0c4370495471699b6987e5b090df0f000000bd32feaa144c95";
   "53255e6ab6ddd13210010000008ee1af23584ee14c52c2618db7be53b90b000000eab762a43a4e99f41fecc199b2e1248204000000bdfdb52e104dac";
   "018ff33681daa59333050000004f359d502f49e6f6b28549a71c633c070000000040eb564adc11f5107e34d392e76ac9b202000000004a8ad7974658";
   "e8b519a8bab4467d481200000086f879551f4c3a937b08ba832fb961630200000052be2f610b4053da914f0d917c85b19f01000000367a23a4c941ea";
   "caf818a28ff31b685804000000753f4e80494b8870068cd6a4dcb67e3c05000000f20a68fba34bef59b519a8ba3d44c873020000000eb75099174e1a";
   "b40dfaccbbd67f815701000000190000002f5363726970742f4578616d706c652e5361766547616d65000800000054616754657374000f0000005374";
   "7275637450726f706572747900ac000000000000001500000047616d65706c6179546167436f6e7461696e6572000000000000000000000000000000";
   "00000004000000270000004368617261637465722e417070656172616e63652e4f766572616c6c436f6c6f722e476f6c640028000000436861726163";
   "7465722e417070656172616e63652e4f766572616c6c436f6c6f722e576869746500240000004368617261637465722e417070656172616e63652e46";
   "6c756666436f6c6f722e52656400250000004368617261637465722e417070656172616e63652e466c756666436f6c6f722e426c756500050000004e";
   "6f6e650000000000"].
(** tests/common/tagcontainer.rs; one line each. *)
Definition tagcontainer_json : list string :=
  ["{";
   "  ""header"": {";
   "    ""type"": ""Version2"",";
   "    ""package_file_version"": 522,";
   "    ""engine_version"": {";
   "      ""major"": 4,";
   "      ""minor"": 27,";
   "      ""patch"": 2,";
   "      ""change_list"": 0,";
   "      ""branch"": ""++UE4+Release-4.27""";
   "    },";
   "    ""custom_version_format"": 3,";
   "    ""custom_versions"": {";
   "      ""FB0C82A7-5943-A720-142C-548C50CF2396"": 6,";
   "      ""FA7AF5FC-8342-7650-58E6-A9B9322DA0FF"": 68,";
   "      ""A7FBD240-E54C-484B-755A-38B09E494E88"": 7,";
   "      ""2923A576-B545-2309-41D8-AE98D86A2FCF"": 5,";
   "      ""0769BC5F-AE40-C855-84F1-678E3FF1FF5E"": 1,";
   "      ""4E7CE782-A543-2333-C513-6BB4F30D3197"": 0,";
   "      ""22D5549C-BE4F-26A8-4607-2194D082B461"": 43,";
   "      ""E432D8B0-0D4F-891F-B77E-CFACA24AFD36"": 10,";
   "      ""2843C6E1-534D-2CA2-868E-6CA38CBD1764"": 0,";
   "      ""3CC15E37-FB48-E406-F084-00B57E712A26"": 4,";
   "      ""ED68B0E4-E942-94F4-0BDA-31A241BB462E"": 40,";
   "      ""3F74FCCF-8044-B043-DF14-919373201D17"": 37,";
   "      ""B5492BB0-E944-20BB-B732-04A36003E452"": 3,";
   "      ""5C10E4A4-B549-A159-C440-C5A7EEDF7E54"": 0,";
   "      ""C931C839-DC47-E65A-179C-449A7C8E1C3E"": 0,";
   "      ""331BF078-984F-EAEB-EA84-B4B9A25AB9CC"": 14,";
   "      ""0F383166-E043-4D2D-27CF-09805AA95669"": 0,";
   "      ""9F8BF812-FC4A-7588-0CD9-7CA629BD3A38"": 45,";
   "      ""4CE75A7B-104C-70D2-9857-58A95A2A210B"": 13,";
   "      ""186929D7-DD4B-D61D-A864-E29D8438C13C"": 3,";
   "      ""7852A1C2-FE4A-E7BF-FF90-176C55F71D53"": 1,";
   "      ""D4A3AC6E-C14C-EC40-ED8B-86B7C58F4209"": 3,";
   "      ""DD75E529-2746-A3E0-76D2-109DEADC2C23"": 17,";
   "      ""5DA643AF-4749-D37F-8E3E-739805BBC1D9"": 15,";
   "      ""EC6C266B-8F4B-C71E-D9E4-0BA307FC4209"": 1,";
   "      ""613DF70D-EA47-3FA2-E989-27B79A49410C"": 1,";
   "      ""86181D60-844F-64AC-DED3-16AAD6C7EA0D"": 47,";
   "      ""686308E7-584C-236B-701B-3984915E2616"": 1,";
   "      ""D6BCFF9D-5801-4F49-8212-21E288A8923C"": 10,";
   "      ""ACD0AEF2-6F41-FE9A-7FAA-6486FCD626FA"": 1,";
   "      ""0B1F4F17-A545-C6B4-E82E-3FB17D91FBD0"": 10,";
   "      ""834AF935-6C40-58E2-F509-18A37C241096"": 41,";
   "      ""6EC18FB6-E242-1B8B-5C21-53B4FE448805"": 1,";
   "      ""0685E1B2-C2CF-7342-BBF4-4EA507BA8B75"": 1,";
   "      ""3689F564-BA42-1BFD-8972-96BA4EFAD0D5"": 1,";
   "      ""27D80E6F-9548-09A6-8D99-919CA40E1890"": 2,";
   "      ""E79E7F71-3A49-B0E9-3291-B3880781381B"": 8,";
   "      ""50326854-AF48-9980-9698-C88BB7F9ADFB"": 0,";
   "      ""194D0C43-7049-5471-699B-6987E5B090DF"": 15,";
   "      ""BD32FEAA-144C-9553-255E-6AB6DDD13210"": 1,";
   "      ""8EE1AF23-584E-E14C-52C2-618DB7BE53B9"": 11,";
   "      ""EAB762A4-3A4E-99F4-1FEC-C199B2E12482"": 4,";
   "      ""BDFDB52E-104D-AC01-8FF3-3681DAA59333"": 5,";
   "      ""4F359D50-2F49-E6F6-B285-49A71C633C07"": 0,";
   "      ""40EB564A-DC11-F510-7E34-D392E76AC9B2"": 2,";
   "      ""004A8AD7-9746-58E8-B519-A8BAB4467D48"": 18,";
   "      ""86F87955-1F4C-3A93-7B08-BA832FB96163"": 2,";
   "      ""52BE2F61-0B40-53DA-914F-0D917C85B19F"": 1,";
   "      ""367A23A4-C941-EACA-F818-A28FF31B6858"": 4,";
   "      ""753F4E80-494B-8870-068C-D6A4DCB67E3C"": 5,";
   "      ""F20A68FB-A34B-EF59-B519-A8BA3D44C873"": 2,";
   "      ""0EB75099-174E-1AB4-0DFA-CCBBD67F8157"": 1";
   "    },";
   "    ""save_game_class_name"": ""/Script/Example.SaveGame""";
   "  },";
   "  ""properties"": {";
   "    ""TagTest"": {";
   "      ""type"": ""StructProperty"",";
   "      ""type_name"": ""GameplayTagContainer"",";
   "      ""GameplayTagContainer"": [";
   "        ""Character.Appearance.OverallColor.Gold"",";
   "        ""Character.Appearance.OverallColor.White"",";
   "        ""Character.Appearance.FluffColor.Red"",";
   "        ""Character.Appearance.FluffColor.Blue""";
   "      ]";
   "    }";
   "  }";
   "}"].

(** resources/test/Delegate.sav, 1575 bytes. *)
Definition delegate_hex : list string :=
  ["475641530200000005020000040017000100bcf69200130000002b2b5545342b52656c656173652d342e323300030000002d00000022d5549cbe4f26";
   "a846072194d082b46117000000e432d8b00d4f891fb77ecfaca24afd360a0000002843c6e1534d2ca2868e6ca38cbd1764000000003cc15e37fb48e4";
   "06f08400b57e712a2603000000ed68b0e4e94294f40bda31a241bb462e220000003f74fccf8044b043df14919373201d1723000000b5492bb0e94420";
   "bbb73204a36003e452020000005c10e4a4b549a159c440c5a7eedf7e5400000000c931c839dc47e65a179c449a7c8e1c3e00000000331bf078984fea";
   "ebea84b4b9a25ab9cc000000000f383166e0434d2d27cf09805aa95669000000009f8bf812fc4a75880cd97ca629bd3a381f0000004ce75a7b104c70";
   "d2985758a95a2a210b0b000000186929d7dd4bd61da864e29d8438c13c020000007852a1c2fe4ae7bfff90176c55f71d5301000000d4a3ac6ec14cec";
   "40ed8b86b7c58f420903000000dd75e5292746a3e076d2109deadc2c23110000005da643af4749d37f8e3e739805bbc1d902000000ec6c266b8f4bc7";
   "1ed9e40ba307fc420901000000613df70dea473fa2e98927b79a49410c0100000086181d60844f64acded316aad6c7ea0d1b000000d6bcff9d58014f";
   "49821221e288a8923c06000000acd0aef26f41fe9a7faa6486fcd626fa010000000b1f4f17a545c6b4e82e3fb17d91fbd009000000e79e7f713a49b0";
   "e93291b3880781381b06000000b3dc7d8ebb47da80a246d39ff64d989301000000cdb08acbde4b8ce7931362a862efe91400000000f20a68fba34bef";
   "59b519a8ba3d44c873010000009186e0af52490d3a3b6773b61e2df27c02000000bdfdb52e104dac018ff33681daa59333050000004f359d502f49e6";
   "f6b28549a71c633c0700000000eab762a43a4e99f41fecc199b2e1248202000000194d0c4370495471699b6987e5b090df0d000000bd32feaa144c95";
   "53255e6ab6ddd13210010000008ee1af23584ee14c52c2618db7be53b90800000040eb564adc11f5107e34d392e76ac9b202000000004a8ad7974658";
   "e8b519a8bab4467d481100000086f879551f4c3a937b08ba832fb961630100000052be2f610b4053da914f0d917c85b19f01000000367a23a4c941ea";
   "caf818a28ff31b685804000000753f4e80494b8870068cd6a4dcb67e3c05000000ed0a3111614d552ea39a67af2c08a1c511000000965196abfc08d8";
   "458d22d7b79e56ad7801000000f37abb24834f4656c22d2f1fff96ad490400000012e426fb4d4b151f0a557293702f1d9603000000220000002f5363";
   "726970742f5361766546696c65546573742e546573745361766547616d65001000000044796e616d696344656c6567617465001100000044656c6567";
   "61746550726f7065727479005d0000000000000000480000002f54656d702f5545445049455f305f556e7469746c65645f312e556e7469746c65645f";
   "313a50657273697374656e744c6576656c2e5361766572315f426c75657072696e745f32000d000000466972737442696e64696e6700120000004d75";
   "6c74696361737444656c656761746500200000004d756c746963617374496e6c696e6544656c656761746550726f706572747900bf00000000000000";
   "0002000000480000002f54656d702f5545445049455f305f556e7469746c65645f312e556e7469746c65645f313a50657273697374656e744c657665";
   "6c2e5361766572315f426c75657072696e745f32000d000000466972737442696e64696e6700480000002f54656d702f5545445049455f305f556e74";
   "69746c65645f312e556e7469746c65645f313a50657273697374656e744c6576656c2e5361766572315f426c75657072696e745f32000e0000005365";
   "636f6e6442696e64696e6700180000004d756c74696361737453706172736544656c656761746500200000004d756c74696361737453706172736544";
   "656c656761746550726f70657274790061000000000000000001000000480000002f54656d702f5545445049455f305f556e7469746c65645f312e55";
   "6e7469746c65645f313a50657273697374656e744c6576656c2e5361766572315f426c75657072696e745f32000d000000466972737442696e64696e";
   "6700050000004e6f6e650000000000"].
(** tests/common/delegate.rs, the custom versions of [expected]. *)
Definition delegate_versions : list (string * Z) :=
  [("22D5549C-BE4F-26A8-4607-2194D082B461", 23);
   ("E432D8B0-0D4F-891F-B77E-CFACA24AFD36", 10);
   ("2843C6E1-534D-2CA2-868E-6CA38CBD1764", 0);
   ("3CC15E37-FB48-E406-F084-00B57E712A26", 3);
   ("ED68B0E4-E942-94F4-0BDA-31A241BB462E", 34);
   ("3F74FCCF-8044-B043-DF14-919373201D17", 35);
   ("B5492BB0-E944-20BB-B732-04A36003E452", 2);
   ("5C10E4A4-B549-A159-C440-C5A7EEDF7E54", 0);
   ("C931C839-DC47-E65A-179C-449A7C8E1C3E", 0);
   ("331BF078-984F-EAEB-EA84-B4B9A25AB9CC", 0);
   ("0F383166-E043-4D2D-27CF-09805AA95669", 0);
   ("9F8BF812-FC4A-7588-0CD9-7CA629BD3A38", 31);
   ("4CE75A7B-104C-70D2-9857-58A95A2A210B", 11);
   ("186929D7-DD4B-D61D-A864-E29D8438C13C", 2);
   ("7852A1C2-FE4A-E7BF-FF90-176C55F71D53", 1);
   ("D4A3AC6E-C14C-EC40-ED8B-86B7C58F4209", 3);
   ("DD75E529-2746-A3E0-76D2-109DEADC2C23", 17);
   ("5DA643AF-4749-D37F-8E3E-739805BBC1D9", 2);
   ("EC6C266B-8F4B-C71E-D9E4-0BA307FC4209", 1);
   ("613DF70D-EA47-3FA2-E989-27B79A49410C", 1);
   ("86181D60-844F-64AC-DED3-16AAD6C7EA0D", 27);
   ("D6BCFF9D-5801-4F49-8212-21E288A8923C", 6);
   ("ACD0AEF2-6F41-FE9A-7FAA-6486FCD626FA", 1);
   ("0B1F4F17-A545-C6B4-E82E-3FB17D91FBD0", 9);
   ("E79E7F71-3A49-B0E9-3291-B3880781381B", 6);
   ("B3DC7D8E-BB47-DA80-A246-D39FF64D9893", 1);
   ("CDB08ACB-DE4B-8CE7-9313-62A862EFE914", 0);
   ("F20A68FB-A34B-EF59-B519-A8BA3D44C873", 1);
   ("9186E0AF-5249-0D3A-3B67-73B61E2DF27C", 2);
   ("BDFDB52E-104D-AC01-8FF3-3681DAA59333", 5);
   ("4F359D50-2F49-E6F6-B285-49A71C633C07", 0);
   ("EAB762A4-3A4E-99F4-1FEC-C199B2E12482", 2);
   ("194D0C43-7049-5471-699B-6987E5B090DF", 13);
   ("BD32FEAA-144C-9553-255E-6AB6DDD13210", 1);
   ("8EE1AF23-584E-E14C-52C2-618DB7BE53B9", 8);
   ("40EB564A-DC11-F510-7E34-D392E76AC9B2", 2);
   ("004A8AD7-9746-58E8-B519-A8BAB4467D48", 17);
   ("86F87955-1F4C-3A93-7B08-BA832FB96163", 1);
   ("52BE2F61-0B40-53DA-914F-0D917C85B19F", 1);
   ("367A23A4-C941-EACA-F818-A28FF31B6858", 4);
   ("753F4E80-494B-8870-068C-D6A4DCB67E3C", 5);
   ("ED0A3111-614D-552E-A39A-67AF2C08A1C5", 17);
   ("965196AB-FC08-D845-8D22-D7B79E56AD78", 1);
   ("F37ABB24-834F-4656-C22D-2F1FFF96AD49", 4);
   ("12E426FB-4D4B-151F-0A55-7293702F1D96", 3)]%Z.

(** resources/test/assert_failed.sav, 2437 bytes. *)
Definition assert_failed_hex : list string :=
  ["47564153020000000a02000004001b00020000000000130000002b2b5545342b52656c656173652d342e3237000300000036000000fa7af5fc834276";
   "5058e6a9b9322da0ff44000000fb0c82a75943a720142c548c50cf239606000000ed0a3111614d552ea39a67af2c08a1c511000000f37abb24834f46";
   "56c22d2f1fff96ad49050000002923a576b545230941d8ae98d86a2fcf050000000769bc5fae40c85584f1678e3ff1ff5e0100000012e426fb4d4b15";
   "1f0a557293702f1d96030000004e7ce782a5432333c5136bb4f30d31970000000022d5549cbe4f26a846072194d082b4612b000000e432d8b00d4f89";
   "1fb77ecfaca24afd360a0000002843c6e1534d2ca2868e6ca38cbd1764000000003cc15e37fb48e406f08400b57e712a2604000000ed68b0e4e94294";
   "f40bda31a241bb462e280000003f74fccf8044b043df14919373201d1725000000b5492bb0e94420bbb73204a36003e452030000005c10e4a4b549a1";
   "59c440c5a7eedf7e5400000000c931c839dc47e65a179c449a7c8e1c3e00000000331bf078984feaebea84b4b9a25ab9cc0e0000000f383166e0434d";
   "2d27cf09805aa95669000000009f8bf812fc4a75880cd97ca629bd3a382d0000004ce75a7b104c70d2985758a95a2a210b0d000000186929d7dd4bd6";
   "1da864e29d8438c13c030000007852a1c2fe4ae7bfff90176c55f71d5301000000d4a3ac6ec14cec40ed8b86b7c58f420903000000dd75e5292746a3";
   "e076d2109deadc2c23110000005da643af4749d37f8e3e739805bbc1d90f000000ec6c266b8f4bc71ed9e40ba307fc420901000000613df70dea473f";
   "a2e98927b79a49410c0100000086181d60844f64acded316aad6c7ea0d2f000000686308e7584c236b701b3984915e261601000000d6bcff9d58014f";
   "49821221e288a8923c0a000000acd0aef26f41fe9a7faa6486fcd626fa010000000b1f4f17a545c6b4e82e3fb17d91fbd00a000000834af9356c4058";
   "e2f50918a37c241096290000006ec18fb6e2421b8b5c2153b4fe448805010000000685e1b2c2cf7342bbf44ea507ba8b75010000003689f564ba421b";
   "fd897296ba4efad0d50100000027d80e6f954809a68d99919ca40e189002000000e79e7f713a49b0e93291b3880781381b0800000050326854af4899";
   "809698c88bb7f9adfb00000000194d0c4370495471699b6987e5b090df0f000000bd32feaa144c9553255e6ab6ddd13210010000008ee1af23584ee1";
   "4c52c2618db7be53b90b000000eab762a43a4e99f41fecc199b2e1248204000000bdfdb52e104dac018ff33681daa59333050000004f359d502f49e6";
   "f6b28549a71c633c070000000040eb564adc11f5107e34d392e76ac9b202000000004a8ad7974658e8b519a8bab4467d481200000086f879551f4c3a";
   "937b08ba832fb961630200000052be2f610b4053da914f0d917c85b19f01000000367a23a4c941eacaf818a28ff31b685804000000753f4e80494b88";
   "70068cd6a4dcb67e3c05000000f20a68fba34bef59b519a8ba3d44c873020000000eb75099174e1ab40dfaccbbd67f815701000000460000002f4761";
   "6d652f4272616d626c655f544d4b2f53797374656d732f436f72652f536176652f436f726542505f5361766547616d652e436f726542505f53617665";
   "47616d655f43001d00000043686170746572536176654e616d6520284d6f7374526563656e7429000c00000053747250726f70657274790011000000";
   "00000000000d0000006e6561726279666f72657374002300000043686170746572536176654e616d652028467572746865737450726f677265737329";
   "000c00000053747250726f7065727479001100000000000000000d0000006e6561726279666f72657374001c000000417265614964656e7469666965";
   "7220284d6f7374526563656e7429000c000000496e7450726f7065727479000400000000000000000200000022000000417265614964656e74696669";
   "65722028467572746865737450726f677265737329000c000000496e7450726f7065727479000400000000000000000200000022000000436865636b";
   "706f696e744964656e74696669657220284d6f7374526563656e7429000c000000496e7450726f706572747900040000000000000000020000001400";
   "00004272616d626c6547616d6553657474696e6773000f00000053747275637450726f706572747900030100000000000016000000535f4272616d62";
   "6c6547616d6553657474696e67730022cb41e30245b44785c079afc741d7b1002f00000047616d6d6156616c75655f31315f42313937303143343442";
   "32373135423635414345303239413838443135433446000e000000466c6f617450726f706572747900040000000000000000cdcccc3e2d0000004c61";
   "6e67756167655f37375f3830424634453330343931324543443843314541454238433641303745433336000c00000053747250726f70657274790007";
   "000000000000000003000000656e003300000053797374656d4c616e67756167655f38305f4541393738463946344431444530344433373746313842";
   "353435373932373233000c00000053747250726f70657274790007000000000000000003000000656e00050000004e6f6e650028000000436865636b";
   "706f696e744964656e7469666965722028467572746865737450726f677265737329000c000000496e7450726f706572747900040000000000000000";
   "020000000d000000416368696576656d656e7473000f00000053747275637450726f706572747900640100000000000013000000535f416368696576";
   "656d656e74734c69737400956017fba14eb149ba2056c1c2a0353b0033000000426f6f6b73436f6c6c65637465645f39315f43413738414545393433";
   "34443144303531464535343742323537413537344642000e000000417272617950726f70657274790020000000000000000d0000004279746550726f";
   "706572747900000100000018000000455f426f6f6b733a3a4e6577456e756d657261746f7230002c00000049726f6e6d616e5f39355f354442384443";
   "3836343739303537304546383333373142333636353441304432000d000000426f6f6c50726f70657274790000000000000000000100380000004669";
   "677572696e6573436f6c6c65637465645f3130315f3533364536334134343730363137344143444136304441363334373130444642000e0000004172";
   "72617950726f70657274790025000000000000000d0000004279746550726f70657274790000010000001d000000455f4669677572696e65733a3a4e";
   "6577456e756d657261746f72313900050000004e6f6e6500050000004e6f6e650000000000"].

(** resources/test/Slot1.sav, 2503 bytes. *)
Definition slot1_hex : list string :=
  ["47564153020000000a02000004001b000200188a1701130000002b2b5545342b52656c656173652d342e323700030000003900000022d5549cbe4f26";
   "a846072194d082b4612b000000e432d8b00d4f891fb77ecfaca24afd360a0000002843c6e1534d2ca2868e6ca38cbd1764000000003cc15e37fb48e4";
   "06f08400b57e712a2604000000ed68b0e4e94294f40bda31a241bb462e280000003f74fccf8044b043df14919373201d1725000000b5492bb0e94420";
   "bbb73204a36003e452030000005c10e4a4b549a159c440c5a7eedf7e5400000000c931c839dc47e65a179c449a7c8e1c3e00000000331bf078984fea";
   "ebea84b4b9a25ab9cc0e0000000f383166e0434d2d27cf09805aa95669000000009f8bf812fc4a75880cd97ca629bd3a382d0000004ce75a7b104c70";
   "d2985758a95a2a210b0d000000186929d7dd4bd61da864e29d8438c13c030000007852a1c2fe4ae7bfff90176c55f71d5301000000d4a3ac6ec14cec";
   "40ed8b86b7c58f420903000000dd75e5292746a3e076d2109deadc2c23110000005da643af4749d37f8e3e739805bbc1d90f000000ec6c266b8f4bc7";
   "1ed9e40ba307fc420901000000613df70dea473fa2e98927b79a49410c0100000086181d60844f64acded316aad6c7ea0d2f000000686308e7584c23";
   "6b701b3984915e261601000000d6bcff9d58014f49821221e288a8923c0a000000acd0aef26f41fe9a7faa6486fcd626fa010000000b1f4f17a545c6";
   "b4e82e3fb17d91fbd00a000000834af9356c4058e2f50918a37c241096290000006ec18fb6e2421b8b5c2153b4fe448805010000000685e1b2c2cf73";
   "42bbf44ea507ba8b75010000003689f564ba421bfd897296ba4efad0d50100000027d80e6f954809a68d99919ca40e189002000000e79e7f713a49b0";
   "e93291b3880781381b0800000050326854af4899809698c88bb7f9adfb00000000b3dc7d8ebb47da80a246d39ff64d989301000000cdb08acbde4b8c";
   "e7931362a862efe91400000000965196abfc08d8458d22d7b79e56ad78010000000eb75099174e1ab40dfaccbbd67f815701000000f20a68fba34bef";
   "59b519a8ba3d44c873020000009186e0af52490d3a3b6773b61e2df27c02000000bdfdb52e104dac018ff33681daa59333050000004f359d502f49e6";
   "f6b28549a71c633c0700000000eab762a43a4e99f41fecc199b2e1248204000000194d0c4370495471699b6987e5b090df0f000000bd32feaa144c95";
   "53255e6ab6ddd13210010000008ee1af23584ee14c52c2618db7be53b90b00000040eb564adc11f5107e34d392e76ac9b202000000004a8ad7974658";
   "e8b519a8bab4467d481200000086f879551f4c3a937b08ba832fb961630200000052be2f610b4053da914f0d917c85b19f01000000367a23a4c941ea";
   "caf818a28ff31b685804000000753f4e80494b8870068cd6a4dcb67e3c050000002923a576b545230941d8ae98d86a2fcf050000000769bc5fae40c8";
   "5584f1678e3ff1ff5e01000000fa7af5fc8342765058e6a9b9322da0ff44000000f37abb24834f4656c22d2f1fff96ad4905000000ed0a3111614d55";
   "2ea39a67af2c08a1c5110000004e7ce782a5432333c5136bb4f30d31970000000012e426fb4d4b151f0a557293702f1d9603000000210000002f5363";
   "726970742f5545345361766546696c652e546573745361766547616d65000800000075385f74657374000d0000004279746550726f70657274790001";
   "00000000000000050000004e6f6e650000810800000069385f74657374000d000000496e743850726f706572747900010000000000000000850c0000";
   "007573686f72745f74657374000f00000055496e74313650726f706572747900020000000000000000faff0b00000073686f72745f74657374000e00";
   "0000496e74313650726f70657274790002000000000000000004800c00000075696e7433325f74657374000f00000055496e74333250726f70657274";
   "7900040000000000000000feffffff0b000000696e7433325f74657374000c000000496e7450726f706572747900040000000000000000010000800b";
   "000000756c6f6e675f74657374000f00000055496e74363450726f706572747900080000000000000000feffffffffffffff0a0000006c6f6e675f74";
   "657374000e000000496e74363450726f70657274790008000000000000000001000000000000800b000000665f70726f7065727479000e000000466c";
   "6f617450726f706572747900040000000000000000d00f49400b000000645f70726f7065727479000f000000446f75626c6550726f70657274790008";
   "0000000000000000112d4454fb2109400d0000007374725f70726f7065727479000c00000053747250726f7065727479001000000000000000000c00";
   "000048656c6c6f20776f726c6400100000007374727563745f70726f7065727479000f00000053747275637450726f7065727479003c000000000000";
   "000d000000437573746f6d5374727563740000000000000000000000000000000000000b000000746573745f6669656c64000f00000055496e743634";
   "50726f7065727479000800000000000000003930000000000000050000004e6f6e650013000000646174655f74696d655f70726f7065727479000f00";
   "000053747275637450726f7065727479000800000000000000090000004461746554696d650000000000000000000000000000000000002027f6f324";
   "26da081100000061727261795f6f665f73747275637473000e000000417272617950726f706572747900ce000000000000000f000000537472756374";
   "50726f70657274790000020000001100000061727261795f6f665f73747275637473000f00000053747275637450726f706572747900780000000000";
   "00000d000000437573746f6d5374727563740000000000000000000000000000000000000b000000746573745f6669656c64000f00000055496e7436";
   "3450726f7065727479000800000000000000000a00000000000000050000004e6f6e65000b000000746573745f6669656c64000f00000055496e7436";
   "3450726f7065727479000800000000000000000a00000000000000050000004e6f6e65000e00000061727261795f6f665f696e7473000e0000004172";
   "72617950726f70657274790018000000000000000c000000496e7450726f70657274790000050000000c0000000c0000000c0000000c0000000c0000";
   "001100000061727261795f6f665f737472696e6773000e000000417272617950726f70657274790055000000000000000c00000053747250726f7065";
   "7274790000030000001700000048656c6c6f20776f726c642066726f6d206172726179001700000048656c6c6f20776f726c642066726f6d20617272";
   "6179001700000048656c6c6f20776f726c642066726f6d20617272617900050000004e6f6e650000000000"].
(** tests/common/slot1.rs; one line each. *)
Definition slot1_json : list string :=
  ["{";
   "  ""header"": {";
   "    ""type"": ""Version2"",";
   "    ""package_file_version"": 522,";
   "    ""engine_version"": {";
   "      ""major"": 4,";
   "      ""minor"": 27,";
   "      ""patch"": 2,";
   "      ""change_list"": 18319896,";
   "      ""branch"": ""++UE4+Release-4.27""";
   "    },";
   "    ""custom_version_format"": 3,";
   "    ""custom_versions"": {";
   "      ""22D5549C-BE4F-26A8-4607-2194D082B461"": 43,";
   "      ""E432D8B0-0D4F-891F-B77E-CFACA24AFD36"": 10,";
   "      ""2843C6E1-534D-2CA2-868E-6CA38CBD1764"": 0,";
   "      ""3CC15E37-FB48-E406-F084-00B57E712A26"": 4,";
   "      ""ED68B0E4-E942-94F4-0BDA-31A241BB462E"": 40,";
   "      ""3F74FCCF-8044-B043-DF14-919373201D17"": 37,";
   "      ""B5492BB0-E944-20BB-B732-04A36003E452"": 3,";
   "      ""5C10E4A4-B549-A159-C440-C5A7EEDF7E54"": 0,";
   "      ""C931C839-DC47-E65A-179C-449A7C8E1C3E"": 0,";
   "      ""331BF078-984F-EAEB-EA84-B4B9A25AB9CC"": 14,";
   "      ""0F383166-E043-4D2D-27CF-09805AA95669"": 0,";
   "      ""9F8BF812-FC4A-7588-0CD9-7CA629BD3A38"": 45,";
   "      ""4CE75A7B-104C-70D2-9857-58A95A2A210B"": 13,";
   "      ""186929D7-DD4B-D61D-A864-E29D8438C13C"": 3,";
   "      ""7852A1C2-FE4A-E7BF-FF90-176C55F71D53"": 1,";
   "      ""D4A3AC6E-C14C-EC40-ED8B-86B7C58F4209"": 3,";
   "      ""DD75E529-2746-A3E0-76D2-109DEADC2C23"": 17,";
   "      ""5DA643AF-4749-D37F-8E3E-739805BBC1D9"": 15,";
   "      ""EC6C266B-8F4B-C71E-D9E4-0BA307FC4209"": 1,";
   "      ""613DF70D-EA47-3FA2-E989-27B79A49410C"": 1,";
   "      ""86181D60-844F-64AC-DED3-16AAD6C7EA0D"": 47,";
   "      ""686308E7-584C-236B-701B-3984915E2616"": 1,";
   "      ""D6BCFF9D-5801-4F49-8212-21E288A8923C"": 10,";
   "      ""ACD0AEF2-6F41-FE9A-7FAA-6486FCD626FA"": 1,";
   "      ""0B1F4F17-A545-C6B4-E82E-3FB17D91FBD0"": 10,";
   "      ""834AF935-6C40-58E2-F509-18A37C241096"": 41,";
   "      ""6EC18FB6-E242-1B8B-5C21-53B4FE448805"": 1,";
   "      ""0685E1B2-C2CF-7342-BBF4-4EA507BA8B75"": 1,";
   "      ""3689F564-BA42-1BFD-8972-96BA4EFAD0D5"": 1,";
   "      ""27D80E6F-9548-09A6-8D99-919CA40E1890"": 2,";
   "      ""E79E7F71-3A49-B0E9-3291-B3880781381B"": 8,";
   "      ""50326854-AF48-9980-9698-C88BB7F9ADFB"": 0,";
   "      ""B3DC7D8E-BB47-DA80-A246-D39FF64D9893"": 1,";
   "      ""CDB08ACB-DE4B-8CE7-9313-62A862EFE914"": 0,";
   "      ""965196AB-FC08-D845-8D22-D7B79E56AD78"": 1,";
   "      ""0EB75099-174E-1AB4-0DFA-CCBBD67F8157"": 1,";
   "      ""F20A68FB-A34B-EF59-B519-A8BA3D44C873"": 2,";
   "      ""9186E0AF-5249-0D3A-3B67-73B61E2DF27C"": 2,";
   "      ""BDFDB52E-104D-AC01-8FF3-3681DAA59333"": 5,";
   "      ""4F359D50-2F49-E6F6-B285-49A71C633C07"": 0,";
   "      ""EAB762A4-3A4E-99F4-1FEC-C199B2E12482"": 4,";
   "      ""194D0C43-7049-5471-699B-6987E5B090DF"": 15,";
   "      ""BD32FEAA-144C-9553-255E-6AB6DDD13210"": 1,";
   "      ""8EE1AF23-584E-E14C-52C2-618DB7BE53B9"": 11,";
   "      ""40EB564A-DC11-F510-7E34-D392E76AC9B2"": 2,";
   "      ""004A8AD7-9746-58E8-B519-A8BAB4467D48"": 18,";
   "      ""86F87955-1F4C-3A93-7B08-BA832FB96163"": 2,";
   "      ""52BE2F61-0B40-53DA-914F-0D917C85B19F"": 1,";
   "      ""367A23A4-C941-EACA-F818-A28FF31B6858"": 4,";
   "      ""753F4E80-494B-8870-068C-D6A4DCB67E3C"": 5,";
   "      ""2923A576-B545-2309-41D8-AE98D86A2FCF"": 5,";
   "      ""0769BC5F-AE40-C855-84F1-678E3FF1FF5E"": 1,";
   "      ""FA7AF5FC-8342-7650-58E6-A9B9322DA0FF"": 68,";
   "      ""F37ABB24-834F-4656-C22D-2F1FFF96AD49"": 5,";
   "      ""ED0A3111-614D-552E-A39A-67AF2C08A1C5"": 17,";
   "      ""4E7CE782-A543-2333-C513-6BB4F30D3197"": 0,";
   "      ""12E426FB-4D4B-151F-0A55-7293702F1D96"": 3";
   "    },";
   "    ""save_game_class_name"": ""/Script/UE4SaveFile.TestSaveGame""";
   "  },";
   "  ""properties"": {";
   "    ""u8_test"": {";
   "      ""type"": ""ByteProperty"",";
   "      ""name"": ""None"",";
   "      ""Byte"": 129";
   "    },";
   "    ""i8_test"": {";
   "      ""type"": ""Int8Property"",";
   "      ""value"": -123";
   "    },";
   "    ""ushort_test"": {";
   "      ""type"": ""UInt16Property"",";
   "      ""value"": 65530";
   "    },";
   "    ""short_test"": {";
   "      ""type"": ""Int16Property"",";
   "      ""value"": -32764";
   "    },";
   "    ""uint32_test"": {";
   "      ""type"": ""UInt32Property"",";
   "      ""value"": 4294967294";
   "    },";
   "    ""int32_test"": {";
   "      ""type"": ""IntProperty"",";
   "      ""value"": -2147483647";
   "    },";
   "    ""ulong_test"": {";
   "      ""type"": ""UInt64Property"",";
   "      ""value"": 18446744073709551614";
   "    },";
   "    ""long_test"": {";
   "      ""type"": ""Int64Property"",";
   "      ""value"": -9223372036854775807";
   "    },";
   "    ""f_property"": {";
   "      ""type"": ""FloatProperty"",";
   "      ""value"": 3.14159";
   "    },";
   "    ""d_property"": {";
   "      ""type"": ""DoubleProperty"",";
   "      ""value"": 3.14159265358979";
   "    },";
   "    ""str_property"": {";
   "      ""type"": ""StrProperty"",";
   "      ""value"": ""Hello world""";
   "    },";
   "    ""struct_property"": {";
   "      ""type"": ""StructProperty"",";
   "      ""type_name"": ""CustomStruct"",";
   "      ""CustomStruct"": {";
   "        ""test_field"": [";
   "          {";
   "            ""type"": ""UInt64Property"",";
   "            ""value"": 12345";
   "          }";
   "        ]";
   "      }";
   "    },";
   "    ""date_time_property"": {";
   "      ""type"": ""StructProperty"",";
   "      ""type_name"": ""DateTime"",";
   "      ""DateTime"": {";
   "        ""ticks"": 637864237380020000";
   "      }";
   "    },";
   "    ""array_of_structs"": {";
   "      ""type"": ""ArrayProperty"",";
   "      ""field_name"": ""array_of_structs"",";
   "      ""type_name"": ""CustomStruct"",";
   "      ""structs"": [";
   "        {";
   "          ""CustomStruct"": {";
   "            ""test_field"": [";
   "              {";
   "                ""type"": ""UInt64Property"",";
   "                ""value"": 10";
   "              }";
   "            ]";
   "          }";
   "        },";
   "        {";
   "          ""CustomStruct"": {";
   "            ""test_field"": [";
   "              {";
   "                ""type"": ""UInt64Property"",";
   "                ""value"": 10";
   "              }";
   "            ]";
   "          }";
   "        }";
   "      ]";
   "    },";
   "    ""array_of_ints"": {";
   "      ""type"": ""ArrayProperty"",";
   "      ""ints"": [";
   "        12,";
   "        12,";
   "        12,";
   "        12,";
   "        12";
   "      ]";
   "    },";
   "    ""array_of_strings"": {";
   "      ""type"": ""ArrayProperty"",";
   "      ""strings"": [";
   "        ""Hello world from array"",";
   "        ""Hello world from array"",";
   "        ""Hello world from array""";
   "      ]";
   "    }";
   "  }";
   "}"].

(** resources/test/SaveSlot_03.sav, 2817 bytes. *)
Definition saveslot_03_hex : list string :=
  ["47564153020000000a02000004001b000200188a1701130000002b2b5545342b52656c656173652d342e3237000300000036000000fa7af5fc834276";
   "5058e6a9b9322da0ff4400000012e426fb4d4b151f0a557293702f1d9603000000fb0c82a75943a720142c548c50cf2396060000004e7ce782a54323";
   "33c5136bb4f30d319700000000ed0a3111614d552ea39a67af2c08a1c511000000f37abb24834f4656c22d2f1fff96ad49050000002923a576b54523";
   "0941d8ae98d86a2fcf050000000769bc5fae40c85584f1678e3ff1ff5e0100000022d5549cbe4f26a846072194d082b4612b000000e432d8b00d4f89";
   "1fb77ecfaca24afd360a0000002843c6e1534d2ca2868e6ca38cbd1764000000003cc15e37fb48e406f08400b57e712a2604000000ed68b0e4e94294";
   "f40bda31a241bb462e280000003f74fccf8044b043df14919373201d1725000000b5492bb0e94420bbb73204a36003e452030000005c10e4a4b549a1";
   "59c440c5a7eedf7e5400000000c931c839dc47e65a179c449a7c8e1c3e00000000331bf078984feaebea84b4b9a25ab9cc0e0000000f383166e0434d";
   "2d27cf09805aa95669000000009f8bf812fc4a75880cd97ca629bd3a382d0000004ce75a7b104c70d2985758a95a2a210b0d000000186929d7dd4bd6";
   "1da864e29d8438c13c030000007852a1c2fe4ae7bfff90176c55f71d5301000000d4a3ac6ec14cec40ed8b86b7c58f420903000000dd75e5292746a3";
   "e076d2109deadc2c23110000005da643af4749d37f8e3e739805bbc1d90f000000ec6c266b8f4bc71ed9e40ba307fc420901000000613df70dea473f";
   "a2e98927b79a49410c0100000086181d60844f64acded316aad6c7ea0d2f000000686308e7584c236b701b3984915e261601000000d6bcff9d58014f";
   "49821221e288a8923c0a000000acd0aef26f41fe9a7faa6486fcd626fa010000000b1f4f17a545c6b4e82e3fb17d91fbd00a000000834af9356c4058";
   "e2f50918a37c241096290000006ec18fb6e2421b8b5c2153b4fe448805010000000685e1b2c2cf7342bbf44ea507ba8b75010000003689f564ba421b";
   "fd897296ba4efad0d50100000027d80e6f954809a68d99919ca40e189002000000e79e7f713a49b0e93291b3880781381b0800000050326854af4899";
   "809698c88bb7f9adfb00000000194d0c4370495471699b6987e5b090df0f000000bd32feaa144c9553255e6ab6ddd13210010000008ee1af23584ee1";
   "4c52c2618db7be53b90b000000eab762a43a4e99f41fecc199b2e1248204000000bdfdb52e104dac018ff33681daa59333050000004f359d502f49e6";
   "f6b28549a71c633c070000000040eb564adc11f5107e34d392e76ac9b202000000004a8ad7974658e8b519a8bab4467d481200000086f879551f4c3a";
   "937b08ba832fb961630200000052be2f610b4053da914f0d917c85b19f01000000367a23a4c941eacaf818a28ff31b685804000000753f4e80494b88";
   "70068cd6a4dcb67e3c05000000f20a68fba34bef59b519a8ba3d44c873020000000eb75099174e1ab40dfaccbbd67f8157010000001c0000002f5363";
   "726970742f43442e4344536176655f47616d655374617465000d0000004c6173745361766554696d65000f00000053747275637450726f7065727479";
   "000800000000000000090000004461746554696d65000000000000000000000000000000000000e04564e3d433db080c000000506c61796572436c61";
   "7373000f0000004f626a65637450726f7065727479003e00000000000000003a0000002f47616d652f4368617261637465722f506c617965722f426c";
   "75657072696e74732f42505f536f6c646965722e42505f536f6c646965725f43000800000056657273696f6e000c000000496e7450726f7065727479";
   "00040000000000000000030000001100000047616d65706c61794461746162617365000c0000004d617050726f70657274790068020000000000000d";
   "0000004e616d6550726f7065727479000f00000053747275637450726f7065727479000000000000050000001a000000756e6c6f636b2e77656c636f";
   "6d6573637265656e2e7365656e00080000004173466c6f6174000e000000466c6f617450726f70657274790004000000000000000000000000090000";
   "004173537472696e67000c00000053747250726f70657274790004000000000000000000000000050000004e6f6e65001700000067616d652e747574";
   "6f7269616c2e66696e697368656400080000004173466c6f6174000e000000466c6f617450726f7065727479000400000000000000000000803f0900";
   "00004173537472696e67000c00000053747250726f70657274790004000000000000000000000000050000004e6f6e65001600000067616d652e7475";
   "746f7269616c2e736b697070656400080000004173466c6f6174000e000000466c6f617450726f7065727479000400000000000000000000803f0900";
   "00004173537472696e67000c00000053747250726f70657274790004000000000000000000000000050000004e6f6e6500220000006469616c6f6773";
   "2e6d657373616765732e7365656e2e52756d696b6f2e302e353000080000004173466c6f6174000e000000466c6f617450726f706572747900040000";
   "0000000000000000803f090000004173537472696e67000c00000053747250726f70657274790004000000000000000000000000050000004e6f6e65";
   "000d000000636f6465782e52756d696b6f00080000004173466c6f6174000e000000466c6f617450726f706572747900040000000000000000000080";
   "3f090000004173537472696e67000c00000053747250726f70657274790004000000000000000000000000050000004e6f6e650011000000506c6179";
   "657241747472696275746573000c0000004d617050726f706572747900ee010000000000000f00000053747275637450726f7065727479000e000000";
   "466c6f617450726f7065727479000000000000020000000e0000004174747269627574654e616d65000c00000053747250726f706572747900180000";
   "0000000000001400000043757272656e63795f426c75657072696e7473000a00000041747472696275746500120000004669656c645061746850726f";
   "706572747900400000000000000000010000001400000043757272656e63795f426c75657072696e747300200000002f5363726970742f43442e4344";
   "506c61796572417474726962757465536574000f0000004174747269627574654f776e6572000f0000004f626a65637450726f706572747900090000";
   "000000000000050000004e6f6e6500050000004e6f6e6500000000000e0000004174747269627574654e616d65000c00000053747250726f70657274";
   "79001600000000000000001200000043757272656e63795f456c65637472756d000a00000041747472696275746500120000004669656c6450617468";
   "50726f7065727479003e0000000000000000010000001200000043757272656e63795f456c65637472756d00200000002f5363726970742f43442e43";
   "44506c61796572417474726962757465536574000f0000004174747269627574654f776e6572000f0000004f626a65637450726f7065727479000900";
   "00000000000000050000004e6f6e6500050000004e6f6e650000000000150000005365636f6e64617279576561706f6e436c617373000f0000004f62";
   "6a65637450726f7065727479005200000000000000004e0000002f47616d652f576561706f6e732f526f636b65744c61756e636865722f426c756570";
   "72696e74732f42505f526f636b65744c61756e636865722e42505f526f636b65744c61756e636865725f4300050000004e6f6e650000000000"].
(** tests/common/saveslot3.rs, [hints]. *)
Definition saveslot_03_hints : str -> option str :=
  hint_at "MinersManualKnownObjects.SetProperty.StructProperty" "Struct"
  (hint_at "GameplayDatabase.MapProperty.Value.StructProperty" "Struct"
  (hint_at "PlayerAttributes.MapProperty.Key.StructProperty" "Struct"
  (no_hints))).
(** tests/common/saveslot3.rs; one line each. *)
Definition saveslot_03_json : list string :=
  ["{";
   "  ""header"": {";
   "    ""type"": ""Version2"",";
   "    ""package_file_version"": 522,";
   "    ""engine_version"": {";
   "      ""major"": 4,";
   "      ""minor"": 27,";
   "      ""patch"": 2,";
   "      ""change_list"": 18319896,";
   "      ""branch"": ""++UE4+Release-4.27""";
   "    },";
   "    ""custom_version_format"": 3,";
   "    ""custom_versions"": {";
   "      ""FA7AF5FC-8342-7650-58E6-A9B9322DA0FF"": 68,";
   "      ""12E426FB-4D4B-151F-0A55-7293702F1D96"": 3,";
   "      ""FB0C82A7-5943-A720-142C-548C50CF2396"": 6,";
   "      ""4E7CE782-A543-2333-C513-6BB4F30D3197"": 0,";
   "      ""ED0A3111-614D-552E-A39A-67AF2C08A1C5"": 17,";
   "      ""F37ABB24-834F-4656-C22D-2F1FFF96AD49"": 5,";
   "      ""2923A576-B545-2309-41D8-AE98D86A2FCF"": 5,";
   "      ""0769BC5F-AE40-C855-84F1-678E3FF1FF5E"": 1,";
   "      ""22D5549C-BE4F-26A8-4607-2194D082B461"": 43,";
   "      ""E432D8B0-0D4F-891F-B77E-CFACA24AFD36"": 10,";
   "      ""2843C6E1-534D-2CA2-868E-6CA38CBD1764"": 0,";
   "      ""3CC15E37-FB48-E406-F084-00B57E712A26"": 4,";
   "      ""ED68B0E4-E942-94F4-0BDA-31A241BB462E"": 40,";
   "      ""3F74FCCF-8044-B043-DF14-919373201D17"": 37,";
   "      ""B5492BB0-E944-20BB-B732-04A36003E452"": 3,";
   "      ""5C10E4A4-B549-A159-C440-C5A7EEDF7E54"": 0,";
   "      ""C931C839-DC47-E65A-179C-449A7C8E1C3E"": 0,";
   "      ""331BF078-984F-EAEB-EA84-B4B9A25AB9CC"": 14,";
   "      ""0F383166-E043-4D2D-27CF-09805AA95669"": 0,";
   "      ""9F8BF812-FC4A-7588-0CD9-7CA629BD3A38"": 45,";
   "      ""4CE75A7B-104C-70D2-9857-58A95A2A210B"": 13,";
   "      ""186929D7-DD4B-D61D-A864-E29D8438C13C"": 3,";
   "      ""7852A1C2-FE4A-E7BF-FF90-176C55F71D53"": 1,";
   "      ""D4A3AC6E-C14C-EC40-ED8B-86B7C58F4209"": 3,";
   "      ""DD75E529-2746-A3E0-76D2-109DEADC2C23"": 17,";
   "      ""5DA643AF-4749-D37F-8E3E-739805BBC1D9"": 15,";
   "      ""EC6C266B-8F4B-C71E-D9E4-0BA307FC4209"": 1,";
   "      ""613DF70D-EA47-3FA2-E989-27B79A49410C"": 1,";
   "      ""86181D60-844F-64AC-DED3-16AAD6C7EA0D"": 47,";
   "      ""686308E7-584C-236B-701B-3984915E2616"": 1,";
   "      ""D6BCFF9D-5801-4F49-8212-21E288A8923C"": 10,";
   "      ""ACD0AEF2-6F41-FE9A-7FAA-6486FCD626FA"": 1,";
   "      ""0B1F4F17-A545-C6B4-E82E-3FB17D91FBD0"": 10,";
   "      ""834AF935-6C40-58E2-F509-18A37C241096"": 41,";
   "      ""6EC18FB6-E242-1B8B-5C21-53B4FE448805"": 1,";
   "      ""0685E1B2-C2CF-7342-BBF4-4EA507BA8B75"": 1,";
   "      ""3689F564-BA42-1BFD-8972-96BA4EFAD0D5"": 1,";
   "      ""27D80E6F-9548-09A6-8D99-919CA40E1890"": 2,";
   "      ""E79E7F71-3A49-B0E9-3291-B3880781381B"": 8,";
   "      ""50326854-AF48-9980-9698-C88BB7F9ADFB"": 0,";
   "      ""194D0C43-7049-5471-699B-6987E5B090DF"": 15,";
   "      ""BD32FEAA-144C-9553-255E-6AB6DDD13210"": 1,";
   "      ""8EE1AF23-584E-E14C-52C2-618DB7BE53B9"": 11,";
   "      ""EAB762A4-3A4E-99F4-1FEC-C199B2E12482"": 4,";
   "      ""BDFDB52E-104D-AC01-8FF3-3681DAA59333"": 5,";
   "      ""4F359D50-2F49-E6F6-B285-49A71C633C07"": 0,";
   "      ""40EB564A-DC11-F510-7E34-D392E76AC9B2"": 2,";
   "      ""004A8AD7-9746-58E8-B519-A8BAB4467D48"": 18,";
   "      ""86F87955-1F4C-3A93-7B08-BA832FB96163"": 2,";
   "      ""52BE2F61-0B40-53DA-914F-0D917C85B19F"": 1,";
   "      ""367A23A4-C941-EACA-F818-A28FF31B6858"": 4,";
   "      ""753F4E80-494B-8870-068C-D6A4DCB67E3C"": 5,";
   "      ""F20A68FB-A34B-EF59-B519-A8BA3D44C873"": 2,";
   "      ""0EB75099-174E-1AB4-0DFA-CCBBD67F8157"": 1";
   "    },";
   "    ""save_game_class_name"": ""/Script/CD.CDSave_GameState""";
   "  },";
   "  ""properties"": {";
   "    ""LastSaveTime"": {";
   "      ""type"": ""StructProperty"",";
   "      ""type_name"": ""DateTime"",";
   "      ""DateTime"": {";
   "        ""ticks"": 638160761644140000";
   "      }";
   "    },";
   "    ""PlayerClass"": {";
   "      ""type"": ""ObjectProperty"",";
   "      ""value"": ""/Game/Character/Player/Blueprints/BP_Soldier.BP_Soldier_C""";
   "    },";
   "    ""Version"": {";
   "      ""type"": ""IntProperty"",";
   "      ""value"": 3";
   "    },";
   "    ""GameplayDatabase"": {";
   "      ""type"": ""MapProperty"",";
   "      ""value_type"": ""StructProperty"",";
   "      ""name_props"": {";
   "        ""unlock.welcomescreen.seen"": {";
   "          ""type"": ""StructPropertyValue"",";
   "          ""CustomStruct"": {";
   "            ""AsFloat"": [";
   "              {";
   "                ""type"": ""FloatProperty"",";
   "                ""value"": 0.0";
   "              }";
   "            ],";
   "            ""AsString"": [";
   "              {";
   "                ""type"": ""StrProperty""";
   "              }";
   "            ]";
   "          }";
   "        },";
   "        ""game.tutorial.finished"": {";
   "          ""type"": ""StructPropertyValue"",";
   "          ""CustomStruct"": {";
   "            ""AsFloat"": [";
   "              {";
   "                ""type"": ""FloatProperty"",";
   "                ""value"": 1.0";
   "              }";
   "            ],";
   "            ""AsString"": [";
   "              {";
   "                ""type"": ""StrProperty""";
   "              }";
   "            ]";
   "          }";
   "        },";
   "        ""game.tutorial.skipped"": {";
   "          ""type"": ""StructPropertyValue"",";
   "          ""CustomStruct"": {";
   "            ""AsFloat"": [";
   "              {";
   "                ""type"": ""FloatProperty"",";
   "                ""value"": 1.0";
   "              }";
   "            ],";
   "            ""AsString"": [";
   "              {";
   "                ""type"": ""StrProperty""";
   "              }";
   "            ]";
   "          }";
   "        },";
   "        ""dialogs.messages.seen.Rumiko.0.50"": {";
   "          ""type"": ""StructPropertyValue"",";
   "          ""CustomStruct"": {";
   "            ""AsFloat"": [";
   "              {";
   "                ""type"": ""FloatProperty"",";
   "                ""value"": 1.0";
   "              }";
   "            ],";
   "            ""AsString"": [";
   "              {";
   "                ""type"": ""StrProperty""";
   "              }";
   "            ]";
   "          }";
   "        },";
   "        ""codex.Rumiko"": {";
   "          ""type"": ""StructPropertyValue"",";
   "          ""CustomStruct"": {";
   "            ""AsFloat"": [";
   "              {";
   "                ""type"": ""FloatProperty"",";
   "                ""value"": 1.0";
   "              }";
   "            ],";
   "            ""AsString"": [";
   "              {";
   "                ""type"": ""StrProperty""";
   "              }";
   "            ]";
   "          }";
   "        }";
   "      }";
   "    },";
   "    ""PlayerAttributes"": {";
   "      ""type"": ""MapProperty"",";
   "      ""key_type"": ""StructProperty"",";
   "      ""value_type"": ""FloatProperty"",";
   "      ""allocation_flags"": 0,";
   "      ""value"": [";
   "        [";
   "          {";
   "            ""type"": ""StructPropertyValue"",";
   "            ""CustomStruct"": {";
   "              ""AttributeName"": [";
   "                {";
   "                  ""type"": ""StrProperty"",";
   "                  ""value"": ""Currency_Blueprints""";
   "                }";
   "              ],";
   "              ""Attribute"": [";
   "                {";
   "                  ""type"": ""FieldPathProperty"",";
   "                  ""value"": {";
   "                    ""path"": [";
   "                      ""Currency_Blueprints""";
   "                    ],";
   "                    ""resolved_owner"": ""/Script/CD.CDPlayerAttributeSet""";
   "                  }";
   "                }";
   "              ],";
   "              ""AttributeOwner"": [";
   "                {";
   "                  ""type"": ""ObjectProperty"",";
   "                  ""value"": ""None""";
   "                }";
   "              ]";
   "            }";
   "          },";
   "          {";
   "            ""type"": ""FloatProperty"",";
   "            ""value"": 0.0";
   "          }";
   "        ],";
   "        [";
   "          {";
   "            ""type"": ""StructPropertyValue"",";
   "            ""CustomStruct"": {";
   "              ""AttributeName"": [";
   "                {";
   "                  ""type"": ""StrProperty"",";
   "                  ""value"": ""Currency_Electrum""";
   "                }";
   "              ],";
   "              ""Attribute"": [";
   "                {";
   "                  ""type"": ""FieldPathProperty"",";
   "                  ""value"": {";
   "                    ""path"": [";
   "                      ""Currency_Electrum""";
   "                    ],";
   "                    ""resolved_owner"": ""/Script/CD.CDPlayerAttributeSet""";
   "                  }";
   "                }";
   "              ],";
   "              ""AttributeOwner"": [";
   "                {";
   "                  ""type"": ""ObjectProperty"",";
   "                  ""value"": ""None""";
   "                }";
   "              ]";
   "            }";
   "          },";
   "          {";
   "            ""type"": ""FloatProperty"",";
   "            ""value"": 0.0";
   "          }";
   "        ]";
   "      ]";
   "    },";
   "    ""SecondaryWeaponClass"": {";
   "      ""type"": ""ObjectProperty"",";
   "      ""value"": ""/Game/Weapons/RocketLauncher/Blueprints/BP_RocketLauncher.BP_RocketLauncher_C""";
   "    }";
   "  }";
   "}"].

(** resources/test/package_version_525.sav, 6076 bytes. *)
Definition package_version_525_hex : list string :=
  ["47564153020000000d02000004001200010000000000130000002b2b5545342b52656c656173652d342e313800030000002600000022d5549cbe4f26";
   "a846072194d082b4610b000000e432d8b00d4f891fb77ecfaca24afd360a0000002843c6e1534d2ca2868e6ca38cbd1764000000003cc15e37fb48e4";
   "06f08400b57e712a2602000000ed68b0e4e94294f40bda31a241bb462e140000003f74fccf8044b043df14919373201d171e000000b5492bb0e94420";
   "bbb73204a36003e452010000005c10e4a4b549a159c440c5a7eedf7e5400000000c931c839dc47e65a179c449a7c8e1c3e00000000331bf078984fea";
   "ebea84b4b9a25ab9cc000000000f383166e0434d2d27cf09805aa95669000000009f8bf812fc4a75880cd97ca629bd3a38180000004ce75a7b104c70";
   "d2985758a95a2a210b04000000186929d7dd4bd61da864e29d8438c13c000000007852a1c2fe4ae7bfff90176c55f71d5301000000d4a3ac6ec14cec";
   "40ed8b86b7c58f420901000000dd75e5292746a3e076d2109deadc2c230c000000acd0aef26f41fe9a7faa6486fcd626fa0100000018f054b9d64d62";
   "c9b1794ea7c213a18e1000000048ebd403c34c0bb541de98a593c96c5c00000000194d0c4370495471699b6987e5b090df0e000000bd32feaa144c95";
   "53255e6ab6ddd13210010000008ee1af23584ee14c52c2618db7be53b906000000eab762a43a4e99f41fecc199b2e1248202000000bdfdb52e104dac";
   "018ff33681daa59333050000004f359d502f49e6f6b28549a71c633c0700000000e79e7f713a49b0e93291b3880781381b04000000d3343a2f7a44f3";
   "ad46ca1385a4b540b401000000027db613bb4bdacd84fecdb5b0c52e9a010000002b0ff92b0d4cda47d4758ebd4c0946f604000000004a8ad7974658";
   "e8b519a8bab4467d480b00000086f879551f4c3a937b08ba832fb9616301000000367a23a4c941eacaf818a28ff31b6858040000007e7c71e2d344f5";
   "5240530c955e0315b301000000ed0a3111614d552ea39a67af2c08a1c5110000002f992bceb34809f026ad059ea7acfd6000000000fa7af5fc834276";
   "5058e6a9b9322da0ff2f0000004b7148ee52462c8ae640be98e6f07ecb040000001000000053657474696e67436f6e6669675f43000f0000004c6566";
   "74526967687453686f6f74000d000000426f6f6c50726f706572747900000000000000000001000b0000004172745175616c697479000c000000496e";
   "7450726f706572747900040000000000000000010000001600000043616d6572614c656e7353656e736962696c697479000c000000496e7450726f70";
   "6572747900040000000000000000010000001500000043616d4c656e7353656e4e6f6e65536e69706572000e000000466c6f617450726f7065727479";
   "00040000000000000000cdcc4c3f1700000043616d4c656e7353656e526564446f74536e69706572000e000000466c6f617450726f70657274790004";
   "0000000000000000cdcccc3e1300000043616d4c656e7353656e3258536e69706572000e000000466c6f617450726f70657274790004000000000000";
   "00008fc2753e1300000043616d4c656e7353656e3458536e69706572000e000000466c6f617450726f706572747900040000000000000000ae47e13d";
   "1300000043616d4c656e7353656e3858536e69706572000e000000466c6f617450726f7065727479000400000000000000000ad7a33d190000004669";
   "726543616d4c656e7353656e4e6f6e65536e69706572000e000000466c6f617450726f706572747900040000000000000000cdcc4c3f1b0000004669";
   "726543616d4c656e7353656e526564446f74536e69706572000e000000466c6f617450726f706572747900040000000000000000cdcccc3e17000000";
   "4669726543616d4c656e7353656e3258536e69706572000e000000466c6f617450726f7065727479000400000000000000008fc2753e170000004669";
   "726543616d4c656e7353656e3458536e69706572000e000000466c6f617450726f706572747900040000000000000000ae47e13d1700000046697265";
   "43616d4c656e7353656e3858536e69706572000e000000466c6f617450726f7065727479000400000000000000000ad7a33d170000004779726f7363";
   "6f706553656e4e6f6e65536e69706572000e000000466c6f617450726f706572747900040000000000000000cdcc4c3f190000004779726f73636f70";
   "6553656e526564446f74536e69706572000e000000466c6f617450726f706572747900040000000000000000ec51383f150000004779726f73636f70";
   "6553656e3258536e69706572000e000000466c6f617450726f7065727479000400000000000000009a99193f150000004779726f73636f706553656e";
   "3458536e69706572000e000000466c6f617450726f706572747900040000000000000000cdcccc3e150000004779726f73636f706553656e3858536e";
   "69706572000e000000466c6f617450726f706572747900040000000000000000295c8f3e0f0000004d61696e566f6c756d56616c7565000e00000046";
   "6c6f617450726f7065727479000400000000000000000000803f090000004650534c6576656c000c000000496e7450726f7065727479000400000000";
   "00000000080000000b00000056656869636c65457965000e000000466c6f617450726f706572747900040000000000000000cdcc4c3f0d0000005061";
   "72616368757465457965000e000000466c6f617450726f706572747900040000000000000000cdcc4c3f0c00000046705669657756616c7565000c00";
   "0000496e7450726f706572747900040000000000000000670000000d00000043616d467046726565457965000e000000466c6f617450726f70657274";
   "7900040000000000000000295c0f3f1700000043616d4c656e7353656e4e6f6e65536e697065724650000e000000466c6f617450726f706572747900";
   "0400000000000000003333333f1b0000004669726543616d4c656e7353656e4e6f6e65536e697065724650000e000000466c6f617450726f70657274";
   "79000400000000000000003333333f190000004779726f73636f706553656e4e6f6e65536e697065724650000e000000466c6f617450726f70657274";
   "79000400000000000000005c8f423f1300000043616d4c656e7353656e3358536e69706572000e000000466c6f617450726f70657274790004000000";
   "00000000007b142e3e1300000043616d4c656e7353656e3658536e69706572000e000000466c6f617450726f706572747900040000000000000000ec";
   "51b83d170000004669726543616d4c656e7353656e3358536e69706572000e000000466c6f617450726f7065727479000400000000000000007b142e";
   "3e170000004669726543616d4c656e7353656e3658536e69706572000e000000466c6f617450726f706572747900040000000000000000ec51b83d15";
   "0000004779726f73636f706553656e3358536e69706572000e000000466c6f617450726f7065727479000400000000000000000000003f1500000047";
   "79726f73636f706553656e3658536e69706572000e000000466c6f617450726f7065727479000400000000000000007b14ae3e100000005363726565";
   "6e4c696768746e657373000e000000466c6f617450726f7065727479000400000000000000000000c03f140000004465617468506c61796261636b53";
   "7769746368000d000000426f6f6c50726f7065727479000000000000000000010010000000517569636b5369676e49444c697374000e000000417272";
   "617950726f7065727479007c000000000000000c000000496e7450726f706572747900001e0000005f84000062840000608400006184000088750000";
   "5b8400005c8400005e84000072840000738400007484000075840000768400007784000078840000798400007a8400007b8400007e84000067840000";
   "698400006a840000a6840000a7840000a8840000cc840000cb840000cd840000ce840000cf8400000f00000044796e616d6963486f6c6447756e000d";
   "000000426f6f6c50726f706572747900000000000000000001000f000000486974456666656374436f6c6f72000c000000496e7450726f7065727479";
   "00040000000000000000030000001000000048757274456666656374436f6c6f72000c000000496e7450726f70657274790004000000000000000002";
   "0000000e000000624861734d61704342546f4553000d000000426f6f6c50726f706572747900000000000000000001001500000050726f66696c6564";
   "53637265656e537769746368000c000000496e7450726f706572747900040000000000000000010000000a000000426174746c65465053000c000000";
   "496e7450726f7065727479000400000000000000000800000012000000426174746c6552656e6465725374796c65000c000000496e7450726f706572";
   "7479000400000000000000000100000014000000426174746c6552656e6465725175616c697479000c000000496e7450726f70657274790004000000";
   "000000000001000000090000004c6f626279465053000c000000496e7450726f70657274790004000000000000000004000000110000004c6f626279";
   "52656e6465725374796c65000c000000496e7450726f70657274790004000000000000000001000000130000004c6f62627952656e6465725175616c";
   "697479000c000000496e7450726f706572747900040000000000000000030000001a00000048617347726170686963735365706172617465436f6e66";
   "6967000d000000426f6f6c50726f706572747900000000000000000001001000000052696e675468726f77537769746368000d000000426f6f6c5072";
   "6f70657274790000000000000000000100180000005069636b5570436f756e7453657474696e675f44727567000c0000004d617050726f7065727479";
   "0010000000000000000c000000496e7450726f7065727479000c000000496e7450726f706572747900000000000001000000af2b0900030000001d00";
   "0000625472616e736c6174655069636b757053657474696e67546f4d6170000d000000426f6f6c50726f706572747900000000000000000001000f00";
   "000053686f756c646572456e61626c65000d000000426f6f6c50726f706572747900000000000000000001001b00000053657474696e674861734f70";
   "65726174656453686f756c646572000d000000426f6f6c50726f706572747900000000000000000001002500000053657474696e674861734f706572";
   "61746564526f746174655769746853686f756c646572000d000000426f6f6c50726f706572747900000000000000000001000c000000547056696577";
   "56616c7565000c000000496e7450726f7065727479000400000000000000005a0000001b000000466972654779726f73636f706553656e4e6f6e6553";
   "6e69706572000e000000466c6f617450726f706572747900040000000000000000cdcc4c3f1d000000466972654779726f73636f706553656e526564";
   "446f74536e69706572000e000000466c6f617450726f706572747900040000000000000000ec51383f19000000466972654779726f73636f70655365";
   "6e3258536e69706572000e000000466c6f617450726f7065727479000400000000000000009a99193f19000000466972654779726f73636f70655365";
   "6e3458536e69706572000e000000466c6f617450726f706572747900040000000000000000cdcccc3e19000000466972654779726f73636f70655365";
   "6e3858536e69706572000e000000466c6f617450726f706572747900040000000000000000295c8f3e19000000466972654779726f73636f70655365";
   "6e3358536e69706572000e000000466c6f617450726f7065727479000400000000000000000000003f19000000466972654779726f73636f70655365";
   "6e3658536e69706572000e000000466c6f617450726f7065727479000400000000000000007b14ae3e1d000000466972654779726f73636f70655365";
   "6e4e6f6e65536e697065724670000e000000466c6f617450726f7065727479000400000000000000005c8f423f1c000000466972654779726f73636f";
   "706553656e53686f756c646572545050000e000000466c6f617450726f706572747900040000000000000000cdcc4c3f1c000000466972654779726f";
   "73636f706553656e53686f756c646572465050000e000000466c6f617450726f706572747900040000000000000000cdcc4c3f09000000624c62734e";
   "656172000d000000426f6f6c50726f706572747900000000000000000001000c000000624c62735761725a6f6e65000d000000426f6f6c50726f7065";
   "72747900000000000000000001001b000000625265636f7264576f6e64657266756c5265706c61794f70656e000d000000426f6f6c50726f70657274";
   "79000000000000000000010009000000624c62734d61696e000d000000426f6f6c50726f7065727479000000000000000000010009000000624c6273";
   "43686174000d000000426f6f6c50726f706572747900000000000000000001000c0000004175746f4869744d61726b000d000000426f6f6c50726f70";
   "6572747900000000000000000001001a0000006252657365744465617468506c61796261636b537769746368000d000000426f6f6c50726f70657274";
   "7900000000000000000001001100000073657474696e675f7665725f696e666f000c0000004d617050726f70657274790018000000000000000c0000";
   "00496e7450726f7065727479000c000000496e7450726f706572747900000000000002000000650000000500000001000000310000001c000000506c";
   "6179657243686174517569636b5465787449444c6973745f31000e000000417272617950726f70657274790054000000000000000c000000496e7450";
   "726f7065727479000014000000877500008875000057750000497500008d750000527500004d7500007575000056750000627500005d750000000000";
   "0000000000000000000000000000000000000000000000000000000000000000001c000000506c6179657243686174517569636b5465787449444c69";
   "73745f32000e000000417272617950726f70657274790054000000000000000c000000496e7450726f70657274790000140000008775000088750000";
   "57750000497500008d750000527500004d7500007575000056750000627500005d750000000000000000000000000000000000000000000000000000";
   "0000000000000000000000001c000000506c6179657243686174517569636b5465787449444c6973745f33000e000000417272617950726f70657274";
   "790054000000000000000c000000496e7450726f7065727479000014000000877500008875000057750000497500008d750000527500004d75000075";
   "75000056750000627500005d75000000000000000000000000000000000000000000000000000000000000000000000000000021000000506c617965";
   "72576865656c43686174517569636b5465787449444c6973745f31000e000000417272617950726f70657274790024000000000000000c000000496e";
   "7450726f70657274790000080000008775000088750000577500008d750000527500004d750000567500005d75000021000000506c61796572576865";
   "656c43686174517569636b5465787449444c6973745f32000e000000417272617950726f70657274790024000000000000000c000000496e7450726f";
   "70657274790000080000008775000088750000577500008d750000527500004d750000567500005d75000021000000506c61796572576865656c4368";
   "6174517569636b5465787449444c6973745f33000e000000417272617950726f70657274790024000000000000000c000000496e7450726f70657274";
   "790000080000008775000088750000577500008d750000527500004d750000567500005d7500000d0000004f6c644d61726b5374796c65000c000000";
   "496e7450726f7065727479000400000000000000000200000017000000536f756e6456697375616c697a6174696f6e54797065000c000000496e7450";
   "726f70657274790004000000000000000003000000140000004c6f63616c486964654d6574726f41726d6f72000d000000426f6f6c50726f70657274";
   "790000000000000000000000130000004d616e6f7252656e6465725175616c697479000c000000496e7450726f706572747900040000000000000000";
   "03000000070000004f70656e4944000c00000053747250726f7065727479001700000000000000001300000031303634303437343739353038313836";
   "303000050000004e6f6e650000000000"].

(** resources/test/vector2d.sav, 10752 bytes. *)
Definition vector2d_hex : list string :=
  ["47564153030000000a020000f1030000050003000200fe4bbf01120000002b2b5545352b52656c656173652d352e3300030000004a00000022d5549c";
   "be4f26a846072194d082b4612c000000a35c9162f74b8e1cc7120ea3f79d21c820000000240d40cc7b4ee9e083a2f99b27c0c0dc00000000e432d8b0";
   "0d4f891fb77ecfaca24afd360a0000002843c6e1534d2ca2868e6ca38cbd1764000000003cc15e37fb48e406f08400b57e712a2604000000ed68b0e4";
   "e94294f40bda31a241bb462e280000003f74fccf8044b043df14919373201d1725000000b5492bb0e94420bbb73204a36003e452030000005c10e4a4";
   "b549a159c440c5a7eedf7e5400000000c931c839dc47e65a179c449a7c8e1c3e00000000331bf078984feaebea84b4b9a25ab9cc140000000f383166";
   "e0434d2d27cf09805aa95669000000009f8bf812fc4a75880cd97ca629bd3a382f0000004ce75a7b104c70d2985758a95a2a210b0d000000186929d7";
   "dd4bd61da864e29d8438c13c030000007852a1c2fe4ae7bfff90176c55f71d5301000000d4a3ac6ec14cec40ed8b86b7c58f420903000000dd75e529";
   "2746a3e076d2109deadc2c23110000005da643af4749d37f8e3e739805bbc1d90f000000ec6c266b8f4bc71ed9e40ba307fc420901000000613df70d";
   "ea473fa2e98927b79a49410c0100000086181d60844f64acded316aad6c7ea0d6f0000005b2cbc8de043a754bbfc68a76090a27d02000000b7064c5b";
   "f84a632470bf5b80ddd0f5cd0a000000686308e7584c236b701b3984915e26160b000000d6bcff9d58014f49821221e288a8923c0a000000acd0aef2";
   "6f41fe9a7faa6486fcd626fa010000000b1f4f17a545c6b4e82e3fb17d91fbd00a000000834af9356c4058e2f50918a37c241096290000006ec18fb6";
   "e2421b8b5c2153b4fe448805010000000685e1b2c2cf7342bbf44ea507ba8b75010000003689f564ba421bfd897296ba4efad0d50100000081d57d69";
   "ab414fe6ec514aaa28b6b7be76000000425e9bd8464dbd24a8ac1284791764df2f000000525dda5948493212785978b88be9b87008000000325a0726";
   "08470f73328ce988059d59f10000000027d80e6f954809a68d99919ca40e189002000000e38bd5308242ea9559b1e3a66ab0ebd801000000e79e7f71";
   "3a49b0e93291b3880781381b11000000fc09c46886499570d2ac6389835186c403000000194d0c4370495471699b6987e5b090df0f000000bd32feaa";
   "144c9553255e6ab6ddd13210010000008ee1af23584ee14c52c2618db7be53b90b000000eab762a43a4e99f41fecc199b2e1248204000000bdfdb52e";
   "104dac018ff33681daa59333050000004f359d502f49e6f6b28549a71c633c07000000003ef0a495e4490b7e56d343bad987ff94070000001c1be3b6";
   "ec119fd2859f7e85e270996f0100000040eb564adc11f5107e34d392e76ac9b2030000008a991784ec43c0bb19d1b38122272d0713000000004a8ad7";
   "974658e8b519a8bab4467d481200000086f879551f4c3a937b08ba832fb961630200000052be2f610b4053da914f0d917c85b19f01000000367a23a4";
   "c941eacaf818a28ff31b685805000000753f4e80494b8870068cd6a4dcb67e3c05000000f448d01e684c2e2fa453d0892d108ff101000000f20a68fb";
   "a34bef59b519a8ba3d44c873020000000eb75099174e1ab40dfaccbbd67f815701000000cd14175e51294e48a7897a7078ab0293030000007b472509";
   "01403d7673d6919d11b4750b010000001b218842c6164845b267761a002a7a50010000009b9549dce74dc05388ea5691395d7c5e02000000fb0c82a7";
   "5943a720142c548c50cf23961b0000004e7ce782a5432333c5136bb4f30d319700000000aa1c1ee25e4247afd46abf89bba8444c000000007e154a13";
   "a349e2d53c844e8d319efe9802000000fa7af5fc8342765058e6a9b9322da0ff4f000000ed0a3111614d552ea39a67af2c08a1c51100000078bbdff6";
   "e4a050bb4db8184023afcb6002000000f37abb24834f4656c22d2f1fff96ad49050000002923a576b545230941d8ae98d86a2fcf050000000769bc5f";
   "ae40c85584f1678e3ff1ff5e01000000438c73929c4d8829be9b3d9ac09fff6e01000000340000002f47616d652f5f426c75657072696e74732f4250";
   "5f53657474696e6773536176652e42505f53657474696e6773536176655f43001000000053657474696e67734368616e67656400200000004d756c74";
   "6963617374496e6c696e6544656c656761746550726f7065727479003a20000000000000004d000000520000002f47616d652f44656661756c744d61";
   "702e44656661756c744d61703a50657273697374656e744c6576656c2e42505f416374696f6e546f6f6c5f576174657247617567655f435f32313437";
   "343832333135001600000053657474696e67734368616e6765645f4576656e74004c0000002f47616d652f44656661756c744d61702e44656661756c";
   "744d61703a50657273697374656e744c6576656c2e42505f416374696f6e546f6f6c5f506c6f775f435f323134373438323331320016000000536574";
   "74696e67734368616e6765645f4576656e7400570000002f47616d652f44656661756c744d61702e44656661756c744d61703a50657273697374656e";
   "744c6576656c2e42505f416374696f6e546f6f6c5f506c6f775f526f775f53696e676c655f435f32313437343832333039001600000053657474696e";
   "67734368616e6765645f4576656e7400520000002f47616d652f44656661756c744d61702e44656661756c744d61703a50657273697374656e744c65";
   "76656c2e42505f416374696f6e546f6f6c5f506c6f775f526f775f335f435f32313437343832333035001600000053657474696e67734368616e6765";
   "645f4576656e7400510000002f47616d652f44656661756c744d61702e44656661756c744d61703a50657273697374656e744c6576656c2e42505f41";
   "6374696f6e546f6f6c5f506c6f775f35526f775f435f32313437343832333031001600000053657474696e67734368616e6765645f4576656e740052";
   "0000002f47616d652f44656661756c744d61702e44656661756c744d61703a50657273697374656e744c6576656c2e42505f416374696f6e546f6f6c";
   "5f506c6f775f526f775f355f435f32313437343832323937001600000053657474696e67734368616e6765645f4576656e74004d0000002f47616d65";
   "2f44656661756c744d61702e44656661756c744d61703a50657273697374656e744c6576656c2e42505f416374696f6e546f6f6c5f506c616e745f43";
   "5f32313437343832323933001600000053657474696e67734368616e6765645f4576656e7400510000002f47616d652f44656661756c744d61702e44";
   "656661756c744d61703a50657273697374656e744c6576656c2e42505f416374696f6e546f6f6c5f506c616e745f526f775f435f3231343734383232";
   "3836001600000053657474696e67734368616e6765645f4576656e7400520000002f47616d652f44656661756c744d61702e44656661756c744d6170";
   "3a50657273697374656e744c6576656c2e42505f416374696f6e546f6f6c5f506c616e745f526f77335f435f32313437343832323830001600000053";
   "657474696e67734368616e6765645f4576656e7400520000002f47616d652f44656661756c744d61702e44656661756c744d61703a50657273697374";
   "656e744c6576656c2e42505f416374696f6e546f6f6c5f506c616e745f526f77355f435f32313437343832323734001600000053657474696e677343";
   "68616e6765645f4576656e7400510000002f47616d652f44656661756c744d61702e44656661756c744d61703a50657273697374656e744c6576656c";
   "2e42505f416374696f6e546f6f6c5f43756c7469766174655f435f32313437343832323638001600000053657474696e67734368616e6765645f4576";
   "656e7400550000002f47616d652f44656661756c744d61702e44656661756c744d61703a50657273697374656e744c6576656c2e42505f416374696f";
   "6e546f6f6c5f43756c7469766174655f526f775f435f32313437343832323635001600000053657474696e67734368616e6765645f4576656e740056";
   "0000002f47616d652f44656661756c744d61702e44656661756c744d61703a50657273697374656e744c6576656c2e42505f416374696f6e546f6f6c";
   "5f43756c7469766174655f526f77335f435f32313437343832323631001600000053657474696e67734368616e6765645f4576656e7400560000002f";
   "47616d652f44656661756c744d61702e44656661756c744d61703a50657273697374656e744c6576656c2e42505f416374696f6e546f6f6c5f43756c";
   "7469766174655f526f77355f435f32313437343832323537001600000053657474696e67734368616e6765645f4576656e7400520000002f47616d65";
   "2f44656661756c744d61702e44656661756c744d61703a50657273697374656e744c6576656c2e42505f416374696f6e546f6f6c5f506c6173746963";
   "526f775f435f32313437343832323533001600000053657474696e67734368616e6765645f4576656e7400500000002f47616d652f44656661756c74";
   "4d61702e44656661756c744d61703a50657273697374656e744c6576656c2e42505f416374696f6e546f6f6c5f50757263686173655f435f32313437";
   "343832323439001600000053657474696e67734368616e6765645f4576656e7400550000002f47616d652f44656661756c744d61702e44656661756c";
   "744d61703a50657273697374656e744c6576656c2e42505f416374696f6e546f6f6c5f50757263686173655f317831305f435f323134373438323234";
   "32001600000053657474696e67734368616e6765645f4576656e7400550000002f47616d652f44656661756c744d61702e44656661756c744d61703a";
   "50657273697374656e744c6576656c2e42505f416374696f6e546f6f6c5f50757263686173655f33526f775f435f3231343734383232333500160000";
   "0053657474696e67734368616e6765645f4576656e7400550000002f47616d652f44656661756c744d61702e44656661756c744d61703a5065727369";
   "7374656e744c6576656c2e42505f416374696f6e546f6f6c5f50757263686173655f35526f775f435f32313437343832323238001600000053657474";
   "696e67734368616e6765645f4576656e7400560000002f47616d652f44656661756c744d61702e44656661756c744d61703a50657273697374656e74";
   "4c6576656c2e42505f416374696f6e546f6f6c5f50757263686173655f31307831305f435f32313437343832323231001600000053657474696e6773";
   "4368616e6765645f4576656e74004e0000002f47616d652f44656661756c744d61702e44656661756c744d61703a50657273697374656e744c657665";
   "6c2e42505f416374696f6e546f6f6c5f4d6f646966795f435f32313437343832323134001600000053657474696e67734368616e6765645f4576656e";
   "74004b0000002f47616d652f44656661756c744d61702e44656661756c744d61703a50657273697374656e744c6576656c2e42505f416374696f6e54";
   "6f6f6c5f526f775f435f32313437343832313938001600000053657474696e67734368616e6765645f4576656e74004c0000002f47616d652f446566";
   "61756c744d61702e44656661756c744d61703a50657273697374656e744c6576656c2e42505f416374696f6e546f6f6c5f526f77335f435f32313437";
   "343832313831001600000053657474696e67734368616e6765645f4576656e74004f0000002f47616d652f44656661756c744d61702e44656661756c";
   "744d61703a50657273697374656e744c6576656c2e42505f416374696f6e546f6f6c5f486172766573745f435f323134373438323136340016000000";
   "53657474696e67734368616e6765645f4576656e7400530000002f47616d652f44656661756c744d61702e44656661756c744d61703a506572736973";
   "74656e744c6576656c2e42505f416374696f6e546f6f6c5f486172766573745f526f775f435f32313437343832313631001600000053657474696e67";
   "734368616e6765645f4576656e7400550000002f47616d652f44656661756c744d61702e44656661756c744d61703a50657273697374656e744c6576";
   "656c2e42505f416374696f6e546f6f6c5f486172766573745f526f775f335f435f32313437343832313537001600000053657474696e67734368616e";
   "6765645f4576656e7400550000002f47616d652f44656661756c744d61702e44656661756c744d61703a50657273697374656e744c6576656c2e4250";
   "5f416374696f6e546f6f6c5f486172766573745f526f775f355f435f32313437343832313533001600000053657474696e67734368616e6765645f45";
   "76656e7400530000002f47616d652f44656661756c744d61702e44656661756c744d61703a50657273697374656e744c6576656c2e42505f41637469";
   "6f6e546f6f6c5f486172766573745f526f775f435f32313437343832313439001600000053657474696e67734368616e6765645f4576656e74005e00";
   "00002f47616d652f44656661756c744d61702e44656661756c744d61703a50657273697374656e744c6576656c2e42505f416374696f6e546f6f6c5f";
   "4175746f6d61746564416374696f6e436f6e74726f6c5f435f32313437343832313435001600000053657474696e67734368616e6765645f4576656e";
   "7400570000002f47616d652f44656661756c744d61702e44656661756c744d61703a50657273697374656e744c6576656c2e42505f416374696f6e54";
   "6f6f6c5f52656d6f7665506c61636561626c655f435f32313437343832313432001600000053657474696e67734368616e6765645f4576656e740050";
   "0000002f47616d652f44656661756c744d61702e44656661756c744d61703a50657273697374656e744c6576656c2e42505f416374696f6e546f6f6c";
   "5f5365656453696c6f5f435f32313437343832313339001600000053657474696e67734368616e6765645f4576656e7400530000002f47616d652f44";
   "656661756c744d61702e44656661756c744d61703a50657273697374656e744c6576656c2e42505f416374696f6e546f6f6c5f54726163746f724261";
   "726e5f435f32313437343832313332001600000053657474696e67734368616e6765645f4576656e74004c0000002f47616d652f44656661756c744d";
   "61702e44656661756c744d61703a50657273697374656e744c6576656c2e42505f416374696f6e546f6f6c5f53656c6c5f435f323134373438323132";
   "35001600000053657474696e67734368616e6765645f4576656e7400570000002f47616d652f44656661756c744d61702e44656661756c744d61703a";
   "50657273697374656e744c6576656c2e42505f416374696f6e546f6f6c5f4675656c53746f7261676554616e6b5f435f323134373438323131380016";
   "00000053657474696e67734368616e6765645f4576656e7400520000002f47616d652f44656661756c744d61702e44656661756c744d61703a506572";
   "73697374656e744c6576656c2e42505f416374696f6e546f6f6c5f436869636b656e52756e5f435f3231343734383231313500160000005365747469";
   "6e67734368616e6765645f4576656e7400550000002f47616d652f44656661756c744d61702e44656661756c744d61703a50657273697374656e744c";
   "6576656c2e42505f416374696f6e546f6f6c5f4d6f7665506c61636561626c655f435f32313437343832313132001600000053657474696e67734368";
   "616e6765645f4576656e74004f0000002f47616d652f44656661756c744d61702e44656661756c744d61703a50657273697374656e744c6576656c2e";
   "42505f416374696f6e546f6f6c5f426565686976655f435f32313437343832313039001600000053657474696e67734368616e6765645f4576656e74";
   "004a0000002f47616d652f44656661756c744d61702e44656661756c744d61703a50657273697374656e744c6576656c2e42505f5365745048546f6f";
   "6c5f526f775f435f32313437343832313036001600000053657474696e67734368616e6765645f4576656e7400590000002f47616d652f4465666175";
   "6c744d61702e44656661756c744d61703a50657273697374656e744c6576656c2e42505f416374696f6e546f6f6c5f42696f64696573656c52656669";
   "6e6572795f435f32313437343832303839001600000053657474696e67734368616e6765645f4576656e7400500000002f47616d652f44656661756c";
   "744d61702e44656661756c744d61703a50657273697374656e744c6576656c2e42505f416374696f6e546f6f6c5f4f696c50726573735f435f323134";
   "37343832303836001600000053657474696e67734368616e6765645f4576656e7400510000002f47616d652f44656661756c744d61702e4465666175";
   "6c744d61703a50657273697374656e744c6576656c2e42505f416374696f6e546f6f6c5f466c6f75724d696c6c5f435f323134373438323038330016";
   "00000053657474696e67734368616e6765645f4576656e7400580000002f47616d652f44656661756c744d61702e44656661756c744d61703a506572";
   "73697374656e744c6576656c2e42505f416374696f6e546f6f6c5f4c61726765436869636b656e436f6f705f435f3231343734383230383000160000";
   "0053657474696e67734368616e6765645f4576656e7400500000002f47616d652f44656661756c744d61702e44656661756c744d61703a5065727369";
   "7374656e744c6576656c2e42505f416374696f6e546f6f6c5f43726f705369676e5f435f32313437343832303737001600000053657474696e677343";
   "68616e6765645f4576656e74004d0000002f47616d652f44656661756c744d61702e44656661756c744d61703a50657273697374656e744c6576656c";
   "2e42505f416374696f6e546f6f6c5f4d756c63685f435f32313437343832303730001600000053657474696e67734368616e6765645f4576656e7400";
   "510000002f47616d652f44656661756c744d61702e44656661756c744d61703a50657273697374656e744c6576656c2e42505f416374696f6e546f6f";
   "6c5f4d756c63685f526f775f435f32313437343832303534001600000053657474696e67734368616e6765645f4576656e7400520000002f47616d65";
   "2f44656661756c744d61702e44656661756c744d61703a50657273697374656e744c6576656c2e42505f416374696f6e546f6f6c5f4d756c63685f52";
   "6f77335f435f32313437343832303337001600000053657474696e67734368616e6765645f4576656e7400510000002f47616d652f44656661756c74";
   "4d61702e44656661756c744d61703a50657273697374656e744c6576656c2e42505f416374696f6e546f6f6c5f57617265686f7573655f435f323134";
   "37343832303230001600000053657474696e67734368616e6765645f4576656e7400530000002f47616d652f44656661756c744d61702e4465666175";
   "6c744d61703a50657273697374656e744c6576656c2e42505f416374696f6e546f6f6c5f4861727665737453696c6f5f435f32313437343832303133";
   "001600000053657474696e67734368616e6765645f4576656e7400510000002f47616d652f44656661756c744d61702e44656661756c744d61703a50";
   "657273697374656e744c6576656c2e42505f416374696f6e546f6f6c5f53746f636b70696c655f435f32313437343832303038001600000053657474";
   "696e67734368616e6765645f4576656e7400560000002f47616d652f44656661756c744d61702e44656661756c744d61703a50657273697374656e74";
   "4c6576656c2e42505f416374696f6e546f6f6c5f436f6d706f737453746174696f6e5f435f32313437343832303031001600000053657474696e6773";
   "4368616e6765645f4576656e74003b0000002f47616d652f44656661756c744d61702e44656661756c744d61703a50657273697374656e744c657665";
   "6c2e42505f52656e646572735f435f31001000000053657474696e67734368616e67656400470000002f47616d652f44656661756c744d61702e4465";
   "6661756c744d61703a50657273697374656e744c6576656c2e42505f506c617965725061776e5f435f32313437343832333331001500000055706461";
   "746564536176656453657474696e6773004a0000002f47616d652f44656661756c744d61702e44656661756c744d61703a50657273697374656e744c";
   "6576656c2e42505f4175746f6d61746564546f6f6c5f435f32313437343738393231001000000053657474696e67734368616e676564004a0000002f";
   "47616d652f44656661756c744d61702e44656661756c744d61703a50657273697374656e744c6576656c2e42505f4175746f6d61746564546f6f6c5f";
   "435f32313437343738393035001000000053657474696e67734368616e676564004a0000002f47616d652f44656661756c744d61702e44656661756c";
   "744d61703a50657273697374656e744c6576656c2e42505f4175746f6d61746564546f6f6c5f435f3231343734373838393000100000005365747469";
   "6e67734368616e676564004a0000002f47616d652f44656661756c744d61702e44656661756c744d61703a50657273697374656e744c6576656c2e42";
   "505f4175746f6d61746564546f6f6c5f435f32313437343738383735001000000053657474696e67734368616e676564004a0000002f47616d652f44";
   "656661756c744d61702e44656661756c744d61703a50657273697374656e744c6576656c2e42505f4175746f6d61746564546f6f6c5f435f32313437";
   "343738383630001000000053657474696e67734368616e676564004a0000002f47616d652f44656661756c744d61702e44656661756c744d61703a50";
   "657273697374656e744c6576656c2e42505f4175746f6d61746564546f6f6c5f435f32313437343738333033001000000053657474696e6773436861";
   "6e676564004a0000002f47616d652f44656661756c744d61702e44656661756c744d61703a50657273697374656e744c6576656c2e42505f4175746f";
   "6d61746564546f6f6c5f435f32313437343738323838001000000053657474696e67734368616e676564004a0000002f47616d652f44656661756c74";
   "4d61702e44656661756c744d61703a50657273697374656e744c6576656c2e42505f4175746f6d61746564546f6f6c5f435f32313437343738323733";
   "001000000053657474696e67734368616e676564004a0000002f47616d652f44656661756c744d61702e44656661756c744d61703a50657273697374";
   "656e744c6576656c2e42505f4175746f6d61746564546f6f6c5f435f32313437343738323538001000000053657474696e67734368616e676564004a";
   "0000002f47616d652f44656661756c744d61702e44656661756c744d61703a50657273697374656e744c6576656c2e42505f4175746f6d6174656454";
   "6f6f6c5f435f32313437343738323433001000000053657474696e67734368616e676564004a0000002f47616d652f44656661756c744d61702e4465";
   "6661756c744d61703a50657273697374656e744c6576656c2e42505f4175746f6d61746564546f6f6c5f435f32313437343738323238001000000053";
   "657474696e67734368616e676564004a0000002f47616d652f44656661756c744d61702e44656661756c744d61703a50657273697374656e744c6576";
   "656c2e42505f4175746f6d61746564546f6f6c5f435f32313437343738313431001000000053657474696e67734368616e676564004a0000002f4761";
   "6d652f44656661756c744d61702e44656661756c744d61703a50657273697374656e744c6576656c2e42505f4175746f6d61746564546f6f6c5f435f";
   "32313437343738313236001000000053657474696e67734368616e676564004a0000002f47616d652f44656661756c744d61702e44656661756c744d";
   "61703a50657273697374656e744c6576656c2e42505f4175746f6d61746564546f6f6c5f435f32313437343738313131001000000053657474696e67";
   "734368616e676564004a0000002f47616d652f44656661756c744d61702e44656661756c744d61703a50657273697374656e744c6576656c2e42505f";
   "4175746f6d61746564546f6f6c5f435f32313437343738303936001000000053657474696e67734368616e676564004a0000002f47616d652f446566";
   "61756c744d61702e44656661756c744d61703a50657273697374656e744c6576656c2e42505f4175746f6d61746564546f6f6c5f435f323134373437";
   "37373530001000000053657474696e67734368616e676564004a0000002f47616d652f44656661756c744d61702e44656661756c744d61703a506572";
   "73697374656e744c6576656c2e42505f4175746f6d61746564546f6f6c5f435f32313437343737373335001000000053657474696e67734368616e67";
   "6564004a0000002f47616d652f44656661756c744d61702e44656661756c744d61703a50657273697374656e744c6576656c2e42505f4175746f6d61";
   "746564546f6f6c5f435f32313437343737373230001000000053657474696e67734368616e676564004a0000002f47616d652f44656661756c744d61";
   "702e44656661756c744d61703a50657273697374656e744c6576656c2e42505f4175746f6d61746564546f6f6c5f435f323134373437373730350010";
   "00000053657474696e67734368616e676564004a0000002f47616d652f44656661756c744d61702e44656661756c744d61703a50657273697374656e";
   "744c6576656c2e42505f4175746f6d61746564546f6f6c5f435f32313437343737363930001000000053657474696e67734368616e676564004a0000";
   "002f47616d652f44656661756c744d61702e44656661756c744d61703a50657273697374656e744c6576656c2e42505f4175746f6d61746564546f6f";
   "6c5f435f32313437343737363735001000000053657474696e67734368616e676564004a0000002f47616d652f44656661756c744d61702e44656661";
   "756c744d61703a50657273697374656e744c6576656c2e42505f4175746f6d61746564546f6f6c5f435f323134373437373636300010000000536574";
   "74696e67734368616e676564004a0000002f47616d652f44656661756c744d61702e44656661756c744d61703a50657273697374656e744c6576656c";
   "2e42505f4175746f6d61746564546f6f6c5f435f32313437343737363435001000000053657474696e67734368616e676564004a0000002f47616d65";
   "2f44656661756c744d61702e44656661756c744d61703a50657273697374656e744c6576656c2e42505f4175746f6d61746564546f6f6c5f435f3231";
   "3437343737313839001000000053657474696e67734368616e676564004a0000002f47616d652f44656661756c744d61702e44656661756c744d6170";
   "3a50657273697374656e744c6576656c2e42505f4175746f6d61746564546f6f6c5f435f32313437343737313632001000000053657474696e677343";
   "68616e676564000e000000417564696f53657474696e6773000f00000053747275637450726f70657274790092000000000000001200000047616d65";
   "417564696f53657474696e67730000000000000000000000000000000000000c0000004d61737465724c6576656c000e000000466c6f617450726f70";
   "6572747900040000000000000000715f503e0b0000004d757369634c6576656c000e000000466c6f617450726f706572747900040000000000000000";
   "9bca1a3e090000005346584c6576656c000e000000466c6f617450726f706572747900040000000000000000b9290b3f050000004e6f6e65000d0000";
   "0047616d6553657474696e6773000f00000053747275637450726f706572747900e1010000000000000d00000047616d6553657474696e6773000000";
   "0000000000000000000000000000001000000043757272656e7453617665536c6f74000c00000053747250726f7065727479000a0000000000000000";
   "060000005341564532000d0000004c6f61645475746f7269616c000d000000426f6f6c50726f70657274790000000000000000000000110000004469";
   "73706c61794e65774f7264657273000d000000426f6f6c50726f70657274790000000000000000000000100000004573636170654578697473546f6f";
   "6c000d000000426f6f6c50726f706572747900000000000000000000000c0000005573654461726b4d6f6465000d000000426f6f6c50726f70657274";
   "79000000000000000000010010000000416e696d6174654461794379636c65000d000000426f6f6c50726f7065727479000000000000000000000017";
   "000000456e61626c6554726163746f72436f6c6c6973696f6e000d000000426f6f6c50726f706572747900000000000000000000000e00000053686f";
   "77496e76656e746f7279000d000000426f6f6c50726f706572747900000000000000000001000c00000043616d657261416e676c65000f0000005374";
   "7275637450726f706572747900100000000000000009000000566563746f723244000000000000000000000000000000000000000080b322933e4000";
   "0040a66e364e40050000004e6f6e65000a0000004869676853636f7265000c000000496e7450726f706572747900040000000000000000590a000005";
   "0000004e6f6e650000000000"].
(** tests/common/vector2d.rs; one line each. *)
Definition vector2d_json : list string :=
  ["{";
   "  ""header"": {";
   "    ""type"": ""Version3"",";
   "    ""package_file_version"": 522,";
   "    ""package_file_version_ue5"": 1009,";
   "    ""engine_version"": {";
   "      ""major"": 5,";
   "      ""minor"": 3,";
   "      ""patch"": 2,";
   "      ""change_list"": 29314046,";
   "      ""branch"": ""++UE5+Release-5.3""";
   "    },";
   "    ""custom_version_format"": 3,";
   "    ""custom_versions"": {";
   "      ""22D5549C-BE4F-26A8-4607-2194D082B461"": 44,";
   "      ""A35C9162-F74B-8E1C-C712-0EA3F79D21C8"": 32,";
   "      ""240D40CC-7B4E-E9E0-83A2-F99B27C0C0DC"": 0,";
   "      ""E432D8B0-0D4F-891F-B77E-CFACA24AFD36"": 10,";
   "      ""2843C6E1-534D-2CA2-868E-6CA38CBD1764"": 0,";
   "      ""3CC15E37-FB48-E406-F084-00B57E712A26"": 4,";
   "      ""ED68B0E4-E942-94F4-0BDA-31A241BB462E"": 40,";
   "      ""3F74FCCF-8044-B043-DF14-919373201D17"": 37,";
   "      ""B5492BB0-E944-20BB-B732-04A36003E452"": 3,";
   "      ""5C10E4A4-B549-A159-C440-C5A7EEDF7E54"": 0,";
   "      ""C931C839-DC47-E65A-179C-449A7C8E1C3E"": 0,";
   "      ""331BF078-984F-EAEB-EA84-B4B9A25AB9CC"": 20,";
   "      ""0F383166-E043-4D2D-27CF-09805AA95669"": 0,";
   "      ""9F8BF812-FC4A-7588-0CD9-7CA629BD3A38"": 47,";
   "      ""4CE75A7B-104C-70D2-9857-58A95A2A210B"": 13,";
   "      ""186929D7-DD4B-D61D-A864-E29D8438C13C"": 3,";
   "      ""7852A1C2-FE4A-E7BF-FF90-176C55F71D53"": 1,";
   "      ""D4A3AC6E-C14C-EC40-ED8B-86B7C58F4209"": 3,";
   "      ""DD75E529-2746-A3E0-76D2-109DEADC2C23"": 17,";
   "      ""5DA643AF-4749-D37F-8E3E-739805BBC1D9"": 15,";
   "      ""EC6C266B-8F4B-C71E-D9E4-0BA307FC4209"": 1,";
   "      ""613DF70D-EA47-3FA2-E989-27B79A49410C"": 1,";
   "      ""86181D60-844F-64AC-DED3-16AAD6C7EA0D"": 111,";
   "      ""5B2CBC8D-E043-A754-BBFC-68A76090A27D"": 2,";
   "      ""B7064C5B-F84A-6324-70BF-5B80DDD0F5CD"": 10,";
   "      ""686308E7-584C-236B-701B-3984915E2616"": 11,";
   "      ""D6BCFF9D-5801-4F49-8212-21E288A8923C"": 10,";
   "      ""ACD0AEF2-6F41-FE9A-7FAA-6486FCD626FA"": 1,";
   "      ""0B1F4F17-A545-C6B4-E82E-3FB17D91FBD0"": 10,";
   "      ""834AF935-6C40-58E2-F509-18A37C241096"": 41,";
   "      ""6EC18FB6-E242-1B8B-5C21-53B4FE448805"": 1,";
   "      ""0685E1B2-C2CF-7342-BBF4-4EA507BA8B75"": 1,";
   "      ""3689F564-BA42-1BFD-8972-96BA4EFAD0D5"": 1,";
   "      ""81D57D69-AB41-4FE6-EC51-4AAA28B6B7BE"": 118,";
   "      ""425E9BD8-464D-BD24-A8AC-1284791764DF"": 47,";
   "      ""525DDA59-4849-3212-7859-78B88BE9B870"": 8,";
   "      ""325A0726-0847-0F73-328C-E988059D59F1"": 0,";
   "      ""27D80E6F-9548-09A6-8D99-919CA40E1890"": 2,";
   "      ""E38BD530-8242-EA95-59B1-E3A66AB0EBD8"": 1,";
   "      ""E79E7F71-3A49-B0E9-3291-B3880781381B"": 17,";
   "      ""FC09C468-8649-9570-D2AC-6389835186C4"": 3,";
   "      ""194D0C43-7049-5471-699B-6987E5B090DF"": 15,";
   "      ""BD32FEAA-144C-9553-255E-6AB6DDD13210"": 1,";
   "      ""8EE1AF23-584E-E14C-52C2-618DB7BE53B9"": 11,";
   "      ""EAB762A4-3A4E-99F4-1FEC-C199B2E12482"": 4,";
   "      ""BDFDB52E-104D-AC01-8FF3-3681DAA59333"": 5,";
   "      ""4F359D50-2F49-E6F6-B285-49A71C633C07"": 0,";
   "      ""3EF0A495-E449-0B7E-56D3-43BAD987FF94"": 7,";
   "      ""1C1BE3B6-EC11-9FD2-859F-7E85E270996F"": 1,";
   "      ""40EB564A-DC11-F510-7E34-D392E76AC9B2"": 3,";
   "      ""8A991784-EC43-C0BB-19D1-B38122272D07"": 19,";
   "      ""004A8AD7-9746-58E8-B519-A8BAB4467D48"": 18,";
   "      ""86F87955-1F4C-3A93-7B08-BA832FB96163"": 2,";
   "      ""52BE2F61-0B40-53DA-914F-0D917C85B19F"": 1,";
   "      ""367A23A4-C941-EACA-F818-A28FF31B6858"": 5,";
   "      ""753F4E80-494B-8870-068C-D6A4DCB67E3C"": 5,";
   "      ""F448D01E-684C-2E2F-A453-D0892D108FF1"": 1,";
   "      ""F20A68FB-A34B-EF59-B519-A8BA3D44C873"": 2,";
   "      ""0EB75099-174E-1AB4-0DFA-CCBBD67F8157"": 1,";
   "      ""CD14175E-5129-4E48-A789-7A7078AB0293"": 3,";
   "      ""7B472509-0140-3D76-73D6-919D11B4750B"": 1,";
   "      ""1B218842-C616-4845-B267-761A002A7A50"": 1,";
   "      ""9B9549DC-E74D-C053-88EA-5691395D7C5E"": 2,";
   "      ""FB0C82A7-5943-A720-142C-548C50CF2396"": 27,";
   "      ""4E7CE782-A543-2333-C513-6BB4F30D3197"": 0,";
   "      ""AA1C1EE2-5E42-47AF-D46A-BF89BBA8444C"": 0,";
   "      ""7E154A13-A349-E2D5-3C84-4E8D319EFE98"": 2,";
   "      ""FA7AF5FC-8342-7650-58E6-A9B9322DA0FF"": 79,";
   "      ""ED0A3111-614D-552E-A39A-67AF2C08A1C5"": 17,";
   "      ""78BBDFF6-E4A0-50BB-4DB8-184023AFCB60"": 2,";
   "      ""F37ABB24-834F-4656-C22D-2F1FFF96AD49"": 5,";
   "      ""2923A576-B545-2309-41D8-AE98D86A2FCF"": 5,";
   "      ""0769BC5F-AE40-C855-84F1-678E3FF1FF5E"": 1,";
   "      ""438C7392-9C4D-8829-BE9B-3D9AC09FFF6E"": 1";
   "    },";
   "    ""save_game_class_name"": ""/Game/_Blueprints/BP_SettingsSave.BP_SettingsSave_C""";
   "  },";
   "  ""properties"": {";
   "    ""SettingsChanged"": {";
   "      ""type"": ""MulticastInlineDelegateProperty"",";
   "      ""value"": {";
   "        ""delegates"": [";
   "          {";
   "            ""object"": ""/Game/DefaultMap.DefaultMap:PersistentLevel.BP_ActionTool_WaterGauge_C_2147482315"",";
   "            ""function_name"": ""SettingsChanged_Event""";
   "          },";
   "          {";
   "            ""object"": ""/Game/DefaultMap.DefaultMap:PersistentLevel.BP_ActionTool_Plow_C_2147482312"",";
   "            ""function_name"": ""SettingsChanged_Event""";
   "          },";
   "          {";
   "            ""object"": ""/Game/DefaultMap.DefaultMap:PersistentLevel.BP_ActionTool_Plow_Row_Single_C_2147482309"",";
   "            ""function_name"": ""SettingsChanged_Event""";
   "          },";
   "          {";
   "            ""object"": ""/Game/DefaultMap.DefaultMap:PersistentLevel.BP_ActionTool_Plow_Row_3_C_2147482305"",";
   "            ""function_name"": ""SettingsChanged_Event""";
   "          },";
   "          {";
   "            ""object"": ""/Game/DefaultMap.DefaultMap:PersistentLevel.BP_ActionTool_Plow_5Row_C_2147482301"",";
   "            ""function_name"": ""SettingsChanged_Event""";
   "          },";
   "          {";
   "            ""object"": ""/Game/DefaultMap.DefaultMap:PersistentLevel.BP_ActionTool_Plow_Row_5_C_2147482297"",";
   "            ""function_name"": ""SettingsChanged_Event""";
   "          },";
   "          {";
   "            ""object"": ""/Game/DefaultMap.DefaultMap:PersistentLevel.BP_ActionTool_Plant_C_2147482293"",";
   "            ""function_name"": ""SettingsChanged_Event""";
   "          },";
   "          {";
   "            ""object"": ""/Game/DefaultMap.DefaultMap:PersistentLevel.BP_ActionTool_Plant_Row_C_2147482286"",";
   "            ""function_name"": ""SettingsChanged_Event""";
   "          },";
   "          {";
   "            ""object"": ""/Game/DefaultMap.DefaultMap:PersistentLevel.BP_ActionTool_Plant_Row3_C_2147482280"",";
   "            ""function_name"": ""SettingsChanged_Event""";
   "          },";
   "          {";
   "            ""object"": ""/Game/DefaultMap.DefaultMap:PersistentLevel.BP_ActionTool_Plant_Row5_C_2147482274"",";
   "            ""function_name"": ""SettingsChanged_Event""";
   "          },";
   "          {";
   "            ""object"": ""/Game/DefaultMap.DefaultMap:PersistentLevel.BP_ActionTool_Cultivate_C_2147482268"",";
   "            ""function_name"": ""SettingsChanged_Event""";
   "          },";
   "          {";
   "            ""object"": ""/Game/DefaultMap.DefaultMap:PersistentLevel.BP_ActionTool_Cultivate_Row_C_2147482265"",";
   "            ""function_name"": ""SettingsChanged_Event""";
   "          },";
   "          {";
   "            ""object"": ""/Game/DefaultMap.DefaultMap:PersistentLevel.BP_ActionTool_Cultivate_Row3_C_2147482261"",";
   "            ""function_name"": ""SettingsChanged_Event""";
   "          },";
   "          {";
   "            ""object"": ""/Game/DefaultMap.DefaultMap:PersistentLevel.BP_ActionTool_Cultivate_Row5_C_2147482257"",";
   "            ""function_name"": ""SettingsChanged_Event""";
   "          },";
   "          {";
   "            ""object"": ""/Game/DefaultMap.DefaultMap:PersistentLevel.BP_ActionTool_PlasticRow_C_2147482253"",";
   "            ""function_name"": ""SettingsChanged_Event""";
   "          },";
   "          {";
   "            ""object"": ""/Game/DefaultMap.DefaultMap:PersistentLevel.BP_ActionTool_Purchase_C_2147482249"",";
   "            ""function_name"": ""SettingsChanged_Event""";
   "          },";
   "          {";
   "            ""object"": ""/Game/DefaultMap.DefaultMap:PersistentLevel.BP_ActionTool_Purchase_1x10_C_2147482242"",";
   "            ""function_name"": ""SettingsChanged_Event""";
   "          },";
   "          {";
   "            ""object"": ""/Game/DefaultMap.DefaultMap:PersistentLevel.BP_ActionTool_Purchase_3Row_C_2147482235"",";
   "            ""function_name"": ""SettingsChanged_Event""";
   "          },";
   "          {";
   "            ""object"": ""/Game/DefaultMap.DefaultMap:PersistentLevel.BP_ActionTool_Purchase_5Row_C_2147482228"",";
   "            ""function_name"": ""SettingsChanged_Event""";
   "          },";
   "          {";
   "            ""object"": ""/Game/DefaultMap.DefaultMap:PersistentLevel.BP_ActionTool_Purchase_10x10_C_2147482221"",";
   "            ""function_name"": ""SettingsChanged_Event""";
   "          },";
   "          {";
   "            ""object"": ""/Game/DefaultMap.DefaultMap:PersistentLevel.BP_ActionTool_Modify_C_2147482214"",";
   "            ""function_name"": ""SettingsChanged_Event""";
   "          },";
   "          {";
   "            ""object"": ""/Game/DefaultMap.DefaultMap:PersistentLevel.BP_ActionTool_Row_C_2147482198"",";
   "            ""function_name"": ""SettingsChanged_Event""";
   "          },";
   "          {";
   "            ""object"": ""/Game/DefaultMap.DefaultMap:PersistentLevel.BP_ActionTool_Row3_C_2147482181"",";
   "            ""function_name"": ""SettingsChanged_Event""";
   "          },";
   "          {";
   "            ""object"": ""/Game/DefaultMap.DefaultMap:PersistentLevel.BP_ActionTool_Harvest_C_2147482164"",";
   "            ""function_name"": ""SettingsChanged_Event""";
   "          },";
   "          {";
   "            ""object"": ""/Game/DefaultMap.DefaultMap:PersistentLevel.BP_ActionTool_Harvest_Row_C_2147482161"",";
   "            ""function_name"": ""SettingsChanged_Event""";
   "          },";
   "          {";
   "            ""object"": ""/Game/DefaultMap.DefaultMap:PersistentLevel.BP_ActionTool_Harvest_Row_3_C_2147482157"",";
   "            ""function_name"": ""SettingsChanged_Event""";
   "          },";
   "          {";
   "            ""object"": ""/Game/DefaultMap.DefaultMap:PersistentLevel.BP_ActionTool_Harvest_Row_5_C_2147482153"",";
   "            ""function_name"": ""SettingsChanged_Event""";
   "          },";
   "          {";
   "            ""object"": ""/Game/DefaultMap.DefaultMap:PersistentLevel.BP_ActionTool_Harvest_Row_C_2147482149"",";
   "            ""function_name"": ""SettingsChanged_Event""";
   "          },";
   "          {";
   "            ""object"": ""/Game/DefaultMap.DefaultMap:PersistentLevel.BP_ActionTool_AutomatedActionControl_C_2147482145"",";
   "            ""function_name"": ""SettingsChanged_Event""";
   "          },";
   "          {";
   "            ""object"": ""/Game/DefaultMap.DefaultMap:PersistentLevel.BP_ActionTool_RemovePlaceable_C_2147482142"",";
   "            ""function_name"": ""SettingsChanged_Event""";
   "          },";
   "          {";
   "            ""object"": ""/Game/DefaultMap.DefaultMap:PersistentLevel.BP_ActionTool_SeedSilo_C_2147482139"",";
   "            ""function_name"": ""SettingsChanged_Event""";
   "          },";
   "          {";
   "            ""object"": ""/Game/DefaultMap.DefaultMap:PersistentLevel.BP_ActionTool_TractorBarn_C_2147482132"",";
   "            ""function_name"": ""SettingsChanged_Event""";
   "          },";
   "          {";
   "            ""object"": ""/Game/DefaultMap.DefaultMap:PersistentLevel.BP_ActionTool_Sell_C_2147482125"",";
   "            ""function_name"": ""SettingsChanged_Event""";
   "          },";
   "          {";
   "            ""object"": ""/Game/DefaultMap.DefaultMap:PersistentLevel.BP_ActionTool_FuelStorageTank_C_2147482118"",";
   "            ""function_name"": ""SettingsChanged_Event""";
   "          },";
   "          {";
   "            ""object"": ""/Game/DefaultMap.DefaultMap:PersistentLevel.BP_ActionTool_ChickenRun_C_2147482115"",";
   "            ""function_name"": ""SettingsChanged_Event""";
   "          },";
   "          {";
   "            ""object"": ""/Game/DefaultMap.DefaultMap:PersistentLevel.BP_ActionTool_MovePlaceable_C_2147482112"",";
   "            ""function_name"": ""SettingsChanged_Event""";
   "          },";
   "          {";
   "            ""object"": ""/Game/DefaultMap.DefaultMap:PersistentLevel.BP_ActionTool_Beehive_C_2147482109"",";
   "            ""function_name"": ""SettingsChanged_Event""";
   "          },";
   "          {";
   "            ""object"": ""/Game/DefaultMap.DefaultMap:PersistentLevel.BP_SetPHTool_Row_C_2147482106"",";
   "            ""function_name"": ""SettingsChanged_Event""";
   "          },";
   "          {";
   "            ""object"": ""/Game/DefaultMap.DefaultMap:PersistentLevel.BP_ActionTool_BiodieselRefinery_C_2147482089"",";
   "            ""function_name"": ""SettingsChanged_Event""";
   "          },";
   "          {";
   "            ""object"": ""/Game/DefaultMap.DefaultMap:PersistentLevel.BP_ActionTool_OilPress_C_2147482086"",";
   "            ""function_name"": ""SettingsChanged_Event""";
   "          },";
   "          {";
   "            ""object"": ""/Game/DefaultMap.DefaultMap:PersistentLevel.BP_ActionTool_FlourMill_C_2147482083"",";
   "            ""function_name"": ""SettingsChanged_Event""";
   "          },";
   "          {";
   "            ""object"": ""/Game/DefaultMap.DefaultMap:PersistentLevel.BP_ActionTool_LargeChickenCoop_C_2147482080"",";
   "            ""function_name"": ""SettingsChanged_Event""";
   "          },";
   "          {";
   "            ""object"": ""/Game/DefaultMap.DefaultMap:PersistentLevel.BP_ActionTool_CropSign_C_2147482077"",";
   "            ""function_name"": ""SettingsChanged_Event""";
   "          },";
   "          {";
   "            ""object"": ""/Game/DefaultMap.DefaultMap:PersistentLevel.BP_ActionTool_Mulch_C_2147482070"",";
   "            ""function_name"": ""SettingsChanged_Event""";
   "          },";
   "          {";
   "            ""object"": ""/Game/DefaultMap.DefaultMap:PersistentLevel.BP_ActionTool_Mulch_Row_C_2147482054"",";
   "            ""function_name"": ""SettingsChanged_Event""";
   "          },";
   "          {";
   "            ""object"": ""/Game/DefaultMap.DefaultMap:PersistentLevel.BP_ActionTool_Mulch_Row3_C_2147482037"",";
   "            ""function_name"": ""SettingsChanged_Event""";
   "          },";
   "          {";
   "            ""object"": ""/Game/DefaultMap.DefaultMap:PersistentLevel.BP_ActionTool_Warehouse_C_2147482020"",";
   "            ""function_name"": ""SettingsChanged_Event""";
   "          },";
   "          {";
   "            ""object"": ""/Game/DefaultMap.DefaultMap:PersistentLevel.BP_ActionTool_HarvestSilo_C_2147482013"",";
   "            ""function_name"": ""SettingsChanged_Event""";
   "          },";
   "          {";
   "            ""object"": ""/Game/DefaultMap.DefaultMap:PersistentLevel.BP_ActionTool_Stockpile_C_2147482008"",";
   "            ""function_name"": ""SettingsChanged_Event""";
   "          },";
   "          {";
   "            ""object"": ""/Game/DefaultMap.DefaultMap:PersistentLevel.BP_ActionTool_CompostStation_C_2147482001"",";
   "            ""function_name"": ""SettingsChanged_Event""";
   "          },";
   "          {";
   "            ""object"": ""/Game/DefaultMap.DefaultMap:PersistentLevel.BP_Renders_C_1"",";
   "            ""function_name"": ""SettingsChanged""";
   "          },";
   "          {";
   "            ""object"": ""/Game/DefaultMap.DefaultMap:PersistentLevel.BP_PlayerPawn_C_2147482331"",";
   "            ""function_name"": ""UpdatedSavedSettings""";
   "          },";
   "          {";
   "            ""object"": ""/Game/DefaultMap.DefaultMap:PersistentLevel.BP_AutomatedTool_C_2147478921"",";
   "            ""function_name"": ""SettingsChanged""";
   "          },";
   "          {";
   "            ""object"": ""/Game/DefaultMap.DefaultMap:PersistentLevel.BP_AutomatedTool_C_2147478905"",";
   "            ""function_name"": ""SettingsChanged""";
   "          },";
   "          {";
   "            ""object"": ""/Game/DefaultMap.DefaultMap:PersistentLevel.BP_AutomatedTool_C_2147478890"",";
   "            ""function_name"": ""SettingsChanged""";
   "          },";
   "          {";
   "            ""object"": ""/Game/DefaultMap.DefaultMap:PersistentLevel.BP_AutomatedTool_C_2147478875"",";
   "            ""function_name"": ""SettingsChanged""";
   "          },";
   "          {";
   "            ""object"": ""/Game/DefaultMap.DefaultMap:PersistentLevel.BP_AutomatedTool_C_2147478860"",";
   "            ""function_name"": ""SettingsChanged""";
   "          },";
   "          {";
   "            ""object"": ""/Game/DefaultMap.DefaultMap:PersistentLevel.BP_AutomatedTool_C_2147478303"",";
   "            ""function_name"": ""SettingsChanged""";
   "          },";
   "          {";
   "            ""object"": ""/Game/DefaultMap.DefaultMap:PersistentLevel.BP_AutomatedTool_C_2147478288"",";
   "            ""function_name"": ""SettingsChanged""";
   "          },";
   "          {";
   "            ""object"": ""/Game/DefaultMap.DefaultMap:PersistentLevel.BP_AutomatedTool_C_2147478273"",";
   "            ""function_name"": ""SettingsChanged""";
   "          },";
   "          {";
   "            ""object"": ""/Game/DefaultMap.DefaultMap:PersistentLevel.BP_AutomatedTool_C_2147478258"",";
   "            ""function_name"": ""SettingsChanged""";
   "          },";
   "          {";
   "            ""object"": ""/Game/DefaultMap.DefaultMap:PersistentLevel.BP_AutomatedTool_C_2147478243"",";
   "            ""function_name"": ""SettingsChanged""";
   "          },";
   "          {";
   "            ""object"": ""/Game/DefaultMap.DefaultMap:PersistentLevel.BP_AutomatedTool_C_2147478228"",";
   "            ""function_name"": ""SettingsChanged""";
   "          },";
   "          {";
   "            ""object"": ""/Game/DefaultMap.DefaultMap:PersistentLevel.BP_AutomatedTool_C_2147478141"",";
   "            ""function_name"": ""SettingsChanged""";
   "          },";
   "          {";
   "            ""object"": ""/Game/DefaultMap.DefaultMap:PersistentLevel.BP_AutomatedTool_C_2147478126"",";
   "            ""function_name"": ""SettingsChanged""";
   "          },";
   "          {";
   "            ""object"": ""/Game/DefaultMap.DefaultMap:PersistentLevel.BP_AutomatedTool_C_2147478111"",";
   "            ""function_name"": ""SettingsChanged""";
   "          },";
   "          {";
   "            ""object"": ""/Game/DefaultMap.DefaultMap:PersistentLevel.BP_AutomatedTool_C_2147478096"",";
   "            ""function_name"": ""SettingsChanged""";
   "          },";
   "          {";
   "            ""object"": ""/Game/DefaultMap.DefaultMap:PersistentLevel.BP_AutomatedTool_C_2147477750"",";
   "            ""function_name"": ""SettingsChanged""";
   "          },";
   "          {";
   "            ""object"": ""/Game/DefaultMap.DefaultMap:PersistentLevel.BP_AutomatedTool_C_2147477735"",";
   "            ""function_name"": ""SettingsChanged""";
   "          },";
   "          {";
   "            ""object"": ""/Game/DefaultMap.DefaultMap:PersistentLevel.BP_AutomatedTool_C_2147477720"",";
   "            ""function_name"": ""SettingsChanged""";
   "          },";
   "          {";
   "            ""object"": ""/Game/DefaultMap.DefaultMap:PersistentLevel.BP_AutomatedTool_C_2147477705"",";
   "            ""function_name"": ""SettingsChanged""";
   "          },";
   "          {";
   "            ""object"": ""/Game/DefaultMap.DefaultMap:PersistentLevel.BP_AutomatedTool_C_2147477690"",";
   "            ""function_name"": ""SettingsChanged""";
   "          },";
   "          {";
   "            ""object"": ""/Game/DefaultMap.DefaultMap:PersistentLevel.BP_AutomatedTool_C_2147477675"",";
   "            ""function_name"": ""SettingsChanged""";
   "          },";
   "          {";
   "            ""object"": ""/Game/DefaultMap.DefaultMap:PersistentLevel.BP_AutomatedTool_C_2147477660"",";
   "            ""function_name"": ""SettingsChanged""";
   "          },";
   "          {";
   "            ""object"": ""/Game/DefaultMap.DefaultMap:PersistentLevel.BP_AutomatedTool_C_2147477645"",";
   "            ""function_name"": ""SettingsChanged""";
   "          },";
   "          {";
   "            ""object"": ""/Game/DefaultMap.DefaultMap:PersistentLevel.BP_AutomatedTool_C_2147477189"",";
   "            ""function_name"": ""SettingsChanged""";
   "          },";
   "          {";
   "            ""object"": ""/Game/DefaultMap.DefaultMap:PersistentLevel.BP_AutomatedTool_C_2147477162"",";
   "            ""function_name"": ""SettingsChanged""";
   "          }";
   "        ]";
   "      }";
   "    },";
   "    ""AudioSettings"": {";
   "      ""type"": ""StructProperty"",";
   "      ""type_name"": ""GameAudioSettings"",";
   "      ""CustomStruct"": {";
   "        ""MasterLevel"": [";
   "          {";
   "            ""type"": ""FloatProperty"",";
   "            ""value"": 0.20348908";
   "          }";
   "        ],";
   "        ""MusicLevel"": [";
   "          {";
   "            ""type"": ""FloatProperty"",";
   "            ""value"": 0.1511635";
   "          }";
   "        ],";
   "        ""SFXLevel"": [";
   "          {";
   "            ""type"": ""FloatProperty"",";
   "            ""value"": 0.5436054";
   "          }";
   "        ]";
   "      }";
   "    },";
   "    ""GameSettings"": {";
   "      ""type"": ""StructProperty"",";
   "      ""type_name"": ""GameSettings"",";
   "      ""CustomStruct"": {";
   "        ""CurrentSaveSlot"": [";
   "          {";
   "            ""type"": ""StrProperty"",";
   "            ""value"": ""SAVE2""";
   "          }";
   "        ],";
   "        ""LoadTutorial"": [";
   "          {";
   "            ""type"": ""BoolProperty"",";
   "            ""value"": false";
   "          }";
   "        ],";
   "        ""DisplayNewOrders"": [";
   "          {";
   "            ""type"": ""BoolProperty"",";
   "            ""value"": false";
   "          }";
   "        ],";
   "        ""EscapeExitsTool"": [";
   "          {";
   "            ""type"": ""BoolProperty"",";
   "            ""value"": false";
   "          }";
   "        ],";
   "        ""UseDarkMode"": [";
   "          {";
   "            ""type"": ""BoolProperty"",";
   "            ""value"": true";
   "          }";
   "        ],";
   "        ""AnimateDayCycle"": [";
   "          {";
   "            ""type"": ""BoolProperty"",";
   "            ""value"": false";
   "          }";
   "        ],";
   "        ""EnableTractorCollision"": [";
   "          {";
   "            ""type"": ""BoolProperty"",";
   "            ""value"": false";
   "          }";
   "        ],";
   "        ""ShowInventory"": [";
   "          {";
   "            ""type"": ""BoolProperty"",";
   "            ""value"": true";
   "          }";
   "        ],";
   "        ""CameraAngle"": [";
   "          {";
   "            ""type"": ""StructProperty"",";
   "            ""type_name"": ""Vector2D"",";
   "            ""Vector2D"": {";
   "              ""x"": 30.574748247861862,";
   "              ""y"": 60.42525175213814";
   "            }";
   "          }";
   "        ]";
   "      }";
   "    },";
   "    ""HighScore"": {";
   "      ""type"": ""IntProperty"",";
   "      ""value"": 2649";
   "    }";
   "  }";
   "}"].

(** resources/test/Profile_0.sav, 20237 bytes. *)
Definition profile_0_hex : list string :=
  ["47564153020000000a02000004001b00020000000000130000002b2b5545342b52656c656173652d342e323700030000003500000012e426fb4d4b15";
   "1f0a557293702f1d9603000000f37abb24834f4656c22d2f1fff96ad4905000000fa7af5fc8342765058e6a9b9322da0ff44000000ed0a3111614d55";
   "2ea39a67af2c08a1c5110000002923a576b545230941d8ae98d86a2fcf050000000769bc5fae40c85584f1678e3ff1ff5e010000004e7ce782a54323";
   "33c5136bb4f30d31970000000022d5549cbe4f26a846072194d082b4612b000000e432d8b00d4f891fb77ecfaca24afd360a0000002843c6e1534d2c";
   "a2868e6ca38cbd1764000000003cc15e37fb48e406f08400b57e712a2604000000ed68b0e4e94294f40bda31a241bb462e280000003f74fccf8044b0";
   "43df14919373201d1725000000b5492bb0e94420bbb73204a36003e452030000005c10e4a4b549a159c440c5a7eedf7e5400000000c931c839dc47e6";
   "5a179c449a7c8e1c3e00000000331bf078984feaebea84b4b9a25ab9cc0e0000000f383166e0434d2d27cf09805aa95669000000009f8bf812fc4a75";
   "880cd97ca629bd3a382d0000004ce75a7b104c70d2985758a95a2a210b0d000000186929d7dd4bd61da864e29d8438c13c030000007852a1c2fe4ae7";
   "bfff90176c55f71d5301000000d4a3ac6ec14cec40ed8b86b7c58f420903000000dd75e5292746a3e076d2109deadc2c23110000005da643af4749d3";
   "7f8e3e739805bbc1d90f000000ec6c266b8f4bc71ed9e40ba307fc420901000000613df70dea473fa2e98927b79a49410c0100000086181d60844f64";
   "acded316aad6c7ea0d2f000000686308e7584c236b701b3984915e261601000000d6bcff9d58014f49821221e288a8923c0a000000acd0aef26f41fe";
   "9a7faa6486fcd626fa010000000b1f4f17a545c6b4e82e3fb17d91fbd00a000000834af9356c4058e2f50918a37c241096290000006ec18fb6e2421b";
   "8b5c2153b4fe448805010000000685e1b2c2cf7342bbf44ea507ba8b75010000003689f564ba421bfd897296ba4efad0d50100000027d80e6f954809";
   "a68d99919ca40e189002000000e79e7f713a49b0e93291b3880781381b0800000050326854af4899809698c88bb7f9adfb00000000194d0c43704954";
   "71699b6987e5b090df0f000000bd32feaa144c9553255e6ab6ddd13210010000008ee1af23584ee14c52c2618db7be53b90b000000eab762a43a4e99";
   "f41fecc199b2e1248204000000bdfdb52e104dac018ff33681daa59333050000004f359d502f49e6f6b28549a71c633c070000000040eb564adc11f5";
   "107e34d392e76ac9b202000000004a8ad7974658e8b519a8bab4467d481200000086f879551f4c3a937b08ba832fb961630200000052be2f610b4053";
   "da914f0d917c85b19f01000000367a23a4c941eacaf818a28ff31b685804000000753f4e80494b8870068cd6a4dcb67e3c05000000f20a68fba34bef";
   "59b519a8ba3d44c873020000000eb75099174e1ab40dfaccbbd67f815701000000210000002f5363726970742f45636f6e436f72652e47656e657269";
   "635361766547616d65000a0000006462537472696e6773000c0000004d617050726f70657274790066010000000000000c00000053747250726f7065";
   "727479000c00000053747250726f7065727479000000000000090000001500000053746f72792f43616d706169676e2f696e646578000b0000006331";
   "2e6d3139612e733200060000006d75736963000f0000006d757369632e6c617374686f7065000f0000007072656665726564456e67696e65000d0000";
   "0044696573656c456e67696e6500190000004f7074696f6e5f73657474696e67732e612e6d6173746572000600000035302e302500180000004f7074";
   "696f6e5f73657474696e67732e612e6d75736963000600000035302e3025001d0000004f7074696f6e5f73657474696e67732e672e7465727261696e";
   "726573000b00000074666163746f722e783200190000004f7074696f6e5f73657474696e67732e6470697363616c6500050000003132302500180000";
   "004f7074696f6e5f73657474696e67732e64617974696d65000f000000746f67676c652e656e61626c65640013000000707265666572656454726169";
   "6e436f6c6f7200080000004372696d736f6e000a00000064624e756d62657273000c0000004d617050726f70657274790010210000000000000c0000";
   "0053747250726f7065727479000c000000496e7450726f7065727479000000000000b5000000120000005365656e4d6f7669655f57656c636f6d6500";
   "01000000140000006d6574612e617474656d7074696e676c6f616400000000001c000000617070656172696e5f6c6173747366785f74696d655f696e";
   "74726f001e2200001c000000617070656172696e5f6c6173747366785f74696d655f6f7574726f00222200002a000000706c617974696d655f343138";
   "414436304134354643453331304539443344454235423938393445463200260000002a0000006265737472616e6b5f34313841443630413435464345";
   "333130453944334445423542393839344546320004000000060000006d6f6e6579000e00000015000000726f616d506c61796572506f736974696f6e";
   "5f7800aafaffff15000000726f616d506c61796572506f736974696f6e5f79005afcffff2a000000706c617974696d655f3241423642353736343532";
   "31343934423844453737383931454644304138414500440000002a0000006265737472616e6b5f324142364235373634353231343934423844453737";
   "383931454644304138414500040000002a000000706c617974696d655f39363936353638393431343636443434414539354444394631463137303030";
   "3400430000002a0000006265737472616e6b5f393639363536383934313436364434344145393544443946314631373030303400040000001e000000";
   "706c61797374796c652e6d6f6469666965722e6e6f67686f7374696e6700000000001b000000706c61797374796c652e6d6f6469666965722e6e6f74";
   "696d6572000000000021000000706c61797374796c652e6d6f6469666965722e696e66696e6974656d6f6e657900000000001b000000706c61797374";
   "796c652e6d6f6469666965722e656e646c65737300000000002a000000706c617974696d655f31393743334144313439313545303446323433363233";
   "3938314638394341333200f00100002a0000006265737472616e6b5f3139374333414431343931354530344632343336323339383146383943413332";
   "0004000000230000006469644e6f746966795f756e6c6f636b2e706c61636561626c652e6f696c77656c6c0001000000220000006469644e6f746966";
   "795f756e6c6f636b2e757067726164652e6f696c706f77657200010000002a000000706c617974696d655f3237353834384336344543304446414330";
   "30444638313934383246354533314400220300002a0000006265737472616e6b5f323735383438433634454330444641433030444638313934383246";
   "354533314400040000001d0000006469644e6f746966795f756e6c6f636b2e4261736963456e67696e6500010000002a000000706c617974696d655f";
   "3832413942343646343242463643353535354436303841363631394233354536005e0500002a0000006265737472616e6b5f38324139423436463432";
   "4246364335353535443630384136363139423335453600040000001e0000006469644e6f746966795f756e6c6f636b2e437573746f6d456e67696e65";
   "0001000000260000006469644e6f746966795f756e6c6f636b2e706c61636561626c652e67656f746865726d616c00010000002a000000706c617974";
   "696d655f3937364239343538343844393242393239424339333138313434443241464439004f0600002a0000006265737472616e6b5f393736423934";
   "35383438443932423932394243393331383134344432414644390002000000240000006469644e6f746966795f756e6c6f636b2e706c61636561626c";
   "652e6f696c706f7765720001000000290000006469644e6f746966795f756e6c6f636b2e706c61636561626c652e6c696d6573746f6e656d696e6500";
   "01000000260000006469644e6f746966795f756e6c6f636b2e706c61636561626c652e636f707065726d696e650001000000280000006469644e6f74";
   "6966795f756e6c6f636b2e706c61636561626c652e636f6e6372657465796172640001000000260000006469644e6f746966795f756e6c6f636b2e75";
   "7067726164652e636f6e6372657465796172640001000000200000006469644e6f746966795f756e6c6f636b2e757067726164652e636f696c657200";
   "010000002a000000706c617974696d655f323335363543423134343043324638434632394132304245304633343445313400e10600002a0000006265";
   "737472616e6b5f323335363543423134343043324638434632394132304245304633343445313400030000001f0000006469644e6f746966795f756e";
   "6c6f636b2e6175746f4272616e6368696e6700010000002a000000706c617974696d655f433430414241393434433036323135453942413146333830";
   "383739384244373800620300002a0000006265737472616e6b5f43343041424139343443303632313545394241314633383038373938424437380004";
   "0000002a000000706c617974696d655f414244363637364234443246323935433243353646374243374138304346314200190400002a000000626573";
   "7472616e6b5f41424436363736423444324632393543324335364637424337413830434631420004000000210000006469644e6f746966795f756e6c";
   "6f636b2e686569676874496e6372656173653100010000002a000000706c617974696d655f3041343635423732343236333538334242424143343639";
   "46453744383532463800cf0800002a0000006265737472616e6b5f304134363542373234323633353833424242414334363946453744383532463800";
   "01000000260000006469644e6f746966795f756e6c6f636b2e706c61636561626c652e73616c747369667465720001000000240000006469644e6f74";
   "6966795f756e6c6f636b2e706c61636561626c652e636f616c6d696e650001000000240000006469644e6f746966795f756e6c6f636b2e7570677261";
   "64652e73616c7473696674657200010000002a000000706c617974696d655f3743413642383143344232374433444435443931313041393142443342";
   "33333300e60b00002a0000006265737472616e6b5f374341364238314334423237443344443544393131304139314244334233333300010000002500";
   "00006469644e6f746966795f756e6c6f636b2e706c61636561626c652e636f616c706f77657200010000001f0000006469644e6f746966795f756e6c";
   "6f636b2e436c696d626572456e67696e650001000000240000006469644e6f746966795f756e6c6f636b2e706c61636561626c652e69726f6e6d696e";
   "6500010000002a000000706c617974696d655f453241423446314234373833453538304446313946354242313034384334304300ea0400002a000000";
   "6265737472616e6b5f45324142344631423437383345353830444631394635424231303438433430430004000000250000006469644e6f746966795f";
   "756e6c6f636b2e706c61636561626c652e737465656c6d696c6c00010000002a000000706c617974696d655f45353445434134423445424536383039";
   "35324331453141313038454246454436007a0500002a0000006265737472616e6b5f4535344543413442344542453638303935324331453141313038";
   "4542464544360004000000270000006469644e6f746966795f756e6c6f636b2e706c61636561626c652e706c6173746963697a657200010000002a00";
   "0000706c617974696d655f334432443846333234434135324234353734313339303942384641303644424400380c00002a0000006265737472616e6b";
   "5f334432443846333234434135324234353734313339303942384641303644424400020000002e0000006469644e6f746966795f756e6c6f636b2e70";
   "6c61636561626c652e6675726e6974757265417373656d626c65720001000000250000006469644e6f746966795f756e6c6f636b2e75706772616465";
   "2e706c6173746963697a657200010000002c0000006469644e6f746966795f756e6c6f636b2e757067726164652e6675726e6974757265617373656d";
   "626c65720001000000230000006469644e6f746966795f756e6c6f636b2e757067726164652e636f616c706f7765720001000000230000006469644e";
   "6f746966795f756e6c6f636b2e757067726164652e737465656c6d696c6c00010000002a000000706c617974696d655f373943303034373934313439";
   "424145463944303144303831324434363843373300a30600002a0000006265737472616e6b5f37394330303437393431343942414546394430314430";
   "3831324434363843373300030000002a000000706c617974696d655f4333353146353933343538424133313430353743343439363444313737393645";
   "00740700002a0000006265737472616e6b5f433335314635393334353842413331343035374334343936344431373739364500040000002800000064";
   "69644e6f746966795f756e6c6f636b2e706c61636561626c652e676f6f6473666163746f72790001000000270000006469644e6f746966795f756e6c";
   "6f636b2e706c61636561626c652e6f696c726566696e6572790001000000240000006469644e6f746966795f756e6c6f636b2e706c61636561626c65";
   "2e686172646d6f6c640001000000280000006469644e6f746966795f756e6c6f636b2e706c61636561626c652e6e656f6e726566696e657279000100";
   "00002a000000706c617974696d655f434537303437393934453237463235303133303942464246313035303439333900c10900002a00000062657374";
   "72616e6b5f434537303437393934453237463235303133303942464246313035303439333900030000002a000000706c617974696d655f3646323644";
   "38344534394546374545303531363538443838363835383034413300e50a00002a0000006265737472616e6b5f364632364438344534394546374545";
   "30353136353844383836383538303441330002000000270000006469644e6f746966795f756e6c6f636b2e706c61636561626c652e696e63696e6572";
   "61746f720001000000280000006469644e6f746966795f756e6c6f636b2e706c61636561626c652e6f726567617373696669657200010000002a0000";
   "006469644e6f746966795f756e6c6f636b2e706c61636561626c652e656c656374726f6e6963736661620001000000260000006469644e6f74696679";
   "5f756e6c6f636b2e757067726164652e676f6f6473666163746f727900010000002a000000706c617974696d655f3737393241313641343731464436";
   "41424142423139433930394138373930323300a11000002a0000006265737472616e6b5f373739324131364134373146443641424142423139433930";
   "394138373930323300020000002a000000706c617974696d655f41384339313643413434413846323336303438414338384233423944394431420017";
   "0100002a0000006265737472616e6b5f413843393136434134344138463233363034384143383842334239443944314200040000002a000000706c61";
   "7974696d655f383031374344423534443744314433363842333039313938383331413135463100fe0a00002a0000006265737472616e6b5f38303137";
   "434442353444374431443336384233303931393838333141313546310004000000230000006469644e6f746966795f756e6c6f636b2e706c61636561";
   "626c652e746f6f6c6469650001000000210000006469644e6f746966795f756e6c6f636b2e757067726164652e746f6f6c64696500010000002a0000";
   "00706c617974696d655f3245333345353732343235313935324537353044364641323942364136323432002d0d00002a0000006265737472616e6b5f";
   "324533334535373234323531393532453735304436464132394236413632343200030000002a000000706c617974696d655f42444530313745333442";
   "3735433134453836443941413937334546453333383500230600002a0000006265737472616e6b5f4244453031374533344237354331344538364439";
   "4141393733454645333338350004000000250000006469644e6f746966795f756e6c6f636b2e757067726164652e6f696c726566696e657279000100";
   "00002a000000706c617974696d655f464445364541354234314539444637323239373839413933414534453831373000fc0900002a00000062657374";
   "72616e6b5f464445364541354234314539444637323239373839413933414534453831373000030000002a000000706c617974696d655f4536443641";
   "393243343342313337453243384234303241304634334535463531003e0900002a0000006265737472616e6b5f453644364139324334334231333745";
   "32433842343032413046343345354635310004000000240000006469644e6f746966795f756e6c6f636b2e706c61636561626c652e68756c6c796172";
   "640001000000210000006469644e6f746966795f756e6c6f636b2e686569676874496e6372656173653200010000001e0000006469644e6f74696679";
   "5f756e6c6f636b2e487962726964456e67696e650001000000260000006469644e6f746966795f756e6c6f636b2e757067726164652e6e656f6e7265";
   "66696e6572790001000000280000006469644e6f746966795f756e6c6f636b2e757067726164652e656c656374726f6e696373666162000100000022";
   "0000006469644e6f746966795f756e6c6f636b2e757067726164652e68756c6c796172640001000000250000006469644e6f746966795f756e6c6f63";
   "6b2e757067726164652e696e63696e657261746f720001000000260000006469644e6f746966795f756e6c6f636b2e757067726164652e6f72656761";
   "737369666965720001000000220000006469644e6f746966795f756e6c6f636b2e757067726164652e686172646d6f6c6400010000002a000000706c";
   "617974696d655f3439313036464431343036433732364234343738383638344444313930313342005e0e00002a0000006265737472616e6b5f343931";
   "303646443134303643373236423434373838363834444431393031334200030000002b0000006469644e6f746966795f756e6c6f636b2e706c616365";
   "61626c652e6c7578757279617373656d626c657200010000002a000000706c617974696d655f31394643344636463446303832414546393130303144";
   "4236333644443343423000d20800002a0000006265737472616e6b5f3139464334463646344630383241454639313030314442363336444433434230";
   "0004000000280000006469644e6f746966795f756e6c6f636b2e706c61636561626c652e676c617373736d656c74657200010000002a000000706c61";
   "7974696d655f423943393333384134314542323435393046344633443846373745314444353900001500002a0000006265737472616e6b5f42394339";
   "333338413431454232343539304634463344384637374531444435390004000000250000006469644e6f746966795f756e6c6f636b2e706c61636561";
   "626c652e7369676e776f726b730001000000230000006469644e6f746966795f756e6c6f636b2e706c61636561626c652e6368697066616200010000";
   "002a000000706c617974696d655f314632444637413534423945463841303239323842464146303336373542393200a30400002a0000006265737472";
   "616e6b5f31463244463741353442394546384130323932384246414630333637354239320004000000260000006469644e6f746966795f756e6c6f63";
   "6b2e757067726164652e676c617373736d656c74657200010000001e0000006469644e6f746966795f756e6c6f636b2e73746174696f6e5370656564";
   "00010000002a000000706c617974696d655f463635423133393534333144453133313130374431424138374230394131333300bc1a00002a00000062";
   "65737472616e6b5f46363542313339353433314445313331313037443142413837423039413133330002000000250000006469644e6f746966795f75";
   "6e6c6f636b2e706c61636561626c652e74756265706c616e740001000000290000006469644e6f746966795f756e6c6f636b2e706c61636561626c65";
   "2e6d6f746f72417373656d626c790001000000270000006469644e6f746966795f756e6c6f636b2e757067726164652e6d6f746f72417373656d626c";
   "7900010000002a000000706c617974696d655f414236444436414234363738414341433434393638443841424444333132453300c31700002a000000";
   "6265737472616e6b5f41423644443641423436373841434143343439363844384142444433313245330003000000260000006469644e6f746966795f";
   "756e6c6f636b2e706c61636561626c652e6865617679776f726b730001000000220000006469644e6f746966795f756e6c6f636b2e706c6163656162";
   "6c652e6672616d657200010000002a000000706c617974696d655f363037313831344434434630343235313737413746333941433138393335384200";
   "670500002a0000006265737472616e6b5f363037313831344434434630343235313737413746333941433138393335384200040000002a000000706c";
   "617974696d655f383545423732344434334339364241413738333241334241413341454445433200c80200002a0000006265737472616e6b5f383545";
   "423732344434334339364241413738333241334241413341454445433200040000002a000000706c617974696d655f37434132374145453436434338";
   "34384245313635464541344638303831413943008f0400002a0000006265737472616e6b5f3743413237414545343643433834384245313635464541";
   "34463830383141394300040000002a000000706c617974696d655f303237303045303534373846413543313736424136463946393736373538383600";
   "1e0500002a0000006265737472616e6b5f303237303045303534373846413543313736424136463946393736373538383600040000002a000000706c";
   "617974696d655f343238393539463034323038324545423434344535364143304439373630303400560500002a0000006265737472616e6b5f343238";
   "393539463034323038324545423434344535364143304439373630303400040000002a000000706c617974696d655f38363333424532303434413645";
   "4339333135453546364241413132384143453800f90400002a0000006265737472616e6b5f3836333342453230343441364543393331354535463642";
   "41413132384143453800040000001e0000006469644e6f746966795f756e6c6f636b2e44696573656c456e67696e6500010000002a000000706c6179";
   "74696d655f353733383332453834423135333442303635424636363933433735323346433400280700002a0000006265737472616e6b5f3537333833";
   "32453834423135333442303635424636363933433735323346433400040000002a000000706c617974696d655f393737443032393934333944394246";
   "373044464335424234434632373539314300700600002a0000006265737472616e6b5f39373744303239393433394439424637304446433542423443";
   "4632373539314300040000002a000000706c617974696d655f434345453438363534354345434330324130383130323830463939344230443800f70d";
   "00002a0000006265737472616e6b5f434345453438363534354345434330324130383130323830463939344230443800020000002a000000706c6179";
   "74696d655f3033304437453236344235433231323731354645464538304636454239374532005d0e00002a0000006265737472616e6b5f3033304437";
   "4532363442354332313237313546454645383046364542393745320003000000230000006469644e6f746966795f756e6c6f636b2e75706772616465";
   "2e7369676e776f726b7300010000002a000000706c617974696d655f4139324445334336343841393144464446303242353938414533394133444341";
   "001d1200002a0000006265737472616e6b5f413932444533433634384139314446444630324235393841453339413344434100040000002100000064";
   "69644e6f746966795f756e6c6f636b2e757067726164652e6368697066616200010000002a000000706c617974696d655f3131454336343730343245";
   "43434333313545314239303943344434413936363600920a00002a0000006265737472616e6b5f313145433634373034324543434333313545314239";
   "303943344434413936363600040000001e0000006469644e6f746966795f756e6c6f636b2e526573637565456e67696e650001000000230000006469";
   "644e6f746966795f756e6c6f636b2e757067726164652e74756265706c616e740001000000290000006469644e6f746966795f756e6c6f636b2e7570";
   "67726164652e6c7578757279617373656d626c65720001000000200000006469644e6f746966795f756e6c6f636b2e757067726164652e6672616d65";
   "720001000000240000006469644e6f746966795f756e6c6f636b2e757067726164652e6865617679776f726b7300010000002a000000706c61797469";
   "6d655f313733363833433934463036413546374230443234463830424132434630373300671100002a0000006265737472616e6b5f31373336383343";
   "3934463036413546374230443234463830424132434630373300030000002a000000706c617974696d655f4533313236333846344245443134373830";
   "46343636423935423337304530444400db0700002a0000006265737472616e6b5f453331323633384634424544313437383046343636423935423337";
   "304530444400040000002a000000706c617974696d655f453233313530464634313435374132333043374643344238343232364330433500bd130000";
   "2a0000006265737472616e6b5f453233313530464634313435374132333043374643344238343232364330433500040000002a000000706c61797469";
   "6d655f344431363343413734314132454441413745443534433833443737353339464600121700002a0000006265737472616e6b5f34443136334341";
   "3734314132454441413745443534433833443737353339464600030000002a000000706c617974696d655f4136393841304332343244354133313746";
   "38444236443937454630414646384500501000002a0000006265737472616e6b5f413639384130433234324435413331374638444236443937454630";
   "41464638450004000000290000006469644e6f746966795f756e6c6f636b2e706c61636561626c652e726f636b6574666163746f7279000100000028";
   "0000006469644e6f746966795f756e6c6f636b2e706c61636561626c652e626f6f73746572706c616e740001000000220000006469644e6f74696679";
   "5f756e6c6f636b2e706c61636561626c652e61726d6f727900010000001e0000006469644e6f746966795f756e6c6f636b2e42756c6c6574456e6769";
   "6e650001000000270000006469644e6f746966795f756e6c6f636b2e757067726164652e726f636b6574666163746f727900010000002a000000706c";
   "617974696d655f3730423146324438343731433132383339303430384339344337454231363145007a0700002a0000006265737472616e6b5f373042";
   "314632443834373143313238333930343038433934433745423136314500040000000c000000556e6c6f636b4c61796572000f000000537472756374";
   "50726f706572747900e41e0000000000000c000000556e6c6f636b4c617965720000000000000000000000000000000000000a0000006f776e436f75";
   "6e7473000c0000004d617050726f706572747900230f0000000000000d0000004e616d6550726f7065727479000c000000496e7450726f7065727479";
   "0000000000007e0000000d000000756e6c6f636b2e63312e743200010000000d000000756e6c6f636b2e63312e743300010000000d000000756e6c6f";
   "636b2e63312e6d3100010000000d000000756e6c6f636b2e63312e6d32000100000019000000756e6c6f636b2e6d696c6573746f6e652e6f696c7765";
   "6c6c000100000018000000756e6c6f636b2e757067726164652e6f696c706f77657200010000001b000000756e6c6f636b2e6d696c6573746f6e652e";
   "576f726b686f727365000100000012000000756e6c6f636b2e63312e6d32626f6e757300010000000d000000756e6c6f636b2e63312e6d3300010000";
   "0014000000756e6c6f636b2e437573746f6d456e67696e6500010000001c000000756e6c6f636b2e706c61636561626c652e67656f746865726d616c";
   "00010000001a000000756e6c6f636b2e757067726164652e67656f746865726d616c00010000001a000000756e6c6f636b2e6d696c6573746f6e652e";
   "6f696c506f77657200010000000d000000756e6c6f636b2e63312e6d3400010000001c000000756e6c6f636b2e6d696c6573746f6e652e636f707065";
   "726d696e65000100000018000000756e6c6f636b2e6d696c6573746f6e652e636f696c657200010000001f000000756e6c6f636b2e6d696c6573746f";
   "6e652e6c696d6573746f6e656d696e6500010000001e000000756e6c6f636b2e6d696c6573746f6e652e636f6e63726574655961726400010000001c";
   "000000756e6c6f636b2e757067726164652e636f6e637265746579617264000100000016000000756e6c6f636b2e757067726164652e636f696c6572";
   "000100000014000000756e6c6f636b2e63312e6d7370656369616c3100010000001f000000756e6c6f636b2e6d696c6573746f6e652e6175746f4272";
   "616e6368696e6700010000000d000000756e6c6f636b2e63312e6d3600010000001e000000756e6c6f636b2e6d696c6573746f6e652e4d656469756d";
   "48656967687400010000000d000000756e6c6f636b2e63312e6d3700010000001c000000756e6c6f636b2e6d696c6573746f6e652e73616c74736966";
   "74657200010000001a000000756e6c6f636b2e6d696c6573746f6e652e636f616c4d696e6500010000001a000000756e6c6f636b2e75706772616465";
   "2e73616c7473696674657200010000000d000000756e6c6f636b2e63312e6d3800010000001b000000756e6c6f636b2e6d696c6573746f6e652e636f";
   "616c706f77657200010000001c000000756e6c6f636b2e6d696c6573746f6e652e496e647573747269616c00010000001a000000756e6c6f636b2e6d";
   "696c6573746f6e652e69726f6e6d696e6500010000000d000000756e6c6f636b2e63312e6d39000100000013000000756e6c6f636b2e63312e6d3862";
   "6f6e757331000100000013000000756e6c6f636b2e63312e6d38626f6e75733200010000001b000000756e6c6f636b2e6d696c6573746f6e652e7374";
   "65656c4d696c6c00010000001d000000756e6c6f636b2e6d696c6573746f6e652e706c6173746963697a6572000100000014000000756e6c6f636b2e";
   "63312e6d7370656369616c32000100000012000000756e6c6f636b2e63312e6d39626f6e7573000100000024000000756e6c6f636b2e6d696c657374";
   "6f6e652e6675726e6974757265417373656d626c657200010000001b000000756e6c6f636b2e757067726164652e706c6173746963697a6572000100";
   "000022000000756e6c6f636b2e757067726164652e6675726e6974757265617373656d626c6572000100000019000000756e6c6f636b2e7570677261";
   "64652e636f616c706f776572000100000019000000756e6c6f636b2e757067726164652e737465656c6d696c6c000100000010000000756e6c6f636b";
   "2e63312e6d31306131000100000010000000756e6c6f636b2e63312e6d3130623100010000001d000000756e6c6f636b2e6d696c6573746f6e652e6f";
   "696c726566696e65727900010000001e000000756e6c6f636b2e6d696c6573746f6e652e6e656f6e726566696e65727900010000001e000000756e6c";
   "6f636b2e6d696c6573746f6e652e676f6f6473466163746f727900010000001a000000756e6c6f636b2e6d696c6573746f6e652e686172646d6f6c64";
   "000100000020000000756e6c6f636b2e6d696c6573746f6e652e656c656374726f6e69637346616200010000000e000000756e6c6f636b2e63312e6d";
   "3131000100000013000000756e6c6f636b2e63312e6d3130626f6e757300010000001d000000756e6c6f636b2e6d696c6573746f6e652e696e63696e";
   "657261746f7200010000001e000000756e6c6f636b2e6d696c6573746f6e652e6f7265476173736966696572000100000014000000756e6c6f636b2e";
   "63312e6d7370656369616c33000100000014000000756e6c6f636b2e63312e6d3131626f6e757331000100000014000000756e6c6f636b2e63312e6d";
   "3131626f6e757332000100000020000000756e6c6f636b2e706c61636561626c652e656c656374726f6e69637366616200010000001c000000756e6c";
   "6f636b2e757067726164652e676f6f6473666163746f727900010000000e000000756e6c6f636b2e63312e6d3132000100000019000000756e6c6f63";
   "6b2e6d696c6573746f6e652e746f6f6c646965000100000013000000756e6c6f636b2e63312e6d3132626f6e757300010000000e000000756e6c6f63";
   "6b2e63312e6d3133000100000017000000756e6c6f636b2e757067726164652e746f6f6c64696500010000001b000000756e6c6f636b2e7570677261";
   "64652e6f696c726566696e657279000100000010000000756e6c6f636b2e63312e6d3130613200010000001a000000756e6c6f636b2e6d696c657374";
   "6f6e652e456c656374726963000100000014000000756e6c6f636b2e63312e6d3133626f6e757331000100000014000000756e6c6f636b2e63312e6d";
   "3133626f6e75733200010000000e000000756e6c6f636b2e63312e6d313400010000001a000000756e6c6f636b2e6d696c6573746f6e652e68756c6c";
   "7961726400010000001b000000756e6c6f636b2e6d696c6573746f6e652e4d6178486569676874000100000014000000756e6c6f636b2e4879627269";
   "64456e67696e6500010000001c000000756e6c6f636b2e757067726164652e6e656f6e726566696e65727900010000001e000000756e6c6f636b2e75";
   "7067726164652e656c656374726f6e696373666162000100000018000000756e6c6f636b2e757067726164652e68756c6c7961726400010000001b00";
   "0000756e6c6f636b2e757067726164652e696e63696e657261746f7200010000001c000000756e6c6f636b2e757067726164652e6f72656761737369";
   "66696572000100000018000000756e6c6f636b2e757067726164652e686172646d6f6c64000100000021000000756e6c6f636b2e6d696c6573746f6e";
   "652e6c7578757279417373656d626c6572000100000014000000756e6c6f636b2e63312e6d7370656369616c34000100000013000000756e6c6f636b";
   "2e63312e6d3134626f6e7573000100000018000000756e6c6f636b2e6d696c6573746f6e652e72657363756500010000000e000000756e6c6f636b2e";
   "63312e6d313500010000001e000000756e6c6f636b2e6d696c6573746f6e652e676c617373536d656c74657200010000001b000000756e6c6f636b2e";
   "6d696c6573746f6e652e7369676e776f726b7300010000000e000000756e6c6f636b2e63312e6d3136000100000014000000756e6c6f636b2e63312e";
   "6d3135626f6e757331000100000014000000756e6c6f636b2e63312e6d3135626f6e757332000100000019000000756e6c6f636b2e6d696c6573746f";
   "6e652e6368697066616200010000001c000000756e6c6f636b2e757067726164652e676c617373736d656c746572000100000014000000756e6c6f63";
   "6b2e73746174696f6e537065656400010000000f000000756e6c6f636b2e63312e6d31376100010000000f000000756e6c6f636b2e63312e6d313762";
   "000100000013000000756e6c6f636b2e63312e6d3136626f6e757300010000001b000000756e6c6f636b2e6d696c6573746f6e652e74756265506c61";
   "6e74000100000018000000756e6c6f636b2e6d696c6573746f6e652e64696573656c000100000017000000756e6c6f636b2e6d696c6573746f6e652e";
   "6d6f746f7200010000001d000000756e6c6f636b2e757067726164652e6d6f746f72417373656d626c7900010000001c000000756e6c6f636b2e6d69";
   "6c6573746f6e652e6865617679776f726b73000100000018000000756e6c6f636b2e6d696c6573746f6e652e6672616d657200010000000f00000075";
   "6e6c6f636b2e63312e6d31386100010000000f000000756e6c6f636b2e63312e6d313862000100000013000000756e6c6f636b2e63312e6d3137626f";
   "6e757300010000000c000000706c616365686f6c646572000100000012000000756e6c6f636b2e63312e6d34626f6e757300010000000d000000756e";
   "6c6f636b2e63312e6d35000100000013000000756e6c6f636b2e63312e6d34626f6e757332000100000014000000756e6c6f636b2e44696573656c45";
   "6e67696e65000100000019000000756e6c6f636b2e757067726164652e7369676e776f726b73000100000017000000756e6c6f636b2e757067726164";
   "652e63686970666162000100000014000000756e6c6f636b2e526573637565456e67696e65000100000019000000756e6c6f636b2e75706772616465";
   "2e74756265706c616e7400010000001f000000756e6c6f636b2e757067726164652e6c7578757279617373656d626c6572000100000016000000756e";
   "6c6f636b2e757067726164652e6672616d657200010000001a000000756e6c6f636b2e757067726164652e6865617679776f726b7300010000001800";
   "0000756e6c6f636b2e6d696c6573746f6e652e61726d6f727900010000001e000000756e6c6f636b2e6d696c6573746f6e652e626f6f73746572706c";
   "616e7400010000001f000000756e6c6f636b2e6d696c6573746f6e652e726f636b6574666163746f7279000100000018000000756e6c6f636b2e6d69";
   "6c6573746f6e652e42756c6c657400010000000f000000756e6c6f636b2e63312e6d31396100010000000f000000756e6c6f636b2e63312e6d313962";
   "000100000013000000756e6c6f636b2e63312e6d3138626f6e7573000100000014000000756e6c6f636b2e42756c6c6574456e67696e650001000000";
   "1d000000756e6c6f636b2e757067726164652e726f636b6574666163746f727900010000000f000000686973746f726963436f756e7473000c000000";
   "4d617050726f706572747900230f0000000000000d0000004e616d6550726f7065727479000c000000496e7450726f70657274790000000000007e00";
   "00000d000000756e6c6f636b2e63312e743200010000000d000000756e6c6f636b2e63312e743300010000000d000000756e6c6f636b2e63312e6d31";
   "00010000000d000000756e6c6f636b2e63312e6d32000100000019000000756e6c6f636b2e6d696c6573746f6e652e6f696c77656c6c000100000018";
   "000000756e6c6f636b2e757067726164652e6f696c706f77657200010000001b000000756e6c6f636b2e6d696c6573746f6e652e576f726b686f7273";
   "65000100000012000000756e6c6f636b2e63312e6d32626f6e757300010000000d000000756e6c6f636b2e63312e6d33000100000014000000756e6c";
   "6f636b2e437573746f6d456e67696e6500010000001c000000756e6c6f636b2e706c61636561626c652e67656f746865726d616c00010000001a0000";
   "00756e6c6f636b2e757067726164652e67656f746865726d616c00010000001a000000756e6c6f636b2e6d696c6573746f6e652e6f696c506f776572";
   "00010000000d000000756e6c6f636b2e63312e6d3400010000001c000000756e6c6f636b2e6d696c6573746f6e652e636f707065726d696e65000100";
   "000018000000756e6c6f636b2e6d696c6573746f6e652e636f696c657200010000001f000000756e6c6f636b2e6d696c6573746f6e652e6c696d6573";
   "746f6e656d696e6500010000001e000000756e6c6f636b2e6d696c6573746f6e652e636f6e63726574655961726400010000001c000000756e6c6f63";
   "6b2e757067726164652e636f6e637265746579617264000100000016000000756e6c6f636b2e757067726164652e636f696c65720001000000140000";
   "00756e6c6f636b2e63312e6d7370656369616c3100010000001f000000756e6c6f636b2e6d696c6573746f6e652e6175746f4272616e6368696e6700";
   "010000000d000000756e6c6f636b2e63312e6d3600010000001e000000756e6c6f636b2e6d696c6573746f6e652e4d656469756d4865696768740001";
   "0000000d000000756e6c6f636b2e63312e6d3700010000001c000000756e6c6f636b2e6d696c6573746f6e652e73616c747369667465720001000000";
   "1a000000756e6c6f636b2e6d696c6573746f6e652e636f616c4d696e6500010000001a000000756e6c6f636b2e757067726164652e73616c74736966";
   "74657200010000000d000000756e6c6f636b2e63312e6d3800010000001b000000756e6c6f636b2e6d696c6573746f6e652e636f616c706f77657200";
   "010000001c000000756e6c6f636b2e6d696c6573746f6e652e496e647573747269616c00010000001a000000756e6c6f636b2e6d696c6573746f6e65";
   "2e69726f6e6d696e6500010000000d000000756e6c6f636b2e63312e6d39000100000013000000756e6c6f636b2e63312e6d38626f6e757331000100";
   "000013000000756e6c6f636b2e63312e6d38626f6e75733200010000001b000000756e6c6f636b2e6d696c6573746f6e652e737465656c4d696c6c00";
   "010000001d000000756e6c6f636b2e6d696c6573746f6e652e706c6173746963697a6572000100000014000000756e6c6f636b2e63312e6d73706563";
   "69616c32000100000012000000756e6c6f636b2e63312e6d39626f6e7573000100000024000000756e6c6f636b2e6d696c6573746f6e652e6675726e";
   "6974757265417373656d626c657200010000001b000000756e6c6f636b2e757067726164652e706c6173746963697a6572000100000022000000756e";
   "6c6f636b2e757067726164652e6675726e6974757265617373656d626c6572000100000019000000756e6c6f636b2e757067726164652e636f616c70";
   "6f776572000100000019000000756e6c6f636b2e757067726164652e737465656c6d696c6c000100000010000000756e6c6f636b2e63312e6d313061";
   "31000100000010000000756e6c6f636b2e63312e6d3130623100010000001d000000756e6c6f636b2e6d696c6573746f6e652e6f696c726566696e65";
   "727900010000001e000000756e6c6f636b2e6d696c6573746f6e652e6e656f6e726566696e65727900010000001e000000756e6c6f636b2e6d696c65";
   "73746f6e652e676f6f6473466163746f727900010000001a000000756e6c6f636b2e6d696c6573746f6e652e686172646d6f6c640001000000200000";
   "00756e6c6f636b2e6d696c6573746f6e652e656c656374726f6e69637346616200010000000e000000756e6c6f636b2e63312e6d3131000100000013";
   "000000756e6c6f636b2e63312e6d3130626f6e757300010000001d000000756e6c6f636b2e6d696c6573746f6e652e696e63696e657261746f720001";
   "0000001e000000756e6c6f636b2e6d696c6573746f6e652e6f7265476173736966696572000100000014000000756e6c6f636b2e63312e6d73706563";
   "69616c33000100000014000000756e6c6f636b2e63312e6d3131626f6e757331000100000014000000756e6c6f636b2e63312e6d3131626f6e757332";
   "000100000020000000756e6c6f636b2e706c61636561626c652e656c656374726f6e69637366616200010000001c000000756e6c6f636b2e75706772";
   "6164652e676f6f6473666163746f727900010000000e000000756e6c6f636b2e63312e6d3132000100000019000000756e6c6f636b2e6d696c657374";
   "6f6e652e746f6f6c646965000100000013000000756e6c6f636b2e63312e6d3132626f6e757300010000000e000000756e6c6f636b2e63312e6d3133";
   "000100000017000000756e6c6f636b2e757067726164652e746f6f6c64696500010000001b000000756e6c6f636b2e757067726164652e6f696c7265";
   "66696e657279000100000010000000756e6c6f636b2e63312e6d3130613200010000001a000000756e6c6f636b2e6d696c6573746f6e652e456c6563";
   "74726963000100000014000000756e6c6f636b2e63312e6d3133626f6e757331000100000014000000756e6c6f636b2e63312e6d3133626f6e757332";
   "00010000000e000000756e6c6f636b2e63312e6d313400010000001a000000756e6c6f636b2e6d696c6573746f6e652e68756c6c7961726400010000";
   "001b000000756e6c6f636b2e6d696c6573746f6e652e4d6178486569676874000100000014000000756e6c6f636b2e487962726964456e67696e6500";
   "010000001c000000756e6c6f636b2e757067726164652e6e656f6e726566696e65727900010000001e000000756e6c6f636b2e757067726164652e65";
   "6c656374726f6e696373666162000100000018000000756e6c6f636b2e757067726164652e68756c6c7961726400010000001b000000756e6c6f636b";
   "2e757067726164652e696e63696e657261746f7200010000001c000000756e6c6f636b2e757067726164652e6f726567617373696669657200010000";
   "0018000000756e6c6f636b2e757067726164652e686172646d6f6c64000100000021000000756e6c6f636b2e6d696c6573746f6e652e6c7578757279";
   "417373656d626c6572000100000014000000756e6c6f636b2e63312e6d7370656369616c34000100000013000000756e6c6f636b2e63312e6d313462";
   "6f6e7573000100000018000000756e6c6f636b2e6d696c6573746f6e652e72657363756500010000000e000000756e6c6f636b2e63312e6d31350001";
   "0000001e000000756e6c6f636b2e6d696c6573746f6e652e676c617373536d656c74657200010000001b000000756e6c6f636b2e6d696c6573746f6e";
   "652e7369676e776f726b7300010000000e000000756e6c6f636b2e63312e6d3136000100000014000000756e6c6f636b2e63312e6d3135626f6e7573";
   "31000100000014000000756e6c6f636b2e63312e6d3135626f6e757332000100000019000000756e6c6f636b2e6d696c6573746f6e652e6368697066";
   "616200010000001c000000756e6c6f636b2e757067726164652e676c617373736d656c746572000100000014000000756e6c6f636b2e73746174696f";
   "6e537065656400010000000f000000756e6c6f636b2e63312e6d31376100010000000f000000756e6c6f636b2e63312e6d3137620001000000130000";
   "00756e6c6f636b2e63312e6d3136626f6e757300010000001b000000756e6c6f636b2e6d696c6573746f6e652e74756265506c616e74000100000018";
   "000000756e6c6f636b2e6d696c6573746f6e652e64696573656c000100000017000000756e6c6f636b2e6d696c6573746f6e652e6d6f746f72000100";
   "00001d000000756e6c6f636b2e757067726164652e6d6f746f72417373656d626c7900010000001c000000756e6c6f636b2e6d696c6573746f6e652e";
   "6865617679776f726b73000100000018000000756e6c6f636b2e6d696c6573746f6e652e6672616d657200010000000f000000756e6c6f636b2e6331";
   "2e6d31386100010000000f000000756e6c6f636b2e63312e6d313862000100000013000000756e6c6f636b2e63312e6d3137626f6e75730001000000";
   "0c000000706c616365686f6c646572000100000012000000756e6c6f636b2e63312e6d34626f6e757300010000000d000000756e6c6f636b2e63312e";
   "6d35000100000013000000756e6c6f636b2e63312e6d34626f6e757332000100000014000000756e6c6f636b2e44696573656c456e67696e65000100";
   "000019000000756e6c6f636b2e757067726164652e7369676e776f726b73000100000017000000756e6c6f636b2e757067726164652e636869706661";
   "62000100000014000000756e6c6f636b2e526573637565456e67696e65000100000019000000756e6c6f636b2e757067726164652e74756265706c61";
   "6e7400010000001f000000756e6c6f636b2e757067726164652e6c7578757279617373656d626c6572000100000016000000756e6c6f636b2e757067";
   "726164652e6672616d657200010000001a000000756e6c6f636b2e757067726164652e6865617679776f726b73000100000018000000756e6c6f636b";
   "2e6d696c6573746f6e652e61726d6f727900010000001e000000756e6c6f636b2e6d696c6573746f6e652e626f6f73746572706c616e740001000000";
   "1f000000756e6c6f636b2e6d696c6573746f6e652e726f636b6574666163746f7279000100000018000000756e6c6f636b2e6d696c6573746f6e652e";
   "42756c6c657400010000000f000000756e6c6f636b2e63312e6d31396100010000000f000000756e6c6f636b2e63312e6d3139620001000000130000";
   "00756e6c6f636b2e63312e6d3138626f6e7573000100000014000000756e6c6f636b2e42756c6c6574456e67696e6500010000001d000000756e6c6f";
   "636b2e757067726164652e726f636b6574666163746f72790001000000050000004e6f6e650018000000616368696576656d656e74486973746f7279";
   "53636f7065000f00000053747275637450726f706572747900eb07000000000000170000004d6574614d657472696353746f7261676553636f706500";
   "0000000000000000000000000000000000080000006d657472696373000c0000004d617050726f70657274790099070000000000000d0000004e616d";
   "6550726f7065727479000f00000053747275637450726f70657274790000000000000f0000000700000050726f666974000e00000076616c75654279";
   "46696c746572000c0000004d617050726f70657274790015000000000000000d0000004e616d6550726f7065727479000c000000496e7450726f7065";
   "72747900000000000001000000050000004e6f6e6500e1020000050000004e6f6e65000c0000006578706f72742e72617465000e00000076616c7565";
   "427946696c746572000c0000004d617050726f7065727479002a000000000000000d0000004e616d6550726f7065727479000c000000496e7450726f";
   "70657274790000000000000200000007000000456e6572677900000000000b0000004d61696e6672616d65730000000000050000004e6f6e65000800";
   "000070726f64756365000e00000076616c7565427946696c746572000c0000004d617050726f70657274790028000000000000000d0000004e616d65";
   "50726f7065727479000c000000496e7450726f70657274790000000000000200000007000000456e6572677900130400000900000043727564654f69";
   "6c0017040000050000004e6f6e6500060000006379636c65000e00000076616c7565427946696c746572000c0000004d617050726f70657274790025";
   "000000000000000d0000004e616d6550726f7065727479000c000000496e7450726f70657274790000000000000100000015000000706c6163656162";
   "6c652e67656f746865726d616c0046000000050000004e6f6e65000c0000006275696c642e747261636b000e00000076616c7565427946696c746572";
   "000c0000004d617050726f70657274790015000000000000000d0000004e616d6550726f7065727479000c000000496e7450726f7065727479000000";
   "00000001000000050000004e6f6e650095200000050000004e6f6e65000d0000006275696c642e6272616e6368000e00000076616c7565427946696c";
   "746572000c0000004d617050726f70657274790015000000000000000d0000004e616d6550726f7065727479000c000000496e7450726f7065727479";
   "00000000000001000000050000004e6f6e650038070000050000004e6f6e65000c0000006275696c642e747261696e000e00000076616c7565427946";
   "696c746572000c0000004d617050726f70657274790015000000000000000d0000004e616d6550726f7065727479000c000000496e7450726f706572";
   "747900000000000001000000050000004e6f6e650060040000050000004e6f6e65000e0000006172726976652e6c656e677468000e00000076616c75";
   "65427946696c746572000c0000004d617050726f70657274790015000000000000000d0000004e616d6550726f7065727479000c000000496e745072";
   "6f706572747900000000000001000000050000004e6f6e65000d000000050000004e6f6e65000f0000006172726976652e66726569676874000e0000";
   "0076616c7565427946696c746572000c0000004d617050726f70657274790024000000000000000d0000004e616d6550726f7065727479000c000000";
   "496e7450726f706572747900000000000002000000060000005761746572001308000006000000537465656c000b080000050000004e6f6e65000e00";
   "000073616c766167652e747261636b000e00000076616c7565427946696c746572000c0000004d617050726f70657274790015000000000000000d00";
   "00004e616d6550726f7065727479000c000000496e7450726f706572747900000000000001000000050000004e6f6e650068040000050000004e6f6e";
   "65000f00000073616c766167652e6272616e6368000e00000076616c7565427946696c746572000c0000004d617050726f7065727479001500000000";
   "0000000d0000004e616d6550726f7065727479000c000000496e7450726f706572747900000000000001000000050000004e6f6e65003b0000000500";
   "00004e6f6e65000800000075706772616465000e00000076616c7565427946696c746572000c0000004d617050726f70657274790031000000000000";
   "000d0000004e616d6550726f7065727479000c000000496e7450726f706572747900000000000002000000050000004e6f6e65000c01000014000000";
   "706c61636561626c652e776174657270756d700020000000050000004e6f6e65000500000050617468000e00000076616c7565427946696c74657200";
   "0c0000004d617050726f70657274790015000000000000000d0000004e616d6550726f7065727479000c000000496e7450726f706572747900000000";
   "000001000000050000004e6f6e65003d000000050000004e6f6e6500080000006d697373696f6e000e00000076616c7565427946696c746572000c00";
   "00004d617050726f70657274790031000000000000000d0000004e616d6550726f7065727479000c000000496e7450726f7065727479000000000000";
   "010000002100000038324139423436463432424636433535353544363038413636313942333545360002000000050000004e6f6e65000b0000006d61";
   "7875706772616465000e00000076616c7565427946696c746572000c0000004d617050726f70657274790015000000000000000d0000004e616d6550";
   "726f7065727479000c000000496e7450726f70657274790000000000000100000005000000636974790002000000050000004e6f6e6500050000004e";
   "6f6e6500050000004e6f6e650000000000"].
(** tests/common/profile0.rs, [hints]. *)
Definition profile_0_hints : str -> option str :=
  hint_at "achievementHistoryScope.StructProperty.metrics.MapProperty.Value.StructProperty" "this type hint is unused"
  (no_hints).
(** tests/common/profile0.rs; one line each. *)
Definition profile_0_json : list string :=
  ["{";
   "  ""header"": {";
   "    ""type"": ""Version2"",";
   "    ""package_file_version"": 522,";
   "    ""engine_version"": {";
   "      ""major"": 4,";
   "      ""minor"": 27,";
   "      ""patch"": 2,";
   "      ""change_list"": 0,";
   "      ""branch"": ""++UE4+Release-4.27""";
   "    },";
   "    ""custom_version_format"": 3,";
   "    ""custom_versions"": {";
   "      ""12E426FB-4D4B-151F-0A55-7293702F1D96"": 3,";
   "      ""F37ABB24-834F-4656-C22D-2F1FFF96AD49"": 5,";
   "      ""FA7AF5FC-8342-7650-58E6-A9B9322DA0FF"": 68,";
   "      ""ED0A3111-614D-552E-A39A-67AF2C08A1C5"": 17,";
   "      ""2923A576-B545-2309-41D8-AE98D86A2FCF"": 5,";
   "      ""0769BC5F-AE40-C855-84F1-678E3FF1FF5E"": 1,";
   "      ""4E7CE782-A543-2333-C513-6BB4F30D3197"": 0,";
   "      ""22D5549C-BE4F-26A8-4607-2194D082B461"": 43,";
   "      ""E432D8B0-0D4F-891F-B77E-CFACA24AFD36"": 10,";
   "      ""2843C6E1-534D-2CA2-868E-6CA38CBD1764"": 0,";
   "      ""3CC15E37-FB48-E406-F084-00B57E712A26"": 4,";
   "      ""ED68B0E4-E942-94F4-0BDA-31A241BB462E"": 40,";
   "      ""3F74FCCF-8044-B043-DF14-919373201D17"": 37,";
   "      ""B5492BB0-E944-20BB-B732-04A36003E452"": 3,";
   "      ""5C10E4A4-B549-A159-C440-C5A7EEDF7E54"": 0,";
   "      ""C931C839-DC47-E65A-179C-449A7C8E1C3E"": 0,";
   "      ""331BF078-984F-EAEB-EA84-B4B9A25AB9CC"": 14,";
   "      ""0F383166-E043-4D2D-27CF-09805AA95669"": 0,";
   "      ""9F8BF812-FC4A-7588-0CD9-7CA629BD3A38"": 45,";
   "      ""4CE75A7B-104C-70D2-9857-58A95A2A210B"": 13,";
   "      ""186929D7-DD4B-D61D-A864-E29D8438C13C"": 3,";
   "      ""7852A1C2-FE4A-E7BF-FF90-176C55F71D53"": 1,";
   "      ""D4A3AC6E-C14C-EC40-ED8B-86B7C58F4209"": 3,";
   "      ""DD75E529-2746-A3E0-76D2-109DEADC2C23"": 17,";
   "      ""5DA643AF-4749-D37F-8E3E-739805BBC1D9"": 15,";
   "      ""EC6C266B-8F4B-C71E-D9E4-0BA307FC4209"": 1,";
   "      ""613DF70D-EA47-3FA2-E989-27B79A49410C"": 1,";
   "      ""86181D60-844F-64AC-DED3-16AAD6C7EA0D"": 47,";
   "      ""686308E7-584C-236B-701B-3984915E2616"": 1,";
   "      ""D6BCFF9D-5801-4F49-8212-21E288A8923C"": 10,";
   "      ""ACD0AEF2-6F41-FE9A-7FAA-6486FCD626FA"": 1,";
   "      ""0B1F4F17-A545-C6B4-E82E-3FB17D91FBD0"": 10,";
   "      ""834AF935-6C40-58E2-F509-18A37C241096"": 41,";
   "      ""6EC18FB6-E242-1B8B-5C21-53B4FE448805"": 1,";
   "      ""0685E1B2-C2CF-7342-BBF4-4EA507BA8B75"": 1,";
   "      ""3689F564-BA42-1BFD-8972-96BA4EFAD0D5"": 1,";
   "      ""27D80E6F-9548-09A6-8D99-919CA40E1890"": 2,";
   "      ""E79E7F71-3A49-B0E9-3291-B3880781381B"": 8,";
   "      ""50326854-AF48-9980-9698-C88BB7F9ADFB"": 0,";
   "      ""194D0C43-7049-5471-699B-6987E5B090DF"": 15,";
   "      ""BD32FEAA-144C-9553-255E-6AB6DDD13210"": 1,";
   "      ""8EE1AF23-584E-E14C-52C2-618DB7BE53B9"": 11,";
   "      ""EAB762A4-3A4E-99F4-1FEC-C199B2E12482"": 4,";
   "      ""BDFDB52E-104D-AC01-8FF3-3681DAA59333"": 5,";
   "      ""4F359D50-2F49-E6F6-B285-49A71C633C07"": 0,";
   "      ""40EB564A-DC11-F510-7E34-D392E76AC9B2"": 2,";
   "      ""004A8AD7-9746-58E8-B519-A8BAB4467D48"": 18,";
   "      ""86F87955-1F4C-3A93-7B08-BA832FB96163"": 2,";
   "      ""52BE2F61-0B40-53DA-914F-0D917C85B19F"": 1,";
   "      ""367A23A4-C941-EACA-F818-A28FF31B6858"": 4,";
   "      ""753F4E80-494B-8870-068C-D6A4DCB67E3C"": 5,";
   "      ""F20A68FB-A34B-EF59-B519-A8BA3D44C873"": 2,";
   "      ""0EB75099-174E-1AB4-0DFA-CCBBD67F8157"": 1";
   "    },";
   "    ""save_game_class_name"": ""/Script/EconCore.GenericSaveGame""";
   "  },";
   "  ""properties"": {";
   "    ""dbStrings"": {";
   "      ""type"": ""MapProperty"",";
   "      ""str_strs"": {";
   "        ""Story/Campaign/index"": ""c1.m19a.s2"",";
   "        ""music"": ""music.lasthope"",";
   "        ""preferedEngine"": ""DieselEngine"",";
   "        ""Option_settings.a.master"": ""50.0%"",";
   "        ""Option_settings.a.music"": ""50.0%"",";
   "        ""Option_settings.g.terrainres"": ""tfactor.x2"",";
   "        ""Option_settings.dpiscale"": ""120%"",";
   "        ""Option_settings.daytime"": ""toggle.enabled"",";
   "        ""preferedTrainColor"": ""Crimson""";
   "      }";
   "    },";
   "    ""dbNumbers"": {";
   "      ""type"": ""MapProperty"",";
   "      ""str_ints"": {";
   "        ""SeenMovie_Welcome"": 1,";
   "        ""meta.attemptingload"": 0,";
   "        ""appearin_lastsfx_time_intro"": 8734,";
   "        ""appearin_lastsfx_time_outro"": 8738,";
   "        ""playtime_418AD60A45FCE310E9D3DEB5B9894EF2"": 38,";
   "        ""bestrank_418AD60A45FCE310E9D3DEB5B9894EF2"": 4,";
   "        ""money"": 14,";
   "        ""roamPlayerPosition_x"": -1366,";
   "        ""roamPlayerPosition_y"": -934,";
   "        ""playtime_2AB6B5764521494B8DE77891EFD0A8AE"": 68,";
   "        ""bestrank_2AB6B5764521494B8DE77891EFD0A8AE"": 4,";
   "        ""playtime_9696568941466D44AE95DD9F1F170004"": 67,";
   "        ""bestrank_9696568941466D44AE95DD9F1F170004"": 4,";
   "        ""playstyle.modifier.noghosting"": 0,";
   "        ""playstyle.modifier.notimer"": 0,";
   "        ""playstyle.modifier.infinitemoney"": 0,";
   "        ""playstyle.modifier.endless"": 0,";
   "        ""playtime_197C3AD14915E04F243623981F89CA32"": 496,";
   "        ""bestrank_197C3AD14915E04F243623981F89CA32"": 4,";
   "        ""didNotify_unlock.placeable.oilwell"": 1,";
   "        ""didNotify_unlock.upgrade.oilpower"": 1,";
   "        ""playtime_275848C64EC0DFAC00DF819482F5E31D"": 802,";
   "        ""bestrank_275848C64EC0DFAC00DF819482F5E31D"": 4,";
   "        ""didNotify_unlock.BasicEngine"": 1,";
   "        ""playtime_82A9B46F42BF6C5555D608A6619B35E6"": 1374,";
   "        ""bestrank_82A9B46F42BF6C5555D608A6619B35E6"": 4,";
   "        ""didNotify_unlock.CustomEngine"": 1,";
   "        ""didNotify_unlock.placeable.geothermal"": 1,";
   "        ""playtime_976B945848D92B929BC9318144D2AFD9"": 1615,";
   "        ""bestrank_976B945848D92B929BC9318144D2AFD9"": 2,";
   "        ""didNotify_unlock.placeable.oilpower"": 1,";
   "        ""didNotify_unlock.placeable.limestonemine"": 1,";
   "        ""didNotify_unlock.placeable.coppermine"": 1,";
   "        ""didNotify_unlock.placeable.concreteyard"": 1,";
   "        ""didNotify_unlock.upgrade.concreteyard"": 1,";
   "        ""didNotify_unlock.upgrade.coiler"": 1,";
   "        ""playtime_23565CB1440C2F8CF29A20BE0F344E14"": 1761,";
   "        ""bestrank_23565CB1440C2F8CF29A20BE0F344E14"": 3,";
   "        ""didNotify_unlock.autoBranching"": 1,";
   "        ""playtime_C40ABA944C06215E9BA1F3808798BD78"": 866,";
   "        ""bestrank_C40ABA944C06215E9BA1F3808798BD78"": 4,";
   "        ""playtime_ABD6676B4D2F295C2C56F7BC7A80CF1B"": 1049,";
   "        ""bestrank_ABD6676B4D2F295C2C56F7BC7A80CF1B"": 4,";
   "        ""didNotify_unlock.heightIncrease1"": 1,";
   "        ""playtime_0A465B724263583BBBAC469FE7D852F8"": 2255,";
   "        ""bestrank_0A465B724263583BBBAC469FE7D852F8"": 1,";
   "        ""didNotify_unlock.placeable.saltsifter"": 1,";
   "        ""didNotify_unlock.placeable.coalmine"": 1,";
   "        ""didNotify_unlock.upgrade.saltsifter"": 1,";
   "        ""playtime_7CA6B81C4B27D3DD5D9110A91BD3B333"": 3046,";
   "        ""bestrank_7CA6B81C4B27D3DD5D9110A91BD3B333"": 1,";
   "        ""didNotify_unlock.placeable.coalpower"": 1,";
   "        ""didNotify_unlock.ClimberEngine"": 1,";
   "        ""didNotify_unlock.placeable.ironmine"": 1,";
   "        ""playtime_E2AB4F1B4783E580DF19F5BB1048C40C"": 1258,";
   "        ""bestrank_E2AB4F1B4783E580DF19F5BB1048C40C"": 4,";
   "        ""didNotify_unlock.placeable.steelmill"": 1,";
   "        ""playtime_E54ECA4B4EBE680952C1E1A108EBFED6"": 1402,";
   "        ""bestrank_E54ECA4B4EBE680952C1E1A108EBFED6"": 4,";
   "        ""didNotify_unlock.placeable.plasticizer"": 1,";
   "        ""playtime_3D2D8F324CA52B457413909B8FA06DBD"": 3128,";
   "        ""bestrank_3D2D8F324CA52B457413909B8FA06DBD"": 2,";
   "        ""didNotify_unlock.placeable.furnitureAssembler"": 1,";
   "        ""didNotify_unlock.upgrade.plasticizer"": 1,";
   "        ""didNotify_unlock.upgrade.furnitureassembler"": 1,";
   "        ""didNotify_unlock.upgrade.coalpower"": 1,";
   "        ""didNotify_unlock.upgrade.steelmill"": 1,";
   "        ""playtime_79C004794149BAEF9D01D0812D468C73"": 1699,";
   "        ""bestrank_79C004794149BAEF9D01D0812D468C73"": 3,";
   "        ""playtime_C351F593458BA314057C44964D17796E"": 1908,";
   "        ""bestrank_C351F593458BA314057C44964D17796E"": 4,";
   "        ""didNotify_unlock.placeable.goodsfactory"": 1,";
   "        ""didNotify_unlock.placeable.oilrefinery"": 1,";
   "        ""didNotify_unlock.placeable.hardmold"": 1,";
   "        ""didNotify_unlock.placeable.neonrefinery"": 1,";
   "        ""playtime_CE7047994E27F2501309BFBF10504939"": 2497,";
   "        ""bestrank_CE7047994E27F2501309BFBF10504939"": 3,";
   "        ""playtime_6F26D84E49EF7EE051658D88685804A3"": 2789,";
   "        ""bestrank_6F26D84E49EF7EE051658D88685804A3"": 2,";
   "        ""didNotify_unlock.placeable.incinerator"": 1,";
   "        ""didNotify_unlock.placeable.oregassifier"": 1,";
   "        ""didNotify_unlock.placeable.electronicsfab"": 1,";
   "        ""didNotify_unlock.upgrade.goodsfactory"": 1,";
   "        ""playtime_7792A16A471FD6ABABB19C909A879023"": 4257,";
   "        ""bestrank_7792A16A471FD6ABABB19C909A879023"": 2,";
   "        ""playtime_A8C916CA44A8F236048AC88B3B9D9D1B"": 279,";
   "        ""bestrank_A8C916CA44A8F236048AC88B3B9D9D1B"": 4,";
   "        ""playtime_8017CDB54D7D1D368B309198831A15F1"": 2814,";
   "        ""bestrank_8017CDB54D7D1D368B309198831A15F1"": 4,";
   "        ""didNotify_unlock.placeable.tooldie"": 1,";
   "        ""didNotify_unlock.upgrade.tooldie"": 1,";
   "        ""playtime_2E33E5724251952E750D6FA29B6A6242"": 3373,";
   "        ""bestrank_2E33E5724251952E750D6FA29B6A6242"": 3,";
   "        ""playtime_BDE017E34B75C14E86D9AA973EFE3385"": 1571,";
   "        ""bestrank_BDE017E34B75C14E86D9AA973EFE3385"": 4,";
   "        ""didNotify_unlock.upgrade.oilrefinery"": 1,";
   "        ""playtime_FDE6EA5B41E9DF7229789A93AE4E8170"": 2556,";
   "        ""bestrank_FDE6EA5B41E9DF7229789A93AE4E8170"": 3,";
   "        ""playtime_E6D6A92C43B137E2C8B402A0F43E5F51"": 2366,";
   "        ""bestrank_E6D6A92C43B137E2C8B402A0F43E5F51"": 4,";
   "        ""didNotify_unlock.placeable.hullyard"": 1,";
   "        ""didNotify_unlock.heightIncrease2"": 1,";
   "        ""didNotify_unlock.HybridEngine"": 1,";
   "        ""didNotify_unlock.upgrade.neonrefinery"": 1,";
   "        ""didNotify_unlock.upgrade.electronicsfab"": 1,";
   "        ""didNotify_unlock.upgrade.hullyard"": 1,";
   "        ""didNotify_unlock.upgrade.incinerator"": 1,";
   "        ""didNotify_unlock.upgrade.oregassifier"": 1,";
   "        ""didNotify_unlock.upgrade.hardmold"": 1,";
   "        ""playtime_49106FD1406C726B44788684DD19013B"": 3678,";
   "        ""bestrank_49106FD1406C726B44788684DD19013B"": 3,";
   "        ""didNotify_unlock.placeable.luxuryassembler"": 1,";
   "        ""playtime_19FC4F6F4F082AEF91001DB636DD3CB0"": 2258,";
   "        ""bestrank_19FC4F6F4F082AEF91001DB636DD3CB0"": 4,";
   "        ""didNotify_unlock.placeable.glasssmelter"": 1,";
   "        ""playtime_B9C9338A41EB24590F4F3D8F77E1DD59"": 5376,";
   "        ""bestrank_B9C9338A41EB24590F4F3D8F77E1DD59"": 4,";
   "        ""didNotify_unlock.placeable.signworks"": 1,";
   "        ""didNotify_unlock.placeable.chipfab"": 1,";
   "        ""playtime_1F2DF7A54B9EF8A02928BFAF03675B92"": 1187,";
   "        ""bestrank_1F2DF7A54B9EF8A02928BFAF03675B92"": 4,";
   "        ""didNotify_unlock.upgrade.glasssmelter"": 1,";
   "        ""didNotify_unlock.stationSpeed"": 1,";
   "        ""playtime_F65B1395431DE131107D1BA87B09A133"": 6844,";
   "        ""bestrank_F65B1395431DE131107D1BA87B09A133"": 2,";
   "        ""didNotify_unlock.placeable.tubeplant"": 1,";
   "        ""didNotify_unlock.placeable.motorAssembly"": 1,";
   "        ""didNotify_unlock.upgrade.motorAssembly"": 1,";
   "        ""playtime_AB6DD6AB4678ACAC44968D8ABDD312E3"": 6083,";
   "        ""bestrank_AB6DD6AB4678ACAC44968D8ABDD312E3"": 3,";
   "        ""didNotify_unlock.placeable.heavyworks"": 1,";
   "        ""didNotify_unlock.placeable.framer"": 1,";
   "        ""playtime_6071814D4CF0425177A7F39AC189358B"": 1383,";
   "        ""bestrank_6071814D4CF0425177A7F39AC189358B"": 4,";
   "        ""playtime_85EB724D43C96BAA7832A3BAA3AEDEC2"": 712,";
   "        ""bestrank_85EB724D43C96BAA7832A3BAA3AEDEC2"": 4,";
   "        ""playtime_7CA27AEE46CC848BE165FEA4F8081A9C"": 1167,";
   "        ""bestrank_7CA27AEE46CC848BE165FEA4F8081A9C"": 4,";
   "        ""playtime_02700E05478FA5C176BA6F9F97675886"": 1310,";
   "        ""bestrank_02700E05478FA5C176BA6F9F97675886"": 4,";
   "        ""playtime_428959F042082EEB444E56AC0D976004"": 1366,";
   "        ""bestrank_428959F042082EEB444E56AC0D976004"": 4,";
   "        ""playtime_8633BE2044A6EC9315E5F6BAA128ACE8"": 1273,";
   "        ""bestrank_8633BE2044A6EC9315E5F6BAA128ACE8"": 4,";
   "        ""didNotify_unlock.DieselEngine"": 1,";
   "        ""playtime_573832E84B1534B065BF6693C7523FC4"": 1832,";
   "        ""bestrank_573832E84B1534B065BF6693C7523FC4"": 4,";
   "        ""playtime_977D0299439D9BF70DFC5BB4CF27591C"": 1648,";
   "        ""bestrank_977D0299439D9BF70DFC5BB4CF27591C"": 4,";
   "        ""playtime_CCEE486545CECC02A0810280F994B0D8"": 3575,";
   "        ""bestrank_CCEE486545CECC02A0810280F994B0D8"": 2,";
   "        ""playtime_030D7E264B5C212715FEFE80F6EB97E2"": 3677,";
   "        ""bestrank_030D7E264B5C212715FEFE80F6EB97E2"": 3,";
   "        ""didNotify_unlock.upgrade.signworks"": 1,";
   "        ""playtime_A92DE3C648A91DFDF02B598AE39A3DCA"": 4637,";
   "        ""bestrank_A92DE3C648A91DFDF02B598AE39A3DCA"": 4,";
   "        ""didNotify_unlock.upgrade.chipfab"": 1,";
   "        ""playtime_11EC647042ECCC315E1B909C4D4A9666"": 2706,";
   "        ""bestrank_11EC647042ECCC315E1B909C4D4A9666"": 4,";
   "        ""didNotify_unlock.RescueEngine"": 1,";
   "        ""didNotify_unlock.upgrade.tubeplant"": 1,";
   "        ""didNotify_unlock.upgrade.luxuryassembler"": 1,";
   "        ""didNotify_unlock.upgrade.framer"": 1,";
   "        ""didNotify_unlock.upgrade.heavyworks"": 1,";
   "        ""playtime_173683C94F06A5F7B0D24F80BA2CF073"": 4455,";
   "        ""bestrank_173683C94F06A5F7B0D24F80BA2CF073"": 3,";
   "        ""playtime_E312638F4BED14780F466B95B370E0DD"": 2011,";
   "        ""bestrank_E312638F4BED14780F466B95B370E0DD"": 4,";
   "        ""playtime_E23150FF41457A230C7FC4B84226C0C5"": 5053,";
   "        ""bestrank_E23150FF41457A230C7FC4B84226C0C5"": 4,";
   "        ""playtime_4D163CA741A2EDAA7ED54C83D77539FF"": 5906,";
   "        ""bestrank_4D163CA741A2EDAA7ED54C83D77539FF"": 3,";
   "        ""playtime_A698A0C242D5A317F8DB6D97EF0AFF8E"": 4176,";
   "        ""bestrank_A698A0C242D5A317F8DB6D97EF0AFF8E"": 4,";
   "        ""didNotify_unlock.placeable.rocketfactory"": 1,";
   "        ""didNotify_unlock.placeable.boosterplant"": 1,";
   "        ""didNotify_unlock.placeable.armory"": 1,";
   "        ""didNotify_unlock.BulletEngine"": 1,";
   "        ""didNotify_unlock.upgrade.rocketfactory"": 1,";
   "        ""playtime_70B1F2D8471C128390408C94C7EB161E"": 1914,";
   "        ""bestrank_70B1F2D8471C128390408C94C7EB161E"": 4";
   "      }";
   "    },";
   "    ""UnlockLayer"": {";
   "      ""type"": ""StructProperty"",";
   "      ""type_name"": ""UnlockLayer"",";
   "      ""CustomStruct"": {";
   "        ""ownCounts"": [";
   "          {";
   "            ""type"": ""MapProperty"",";
   "            ""name_ints"": {";
   "              ""unlock.c1.t2"": 1,";
   "              ""unlock.c1.t3"": 1,";
   "              ""unlock.c1.m1"": 1,";
   "              ""unlock.c1.m2"": 1,";
   "              ""unlock.milestone.oilwell"": 1,";
   "              ""unlock.upgrade.oilpower"": 1,";
   "              ""unlock.milestone.Workhorse"": 1,";
   "              ""unlock.c1.m2bonus"": 1,";
   "              ""unlock.c1.m3"": 1,";
   "              ""unlock.CustomEngine"": 1,";
   "              ""unlock.placeable.geothermal"": 1,";
   "              ""unlock.upgrade.geothermal"": 1,";
   "              ""unlock.milestone.oilPower"": 1,";
   "              ""unlock.c1.m4"": 1,";
   "              ""unlock.milestone.coppermine"": 1,";
   "              ""unlock.milestone.coiler"": 1,";
   "              ""unlock.milestone.limestonemine"": 1,";
   "              ""unlock.milestone.concreteYard"": 1,";
   "              ""unlock.upgrade.concreteyard"": 1,";
   "              ""unlock.upgrade.coiler"": 1,";
   "              ""unlock.c1.mspecial1"": 1,";
   "              ""unlock.milestone.autoBranching"": 1,";
   "              ""unlock.c1.m6"": 1,";
   "              ""unlock.milestone.MediumHeight"": 1,";
   "              ""unlock.c1.m7"": 1,";
   "              ""unlock.milestone.saltsifter"": 1,";
   "              ""unlock.milestone.coalMine"": 1,";
   "              ""unlock.upgrade.saltsifter"": 1,";
   "              ""unlock.c1.m8"": 1,";
   "              ""unlock.milestone.coalpower"": 1,";
   "              ""unlock.milestone.Industrial"": 1,";
   "              ""unlock.milestone.ironmine"": 1,";
   "              ""unlock.c1.m9"": 1,";
   "              ""unlock.c1.m8bonus1"": 1,";
   "              ""unlock.c1.m8bonus2"": 1,";
   "              ""unlock.milestone.steelMill"": 1,";
   "              ""unlock.milestone.plasticizer"": 1,";
   "              ""unlock.c1.mspecial2"": 1,";
   "              ""unlock.c1.m9bonus"": 1,";
   "              ""unlock.milestone.furnitureAssembler"": 1,";
   "              ""unlock.upgrade.plasticizer"": 1,";
   "              ""unlock.upgrade.furnitureassembler"": 1,";
   "              ""unlock.upgrade.coalpower"": 1,";
   "              ""unlock.upgrade.steelmill"": 1,";
   "              ""unlock.c1.m10a1"": 1,";
   "              ""unlock.c1.m10b1"": 1,";
   "              ""unlock.milestone.oilrefinery"": 1,";
   "              ""unlock.milestone.neonrefinery"": 1,";
   "              ""unlock.milestone.goodsFactory"": 1,";
   "              ""unlock.milestone.hardmold"": 1,";
   "              ""unlock.milestone.electronicsFab"": 1,";
   "              ""unlock.c1.m11"": 1,";
   "              ""unlock.c1.m10bonus"": 1,";
   "              ""unlock.milestone.incinerator"": 1,";
   "              ""unlock.milestone.oreGassifier"": 1,";
   "              ""unlock.c1.mspecial3"": 1,";
   "              ""unlock.c1.m11bonus1"": 1,";
   "              ""unlock.c1.m11bonus2"": 1,";
   "              ""unlock.placeable.electronicsfab"": 1,";
   "              ""unlock.upgrade.goodsfactory"": 1,";
   "              ""unlock.c1.m12"": 1,";
   "              ""unlock.milestone.tooldie"": 1,";
   "              ""unlock.c1.m12bonus"": 1,";
   "              ""unlock.c1.m13"": 1,";
   "              ""unlock.upgrade.tooldie"": 1,";
   "              ""unlock.upgrade.oilrefinery"": 1,";
   "              ""unlock.c1.m10a2"": 1,";
   "              ""unlock.milestone.Electric"": 1,";
   "              ""unlock.c1.m13bonus1"": 1,";
   "              ""unlock.c1.m13bonus2"": 1,";
   "              ""unlock.c1.m14"": 1,";
   "              ""unlock.milestone.hullyard"": 1,";
   "              ""unlock.milestone.MaxHeight"": 1,";
   "              ""unlock.HybridEngine"": 1,";
   "              ""unlock.upgrade.neonrefinery"": 1,";
   "              ""unlock.upgrade.electronicsfab"": 1,";
   "              ""unlock.upgrade.hullyard"": 1,";
   "              ""unlock.upgrade.incinerator"": 1,";
   "              ""unlock.upgrade.oregassifier"": 1,";
   "              ""unlock.upgrade.hardmold"": 1,";
   "              ""unlock.milestone.luxuryAssembler"": 1,";
   "              ""unlock.c1.mspecial4"": 1,";
   "              ""unlock.c1.m14bonus"": 1,";
   "              ""unlock.milestone.rescue"": 1,";
   "              ""unlock.c1.m15"": 1,";
   "              ""unlock.milestone.glassSmelter"": 1,";
   "              ""unlock.milestone.signworks"": 1,";
   "              ""unlock.c1.m16"": 1,";
   "              ""unlock.c1.m15bonus1"": 1,";
   "              ""unlock.c1.m15bonus2"": 1,";
   "              ""unlock.milestone.chipfab"": 1,";
   "              ""unlock.upgrade.glasssmelter"": 1,";
   "              ""unlock.stationSpeed"": 1,";
   "              ""unlock.c1.m17a"": 1,";
   "              ""unlock.c1.m17b"": 1,";
   "              ""unlock.c1.m16bonus"": 1,";
   "              ""unlock.milestone.tubePlant"": 1,";
   "              ""unlock.milestone.diesel"": 1,";
   "              ""unlock.milestone.motor"": 1,";
   "              ""unlock.upgrade.motorAssembly"": 1,";
   "              ""unlock.milestone.heavyworks"": 1,";
   "              ""unlock.milestone.framer"": 1,";
   "              ""unlock.c1.m18a"": 1,";
   "              ""unlock.c1.m18b"": 1,";
   "              ""unlock.c1.m17bonus"": 1,";
   "              ""placeholder"": 1,";
   "              ""unlock.c1.m4bonus"": 1,";
   "              ""unlock.c1.m5"": 1,";
   "              ""unlock.c1.m4bonus2"": 1,";
   "              ""unlock.DieselEngine"": 1,";
   "              ""unlock.upgrade.signworks"": 1,";
   "              ""unlock.upgrade.chipfab"": 1,";
   "              ""unlock.RescueEngine"": 1,";
   "              ""unlock.upgrade.tubeplant"": 1,";
   "              ""unlock.upgrade.luxuryassembler"": 1,";
   "              ""unlock.upgrade.framer"": 1,";
   "              ""unlock.upgrade.heavyworks"": 1,";
   "              ""unlock.milestone.armory"": 1,";
   "              ""unlock.milestone.boosterplant"": 1,";
   "              ""unlock.milestone.rocketfactory"": 1,";
   "              ""unlock.milestone.Bullet"": 1,";
   "              ""unlock.c1.m19a"": 1,";
   "              ""unlock.c1.m19b"": 1,";
   "              ""unlock.c1.m18bonus"": 1,";
   "              ""unlock.BulletEngine"": 1,";
   "              ""unlock.upgrade.rocketfactory"": 1";
   "            }";
   "          }";
   "        ],";
   "        ""historicCounts"": [";
   "          {";
   "            ""type"": ""MapProperty"",";
   "            ""name_ints"": {";
   "              ""unlock.c1.t2"": 1,";
   "              ""unlock.c1.t3"": 1,";
   "              ""unlock.c1.m1"": 1,";
   "              ""unlock.c1.m2"": 1,";
   "              ""unlock.milestone.oilwell"": 1,";
   "              ""unlock.upgrade.oilpower"": 1,";
   "              ""unlock.milestone.Workhorse"": 1,";
   "              ""unlock.c1.m2bonus"": 1,";
   "              ""unlock.c1.m3"": 1,";
   "              ""unlock.CustomEngine"": 1,";
   "              ""unlock.placeable.geothermal"": 1,";
   "              ""unlock.upgrade.geothermal"": 1,";
   "              ""unlock.milestone.oilPower"": 1,";
   "              ""unlock.c1.m4"": 1,";
   "              ""unlock.milestone.coppermine"": 1,";
   "              ""unlock.milestone.coiler"": 1,";
   "              ""unlock.milestone.limestonemine"": 1,";
   "              ""unlock.milestone.concreteYard"": 1,";
   "              ""unlock.upgrade.concreteyard"": 1,";
   "              ""unlock.upgrade.coiler"": 1,";
   "              ""unlock.c1.mspecial1"": 1,";
   "              ""unlock.milestone.autoBranching"": 1,";
   "              ""unlock.c1.m6"": 1,";
   "              ""unlock.milestone.MediumHeight"": 1,";
   "              ""unlock.c1.m7"": 1,";
   "              ""unlock.milestone.saltsifter"": 1,";
   "              ""unlock.milestone.coalMine"": 1,";
   "              ""unlock.upgrade.saltsifter"": 1,";
   "              ""unlock.c1.m8"": 1,";
   "              ""unlock.milestone.coalpower"": 1,";
   "              ""unlock.milestone.Industrial"": 1,";
   "              ""unlock.milestone.ironmine"": 1,";
   "              ""unlock.c1.m9"": 1,";
   "              ""unlock.c1.m8bonus1"": 1,";
   "              ""unlock.c1.m8bonus2"": 1,";
   "              ""unlock.milestone.steelMill"": 1,";
   "              ""unlock.milestone.plasticizer"": 1,";
   "              ""unlock.c1.mspecial2"": 1,";
   "              ""unlock.c1.m9bonus"": 1,";
   "              ""unlock.milestone.furnitureAssembler"": 1,";
   "              ""unlock.upgrade.plasticizer"": 1,";
   "              ""unlock.upgrade.furnitureassembler"": 1,";
   "              ""unlock.upgrade.coalpower"": 1,";
   "              ""unlock.upgrade.steelmill"": 1,";
   "              ""unlock.c1.m10a1"": 1,";
   "              ""unlock.c1.m10b1"": 1,";
   "              ""unlock.milestone.oilrefinery"": 1,";
   "              ""unlock.milestone.neonrefinery"": 1,";
   "              ""unlock.milestone.goodsFactory"": 1,";
   "              ""unlock.milestone.hardmold"": 1,";
   "              ""unlock.milestone.electronicsFab"": 1,";
   "              ""unlock.c1.m11"": 1,";
   "              ""unlock.c1.m10bonus"": 1,";
   "              ""unlock.milestone.incinerator"": 1,";
   "              ""unlock.milestone.oreGassifier"": 1,";
   "              ""unlock.c1.mspecial3"": 1,";
   "              ""unlock.c1.m11bonus1"": 1,";
   "              ""unlock.c1.m11bonus2"": 1,";
   "              ""unlock.placeable.electronicsfab"": 1,";
   "              ""unlock.upgrade.goodsfactory"": 1,";
   "              ""unlock.c1.m12"": 1,";
   "              ""unlock.milestone.tooldie"": 1,";
   "              ""unlock.c1.m12bonus"": 1,";
   "              ""unlock.c1.m13"": 1,";
   "              ""unlock.upgrade.tooldie"": 1,";
   "              ""unlock.upgrade.oilrefinery"": 1,";
   "              ""unlock.c1.m10a2"": 1,";
   "              ""unlock.milestone.Electric"": 1,";
   "              ""unlock.c1.m13bonus1"": 1,";
   "              ""unlock.c1.m13bonus2"": 1,";
   "              ""unlock.c1.m14"": 1,";
   "              ""unlock.milestone.hullyard"": 1,";
   "              ""unlock.milestone.MaxHeight"": 1,";
   "              ""unlock.HybridEngine"": 1,";
   "              ""unlock.upgrade.neonrefinery"": 1,";
   "              ""unlock.upgrade.electronicsfab"": 1,";
   "              ""unlock.upgrade.hullyard"": 1,";
   "              ""unlock.upgrade.incinerator"": 1,";
   "              ""unlock.upgrade.oregassifier"": 1,";
   "              ""unlock.upgrade.hardmold"": 1,";
   "              ""unlock.milestone.luxuryAssembler"": 1,";
   "              ""unlock.c1.mspecial4"": 1,";
   "              ""unlock.c1.m14bonus"": 1,";
   "              ""unlock.milestone.rescue"": 1,";
   "              ""unlock.c1.m15"": 1,";
   "              ""unlock.milestone.glassSmelter"": 1,";
   "              ""unlock.milestone.signworks"": 1,";
   "              ""unlock.c1.m16"": 1,";
   "              ""unlock.c1.m15bonus1"": 1,";
   "              ""unlock.c1.m15bonus2"": 1,";
   "              ""unlock.milestone.chipfab"": 1,";
   "              ""unlock.upgrade.glasssmelter"": 1,";
   "              ""unlock.stationSpeed"": 1,";
   "              ""unlock.c1.m17a"": 1,";
   "              ""unlock.c1.m17b"": 1,";
   "              ""unlock.c1.m16bonus"": 1,";
   "              ""unlock.milestone.tubePlant"": 1,";
   "              ""unlock.milestone.diesel"": 1,";
   "              ""unlock.milestone.motor"": 1,";
   "              ""unlock.upgrade.motorAssembly"": 1,";
   "              ""unlock.milestone.heavyworks"": 1,";
   "              ""unlock.milestone.framer"": 1,";
   "              ""unlock.c1.m18a"": 1,";
   "              ""unlock.c1.m18b"": 1,";
   "              ""unlock.c1.m17bonus"": 1,";
   "              ""placeholder"": 1,";
   "              ""unlock.c1.m4bonus"": 1,";
   "              ""unlock.c1.m5"": 1,";
   "              ""unlock.c1.m4bonus2"": 1,";
   "              ""unlock.DieselEngine"": 1,";
   "              ""unlock.upgrade.signworks"": 1,";
   "              ""unlock.upgrade.chipfab"": 1,";
   "              ""unlock.RescueEngine"": 1,";
   "              ""unlock.upgrade.tubeplant"": 1,";
   "              ""unlock.upgrade.luxuryassembler"": 1,";
   "              ""unlock.upgrade.framer"": 1,";
   "              ""unlock.upgrade.heavyworks"": 1,";
   "              ""unlock.milestone.armory"": 1,";
   "              ""unlock.milestone.boosterplant"": 1,";
   "              ""unlock.milestone.rocketfactory"": 1,";
   "              ""unlock.milestone.Bullet"": 1,";
   "              ""unlock.c1.m19a"": 1,";
   "              ""unlock.c1.m19b"": 1,";
   "              ""unlock.c1.m18bonus"": 1,";
   "              ""unlock.BulletEngine"": 1,";
   "              ""unlock.upgrade.rocketfactory"": 1";
   "            }";
   "          }";
   "        ]";
   "      }";
   "    },";
   "    ""achievementHistoryScope"": {";
   "      ""type"": ""StructProperty"",";
   "      ""type_name"": ""MetaMetricStorageScope"",";
   "      ""CustomStruct"": {";
   "        ""metrics"": [";
   "          {";
   "            ""type"": ""MapProperty"",";
   "            ""value_type"": ""StructProperty"",";
   "            ""name_props"": {";
   "              ""Profit"": {";
   "                ""type"": ""StructPropertyValue"",";
   "                ""CustomStruct"": {";
   "                  ""valueByFilter"": [";
   "                    {";
   "                      ""type"": ""MapProperty"",";
   "                      ""name_ints"": {";
   "                        ""None"": 737";
   "                      }";
   "                    }";
   "                  ]";
   "                }";
   "              },";
   "              ""export.rate"": {";
   "                ""type"": ""StructPropertyValue"",";
   "                ""CustomStruct"": {";
   "                  ""valueByFilter"": [";
   "                    {";
   "                      ""type"": ""MapProperty"",";
   "                      ""name_ints"": {";
   "                        ""Energy"": 0,";
   "                        ""Mainframes"": 0";
   "                      }";
   "                    }";
   "                  ]";
   "                }";
   "              },";
   "              ""produce"": {";
   "                ""type"": ""StructPropertyValue"",";
   "                ""CustomStruct"": {";
   "                  ""valueByFilter"": [";
   "                    {";
   "                      ""type"": ""MapProperty"",";
   "                      ""name_ints"": {";
   "                        ""Energy"": 1043,";
   "                        ""CrudeOil"": 1047";
   "                      }";
   "                    }";
   "                  ]";
   "                }";
   "              },";
   "              ""cycle"": {";
   "                ""type"": ""StructPropertyValue"",";
   "                ""CustomStruct"": {";
   "                  ""valueByFilter"": [";
   "                    {";
   "                      ""type"": ""MapProperty"",";
   "                      ""name_ints"": {";
   "                        ""placeable.geothermal"": 70";
   "                      }";
   "                    }";
   "                  ]";
   "                }";
   "              },";
   "              ""build.track"": {";
   "                ""type"": ""StructPropertyValue"",";
   "                ""CustomStruct"": {";
   "                  ""valueByFilter"": [";
   "                    {";
   "                      ""type"": ""MapProperty"",";
   "                      ""name_ints"": {";
   "                        ""None"": 8341";
   "                      }";
   "                    }";
   "                  ]";
   "                }";
   "              },";
   "              ""build.branch"": {";
   "                ""type"": ""StructPropertyValue"",";
   "                ""CustomStruct"": {";
   "                  ""valueByFilter"": [";
   "                    {";
   "                      ""type"": ""MapProperty"",";
   "                      ""name_ints"": {";
   "                        ""None"": 1848";
   "                      }";
   "                    }";
   "                  ]";
   "                }";
   "              },";
   "              ""build.train"": {";
   "                ""type"": ""StructPropertyValue"",";
   "                ""CustomStruct"": {";
   "                  ""valueByFilter"": [";
   "                    {";
   "                      ""type"": ""MapProperty"",";
   "                      ""name_ints"": {";
   "                        ""None"": 1120";
   "                      }";
   "                    }";
   "                  ]";
   "                }";
   "              },";
   "              ""arrive.length"": {";
   "                ""type"": ""StructPropertyValue"",";
   "                ""CustomStruct"": {";
   "                  ""valueByFilter"": [";
   "                    {";
   "                      ""type"": ""MapProperty"",";
   "                      ""name_ints"": {";
   "                        ""None"": 13";
   "                      }";
   "                    }";
   "                  ]";
   "                }";
   "              },";
   "              ""arrive.freight"": {";
   "                ""type"": ""StructPropertyValue"",";
   "                ""CustomStruct"": {";
   "                  ""valueByFilter"": [";
   "                    {";
   "                      ""type"": ""MapProperty"",";
   "                      ""name_ints"": {";
   "                        ""Water"": 2067,";
   "                        ""Steel"": 2059";
   "                      }";
   "                    }";
   "                  ]";
   "                }";
   "              },";
   "              ""salvage.track"": {";
   "                ""type"": ""StructPropertyValue"",";
   "                ""CustomStruct"": {";
   "                  ""valueByFilter"": [";
   "                    {";
   "                      ""type"": ""MapProperty"",";
   "                      ""name_ints"": {";
   "                        ""None"": 1128";
   "                      }";
   "                    }";
   "                  ]";
   "                }";
   "              },";
   "              ""salvage.branch"": {";
   "                ""type"": ""StructPropertyValue"",";
   "                ""CustomStruct"": {";
   "                  ""valueByFilter"": [";
   "                    {";
   "                      ""type"": ""MapProperty"",";
   "                      ""name_ints"": {";
   "                        ""None"": 59";
   "                      }";
   "                    }";
   "                  ]";
   "                }";
   "              },";
   "              ""upgrade"": {";
   "                ""type"": ""StructPropertyValue"",";
   "                ""CustomStruct"": {";
   "                  ""valueByFilter"": [";
   "                    {";
   "                      ""type"": ""MapProperty"",";
   "                      ""name_ints"": {";
   "                        ""None"": 268,";
   "                        ""placeable.waterpump"": 32";
   "                      }";
   "                    }";
   "                  ]";
   "                }";
   "              },";
   "              ""Path"": {";
   "                ""type"": ""StructPropertyValue"",";
   "                ""CustomStruct"": {";
   "                  ""valueByFilter"": [";
   "                    {";
   "                      ""type"": ""MapProperty"",";
   "                      ""name_ints"": {";
   "                        ""None"": 61";
   "                      }";
   "                    }";
   "                  ]";
   "                }";
   "              },";
   "              ""mission"": {";
   "                ""type"": ""StructPropertyValue"",";
   "                ""CustomStruct"": {";
   "                  ""valueByFilter"": [";
   "                    {";
   "                      ""type"": ""MapProperty"",";
   "                      ""name_ints"": {";
   "                        ""82A9B46F42BF6C5555D608A6619B35E6"": 2";
   "                      }";
   "                    }";
   "                  ]";
   "                }";
   "              },";
   "              ""maxupgrade"": {";
   "                ""type"": ""StructPropertyValue"",";
   "                ""CustomStruct"": {";
   "                  ""valueByFilter"": [";
   "                    {";
   "                      ""type"": ""MapProperty"",";
   "                      ""name_ints"": {";
   "                        ""city"": 2";
   "                      }";
   "                    }";
   "                  ]";
   "                }";
   "              }";
   "            }";
   "          }";
   "        ]";
   "      }";
   "    }";
   "  }";
   "}"].

(** resources/test/palworld_zlib.sav, packed: 3669 bytes. *)
Definition palworld_packed : list string :=
  ["a71e0000490e0000506c5a31789ccd580b7814d5159e1543084930a148c0f0348020af7d3f2898cc73b361938dd90402b62c939d4b76cc646699dd0d";
   "09222f810641302848107cf0964609341021a21fb628b65a280822c522885010ab56b19467ef9dd96c7649c2276dbf96e15b18ce3df73fe79eff9c73";
   "ef1dfb38dcdd01c3b0cef760d8b7f0250ed3c03fe8e90a7f438716d1a6a10540006c000c378dd061489786bf4d570f657de9cc1e1b9a68ad7fc99157";
   "1d0f6557a65fbaf61451915f7cf6b55dfae1afdc7442d913f681099aac311581a3356b521b4289083bbd7f35f15ef76c7a7b69c503d8c3d3f391ecc3";
   "3fee7ae0673c8685b231eceaa363fa7150d67fd937ce511f77b12f1e3379e6a0f1b5dd91decc19534f1fa62e1564b993964fea70ff6f90ddaf3beb52";
   "d9dca211eb56956e1dd6e9d57da950763569eea609e4a67edd86152ece3f90b1e27e28ab6c3af9e39957f29b72dfec9195b1f50f93e192b1efa7370d";
   "78cac58c7b77f8c8be3757bcee8883b221191b2a76d01909f8b137561e7b7ce401248be7dff2bc91b5bf68de77a54b32bfbb3909f99237e3dcdc0d64";
   "8661dfcfca1abe4fd6bd80a226fc78edbedaec67532faf9ebc6d929dc9417a0f1e295cfdb66bd06626befff307e736b0c3a0ec8cfe587db26b61dfc6";
   "9907ead6e65c377786b2c1e47ba7dcb9c3d62e5822ac5bbc270d85001bbd7792e56af6998edfcec376cc9cfaf0a07bd17a7df567ce13cfff90785cb7";
   "166f62460c86b2cce0b503b3a97af264b79ae702fd7aa70d84b21d8ea1f5e7a97e4d8dfa7bd74dee70a60071f78b9433eb77385e9df0bbac7d9bfe76";
   "726621b2f1816ebfed84fdecc4b4d5d4aa194b7a3d826486f46f2b57ba2e7c75615ec3aeb513777dd80dcaeeb3eaa67c4ee60e7fe840c2ec89af8de3";
   "91decb8b2e77bd9613aa4efa74c6c6217b4659874399f3dcc427529cfe432bc717bf36f1e1fe89c950d6831ff2c967638ff6decc9d5e33cfba7734f2";
   "a5b2e0d5776fe49c7be7e6b36942d13f7abb51ac3e5e5727ee755eccfa7ad182c67d4b8904a4f759e8cb210f31eb3eaf3894b2e6c289611988df5f6e";
   "24b7da1d87672d7924b032ae69efa7f741d9456150d9d2b1eff7f9f44ce2baf86b4402c263c7fc23f9823d73edf9850f35ae72e04948b6a047efc9f3";
   "5c5cdd5f0e77df72f4fd0bc9f950d6d8d1f9d8e51cef00ff3b8fcdfeece0a58f101f3e6fa773c5ce8c327fba6d5ecda441dd51ec8fbe75734db1c6e5";
   "98dbb5ffe9eacdcb4623bdba836ffc5dc26fac9ab5855b70ede8a02bc846625f57da06fabd86bf8ec8dcf664cdd58348efa99c7f9a84ace2d397127a";
   "ac9b312065c5102813f72edd799a485ff48bfeee861b54751c9adb71fea9edef1e08104d3fe46d88dfbd288464e68597b8dd44faf585f28add79570e";
   "1e41b239479ee47f8dbbce5e7c3467cbe09d8d6f17431931e9c5634cee9e019bebbaceab4ae34e221b05bf3c3e21dba1ef5a39a1f2cd45e7dff47782";
   "32fdc4f8419decf705f48bcf57c7ad99f01de2f2a1635da4e5d9091b9fa9ad59bdbe4b8f67517d7cb1e888762e7161f9846d5f6c7cbcfeab63c8eeb9";
   "97664d1de5a83fafaff94d75fc1c6b7a0a94f5cc4d22fd8ec2a9fc8bfcafbeac7ff624e2638ffec6966ecee5ee81931edff9d99ff42968ee92535b33";
   "8af34e390bde659f697cdbbd2b11ca2e3496ac1f9557fb43df8b7b6bb79f1a3017c579cff51d235272eb344bbf37cf39bee13903aa4197694dfe48c7";
   "d91fb7cf776ceae51d8d4a1feb95fec5ce8ba92f1f9afff2ccf9a7fdb512b291f5d5b89c13a99752661a0f2f3bf7f807dbd13ab09ca73f798129feeb";
   "8e9e9b7737304f66a3eeb6e07255515fe7a8e79ee8b4fba991bb582fd22b787b249b98e53e5ee34aae99317fdbcb4aeca767acff00bff0fbcb3dd62e";
   "fd3edd578c7c0965e6cd768cadf6775c7c74fd899d334723d90fd907fbf89c2346ae771f5c383c65e97768eedf3bfbaeae1bfbcd0464770cb53f806c";
   "7469ccaf4dcb7ba021f9ca874d4767cd198ff4563cbae2d7d73a1da39f79f093c697c6bd5e896419f037d2ed95797f70643e2b8c80bff1922c70f902";
   "5b0564375b01ec6c39c0109de3801ce025114b82ef0e31982f4b7e2007abb07bb1f0839a09cac142be1c04826cb91f430cb98372c8dba2dd29ac9c00";
   "7f141b0448196bf57c7e797bdda59e273a212de404d464db424beca1eaa7c15f6bd79559ad1ee4a2aa53e4e0da024d092ba278db433cd71a22fa4151";
   "4c5642c2f1153c176285b651ebc3fa5d54571d220c91e8050eea7fe261a2e261d8e4bf89993d7adf9ed5432b5c4b3f7a7ee18ba71a9623cd3c4904ca";
   "929c6c205828b362608a2497b785fffba8c5b528b67a10e30552900da2546b03a65f949b8f86d8e0ed970e9fd9cb676b670dfec3d9cc5336f9addf86";
   "ce6626353b20b46b249c55182aff71c01b94e4d6b8672d9ee569c3eedf6b7b3af0c4daa4143c8f1b5078f8c6d6ac48541088ca22e96365d61b04722e";
   "5bd66e2ac7755071fb624a7ea8339172cc6c8738456aed0bca3f42e2aa7241c09787ea1509d04b04bd73b36a47b4fa2a3fc0159d6cc0723f7152104e";
   "d2a993585ebe034b16a563144a72401a2709a172355f184162dbe821d8cacc9f770edb20250106fe36a98a709dbc08d8b06aaba7e7fb03dfd912d72b";
   "93ebf56778e2989d899009599af69f237f54e7dcd3f52f8f65aeaa5dde820c19f8cf91a7747cebe729821622efcf44c8ddc2c8ee504920244f61bde0";
   "bf1017dfc6cc8d93e5470a85418af7a8e8e8aaff02b037fef8233727c66572870c0a708a0a9c0b1bbdccb342db1993d43c1bed0d2863b45a9dbae348";
   "bcd220dbdd71d04e17a9b707e08b2b28954b9182212531c84277e5b63b5e5118050dc18a8bd66ef5a0e2849efc5b7d738eed0af7c9827fda77bf62fa";
   "7a8df5e007118f139b3d76c91c9095c0d062a83c023d300cd01d0d400f155df42f52478182f797f686468dca9382a4545e025b24aa375eac00226c64";
   "554a0769631d7dc2514dc76ee93f8e9899ad1e74ca8176ca25f12e09774dfe0b9357634f93739fb9a2b5d4bc991d0937aa240ae2b8051499bbc2d7cd";
   "0bebbea938b09bdcf6fcc35f6ba77c7839e22bba4bd281000c3c1f6bfeffe86cf5e631f1df768dc7b71e2f3ad28b5ab233e26c4ff8321eb07e49744a";
   "2ce70add2dd1ed907d71eb63db5cf665d3b60c7cbdbe694ec4e15e58f3d64c4f0df17e5c2e97ee9666f1153eaff66c6fd6557ffde326f0229d149311";
   "8c24718ac77789b3bf752e1b90fee0a78e3a7c3fb320b5a72ee26ce405611402af4f84fb456955bec48bc1f6db395a222ad2122910f8c99390a93ef0";
   "57240a92b70c7005c0cbfb41cb74b4d504941688cb325b1501480d9fb75a6d47d883987a4a85b789b212207a7d8a63709c83d1f1e095c06397590e78";
   "e02ed5336a209ff796b1d183ea3946e4e0d10762a02b0ac1068302f0e4020100b5603c50a41c33214d8454a9745fb71f2e81153c50e4f6fb80dc8e3d";
   "5292ca78b1347610f66899f53882a09cf4c14b58cb208a5f01f0c36315a12c294559a0c401d1e3934201100041e5c41a76b180154b232e4ad374ca69";
   "0e06509a1665462d2102702d66bab70cc205458f24b78093b001fb1444b8545656ca313ca4946264525833518d0fca7e14a3683618562ef710409679";
   "48725488ed020f37c216ebbdda5d9a87e165a064503326e25d0992c75dc60b829a582a78881738b644007689e34020e086f7941050161da5ea19cb07";
   "03211194f0ea1d200ceb562f351480171f480d961a33068b259f8fa1e0962cd12b1e34e746361bf4fa20fb302c7469a9725a22e55000668baa16e50d";
   "2503b69c027083568ac6ed676f43b44169044c4816f96048066e10f41894f5a164848700b614dc25bd67c09529da234d7cd6af1284c1ef6fbd7a3de6";
   "54059b802473ed5db5de890f43a82e3aa5d252c0f162ec87832888560f6a5285d23498fbb0534142011b6404b65429b25cd61f3134186ba7c7a81736";
   "4968693ae8513e5ca31197dbed21f0c24227edc9c3736994c68100b28569ee57962997a376715bdb43efdc362a029d47a7f5f805489987f12013b0c4";
   "78b98a82ccc304d2a0d35ea1cc970092f5a30421a5d0ed9a330a544a38116e9d10edaca069c7d95b9123a8a8b9ba7d00f84b584150bc473590cf8b65";
   "24eca8f784ff0f3b1c6c1b95caff515e903ed8a48108dd897c1581ac8b41b7803e43dd13c66da9df0ecdb8402c0df1a2a2a1c44f08013811de894381";
   "8871321404c898260c339e9fceca9c6b9aa04c4b086be44a0288188faacd66145a00dee625201492954b42a25790228bb2b322bc7db3ca0c94c9b992";
   "5806aa22665137acb2c3dbb5224166b3d96965042f730a028a282354c1de910b17aea228352fa084a678510ab0215911775599e380b74ced256d269a";
   "b63deeda4eb436c88b664e134d9be656ce6e214c13cb96269a2a4d6b9e62488a6548134bcfaddc4413a3896545134349341fb79011c384a6150d6d71";
   "d0af75e91092180a286f9e421ec8baf66baf4fb89b140081f7ba4a50176624b9f923609b545ebcb39e817670740165cc368b91d19b8d6613aed3925a";
   "8221ad369dcdaca7b47a82d652980669e106b3d66ab2d246a315676c7a0bfc4b67a4acb48db21869a3ceac6ae9293da1a5755064a22c84dec8684903";
   "4d5bb57a4a4758cdb456d5622cb4d668c37546b3d142d1146db4e94d661b6e25098630e034a16a99713d4edb0c66a34eab37d066a3d64c113a123751";
   "069391366b8daa968532e026ab8931923443e20c6d21f566bdc166a4cc148d5b8d264c93d21cc57cd80fe1b69f172a6f3feca81ad0a70878fd063f2d";
   "ea7dee2ceaf784cb9e62ab8657c2448e53df0d98069965d4efb0154050cecdb7a9dbf7eecc6c5c986cc88181b1c2c0133865a38d262b61351a70dca0";
   "25681d495a1935a81445100c8333460365d3eb6c386db6528ccd6a311a29466b35e8542d9bc546307aadd1485a692b439b4c36c264b3e236136e3540";
   "560daa965167d15b745a48b889d2eb28d2a6850c6a6da4c960b3da600e852da28c2271ca68d1ebcc306db45aca60c0ad949530eb18da4aa8818abd9d";
   "445ed0f32fa032f302"].
(** resources/test/palworld_zlib.sav, unpacked: 7847 bytes. *)
Definition palworld_unpacked : list string :=
  ["47564153030000000a020000f003000005000100010000000000120000002b2b5545352b52656c656173652d352e31000300000045000000a7fbd240";
   "e54c484b755a38b09e494e8807000000fa7af5fc8342765058e6a9b9322da0ff4c0000007b47250901403d7673d6919d11b4750b010000001b218842";
   "c6164845b267761a002a7a5001000000ccceb91a1369000075480000fb513d20640000002192ef4c3ad40e478c3d607e26579916010000007e7c71e2";
   "d344f55240530c955e0315b307000000ed0a3111614d552ea39a67af2c08a1c511000000fb0c82a75943a720142c548c50cf23961500000078bbdff6";
   "e4a050bb4db8184023afcb6002000000f37abb24834f4656c22d2f1fff96ad49050000002923a576b545230941d8ae98d86a2fcf050000000769bc5f";
   "ae40c85584f1678e3ff1ff5e010000004e7ce782a5432333c5136bb4f30d3197000000006cf6fc0f99489011f89c60b15e47464a0100000022d5549c";
   "be4f26a846072194d082b4612c000000e432d8b00d4f891fb77ecfaca24afd360a0000002843c6e1534d2ca2868e6ca38cbd1764000000003cc15e37";
   "fb48e406f08400b57e712a2604000000ed68b0e4e94294f40bda31a241bb462e280000003f74fccf8044b043df14919373201d1725000000b5492bb0";
   "e94420bbb73204a36003e452030000005c10e4a4b549a159c440c5a7eedf7e5400000000c931c839dc47e65a179c449a7c8e1c3e00000000331bf078";
   "984feaebea84b4b9a25ab9cc140000000f383166e0434d2d27cf09805aa95669000000009f8bf812fc4a75880cd97ca629bd3a382d0000004ce75a7b";
   "104c70d2985758a95a2a210b0d000000186929d7dd4bd61da864e29d8438c13c030000007852a1c2fe4ae7bfff90176c55f71d5301000000d4a3ac6e";
   "c14cec40ed8b86b7c58f420903000000dd75e5292746a3e076d2109deadc2c23110000005da643af4749d37f8e3e739805bbc1d90f000000ec6c266b";
   "8f4bc71ed9e40ba307fc420901000000613df70dea473fa2e98927b79a49410c0100000086181d60844f64acded316aad6c7ea0d50000000b7064c5b";
   "f84a632470bf5b80ddd0f5cd0a000000686308e7584c236b701b3984915e261604000000d6bcff9d58014f49821221e288a8923c0a000000acd0aef2";
   "6f41fe9a7faa6486fcd626fa010000000b1f4f17a545c6b4e82e3fb17d91fbd00a000000834af9356c4058e2f50918a37c241096290000006ec18fb6";
   "e2421b8b5c2153b4fe448805010000000685e1b2c2cf7342bbf44ea507ba8b75010000003689f564ba421bfd897296ba4efad0d50100000081d57d69";
   "ab414fe6ec514aaa28b6b7be58000000425e9bd8464dbd24a8ac1284791764df29000000525dda5948493212785978b88be9b87008000000325a0726";
   "08470f73328ce988059d59f10000000027d80e6f954809a68d99919ca40e189002000000e38bd5308242ea9559b1e3a66ab0ebd801000000e79e7f71";
   "3a49b0e93291b3880781381b10000000194d0c4370495471699b6987e5b090df0f000000bd32feaa144c9553255e6ab6ddd13210010000008ee1af23";
   "584ee14c52c2618db7be53b90b000000eab762a43a4e99f41fecc199b2e1248204000000bdfdb52e104dac018ff33681daa59333050000004f359d50";
   "2f49e6f6b28549a71c633c07000000001c1be3b6ec119fd2859f7e85e270996f0100000040eb564adc11f5107e34d392e76ac9b202000000004a8ad7";
   "974658e8b519a8bab4467d481200000086f879551f4c3a937b08ba832fb961630200000052be2f610b4053da914f0d917c85b19f01000000367a23a4";
   "c941eacaf818a28ff31b685805000000753f4e80494b8870068cd6a4dcb67e3c05000000f448d01e684c2e2fa453d0892d108ff101000000f20a68fb";
   "a34bef59b519a8ba3d44c873020000000eb75099174e1ab40dfaccbbd67f815701000000965196abfc08d8458d22d7b79e56ad780100000023000000";
   "2f5363726970742f50616c2e50616c576f726c64506c617965725361766547616d65000800000056657273696f6e000c000000496e7450726f706572";
   "747900040000000000000000640000000a00000054696d657374616d70000f00000053747275637450726f7065727479000800000000000000090000";
   "004461746554696d65000000000000000000000000000000000000e0f8b2acf519dc08090000005361766544617461000f0000005374727563745072";
   "6f7065727479000b180000000000001700000050616c576f726c64506c6179657253617665446174610000000000000000000000000000000000000a";
   "000000506c61796572554964000f00000053747275637450726f70657274790010000000000000000500000047756964000000000000000000000000";
   "000000000000000000000000000000000000010000000d000000496e646976696475616c4964000f00000053747275637450726f706572747900b000";
   "0000000000000e00000050616c496e7374616e636549440000000000000000000000000000000000000a000000506c61796572554964000f00000053";
   "747275637450726f70657274790010000000000000000500000047756964000000000000000000000000000000000000000000000000000000000000";
   "010000000b000000496e7374616e63654964000f00000053747275637450726f70657274790010000000000000000500000047756964000000000000";
   "000000000000000000000000483cc5bd9c2b764f8fcd94899be1b495050000004e6f6e65000e0000004c6173745472616e73666f726d000f00000053";
   "747275637450726f706572747900ca000000000000000a0000005472616e73666f726d00000000000000000000000000000000000009000000526f74";
   "6174696f6e000f00000053747275637450726f7065727479002000000000000000050000005175617400000000000000000000000000000000000000";
   "0000000000000000000000000000809580307f28cbe63fe13972bcc375e63f0c0000005472616e736c6174696f6e000f00000053747275637450726f";
   "706572747900180000000000000007000000566563746f72000000000000000000000000000000000000e6375f95172c15c1398a737ba20c10414e64";
   "2454d3feaf40050000004e6f6e650018000000506c617965724368617261637465724d616b6544617461000f00000053747275637450726f70657274";
   "790005030000000000001f00000050616c506c61796572446174614368617261637465724d616b65496e666f00000000000000000000000000000000";
   "00000d000000426f64794d6573684e616d65000d0000004e616d6550726f7065727479000a0000000000000000060000005479706541000d00000048";
   "6561644d6573684e616d65000d0000004e616d6550726f7065727479000a0000000000000000060000007479706531000d000000486169724d657368";
   "4e616d65000d0000004e616d6550726f7065727479000a0000000000000000060000005479706537000c000000546f72736f566f6c756d65000e0000";
   "00466c6f617450726f70657274790004000000000000000000983f3b0a00000048616972436f6c6f72000f00000053747275637450726f7065727479";
   "0010000000000000000c0000004c696e656172436f6c6f7200000000000000000000000000000000000019c725bfaa051c3f641cdb3e0000803f0a00";
   "000042726f77436f6c6f72000f00000053747275637450726f70657274790010000000000000000c0000004c696e656172436f6c6f72000000000000";
   "000000000000000000000000cdac4cbd12de5b3f9a99953e0000803f0a000000426f6479436f6c6f72000f00000053747275637450726f7065727479";
   "0010000000000000000c0000004c696e656172436f6c6f720000000000000000000000000000000000006606bc3b106c303f9a99c83f0000803f1400";
   "0000426f647953756273757266616365436f6c6f72000f00000053747275637450726f70657274790010000000000000000c0000004c696e65617243";
   "6f6c6f720000000000000000000000000000000000001968a63fa660723e546c263e0000803f09000000457965436f6c6f72000f0000005374727563";
   "7450726f70657274790010000000000000000c0000004c696e656172436f6c6f720000000000000000000000000000000000006307da3eff5a053f64";
   "d2333e0000803f100000004579654d6174657269616c4e616d65000d0000004e616d6550726f7065727479000c000000000000000008000000547970";
   "653030310008000000566f6963654944000c000000496e7450726f70657274790004000000000000000002000000050000004e6f6e65001a0000004f";
   "746f6d6f436861726163746572436f6e7461696e65724964000f00000053747275637450726f70657274790055000000000000000f00000050616c43";
   "6f6e7461696e65724964000000000000000000000000000000000000030000004944000f00000053747275637450726f706572747900100000000000";
   "000005000000477569640000000000000000000000000000000000008139fa64d786f947baa035ed9d38d0c9050000004e6f6e65000b0000004f746f";
   "6d6f4f72646572000d000000456e756d50726f7065727479002500000000000000160000004550616c4f746f6d6f50616c4f72646572547970650000";
   "210000004550616c4f746f6d6f50616c4f72646572547970653a3a4e6f74436f6d626174000e000000696e76656e746f7279496e666f000f00000053";
   "747275637450726f7065727479001e040000000000001b00000050616c506c6179657244617461496e76656e746f7279496e666f0000000000000000";
   "0000000000000000000012000000436f6d6d6f6e436f6e7461696e65724964000f00000053747275637450726f70657274790055000000000000000f";
   "00000050616c436f6e7461696e65724964000000000000000000000000000000000000030000004944000f00000053747275637450726f7065727479";
   "0010000000000000000500000047756964000000000000000000000000000000000000915097609c008a43828dfa303791b848050000004e6f6e6500";
   "1400000044726f70536c6f74436f6e7461696e65724964000f00000053747275637450726f70657274790055000000000000000f00000050616c436f";
   "6e7461696e65724964000000000000000000000000000000000000030000004944000f00000053747275637450726f70657274790010000000000000";
   "000500000047756964000000000000000000000000000000000000a889acef76cfba43b1942aed3066ccf8050000004e6f6e65001500000045737365";
   "6e7469616c436f6e7461696e65724964000f00000053747275637450726f70657274790055000000000000000f00000050616c436f6e7461696e6572";
   "4964000000000000000000000000000000000000030000004944000f00000053747275637450726f7065727479001000000000000000050000004775";
   "696400000000000000000000000000000000000088a83d07f0120741afda55d51c448eb6050000004e6f6e650019000000576561706f6e4c6f61644f";
   "7574436f6e7461696e65724964000f00000053747275637450726f70657274790055000000000000000f00000050616c436f6e7461696e6572496400";
   "0000000000000000000000000000000000030000004944000f00000053747275637450726f7065727479001000000000000000050000004775696400";
   "00000000000000000000000000000000000348ecaf5bb14f479277aa25adb0bb81050000004e6f6e65001c000000506c61796572457175697041726d";
   "6f72436f6e7461696e65724964000f00000053747275637450726f70657274790055000000000000000f00000050616c436f6e7461696e6572496400";
   "0000000000000000000000000000000000030000004944000f00000053747275637450726f7065727479001000000000000000050000004775696400";
   "0000000000000000000000000000000000eb418499e61d614fb0fdd4bb659b450c050000004e6f6e650015000000466f6f644571756970436f6e7461";
   "696e65724964000f00000053747275637450726f70657274790055000000000000000f00000050616c436f6e7461696e657249640000000000000000";
   "00000000000000000000030000004944000f00000053747275637450726f706572747900100000000000000005000000477569640000000000000000";
   "00000000000000000000c34c92241b22d949ac41c84686111931050000004e6f6e6500050000004e6f6e650010000000546563686e6f6c6f6779506f";
   "696e74000c000000496e7450726f7065727479000400000000000000001500000014000000626f7373546563686e6f6c6f6779506f696e74000c0000";
   "00496e7450726f706572747900040000000000000000050000001e000000556e6c6f636b6564526563697065546563686e6f6c6f67794e616d657300";
   "0e000000417272617950726f70657274790011030000000000000d0000004e616d6550726f70657274790000220000000a000000576f726b62656e63";
   "68001500000050726f647563745f4178655f47726164655f3031001900000050726f647563745f5069636b6178655f47726164655f3031000a000000";
   "48616e64546f7263680017000000426174746c655f4d656c6565576561706f6e5f426174000700000050616c426f78001b0000005370656369616c5f";
   "50616c5370686572655f47726164655f3031001900000050726f647563745f436f6f6b696e675f47726164655f30310019000000496e6672615f4974";
   "656d43686573745f47726164655f3031000c00000052657061697242656e63680010000000576f6f64656e5f686f7573657365740018000000426174";
   "746c655f52616e6765576561706f6e5f426f773100060000004172726f770019000000496e6672615f506c617965724265645f47726164655f303100";
   "16000000496e6672615f50616c4265645f47726164655f3031000d000000426174746c655f436c6f746800060000005370656172001c000000426174";
   "746c655f41726d6f725f47726164655f30315f436c6f7468000b00000050616c466f6f64426f78001500000050726f647563745f4661726d5f426572";
   "726965730017000000426174746c655f476c696465725f47726164655f3031001c000000426174746c655f52616e6765576561706f6e5f426f775f46";
   "697265001e00000050726f647563745f576f726b42656e63685f536b696c6c556e6c6f636b00170000004275696c6461626c65476f64646573735374";
   "617475650016000000536b696c6c556e6c6f636b5f4b697473756e656269001800000050726f647563745f53746174696f6e4465666f726573740011";
   "00000050726f647563745f53746f6e655069740018000000426174746c655f4d656c6565576561706f6e5f4261743200170000005370656369616c5f";
   "4861746368696e6750616c4567670008000000437275736865720017000000536b696c6c556e6c6f636b5f447265616d44656d6f6e00040000005370";
   "610018000000426174746c655f52616e6765576561706f6e5f426f7733000f0000004675726e69747572655365745f33001600000050616c53746f72";
   "616765436f6e7461696e65724964000f00000053747275637450726f70657274790055000000000000000f00000050616c436f6e7461696e65724964";
   "000000000000000000000000000000000000030000004944000f00000053747275637450726f70657274790010000000000000000500000047756964";
   "00000000000000000000000000000000000024fa6630d5bb694087096c28c7affbfd050000004e6f6e65000b0000005265636f726444617461000f00";
   "000053747275637450726f706572747900bf070000000000002400000050616c4c6f67676564696e506c6179657253617665446174615265636f7264";
   "4461746100000000000000000000000000000000000014000000546f776572426f7373446566656174466c6167000c0000004d617050726f70657274";
   "790028000000000000000d0000004e616d6550726f7065727479000d000000426f6f6c50726f7065727479000000000000010000001b000000424f53";
   "535f424154544c455f4e414d455f4772617373426f73730001150000004e6f726d616c426f7373446566656174466c6167000c0000004d617050726f";
   "7065727479002b000000000000000d0000004e616d6550726f7065727479000d000000426f6f6c50726f7065727479000000000000010000001e0000";
   "00315f31305f706c61696e5f465f426f73735f4661697279447261676f6e000112000000547269626543617074757265436f756e74000c000000496e";
   "7450726f706572747900040000000000000000140000001000000050616c43617074757265436f756e74000c0000004d617050726f7065727479006c";
   "010000000000000d0000004e616d6550726f7065727479000c000000496e7450726f7065727479000000000000140000000a00000053686565706261";
   "6c6c00010000000800000050696e6b436174000200000008000000576f6f6c466f7800020000000b000000436869636b656e50616c00010000000b00";
   "0000506c616e74536c696d6500020000000a0000004b697473756e65626900030000000800000050656e6775696e00020000000d000000426c756550";
   "6c61747970757300010000000800000043757465466f7800010000000a00000057697a6172644f776c000200000009000000437574654d6f6c650001";
   "0000000b000000447265616d44656d6f6e000100000008000000456c656343617400020000000a00000043617262756e636c6f000200000008000000";
   "47616e657368610001000000070000004d6f6e6b657900010000000a0000004265727279476f61740001000000090000004861776b42697264000200";
   "00000c000000466c79696e674d616e746100010000000f000000466c6f77657244696e6f7361757200010000001200000050616c6465636b556e6c6f";
   "636b466c6167000c0000004d617050726f70657274790030010000000000000d0000004e616d6550726f7065727479000d000000426f6f6c50726f70";
   "65727479000000000000140000000a000000536865657062616c6c00010800000050696e6b436174000108000000576f6f6c466f7800010b00000043";
   "6869636b656e50616c00010b000000506c616e74536c696d6500010a0000004b697473756e65626900010800000050656e6775696e00010d00000042";
   "6c7565506c61747970757300010800000043757465466f7800010a00000057697a6172644f776c000109000000437574654d6f6c6500010b00000044";
   "7265616d44656d6f6e000108000000456c656343617400010a00000043617262756e636c6f00010800000047616e657368610001070000004d6f6e6b";
   "657900010a0000004265727279476f61740001090000004861776b4269726400010c000000466c79696e674d616e746100010f000000466c6f776572";
   "44696e6f7361757200012000000050616c43617074757265436f756e74426f6e7573436f756e745f5469657231000c000000496e7450726f70657274";
   "79000400000000000000001e0000001b00000052656c69634f627461696e466f72496e7374616e6365466c6167000c0000004d617050726f70657274";
   "7900ec000000000000000d0000004e616d6550726f7065727479000d000000426f6f6c50726f70657274790000000000000600000021000000463639";
   "373446323634363541313043304246433839313936324430324245304400012100000041333630383538453434384146393237414639313444384539";
   "443734453431360001210000003244324230453137344535443742323446304333454538303244314238364530000121000000463745303439413134";
   "363437444544453439323536394138434246423341454200012100000036413241453933363431303233453634303644423143413544333534453630";
   "34000121000000374433413538354634434546434146453743323632333934443644454138343500011000000052656c6963506f73736573734e756d";
   "000c000000496e7450726f706572747900040000000000000000010000001a0000004e6f74654f627461696e466f72496e7374616e6365466c616700";
   "0c0000004d617050726f7065727479001e000000000000000d0000004e616d6550726f7065727479000d000000426f6f6c50726f7065727479000000";
   "00000002000000070000004461792d78780001050000004461793300011a0000004661737454726176656c506f696e74556e6c6f636b466c6167000c";
   "0000004d617050726f706572747900c6000000000000000d0000004e616d6550726f7065727479000d000000426f6f6c50726f706572747900000000";
   "000005000000210000003645303346383436344241443945343538423834334141333042453143433846000121000000444442424646414634334439";
   "323139414536384446393837343444463038333100012100000039373942463230343443384538464535353942353938413935413833454445330001";
   "210000003431373237313030343935443231444339303544333039433533393839393134000121000000443237414643414434373231363446303030";
   "44333341384438423631464538420001050000004e6f6e6500050000004e6f6e6500050000004e6f6e650000000000"].
