(** C71: the JSON form of a save shows what [Debug] shows, under the declared names and in
    their order, as serde's attributes say: tags, flattened fields, fields left out. *)
From Coq Require Import ZArith List Bool String.
From Verif Require Import Base Types Versions Props File Samples Json JsonSpec Message Debug DebugSpec NamesSpec NamesThm.
Import ListNotations.
Open Scope Z_scope.

Theorem C71_file : forall fl sep g, t_file sep g = true -> shows fl (to_json g) (dg_file fl g).
Proof. exact sh_file. Qed.
Print Assumptions C71_file.
Theorem C71_property : forall fl sep p, t_prop sep p = true -> shows fl (e_prop p) (dg_prop fl p).
Proof. intros fl sep. exact (proj1 (sh_props fl sep)). Qed.
Print Assumptions C71_property.
(** Headers need no condition. *)
Theorem C71_header : forall fl h, shows fl (e_header h) (dg_header h).
Proof. exact sh_header. Qed.
Print Assumptions C71_header.

Definition tagged_text : property :=
  PStruct (repeat Byte.x00 16) (s2z "T") (SCustom [(s2z "a", [PText (FText 0 (HNumber (AFloat 1065353216) None (Some (s2z "en")))); PNum I8 (-5)]);
    (s2z "b", [PMap (MGen (s2z "K") (s2z "V") 0 [(PBool true, PName 0 None)]); PArray (ABytes [Byte.x1f; Byte.xa0])])]).
Example C71_typed : t_prop (fun _ _ => false) tagged_text = true. Proof. vm_compute. reflexivity. Qed.
(** What the two forms look like for it. *)
Example C71_json : e_prop tagged_text =
  JObj [(s2z "type", JStr (s2z "StructProperty")); (s2z "type_name", JStr (s2z "T"));
        (s2z "CustomStruct",
         JObj [(s2z "a", JArr [JObj [(s2z "type", JStr (s2z "TextProperty")); (s2z "history", JStr (s2z "AsNumber"));
                                     (s2z "source_value", JObj [(s2z "Float", JFloat 4607182418800017408)]);
                                     (s2z "target_culture", JStr (s2z "en"))];
                               JObj [(s2z "type", JStr (s2z "Int8Property")); (s2z "value", JInt (-5))]]);
               (s2z "b", JArr [JObj [(s2z "type", JStr (s2z "MapProperty")); (s2z "key_type", JStr (s2z "K")); (s2z "value_type", JStr (s2z "V"));
                                     (s2z "allocation_flags", JInt 0);
                                     (s2z "value", JArr [JArr [JObj [(s2z "type", JStr (s2z "BoolProperty")); (s2z "value", JBool true)];
                                                               JObj [(s2z "type", JStr (s2z "NameProperty"))]]])];
                               JObj [(s2z "type", JStr (s2z "ArrayProperty")); (s2z "bytes", JStr (s2z "1fa0"))]])])].
Proof. vm_compute. reflexivity. Qed.
Example C71_debug : debug_prop bits_text (fun _ => true) tagged_text =
  s2z "StructProperty(StructProperty { guid: Guid(0), type_name: ""T"", value: CustomStruct(HashableIndexMap({""a"": [TextProperty(TextProperty { value: FText { flags: 0, history: AsNumber { source_value: Float(1065353216), format_options: None, target_culture: Some(""en"") } } }), Int8Property(-5i8)], ""b"": [MapProperty(Properties { key_type: ""K"", value_type: ""V"", allocation_flags: 0, value: HashableIndexMap({BoolProperty(true): NameProperty(NameProperty { array_index: 0, value: None })}) }), ArrayProperty(Bytes { bytes: [31, 160] })]})) })".
Proof. vm_compute. reflexivity. Qed.
(** A field under another name is not accepted. *)
Example C71_renamed : forall fl s t, ~ shows fl (JObj [(s2z "owner", JStr s)]) (DStruct (s2z "ObjectProperty") [(s2z "value", DStr t)]).
Proof. exact renamed_not. Qed.
