(** The JSON templates of tests/serde_tests/serde_json_template.rs.
    Generated by tools/json_templates.py; the numbers are lines of that file. *)
From Coq Require Import ZArith List Bool String.
From Verif Require Import Base Str Types Versions Text Props File Guid Json.
Import ListNotations.
Open Scope Z_scope.

Definition templates : list (Z * json) :=
  [
    (129, JObj [(s2z "type", JStr (s2z "ArrayProperty")); (s2z "property_type", JStr (s2z "Int8Property"));
      (s2z "properties", JArr [JObj [(s2z "type", JStr (s2z "Int8Property")); (s2z "value", JInt (0))]; JObj
      [(s2z "type", JStr (s2z "Int8Property")); (s2z "value", JInt (1))]])]);
    (160, JObj [(s2z "type", JStr (s2z "ArrayProperty")); (s2z "property_type", JStr (s2z "Int16Property"));
      (s2z "properties", JArr [JObj [(s2z "type", JStr (s2z "Int16Property")); (s2z "value", JInt (0))]; JObj
      [(s2z "type", JStr (s2z "Int16Property")); (s2z "value", JInt (1))]])]);
    (191, JObj [(s2z "type", JStr (s2z "ArrayProperty")); (s2z "ints", JArr [JInt (0); JInt (1)])]);
    (215, JObj [(s2z "type", JStr (s2z "ArrayProperty")); (s2z "property_type", JStr (s2z "Int64Property"));
      (s2z "properties", JArr [JObj [(s2z "type", JStr (s2z "Int64Property")); (s2z "value", JInt (0))]; JObj
      [(s2z "type", JStr (s2z "Int64Property")); (s2z "value", JInt (1))]])]);
    (247, JObj [(s2z "type", JStr (s2z "ArrayProperty")); (s2z "bytes", JStr (s2z "0001ab"))]);
    (268, JObj [(s2z "type", JStr (s2z "ArrayProperty")); (s2z "property_type", JStr (s2z "UInt16Property"));
      (s2z "properties", JArr [JObj [(s2z "type", JStr (s2z "UInt16Property")); (s2z "value", JInt (0))]; JObj
      [(s2z "type", JStr (s2z "UInt16Property")); (s2z "value", JInt (1))]])]);
    (299, JObj [(s2z "type", JStr (s2z "ArrayProperty")); (s2z "property_type", JStr (s2z "UInt32Property"));
      (s2z "properties", JArr [JObj [(s2z "type", JStr (s2z "UInt32Property")); (s2z "value", JInt (0))]; JObj
      [(s2z "type", JStr (s2z "UInt32Property")); (s2z "value", JInt (1))]])]);
    (330, JObj [(s2z "type", JStr (s2z "ArrayProperty")); (s2z "property_type", JStr (s2z "UInt64Property"));
      (s2z "properties", JArr [JObj [(s2z "type", JStr (s2z "UInt64Property")); (s2z "value", JInt (0))]; JObj
      [(s2z "type", JStr (s2z "UInt64Property")); (s2z "value", JInt (1))]])]);
    (361, JObj [(s2z "type", JStr (s2z "ArrayProperty")); (s2z "bools", JArr [JBool false; JBool true])]);
    (385, JObj [(s2z "type", JStr (s2z "ArrayProperty")); (s2z "property_type", JStr (s2z "DoubleProperty"));
      (s2z "properties", JArr [JObj [(s2z "type", JStr (s2z "DoubleProperty")); (s2z "value", JFloat
      4607182418800017408)]; JObj [(s2z "type", JStr (s2z "DoubleProperty")); (s2z "value", JFloat
      4611686018427387904)]])]);
    (416, JObj [(s2z "type", JStr (s2z "ArrayProperty")); (s2z "floats", JArr [JFloat 4607182418800017408;
      JFloat 4611686018427387904])]);
    (440, JObj [(s2z "type", JStr (s2z "ArrayProperty")); (s2z "enums", JArr [JStr (s2z "a"); JStr (s2z
      "b")])]);
    (467, JObj [(s2z "type", JStr (s2z "ArrayProperty")); (s2z "property_type", JStr (s2z "EnumProperty"));
      (s2z "properties", JArr [JObj [(s2z "type", JStr (s2z "EnumProperty")); (s2z "value", JStr (s2z "a"))];
      JObj [(s2z "type", JStr (s2z "EnumProperty")); (s2z "enum_type", JStr (s2z "ns")); (s2z "value", JStr
      (s2z "b"))]])]);
    (499, JObj [(s2z "type", JStr (s2z "ArrayProperty")); (s2z "names", JArr [JNull; JStr (s2z "b")])]);
    (523, JObj [(s2z "type", JStr (s2z "ArrayProperty")); (s2z "property_type", JStr (s2z "ObjectProperty"));
      (s2z "properties", JArr [JObj [(s2z "type", JStr (s2z "ObjectProperty")); (s2z "value", JStr (s2z
      "a"))]; JObj [(s2z "type", JStr (s2z "ObjectProperty")); (s2z "value", JStr (s2z "b"))]])]);
    (554, JObj [(s2z "type", JStr (s2z "ArrayProperty")); (s2z "strings", JArr [JNull; JStr (s2z "b")])]);
    (588, JObj [(s2z "type", JStr (s2z "ArrayProperty")); (s2z "property_type", JStr (s2z "MapProperty"));
      (s2z "properties", JArr [JObj [(s2z "type", JStr (s2z "MapProperty")); (s2z "key_type", JStr (s2z
      "kta")); (s2z "value_type", JStr (s2z "vta")); (s2z "allocation_flags", JInt (0)); (s2z "value", JArr
      [])]; JObj [(s2z "type", JStr (s2z "MapProperty")); (s2z "key_type", JStr (s2z "ktb")); (s2z
      "value_type", JStr (s2z "vtb")); (s2z "allocation_flags", JInt (1)); (s2z "value", JArr [])]])]);
    (625, JObj [(s2z "type", JStr (s2z "ArrayProperty")); (s2z "field_name", JStr (s2z "fn")); (s2z
      "type_name", JStr (s2z "tn")); (s2z "guid", JStr (s2z "11111111-1111-1111-1111-111111111111")); (s2z
      "structs", JArr [JObj [(s2z "DateTime", JObj [(s2z "ticks", JInt (0))])]; JObj [(s2z "DateTime", JObj
      [(s2z "ticks", JInt (1))])]])]);
    (653, JObj [(s2z "type", JStr (s2z "DelegateProperty")); (s2z "value", JObj [(s2z "object", JStr (s2z
      "o")); (s2z "function_name", JStr (s2z "fn"))])]);
    (670, JObj [(s2z "type", JStr (s2z "EnumProperty")); (s2z "enum_type", JStr (s2z "a")); (s2z "value", JStr
      (s2z "b"))]);
    (678, JObj [(s2z "type", JStr (s2z "EnumProperty")); (s2z "value", JStr (s2z "a"))]);
    (692, JObj [(s2z "type", JStr (s2z "FieldPathProperty")); (s2z "value", JObj [(s2z "path", JArr [JStr (s2z
      "a"); JStr (s2z "b")]); (s2z "resolved_owner", JStr (s2z "owner"))])]);
    (723, JObj [(s2z "type", JStr (s2z "MapProperty")); (s2z "enum_bools", JObj [(s2z "a", JBool false); (s2z
      "b", JBool true)])]);
    (751, JObj [(s2z "type", JStr (s2z "MapProperty")); (s2z "enum_ints", JObj [(s2z "a", JInt (0)); (s2z "b",
      JInt (1))])]);
    (779, JObj [(s2z "type", JStr (s2z "MapProperty")); (s2z "value_type", JStr (s2z "UnknownProperty")); (s2z
      "enum_props", JObj [(s2z "a", JObj [(s2z "type", JStr (s2z "UnknownProperty")); (s2z "property_name",
      JStr (s2z "n")); (s2z "raw", JArr [])]); (s2z "b", JObj [(s2z "type", JStr (s2z "UnknownProperty"));
      (s2z "property_name", JStr (s2z "m")); (s2z "raw", JArr [JInt (1)])])])]);
    (822, JObj [(s2z "type", JStr (s2z "MapProperty")); (s2z "key_type", JStr (s2z "IntProperty")); (s2z
      "value_type", JStr (s2z "BoolProperty")); (s2z "allocation_flags", JInt (0)); (s2z "value", JArr [JArr
      [JObj [(s2z "type", JStr (s2z "IntProperty")); (s2z "value", JInt (0))]; JObj [(s2z "type", JStr (s2z
      "BoolProperty")); (s2z "value", JBool false)]]; JArr [JObj [(s2z "type", JStr (s2z "IntProperty")); (s2z
      "value", JInt (1))]; JObj [(s2z "type", JStr (s2z "BoolProperty")); (s2z "value", JBool true)]]; JArr
      [JObj [(s2z "type", JStr (s2z "IntProperty")); (s2z "value", JInt (2))]; JObj [(s2z "type", JStr (s2z
      "BoolProperty")); (s2z "value", JBool false)]]])]);
    (881, JObj [(s2z "type", JStr (s2z "MapProperty")); (s2z "name_bools", JObj [(s2z "a", JBool false); (s2z
      "b", JBool true)])]);
    (909, JObj [(s2z "type", JStr (s2z "MapProperty")); (s2z "name_ints", JObj [(s2z "a", JInt (0)); (s2z "b",
      JInt (1))])]);
    (937, JObj [(s2z "type", JStr (s2z "MapProperty")); (s2z "value_type", JStr (s2z "UnknownProperty")); (s2z
      "name_props", JObj [(s2z "a", JObj [(s2z "type", JStr (s2z "UnknownProperty")); (s2z "property_name",
      JStr (s2z "b")); (s2z "raw", JArr [])]); (s2z "c", JObj [(s2z "type", JStr (s2z "UnknownProperty"));
      (s2z "property_name", JStr (s2z "d")); (s2z "raw", JArr [JInt (1)])])])]);
    (976, JObj [(s2z "type", JStr (s2z "MapProperty")); (s2z "str_bools", JObj [(s2z "a", JBool false); (s2z
      "b", JBool true)])]);
    (1008, JObj [(s2z "type", JStr (s2z "MapProperty")); (s2z "str_ints", JObj [(s2z "zero", JInt (0)); (s2z
      "one", JInt (1)); (s2z "two", JInt (2))])]);
    (1037, JObj [(s2z "type", JStr (s2z "MapProperty")); (s2z "value_type", JStr (s2z "UnknownProperty"));
      (s2z "str_props", JObj [(s2z "a", JObj [(s2z "type", JStr (s2z "UnknownProperty")); (s2z
      "property_name", JStr (s2z "b")); (s2z "raw", JArr [])]); (s2z "c", JObj [(s2z "type", JStr (s2z
      "UnknownProperty")); (s2z "property_name", JStr (s2z "d")); (s2z "raw", JArr [JInt (1)])])])]);
    (1076, JObj [(s2z "type", JStr (s2z "MapProperty")); (s2z "str_strs", JObj [(s2z "a", JStr (s2z "b"));
      (s2z "c", JStr (s2z "d"))])]);
    (1108, JObj [(s2z "type", JStr (s2z "MapProperty")); (s2z "key_type", JStr (s2z "StructProperty")); (s2z
      "value_type", JStr (s2z "FloatProperty")); (s2z "allocation_flags", JInt (0)); (s2z "value", JArr [JArr
      [JObj [(s2z "type", JStr (s2z "StructPropertyValue")); (s2z "VectorF", JObj [(s2z "x", JFloat 0); (s2z
      "y", JFloat 4607182418800017408); (s2z "z", JFloat 4611686018427387904)])]; JObj [(s2z "type", JStr (s2z
      "FloatProperty")); (s2z "value", JFloat 0)]]; JArr [JObj [(s2z "type", JStr (s2z
      "StructPropertyValue")); (s2z "Timespan", JObj [(s2z "ticks", JInt (0))])]; JObj [(s2z "type", JStr (s2z
      "FloatProperty")); (s2z "value", JFloat 4607182418800017408)]]; JArr [JObj [(s2z "type", JStr (s2z
      "StructPropertyValue")); (s2z "DateTime", JObj [(s2z "ticks", JInt (0))])]; JObj [(s2z "type", JStr (s2z
      "FloatProperty")); (s2z "value", JFloat 4611686018427387904)]]])]);
    (1164, JObj [(s2z "type", JStr (s2z "NameProperty")); (s2z "array_index", JInt (1))]);
    (1178, JObj [(s2z "type", JStr (s2z "NameProperty"))]);
    (1188, JObj [(s2z "type", JStr (s2z "NameProperty")); (s2z "value", JStr (s2z "a"))]);
    (1199, JObj [(s2z "type", JStr (s2z "FloatProperty")); (s2z "value", JFloat 0)]);
    (1210, JObj [(s2z "type", JStr (s2z "DoubleProperty")); (s2z "value", JFloat 0)]);
    (1221, JObj [(s2z "type", JStr (s2z "ByteProperty")); (s2z "Byte", JInt (0))]);
    (1235, JObj [(s2z "type", JStr (s2z "ByteProperty")); (s2z "name", JStr (s2z "test name")); (s2z
      "Namespaced", JStr (s2z "ns"))]);
    (1247, JObj [(s2z "type", JStr (s2z "Int8Property")); (s2z "value", JInt (0))]);
    (1258, JObj [(s2z "type", JStr (s2z "Int16Property")); (s2z "value", JInt (0))]);
    (1269, JObj [(s2z "type", JStr (s2z "UInt16Property")); (s2z "value", JInt (0))]);
    (1280, JObj [(s2z "type", JStr (s2z "IntProperty")); (s2z "value", JInt (0))]);
    (1291, JObj [(s2z "type", JStr (s2z "UInt32Property")); (s2z "value", JInt (0))]);
    (1302, JObj [(s2z "type", JStr (s2z "Int64Property")); (s2z "value", JInt (0))]);
    (1313, JObj [(s2z "type", JStr (s2z "UInt64Property")); (s2z "value", JInt (0))]);
    (1324, JObj [(s2z "type", JStr (s2z "ObjectProperty")); (s2z "value", JStr (s2z "a"))]);
    (1342, JObj [(s2z "type", JStr (s2z "SetProperty")); (s2z "property_type", JStr (s2z "IntProperty")); (s2z
      "allocation_flags", JInt (0)); (s2z "properties", JArr [JObj [(s2z "type", JStr (s2z "IntProperty"));
      (s2z "value", JInt (0))]; JObj [(s2z "type", JStr (s2z "IntProperty")); (s2z "value", JInt (1))]])]);
    (1364, JObj [(s2z "type", JStr (s2z "StrProperty"))]);
    (1374, JObj [(s2z "type", JStr (s2z "StrProperty")); (s2z "value", JStr (s2z "a"))]);
    (1385, JObj [(s2z "type", JStr (s2z "StructPropertyValue")); (s2z "VectorF", JObj [(s2z "x", JFloat 0);
      (s2z "y", JFloat 4607182418800017408); (s2z "z", JFloat 4611686018427387904)])]);
    (1400, JObj [(s2z "type", JStr (s2z "StructPropertyValue")); (s2z "VectorD", JObj [(s2z "x", JFloat 0);
      (s2z "y", JFloat 4607182418800017408); (s2z "z", JFloat 4611686018427387904)])]);
    (1415, JObj [(s2z "type", JStr (s2z "StructPropertyValue")); (s2z "RotatorF", JObj [(s2z "pitch", JFloat
      0); (s2z "yaw", JFloat 4607182418800017408); (s2z "roll", JFloat 4611686018427387904)])]);
    (1430, JObj [(s2z "type", JStr (s2z "StructPropertyValue")); (s2z "RotatorD", JObj [(s2z "pitch", JFloat
      0); (s2z "yaw", JFloat 4607182418800017408); (s2z "roll", JFloat 4611686018427387904)])]);
    (1447, JObj [(s2z "type", JStr (s2z "StructPropertyValue")); (s2z "QuatF", JObj [(s2z "x", JFloat 0); (s2z
      "y", JFloat 4607182418800017408); (s2z "z", JFloat 4611686018427387904); (s2z "w", JFloat
      4613937818241073152)])]);
    (1465, JObj [(s2z "type", JStr (s2z "StructPropertyValue")); (s2z "QuatD", JObj [(s2z "x", JFloat 0); (s2z
      "y", JFloat 4607182418800017408); (s2z "z", JFloat 4611686018427387904); (s2z "w", JFloat
      4613937818241073152)])]);
    (1483, JObj [(s2z "type", JStr (s2z "StructPropertyValue")); (s2z "QuatD", JObj [(s2z "x", JFloat 0); (s2z
      "y", JFloat 4607182418800017408); (s2z "z", JFloat 4611686018427387904); (s2z "w", JFloat
      4613937818241073152)])]);
    (1501, JObj [(s2z "type", JStr (s2z "StructPropertyValue")); (s2z "LinearColor", JObj [(s2z "r", JFloat
      0); (s2z "g", JFloat 4607182418800017408); (s2z "b", JFloat 4611686018427387904); (s2z "a", JFloat
      4613937818241073152)])]);
    (1517, JObj [(s2z "type", JStr (s2z "StructPropertyValue")); (s2z "IntPoint", JObj [(s2z "x", JInt (0));
      (s2z "y", JInt (1))])]);
    (1536, JObj [(s2z "type", JStr (s2z "StructPropertyValue")); (s2z "CustomStruct", JObj [(s2z "key", JArr
      [JObj [(s2z "type", JStr (s2z "StrProperty")); (s2z "value", JStr (s2z "value"))]])])]);
    (1568, JObj [(s2z "type", JStr (s2z "StructPropertyValue")); (s2z "CustomStruct", JObj [(s2z
      "TrackedQuestsNames", JArr [JObj [(s2z "type", JStr (s2z "NameProperty")); (s2z "value", JStr (s2z
      "QU91_InvestigateTower_B2"))]; JObj [(s2z "type", JStr (s2z "NameProperty")); (s2z "array_index", JInt
      (1)); (s2z "value", JStr (s2z "QU91_InvestigateTower_B2"))]])])]);
    (1594, JObj [(s2z "type", JStr (s2z "StructPropertyValue")); (s2z "GameplayTagContainer", JArr [JStr (s2z
      "Gameplaytag.One"); JStr (s2z "Gameplaytag.Two")])]);
    (1608, JObj [(s2z "type", JStr (s2z "TextProperty")); (s2z "history", JStr (s2z "Empty"))]);
    (1619, JObj [(s2z "type", JStr (s2z "TextProperty")); (s2z "flags", JInt (1)); (s2z "history", JStr (s2z
      "None"))]);
    (1634, JObj [(s2z "type", JStr (s2z "TextProperty")); (s2z "flags", JInt (2)); (s2z "history", JStr (s2z
      "None")); (s2z "culture_invariant_string", JStr (s2z "a"))]);
    (1647, JObj [(s2z "type", JStr (s2z "TextProperty")); (s2z "history", JStr (s2z "Base"))]);
    (1663, JObj [(s2z "type", JStr (s2z "TextProperty")); (s2z "flags", JInt (1)); (s2z "history", JStr (s2z
      "Base")); (s2z "namespace", JStr (s2z "ns")); (s2z "key", JStr (s2z "k")); (s2z "source_string", JStr
      (s2z "ss"))]);
    (1692, JObj [(s2z "type", JStr (s2z "TextProperty")); (s2z "history", JStr (s2z "NamedFormat")); (s2z
      "source_format", JObj [(s2z "flags", JInt (1)); (s2z "history", JStr (s2z "None"))]); (s2z "arguments",
      JObj [(s2z "key", JObj [(s2z "Int", JInt (2))])])]);
    (1723, JObj [(s2z "type", JStr (s2z "TextProperty")); (s2z "history", JStr (s2z "OrderedFormat")); (s2z
      "source_format", JObj [(s2z "flags", JInt (1)); (s2z "history", JStr (s2z "None"))]); (s2z "arguments",
      JArr [JObj [(s2z "UInt", JInt (2))]])]);
    (1757, JObj [(s2z "type", JStr (s2z "TextProperty")); (s2z "history", JStr (s2z "ArgumentFormat")); (s2z
      "source_format", JObj [(s2z "flags", JInt (1)); (s2z "history", JStr (s2z "None"))]); (s2z "arguments",
      JObj [(s2z "key", JObj [(s2z "UInt", JInt (2))])])]);
    (1797, JObj [(s2z "type", JStr (s2z "TextProperty")); (s2z "history", JStr (s2z "AsNumber")); (s2z
      "source_value", JObj [(s2z "Text", JObj [(s2z "flags", JInt (1)); (s2z "history", JStr (s2z
      "None"))])]); (s2z "format_options", JObj [(s2z "always_include_sign", JBool true); (s2z "use_grouping",
      JBool true); (s2z "rounding", JStr (s2z "ToZero")); (s2z "minimum_integral_digits", JInt (2)); (s2z
      "maximum_integral_digits", JInt (3)); (s2z "minimum_fractional_digits", JInt (4)); (s2z
      "maximum_fractional_digits", JInt (5))]); (s2z "target_culture", JStr (s2z "culture"))]);
    (1844, JObj [(s2z "type", JStr (s2z "TextProperty")); (s2z "history", JStr (s2z "AsNumber")); (s2z
      "source_value", JObj [(s2z "Text", JObj [(s2z "flags", JInt (1)); (s2z "history", JStr (s2z
      "None"))])]); (s2z "format_options", JObj [(s2z "always_include_sign", JBool true); (s2z "use_grouping",
      JBool true); (s2z "rounding", JStr (s2z "ToZero")); (s2z "minimum_integral_digits", JInt (2)); (s2z
      "maximum_integral_digits", JInt (3)); (s2z "minimum_fractional_digits", JInt (4)); (s2z
      "maximum_fractional_digits", JInt (5))]); (s2z "target_culture", JStr (s2z "culture"))]);
    (1878, JObj [(s2z "type", JStr (s2z "TextProperty")); (s2z "history", JStr (s2z "AsDate")); (s2z
      "date_time", JObj [(s2z "ticks", JInt (1))]); (s2z "date_style", JStr (s2z "Default")); (s2z
      "target_culture", JStr (s2z "culture"))]);
    (1902, JObj [(s2z "type", JStr (s2z "TextProperty")); (s2z "history", JStr (s2z "AsTime")); (s2z
      "source_date_time", JObj [(s2z "ticks", JInt (1))]); (s2z "time_style", JStr (s2z "Default")); (s2z
      "time_zone", JStr (s2z "zone")); (s2z "target_culture", JStr (s2z "culture"))]);
    (1928, JObj [(s2z "type", JStr (s2z "TextProperty")); (s2z "history", JStr (s2z "AsDateTime")); (s2z
      "source_date_time", JObj [(s2z "ticks", JInt (1))]); (s2z "date_style", JStr (s2z "Default")); (s2z
      "time_style", JStr (s2z "Default")); (s2z "time_zone", JStr (s2z "zone")); (s2z "target_culture", JStr
      (s2z "culture"))]);
    (1957, JObj [(s2z "type", JStr (s2z "TextProperty")); (s2z "history", JStr (s2z "Transform")); (s2z
      "source_text", JObj [(s2z "flags", JInt (1)); (s2z "history", JStr (s2z "None"))]); (s2z "transform",
      JStr (s2z "ToLower"))]);
    (1973, JObj [(s2z "type", JStr (s2z "UnknownProperty")); (s2z "property_name", JStr (s2z "name")); (s2z
      "raw", JArr [JInt (0); JInt (1); JInt (2)])])
  ].
