(** Claim C54: the JSON form is the documented one. *)
From Coq Require Import ZArith List Bool String Lia QArith.
From Verif Require Import Base Str Types Versions Text Props File Spec Samples Guid Nearest
  Json JsonSpec JsonFile JsonThm JsonForm JsonFormThm.
Import ListNotations.
Open Scope Z_scope.

(** * C54: every name and every place in the JSON form *)

(** The document for a file is the one and only that the rules of JsonForm.v allow:
    names of fields, variants and enumerators, their order, what is left out, how
    numbers, guids and bytes are shown. *)
Theorem C54_file : forall g j, t_file same g = true -> (file_form g j <-> j = to_json g).
Proof. exact (file_iff same). Qed.
Print Assumptions C54_file.
(** So for every file that can be loaded, from whatever bytes. *)
Theorem C54_loaded : forall z o v b g j, load z o v b = Ok g -> (file_form g j <-> j = to_json g).
Proof. intros. eapply file_iff, loaded_typed. eassumption. Qed.
Print Assumptions C54_loaded.
(** The same for single properties and texts. *)
Theorem C54_property : forall p j, t_prop same p = true -> (prop_form p j <-> j = e_prop p).
Proof. intros p j H. exact (proj1 (prop_iff same) p H j). Qed.
Print Assumptions C54_property.
Theorem C54_text : forall t l, t_text t = true -> (text_form t l <-> l = e_text t).
Proof. intros t l H. exact (proj1 text_iff t H l). Qed.
Print Assumptions C54_text.
(** A document that follows the rules is read back as the file it stands for. *)
Theorem C54_read : forall hp g j, calm hp -> t_file same g = true -> fin_file g = true ->
  file_form g j -> from_json hp j = JOk g.
Proof. intros hp g j C T F H. apply (file_iff same) in H; [|exact T]. subst j. rewrite file_calm, F; auto. Qed.
Print Assumptions C54_read.

(** A file with a date, a colour, bytes and a Palworld container, spelled out. *)
Example C54_applies :
  let f := GFile (DPalworld CZlib) hdr4
    [(s2z "when", PText (FText 0 (HDate 5 2 (s2z "en"))));
     (s2z "col", PStruct zero_guid (s2z "LinearColor") (SFixed XLinearColor [0; 1065353216; 2143289344; 3212836864]));
     (s2z "raw", PArray (ABytes (map z2b [0; 171])))] in
  t_file same f = true
  /\ exists h, to_json f = JObj
    ["deserialized_game_version" ↦ JObj ["Palworld" ↦ txt "Zlib"]; "header" ↦ h;
     "properties" ↦ JObj
       ["when" ↦ JObj ["type" ↦ txt "TextProperty"; "history" ↦ txt "AsDate"; "date_time" ↦ JObj ["ticks" ↦ JInt 5];
                       "date_style" ↦ txt "Medium"; "target_culture" ↦ txt "en"];
        "col" ↦ JObj ["type" ↦ txt "StructProperty"; "type_name" ↦ txt "LinearColor";
                      "LinearColor" ↦ JObj ["r" ↦ JFloat 0; "g" ↦ JFloat 4607182418800017408; "b" ↦ JNull;
                                            "a" ↦ JFloat 13830554455654793216]];
        "raw" ↦ JObj ["type" ↦ txt "ArrayProperty"; "bytes" ↦ txt "00ab"]]].
Proof. cbv zeta. split; [vm_compute; reflexivity|]. eexists. vm_compute. reflexivity. Qed.
