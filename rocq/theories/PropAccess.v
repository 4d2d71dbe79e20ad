(** Claim C56: typed access, conversions, maps built from lists, and the text form of
    the engine version. *)
From Coq Require Import ZArith List Bool String Lia.
From Verif Require Import Base Str Types Versions Text Props File Spec Samples BaseFacts MapFacts OrderThm Access AccessThm HeaderThm Grammar Numeral.
Import ListNotations.
Open Scope Z_scope.

(** * C56: accessors *)

(** An accessor returns the fields of exactly the properties made from such fields ... *)
Theorem C56_get : forall a p e, get a p = Some e <-> p = into a e.
Proof. exact get_iff. Qed.
Print Assumptions C56_get.
(** ... which are those of the variant named in its documentation. *)
Theorem C56_variant : forall a p e, get a p = Some e -> variant p = acc_doc a.
Proof. exact get_variant. Qed.
Print Assumptions C56_variant.
(** Every property except a bare struct value has an accessor, and only one. *)
Theorem C56_some : forall p, (exists a e, get a p = Some e) <-> (forall v, p <> PSValue v).
Proof. exact get_some. Qed.
Print Assumptions C56_some.
Theorem C56_one : forall a a' p e e', get a p = Some e -> get a' p = Some e' -> a = a'.
Proof. exact get_one. Qed.
Print Assumptions C56_one.
(** A change through a mutable accessor is seen by that accessor and does not change
    the variant; the wrong accessor changes nothing. *)
Theorem C56_modify : forall a f p,
  match get a p with
  | Some e => get a (modify a f p) = Some (f e) /\ variant (modify a f p) = variant p
  | None => modify a f p = p
  end.
Proof. exact modify_spec. Qed.
Print Assumptions C56_modify.

(** Struct values: the same, but five kinds have no accessor. *)
Theorem C56_struct_get : forall a v e, sget a v = Some e <-> v = sinto a e.
Proof. exact sget_iff. Qed.
Print Assumptions C56_struct_get.
Theorem C56_struct_one : forall a a' v e e', sget a v = Some e -> sget a' v = Some e' -> a = a'.
Proof. exact sget_one. Qed.
Print Assumptions C56_struct_one.
Theorem C56_struct_none : forall v, (forall a, sget a v = None) <->
  exists l, v = SFixed XVector2F l \/ v = SFixed XVector2D l \/ v = SFixed XTimespan l \/ v = SFixed XLinearColor l
    \/ exists t, v = STags t.
Proof. exact sget_none. Qed.
Print Assumptions C56_struct_none.
Theorem C56_struct_modify : forall a f v,
  match sget a v with
  | Some e => sget a (smodify a f v) = Some (f e)
  | None => smodify a f v = v
  end.
Proof. exact smodify_spec. Qed.
Print Assumptions C56_struct_modify.

(** A value made by a conversion is stored as the built-in struct it came from
    (the format is that of Grammar.v). *)
Theorem C56_from_guid : forall o vs path ty g b,
  is_struct o vs path ty (sval_from (FromGuid g)) b <-> ty = s2z "Guid" /\ len g = 16 /\ b = g.
Proof. exact from_guid. Qed.
Print Assumptions C56_from_guid.
Theorem C56_from_fixed : forall o vs path ty k l b,
  is_struct o vs path ty (sval_from (FromFixed k l)) b <->
  exists name lwc ks, fixed_spec k = (name, lwc, ks) /\ ty = s2z name
    /\ (forall d, lwc = Some d -> has_lwc vs = d) /\ many2 num_bytes ks l b.
Proof. exact from_fixed. Qed.
Print Assumptions C56_from_fixed.

(** A map built from an array of pairs has each key once, in the order of first
    occurrence and with the last value ([collapsed], MapFacts.v). *)
Theorem C56_map_from : forall V (l : list (str * V)), collapsed str_eqb l (map_from str_eqb l).
Proof. exact (fun V l => ins_all_collapsed str_eqb str_rf str_sy str_tr l). Qed.
Print Assumptions C56_map_from.

(** The text form of an engine version: four decimal numerals and the branch. *)
Theorem C56_version_text : forall v s, engine_ok v -> show_engine v = s <-> version_text v s.
Proof. exact show_iff. Qed.
Print Assumptions C56_version_text.
(** It tells versions apart. *)
Theorem C56_version_injective : forall v v' s, version_text v s -> version_text v' s -> v = v'.
Proof. exact text_inj. Qed.
Print Assumptions C56_version_injective.

Example C56_applies :
  get GetInt (PNum I32 5) = Some 5 /\ get GetI64 (PNum I32 5) = None
  /\ modify GetInt (fun z => z + 1) (PNum I32 5) = PNum I32 6
  /\ modify GetStr (fun _ => None) (PNum I32 5) = PNum I32 5
  /\ sget SGetGuid (sval_from (FromGuid a_guid)) = Some a_guid
  /\ sget SGetVectorF (sval_from (FromFixed XVectorF [1; 2; 3])) = Some [1; 2; 3]
  /\ map_from str_eqb [(s2z "a", 1); (s2z "b", 2); (s2z "a", 3)] = [(s2z "a", 3); (s2z "b", 2)]
  /\ show_engine (FEngine 4 27 2 18319896 (s2z "++UE4+Release-4.27")) = s2z "4.27.2-18319896+++++UE4+Release-4.27"
  /\ engine_ok (FEngine 4 27 2 18319896 (s2z "++UE4+Release-4.27")).
Proof. repeat split; try reflexivity; cbn; lia. Qed.
Example C56_from_applies :
  is_struct o_plain [] [] (s2z "Guid") (sval_from (FromGuid a_guid)) a_guid
  /\ is_struct o_plain [] [] (s2z "IntPoint") (sval_from (FromFixed XIntPoint [1; -1]))
       (map z2b [1;0;0;0; 255;255;255;255]).
Proof.
  split; [now apply C56_from_guid|]. apply C56_from_fixed. do 3 eexists. split; [reflexivity|].
  split; [reflexivity|]. split; [discriminate|].
  apply (many2_cons num_bytes I32 [I32] 1 [-1] (map z2b [1;0;0;0]) (map z2b [255;255;255;255])); [split; [reflexivity|cbn; lia]|].
  apply (many2_cons num_bytes I32 [] (-1) [] (map z2b [255;255;255;255]) []); [split; [reflexivity|cbn; lia]|constructor].
Qed.
