(** Facts about the accessors and the text form of the engine version. *)
From Coq Require Import ZArith List Bool String Lia ZifyBool ZifyNat.
From Verif Require Import Base Str Types Versions Spec BaseFacts Access MapFacts HeaderThm Grammar Numeral.
Import ListNotations.
Open Scope Z_scope.

(** ** Specification *)

(** The type an accessor is documented to return ("Retrieves the enum value as a ..."). *)
Definition acc_doc (a : acc) : str :=
  s2z match a with
  | GetArray => "ArrayProperty" | GetEnum => "EnumProperty" | GetBool => "BoolProperty" | GetByte => "ByteProperty"
  | GetF64 => "DoubleProperty" | GetF32 => "FloatProperty" | GetI16 => "Int16Property" | GetI64 => "Int64Property"
  | GetI8 => "Int8Property" | GetInt => "IntProperty" | GetU16 => "UInt16Property" | GetU32 => "UInt32Property"
  | GetU64 => "UInt64Property" | GetMap => "MapProperty" | GetName => "NameProperty" | GetObjectRef => "ObjectProperty"
  | GetDelegate => "DelegateProperty" | GetInlineDelegate => "MulticastInlineDelegateProperty"
  | GetSparseDelegate => "MulticastSparseDelegateProperty" | GetFieldPath => "FieldPathProperty" | GetSet => "SetProperty"
  | GetStr => "StrProperty" | GetStruct => "StructProperty" | GetText => "TextProperty" | GetUnknown => "UnknownProperty"
  end%string.
(** The name of the enum variant a property is. *)
Definition variant (p : property) : str :=
  match p with
  | PUnknown _ _ => s2z "UnknownProperty"
  | PSValue _ => s2z "StructPropertyValue"
  | _ => type_of p
  end.
(** ** Proofs *)
Lemma num_same_eq k k' : num_same k k' = true -> k = k'.
Proof. destruct k, k'; try discriminate; reflexivity. Qed.
Lemma as_num_iff k p z : as_num k p = Some z <-> p = PNum k z.
Proof.
  split; [|intros ->; cbn [as_num]; destruct k; reflexivity].
  destruct p as [k' z'| | | | | | | | | | | | | | | |]; cbn [as_num]; try discriminate.
  destruct (num_same k k') eqn:E; [|discriminate]. intros H. injection H as ->. now rewrite (num_same_eq _ _ E).
Qed.
Lemma get_iff a p e : get a p = Some e <-> p = into a e.
Proof.
  destruct a; cbn [get into payload] in *; try apply as_num_iff;
    try (split; [destruct p; intros H; try discriminate H; injection H as <-; reflexivity|
                 first [intros ->; reflexivity | repeat (destruct e as [e ?]); intros ->; reflexivity]]).
  - split; [destruct p as [| | | | | | | | |[]| | | | | | |]; intros H; try discriminate H; injection H as <-; reflexivity|intros ->; reflexivity].
  - split; [destruct p as [| | | | | | | | |[]| | | | | | |]; intros H; try discriminate H; injection H as <-; reflexivity|intros ->; reflexivity].
Qed.
Lemma get_variant a p e : get a p = Some e -> variant p = acc_doc a.
Proof.
  intros H. apply get_iff in H. subst p. destruct a; cbn [into payload] in *; try reflexivity;
    repeat (destruct e as [e ?]); reflexivity.
Qed.
Lemma acc_doc_inj a a' : acc_doc a = acc_doc a' -> a = a'.
Proof. destruct a, a'; intros H; try reflexivity; vm_compute in H; discriminate H. Qed.
Lemma get_one a a' p e e' : get a p = Some e -> get a' p = Some e' -> a = a'.
Proof. intros H H'. apply acc_doc_inj. now rewrite <- (get_variant _ _ _ H), <- (get_variant _ _ _ H'). Qed.
Lemma get_some p : (exists a e, get a p = Some e) <-> (forall v, p <> PSValue v).
Proof.
  split.
  - intros (a & e & H) v ->. apply get_variant in H. destruct a; vm_compute in H; discriminate H.
  - intros N. destruct p as [k z|b|n v|n v|s|t|i s|s|x y|[] l|l s|n r|x|t f l|m|g t v|v];
      [destruct k| | | | | | | | | | | | | | | | |].
    all: try (exfalso; now apply (N v)).
    + now exists GetI8, z.
    + now exists GetI16, z.
    + now exists GetInt, z.
    + now exists GetI64, z.
    + now exists GetU16, z.
    + now exists GetU32, z.
    + now exists GetU64, z.
    + now exists GetF32, z.
    + now exists GetF64, z.
    + now exists GetBool, b.
    + now exists GetByte, (n, v).
    + now exists GetEnum, (n, v).
    + now exists GetStr, s.
    + now exists GetText, t.
    + now exists GetName, (i, s).
    + now exists GetObjectRef, s.
    + now exists GetDelegate, (x, y).
    + now exists GetInlineDelegate, l.
    + now exists GetSparseDelegate, l.
    + now exists GetFieldPath, (l, s).
    + now exists GetUnknown, (n, r).
    + now exists GetArray, x.
    + now exists GetSet, (t, f, l).
    + now exists GetMap, m.
    + now exists GetStruct, (g, t, v).
Qed.
Lemma modify_spec a f p : 
  match get a p with
  | Some e => get a (modify a f p) = Some (f e) /\ variant (modify a f p) = variant p
  | None => modify a f p = p
  end.
Proof.
  unfold modify. destruct (get a p) as [e|] eqn:E; [|reflexivity].
  assert (H : get a (into a (f e)) = Some (f e)) by (now apply get_iff). split; [exact H|].
  now rewrite (get_variant _ _ _ H), (get_variant _ _ _ E).
Qed.

Lemma fixed_same_eq k k' : fixed_same k k' = true -> k = k'.
Proof. destruct k, k'; try discriminate; reflexivity. Qed.
Lemma as_fixed_iff k v l : as_fixed k v = Some l <-> v = SFixed k l.
Proof.
  split; [|intros ->; cbn [as_fixed]; destruct k; reflexivity].
  destruct v as [k' l'| | |]; cbn [as_fixed]; try discriminate.
  destruct (fixed_same k k') eqn:E; [|discriminate]. intros H. injection H as ->. now rewrite (fixed_same_eq _ _ E).
Qed.
Lemma sget_iff a v e : sget a v = Some e <-> v = sinto a e.
Proof.
  destruct a; cbn [sget sinto spayload] in *; try apply as_fixed_iff;
    (split; [destruct v; intros H; try discriminate H; injection H as <-; reflexivity|intros ->; reflexivity]).
Qed.
Lemma sget_one a a' v e e' : sget a v = Some e -> sget a' v = Some e' -> a = a'.
Proof.
  intros H H'. apply sget_iff in H. apply sget_iff in H'. subst v.
  destruct a, a'; cbn [sinto] in H'; try reflexivity; discriminate H'.
Qed.
Lemma sget_none v : (forall a, sget a v = None) <->
  exists l, v = SFixed XVector2F l \/ v = SFixed XVector2D l \/ v = SFixed XTimespan l \/ v = SFixed XLinearColor l
    \/ exists t, v = STags t.
Proof.
  split.
  - intros H. destruct v as [k l|g|t|l].
    + exists l. destruct k; auto.
      * discriminate (H SGetVectorF).
      * discriminate (H SGetVectorD).
      * discriminate (H SGetRotatorF).
      * discriminate (H SGetRotatorD).
      * discriminate (H SGetQuatF).
      * discriminate (H SGetQuatD).
      * discriminate (H SGetDateTime).
      * discriminate (H SGetIntPoint).
    + discriminate (H SGetGuid).
    + exists []. right; right; right; right. now exists t.
    + discriminate (H SGetCustom).
  - intros (l & [->|[->|[->|[->|(t & ->)]]]]) a; destruct a; reflexivity.
Qed.
Lemma smodify_spec a f v :
  match sget a v with
  | Some e => sget a (smodify a f v) = Some (f e)
  | None => smodify a f v = v
  end.
Proof. unfold smodify. destruct (sget a v) as [e|] eqn:E; [now apply sget_iff|reflexivity]. Qed.

Definition version_text (v : fengine) (s : str) : Prop :=
  exists a b c d, numeral a (fe_major v) /\ numeral b (fe_minor v) /\ numeral c (fe_patch v) /\ numeral d (fe_change v)
    /\ s = a ++ s2z "." ++ b ++ s2z "." ++ c ++ s2z "-" ++ d ++ s2z "+++" ++ fe_branch v.
Definition engine_ok (v : fengine) : Prop :=
  0 <= fe_major v < 65536 /\ 0 <= fe_minor v < 65536 /\ 0 <= fe_patch v < 65536 /\ 0 <= fe_change v < 4294967296.
Lemma show_text v : engine_ok v -> version_text v (show_engine v).
Proof.
  intros (A & B & C & D). exists (decimal (fe_major v)), (decimal (fe_minor v)), (decimal (fe_patch v)), (decimal (fe_change v)).
  repeat split; try (apply decimal_numeral; lia); reflexivity.
Qed.
Lemma show_iff v s : engine_ok v -> show_engine v = s <-> version_text v s.
Proof.
  intros K. split; [intros <-; now apply show_text|].
  intros (a & b & c & d & Na & Nb & Nc & Nd & ->). unfold show_engine.
  rewrite <- (numeral_unique _ _ Na), <- (numeral_unique _ _ Nb), <- (numeral_unique _ _ Nc), <- (numeral_unique _ _ Nd).
  reflexivity.
Qed.
Lemma text_inj v v' s : version_text v s -> version_text v' s -> v = v'.
Proof.
  intros (a & b & c & d & (_ & Da & Va & _) & (_ & Db & Vb & _) & (_ & Dc & Vc & _) & (_ & Dd & Vd & _) & ->)
         (a' & b' & c' & d' & (_ & Da' & Va' & _) & (_ & Db' & Vb' & _) & (_ & Dc' & Vc' & _) & (_ & Dd' & Vd' & _) & E).
  change (s2z ".") with [46] in E. change (s2z "-") with [45] in E. change (s2z "+++") with [43; 43; 43] in E. cbn [app] in E.
  apply split_digits in E as [-> E]; [|assumption|assumption|unfold digit; lia].
  apply split_digits in E as [-> E]; [|assumption|assumption|unfold digit; lia].
  apply split_digits in E as [-> E]; [|assumption|assumption|unfold digit; lia].
  apply split_digits in E as [-> E]; [|assumption|assumption|unfold digit; lia].
  injection E as E. destruct v, v'. cbn in *. subst. reflexivity.
Qed.

(** ** Conversions *)
Lemma from_guid o vs path ty g b :
  is_struct o vs path ty (sval_from (FromGuid g)) b <-> ty = s2z "Guid" /\ len g = 16 /\ b = g.
Proof.
  cbn [sval_from]. split; [intros H; inversion H; auto|intros (-> & H & ->); now constructor].
Qed.
Lemma from_fixed o vs path ty k l b :
  is_struct o vs path ty (sval_from (FromFixed k l)) b <->
  exists name lwc ks, fixed_spec k = (name, lwc, ks) /\ ty = s2z name
    /\ (forall d, lwc = Some d -> has_lwc vs = d) /\ many2 num_bytes ks l b.
Proof.
  cbn [sval_from]. split.
  - intros H. inversion H; subst. eauto 8.
  - intros (name & lwc & ks & E & -> & D & M). econstructor; eassumption.
Qed.
