(** The byte counts returned by the writing functions. *)
From Coq Require Import ZArith List Bool String Lia ZifyBool ZifyNat.
From Verif Require Import Base Str Types Versions Text Props File Spec BaseFacts StrFacts Decode Induct.
Import ListNotations.
Open Scope Z_scope.

(** ** The pieces whose counts matter *)
(** A string written, a tag container of [n] tags, the type name in the header of a
    name property, a guid. *)
Inductive item := IStr (s : str) | ITags (n : Z) | IName | IGuid (g : guid).
Definition iopt (o : option str) : list item := match o with Some s => [IStr s] | None => [] end.
(** In writing order, for a file with or without culture-invariant strings. *)
Fixpoint text_items (cu : bool) (t : ftext) : list item := match t with FText _ h => hist_items cu h end
with hist_items (cu : bool) (h : fhist) : list item :=
  match h with
  | HEmpty => []
  | HNone s => if cu then iopt s else []
  | HBase a b c => iopt a ++ iopt b ++ iopt c
  | HNamed t l | HArgument t l => text_items cu t ++ flat_map (fun e => IStr (fst e) :: arg_items cu (snd e)) l
  | HOrdered t l => text_items cu t ++ flat_map (arg_items cu) l
  | HNumber v _ c | HPercent v _ c => arg_items cu v ++ iopt c
  | HCurrency d v _ c => iopt d ++ arg_items cu v ++ iopt c
  | HDate _ _ c => [IStr c]
  | HTime _ _ z c => [IStr z; IStr c]
  | HDateTime _ _ _ z c => [IStr z; IStr c]
  | HTransform t _ => text_items cu t
  | HTable a b => [IStr a; IStr b]
  end
with arg_items (cu : bool) (a : farg) : list item := match a with AText t => text_items cu t | _ => [] end.
Definition bytev_items (v : bytev) : list item := match v with BName s => [IStr s] | BByte _ => [] end.
Definition head_items (hdr : bool) (l : list item) : list item := if hdr then l else [].
Fixpoint items (cu hdr : bool) (p : property) : list item :=
  match p with
  | PNum k _ => head_items hdr [IStr (num_name k)]
  | PBool _ => head_items hdr [IStr (s2z "BoolProperty")]
  | PByte name v => head_items hdr (IStr (s2z "ByteProperty") :: iopt name) ++ bytev_items v
  | PEnum ty v => head_items hdr (IStr (s2z "EnumProperty") :: iopt ty) ++ [IStr v]
  | PStr v => head_items hdr [IStr (s2z "StrProperty")] ++ iopt v
  | PText t => head_items hdr [IStr (s2z "TextProperty")] ++ text_items cu t
  | PName _ v => head_items hdr [IName] ++ iopt v
  | PObject v => head_items hdr [IStr (s2z "ObjectProperty")] ++ [IStr v]
  | PDelegate a b => head_items hdr [IStr (s2z "DelegateProperty")] ++ [IStr a; IStr b]
  | PMulti inline l =>
    head_items hdr [IStr (s2z (if inline then "MulticastInlineDelegateProperty" else "MulticastSparseDelegateProperty"))]
    ++ flat_map (fun e => [IStr (fst e); IStr (snd e)]) l
  | PFieldPath l s => head_items hdr [IStr (s2z "FieldPathProperty")] ++ map IStr l ++ [IStr s]
  | PUnknown name _ => head_items hdr [IStr name]
  | PArray a => head_items hdr [IStr (s2z "ArrayProperty"); IStr (array_type a)] ++ array_items cu a
  | PSet ty _ l => head_items hdr [IStr (s2z "SetProperty"); IStr ty] ++ flat_map (items cu false) l
  | PMap m => head_items hdr [IStr (s2z "MapProperty"); IStr (map_key_type m); IStr (map_value_type m)] ++ map_items cu m
  | PStruct g ty v => head_items hdr [IStr (s2z "StructProperty"); IStr ty; IGuid g] ++ sval_items cu v
  | PSValue v => sval_items cu v
  end
with sval_items (cu : bool) (v : svalue) : list item :=
  match v with
  | SFixed _ _ => []
  | SGuid g => [IGuid g]
  | STags l => ITags (len l) :: map IStr l
  | SCustom l => flat_map (fun e => flat_map (fun p => IStr (fst e) :: items cu true p) (snd e)) l ++ [IStr (s2z "None")]
  end
with array_items (cu : bool) (a : arrayp) : list item :=
  match a with
  | AEnums l => map IStr l
  | ANames l | AStrings l => flat_map iopt l
  | AStructs fname tname g l =>
    [IStr fname; IStr (s2z "StructProperty"); IStr tname; IGuid g] ++ flat_map (sval_items cu) l
  | AProps _ l => flat_map (items cu false) l
  | _ => []
  end
with map_items (cu : bool) (m : mapp) : list item :=
  match m with
  | MBool _ l => flat_map (fun e => [IStr (fst e)]) l
  | MInt _ l => flat_map (fun e => [IStr (fst e)]) l
  | MProp _ _ l => flat_map (fun e => IStr (fst e) :: items cu false (snd e)) l
  | MStrStr l => flat_map (fun e => IStr (fst e) :: iopt (snd e)) l
  | MGen _ _ _ l => flat_map (fun e => items cu false (fst e) ++ items cu false (snd e)) l
  end.
Definition header_items (h : header) : list item :=
  [IStr (fe_branch (h_engine h))] ++ map (fun e => IGuid (fst e)) (h_versions h) ++ [IStr (h_class h)].

(** Count returned minus bytes written. *)
Definition excess (i : item) : Z :=
  match i with
  | IStr s => if forallb (fun c => (0 <=? c) && (c <=? 127)) s then len s + 1 else 0
  | ITags n => n - 4
  | IName => -17
  | IGuid _ => 0
  end.
Fixpoint total (l : list item) : Z := match l with [] => 0 | i :: r => excess i + total r end.
Definition guids_ok (l : list item) : Prop := forall g, In (IGuid g) l -> len g = 16.

(** ** Proof *)
Lemma total_app a b : total (a ++ b) = total a + total b.
Proof. induction a as [|i a IH]; cbn [app total]; [reflexivity|]. rewrite IH. lia. Qed.
Definition counts (w : out) (l : list item) : Prop :=
  match w with Ok (b, n) => guids_ok l -> n = len b + total l | Fail _ => True end.
Lemma c_seq a b la lb : counts a la -> counts b lb -> counts (a +> b) (la ++ lb).
Proof.
  destruct a as [[x n]|]; [|trivial]. destruct b as [[y m]|]; [|trivial]. cbn [seq counts]. intros A B G.
  rewrite len_app, total_app, A, B; [lia| |]; intros g I; apply G, in_or_app; auto.
Qed.
Lemma c_int w z : 0 <= w -> counts (w_int w z) [].
Proof. intros W. cbn [w_int emit counts total]. intros _. rewrite len_le_bytes. lia. Qed.
Lemma len_words ws : len (flat_map (le_bytes 2) ws) = 2 * len ws.
Proof. induction ws as [|w ws IH]; cbn [flat_map]; [reflexivity|]. rewrite len_app, len_le_bytes, len_cons, IH. lia. Qed.
Lemma string_count s : exists b, w_string s = Ok (b, len b + excess (IStr s)).
Proof.
  eexists. unfold w_string, emit. f_equal. f_equal. unfold is_ascii, inr, str_bytes, is_ascii, inr. cbn [excess].
  destruct (forallb (fun c => (0 <=? c) && (c <=? 127)) s).
  - rewrite !len_app, len_le_bytes, len_map. change (len [Byte.x00]) with 1. lia.
  - rewrite !len_app, !len_le_bytes, len_words. lia.
Qed.
Lemma c_str s : counts (w_string s) [IStr s].
Proof. destruct (string_count s) as [b ->]. cbn [counts total]. lia. Qed.
Lemma c_opt o : counts (w_fstring o) (iopt o).
Proof. destruct o; [apply c_str|apply c_int; lia]. Qed.
Lemma c_guid g : counts (w_guid g) [IGuid g].
Proof. cbn. intros G. rewrite (G g) by now left. reflexivity. Qed.
Lemma c_emit b : counts (emit b (len b)) [].
Proof. cbn. intros _. lia. Qed.
Lemma c_seqs {A} (f : A -> out) (g : A -> list item) l : Forall (fun a => counts (f a) (g a)) l -> counts (seqs f l) (flat_map g l).
Proof. induction 1; cbn [seqs flat_map]; [cbn; lia|]. now apply c_seq. Qed.
Lemma c_seq0 a b l : counts a [] -> counts b l -> counts (a +> b) l.
Proof. intros A B. exact (c_seq a b [] l A B). Qed.
Lemma c_seq1 a b i l : counts a [i] -> counts b l -> counts (a +> b) (i :: l).
Proof. intros A B. exact (c_seq a b [i] l A B). Qed.
Lemma c_end a b l : counts a l -> counts b [] -> counts (a +> b) l.
Proof. intros A B. rewrite <- (app_nil_r l). now apply c_seq. Qed.
Lemma c_seqs0 {A} (f : A -> out) l : (forall a, counts (f a) []) -> counts (seqs f l) [].
Proof. intros H. induction l; cbn [seqs]; [cbn; lia|]. now apply c_seq0. Qed.
Lemma c_map {A} (f : A -> out) (g : A -> item) l : (forall a, counts (f a) [g a]) -> counts (seqs f l) (map g l).
Proof. intros H. induction l; cbn [seqs map]; [cbn; lia|]. now apply c_seq1. Qed.
Lemma c_optfmt o : counts (w_optfmt o) [].
Proof. destruct o as [f|]; cbn [w_optfmt]; unfold w_numfmt, w_b32, w_enum; repeat apply c_seq0; apply c_int; lia. Qed.
Lemma c_header hdr name idx e b le lb : counts e le -> counts b lb ->
  counts (with_header hdr name true idx e b) (head_items hdr (IStr name :: le) ++ lb).
Proof.
  intros E B. unfold with_header. destruct hdr; [|exact B]. destruct b as [[x n]|]; [|trivial]. cbn [head_items app].
  apply c_seq1; [apply c_str|]. do 2 (apply c_seq0; [apply c_int; lia|]). apply c_seq; [exact E|].
  apply c_seq0; [apply c_int; lia|exact B].
Qed.
Lemma c_name hdr idx b lb : counts b lb ->
  counts (with_header hdr (kind_name KName) false idx skip b) (head_items hdr [IName] ++ lb).
Proof.
  intros B. unfold with_header. destruct hdr; [|exact B]. destruct b as [[x n]|]; [|trivial]. cbn [head_items app].
  apply c_seq1; [cbn; lia|]. do 2 (apply c_seq0; [apply c_int; lia|]). apply c_seq0; [cbn; lia|].
  apply c_seq0; [apply c_int; lia|exact B].
Qed.
Lemma c_key k s : counts (w_key k s) [IStr s].
Proof. destruct k; apply c_str. Qed.

Ltac cs := repeat first
  [apply c_str | apply c_opt | apply c_guid | apply c_emit | apply c_optfmt | (apply c_int; lia)
  | apply c_seq0; [first [apply c_int; lia|apply c_optfmt|apply c_emit]|]
  | apply c_seq1; [first [apply c_str|apply c_guid|apply c_key]|] ].
Section Write.
Context (vs : list (guid * Z)).
Notation cu := (has_culture vs).
Lemma c_argint w t v : counts (w_argint vs w t v) [].
Proof. unfold w_argint. destruct (Bool.eqb _ _); [|exact I]. unfold w_enum. apply c_seq0; apply c_int; [|destruct w]; lia. Qed.
Lemma count_text_all :
  (forall t, counts (w_text vs t) (text_items cu t))
  /\ (forall h, counts (w_hist vs h) (hist_items cu h))
  /\ (forall a, counts (w_farg vs a) (arg_items cu a)).
Proof.
  apply text_all; cbn [text_items hist_items arg_items w_text w_hist w_farg]; unfold w_enum; intros;
    try apply c_argint; try (cs; auto; fail).
  - cs. destruct cu; [|cbn; lia]. apply c_int. lia.
  - cs. destruct cu; [|cbn; lia]. cs.
  - cs. repeat (apply c_seq; [apply c_opt|]). apply c_opt.
  - cs. apply c_seq; [assumption|]. cs. apply c_seqs. eapply Forall_impl; [|eassumption]. intros [k v] E. cbn [fst snd] in *. cs. exact E.
  - cs. apply c_seq; [assumption|]. cs. apply c_seqs. assumption.
  - cs. apply c_seq; [assumption|]. cs. apply c_seqs. eapply Forall_impl; [|eassumption]. intros [k v] E. cbn [fst snd] in *. cs. exact E.
  - cs. apply c_seq; [assumption|]. cs.
  - cs. apply c_seq; [assumption|]. cs.
  - cs. apply c_seq; [apply c_opt|]. apply c_seq; [assumption|]. cs.
  - cs. apply c_end; [assumption|]. cs.
Qed.
Lemma c_nums ks : forall zs, counts (w_nums ks zs) [].
Proof.
  induction ks as [|k ks IH]; intros [|z zs]; cbn [w_nums]; try (cbn; lia); try exact I.
  all: apply c_seq0; [apply c_int; destruct k; cbn; lia|apply IH].
Qed.
Lemma c_bytev v : counts (w_bytev v) (bytev_items v).
Proof. destruct v; cbn [w_bytev bytev_items]; [apply (c_emit [b])|apply c_str]. Qed.
Lemma count_all :
  (forall p hdr, counts (w_prop vs hdr p) (items cu hdr p))
  /\ (forall v, counts (w_sval vs v) (sval_items cu v))
  /\ (forall a, counts (w_array vs a) (array_items cu a))
  /\ (forall m, counts (w_map vs m) (map_items cu m)).
Proof.
  apply prop_all; cbn [items sval_items array_items map_items w_prop w_sval w_array w_map]; intros.
  - rewrite <- (app_nil_r (head_items _ _)). apply c_header; [cbn; lia|]. apply c_int. destruct k; cbn; lia.
  - unfold w_pbool. destruct hdr; cbn [head_items]; cs.
  - unfold w_pbyte. pose proof (c_bytev v) as B. destruct hdr; [|exact B]. destruct (w_bytev v) as [[bx nx]|]; [|exact I].
    cbn [head_items app]. cs. apply c_seq; [apply c_opt|]. cs. exact B.
  - apply c_header; cs.
  - apply c_header; [cbn; lia|]. cs.
  - apply c_header; [cbn; lia|]. apply (proj1 count_text_all).
  - apply c_name. cs.
  - apply c_header; [cbn; lia|]. cs.
  - apply c_header; [cbn; lia|]. cs.
  - replace (s2z (if i then _ else _)) with (kind_name (KMulti i)) by (destruct i; reflexivity).
    apply c_header; [cbn; lia|]. cs. apply c_seqs, Forall_forall. intros [a b] _. cbn [fst snd]. cs.
  - apply c_header; [cbn; lia|]. cs. apply c_seq; [apply c_map; intros; cs|cs].
  - rewrite <- (app_nil_r (head_items _ _)). apply c_header; [cbn; lia|]. cs.
  - apply c_header; [cs|assumption].
  - apply c_header; [cs|]. cs. apply c_seqs. eapply Forall_impl; [|eassumption]. auto.
  - apply c_header; [|assumption]. cs.
  - apply c_header; [|assumption]. cs.
  - destruct hdr; [exact I|]. assumption.
  - unfold w_fixed. destruct (fixed_lwc x) as [b|]; [destruct (Bool.eqb _ _)|]; try exact I; apply c_nums.
  - cs.
  - apply c_seq1; [cbn [emit counts total excess]; rewrite len_le_bytes; lia|]. apply c_map. intros; cs.
  - apply c_seq; [|cs]. apply c_seqs. eapply Forall_impl; [|eassumption]. intros [k ps] E. cbn [fst snd] in *.
    apply c_seqs. eapply Forall_impl; [|exact E]. cbv beta. intros p E'. cs. apply E'.
  - cs. apply c_seqs0. intros []; cs.
  - cs. apply c_seqs0. intros b. apply (c_emit [b]).
  - cs. apply c_map. intros; cs.
  - cs. apply c_seqs0. intros; cs.
  - cs. apply c_seqs0. intros; cs.
  - cs. apply c_seqs, Forall_forall. intros; cs.
  - cs. apply c_seqs, Forall_forall. intros; cs.
  - assert (B : counts (seqs (w_sval vs) l) (flat_map (sval_items cu) l)) by (apply c_seqs; assumption).
    destruct (seqs (w_sval vs) l) as [[bx nx]|]; [|exact I]. cbn [app]. cs. exact B.
  - cs. apply c_seqs. eapply Forall_impl; [|eassumption]. auto.
  - cs. apply c_seqs, Forall_forall. intros [k' v] _. cbn [fst]. cs.
  - cs. apply c_seqs, Forall_forall. intros [k' v] _. cbn [fst]. cs.
  - cs. apply c_seqs. eapply Forall_impl; [|eassumption]. intros [k' v] E. cbn [fst snd] in *. cs. apply E.
  - cs. apply c_seqs, Forall_forall. intros [k' v] _. cbn [fst snd]. cs.
  - cs. apply c_seqs. eapply Forall_impl; [|eassumption]. intros [k' v] [E E']. cbn [fst snd] in *. apply c_seq; auto.
Qed.
End Write.
Lemma count_prop vs hdr p b n : w_prop vs hdr p = Ok (b, n) -> guids_ok (items (has_culture vs) hdr p) ->
  n = len b + total (items (has_culture vs) hdr p).
Proof. intros E. pose proof (proj1 (count_all vs) p hdr) as C. rewrite E in C. exact C. Qed.
Lemma count_sval vs v b n : w_sval vs v = Ok (b, n) -> guids_ok (sval_items (has_culture vs) v) ->
  n = len b + total (sval_items (has_culture vs) v).
Proof. intros E. pose proof (proj1 (proj2 (count_all vs)) v) as C. rewrite E in C. exact C. Qed.
Lemma count_text vs t b n : w_text vs t = Ok (b, n) -> guids_ok (text_items (has_culture vs) t) ->
  n = len b + total (text_items (has_culture vs) t).
Proof. intros E. pose proof (proj1 (count_text_all vs) t) as C. rewrite E in C. exact C. Qed.
Lemma count_header h b n : w_header h = Ok (b, n) -> guids_ok (header_items h) -> n = len b + total (header_items h).
Proof.
  intros E. assert (C : counts (w_header h) (header_items h)); [|rewrite E in C; exact C].
  unfold w_header, header_items, w_fengine. cs. destruct (h_ue5 h).
  - cs. change ([IStr (fe_branch (h_engine h))] ++ ?x) with ([IStr (fe_branch (h_engine h))] ++ x).
    apply c_seq; [repeat (apply c_seq0; [apply c_int; lia|]); cs|]. cs. apply c_seq; [|cs].
    apply c_map. intros [g z0]. unfold w_version. cbn [fst snd]. apply c_end; cs.
  - apply c_seq0; [cbn; lia|].
    apply c_seq; [repeat (apply c_seq0; [apply c_int; lia|]); cs|]. cs. apply c_seq; [|cs].
    apply c_map. intros [g z0]. unfold w_version. cbn [fst snd]. apply c_end; cs.
Qed.
(** Exact when nothing counts. *)
Definition plain (i : item) : Prop :=
  match i with
  | IStr s => exists c, In c s /\ 127 < c
  | ITags _ | IName => False
  | IGuid g => len g = 16
  end.
Lemma plain_exact l : Forall plain l -> guids_ok l /\ total l = 0.
Proof.
  induction 1 as [|i l P F [G T]]; [split; [intros g []|reflexivity]|]. split.
  - intros g [->|I]; [exact P|now apply G].
  - cbn [total]. rewrite T. destruct i as [s|n| |g]; cbn [plain excess] in *; [|destruct P|destruct P|reflexivity].
    destruct (forallb _ s) eqn:E; [|lia]. destruct P as (c & I & L). rewrite forallb_forall in E. specialize (E c I). lia.
Qed.
Lemma string_sizes s : exists b n, w_string s = Ok (b, n)
  /\ ((forall c, In c s -> 0 <= c <= 127) -> len b = len s + 5 /\ n = 2 * len s + 6)
  /\ ((exists c, In c s /\ 127 < c) -> n = len b).
Proof.
  eexists _, _. split; [reflexivity|]. unfold str_bytes. split.
  - intros A. assert (F : is_ascii s = true).
    { apply forallb_forall. intros c I. specialize (A c I). unfold inr. lia. }
    rewrite F, !len_app, len_le_bytes, len_map. change (len [Byte.x00]) with 1. lia.
  - intros (c & I & L). destruct (is_ascii s) eqn:E.
    + unfold is_ascii in E. rewrite forallb_forall in E. specialize (E c I). unfold inr in E. lia.
    + rewrite !len_app, !len_le_bytes, len_words. lia.
Qed.
Lemma count_exact vs hdr p b n : w_prop vs hdr p = Ok (b, n) -> Forall plain (items (has_culture vs) hdr p) -> n = len b.
Proof. intros E F. apply plain_exact in F as [G T]. rewrite (count_prop vs hdr p b n E G), T. lia. Qed.
