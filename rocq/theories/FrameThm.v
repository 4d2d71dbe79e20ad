(** Headers and declared sizes of properties (C13, C14). *)
From Coq Require Import ZArith List Bool String Lia ZifyBool ZifyNat.
From Verif Require Import Base Str Types Versions Text Props File Spec BaseFacts ReaderFacts Prim StrFacts StrThm
  Decode KindFacts DecodeProp.
Import ListNotations.
Open Scope Z_scope.

(** ** Specification of the bytes after the type name *)

(** How many strings, and how many other bytes, the header of a type has. *)
Definition header_strings (ty : str) : nat :=
  if mem ty (map s2z ["EnumProperty"; "ByteProperty"; "ArrayProperty"; "SetProperty"; "StructProperty"]%string) then 1
  else if str_eqb ty (s2z "MapProperty") then 2 else 0.
Definition header_raw (ty : str) : Z :=
  if str_eqb ty (s2z "StructProperty") then 16 else if str_eqb ty (s2z "BoolProperty") then 1 else 0.
(** Size, index, header strings, other header bytes, a zero, the value. *)
Definition framed (ty : str) (size idx : Z) (names : list (option str)) (raw body f : list byte) : Prop :=
  exists codes, Forall2 stored names codes
    /\ List.length names = header_strings ty /\ len raw = header_raw ty
    /\ f = le_bytes 4 size ++ le_bytes 4 idx ++ List.concat codes ++ raw ++ [Byte.x00] ++ body.

(** ** Readers *)
Definition eats (c : cur) (bs : list byte) (c' : cur) : Prop :=
  rest c = bs ++ rest c' /\ pos c' = pos c + len bs /\ stk c' = stk c.
Lemma eats_nil c : eats c [] c.
Proof. repeat split. rewrite len_nil. lia. Qed.
Lemma eats_app c b c1 b' c2 : eats c b c1 -> eats c1 b' c2 -> eats c (b ++ b') c2.
Proof.
  intros (R & P & K) (R' & P' & K'). repeat split; [now rewrite R, R', app_assoc|rewrite len_app; lia|congruence].
Qed.
Lemma eats_local {A} (r : reader A) c x c' : local r -> r c = Ok (x, c') -> exists bs, eats c bs c'.
Proof. intros H E. apply H in E as (bs & R & P & K & _). exists bs. repeat split; assumption. Qed.
Lemma eats_u32 c z c' : r_u32 c = Ok (z, c') -> eats c (le_bytes 4 z) c' /\ 0 <= z < 4294967296.
Proof. intros E. apply (uint_inv 4) in E as (R & L & P & K). repeat split; try assumption; lia. Qed.
Lemma eats_u64 c z c' : r_u64 c = Ok (z, c') -> eats c (le_bytes 8 z) c' /\ 0 <= z < 2 ^ 64.
Proof. intros E. apply (uint_inv 8) in E as (R & L & P & K). repeat split; try assumption; lia. Qed.
Lemma eats_u8 c z c' : r_u8 c = Ok (z, c') -> eats c (le_bytes 1 z) c' /\ 0 <= z < 256.
Proof. intros E. apply (uint_inv 1) in E as (R & L & P & K). repeat split; try assumption; lia. Qed.
Lemma eats_take n c x c' : 0 <= n -> take n c = Ok (x, c') -> eats c x c' /\ len x = n.
Proof. intros Hn E. apply take_inv in E as (R & L & P & K); [|exact Hn]. repeat split; try assumption; lia. Qed.
Lemma eats_fstring c o c' : r_fstring c = Ok (o, c') -> exists bs, stored o bs /\ eats c bs c'.
Proof.
  intros E. apply fstring_inv in E as (bs & X & R & P & K). exists bs. split; [now apply stored_encoding|]. repeat split; assumption.
Qed.
Lemma eats_string c s c' : r_string c = Ok (s, c') -> exists bs, stored (Some s) bs /\ eats c bs c'.
Proof.
  unfold r_string, bind, position. destruct (r_fstring c) as [[[t|] c1]|] eqn:E; try discriminate.
  intros X. injection X as <- <-. now apply eats_fstring.
Qed.
Lemma eats_index0 c c' : r_index0 c = Ok (tt, c') -> eats c (le_bytes 4 0) c'.
Proof.
  unfold r_index0, bind, position, ret. destruct (r_u32 c) as [[i c1]|] eqn:E; [|discriminate].
  apply eats_u32 in E as [E _]. destruct (Z.eqb_spec i 0) as [->|]; [|discriminate]. intros X. injection X as <-. exact E.
Qed.
Lemma eats_term c c' : r_term c = Ok (tt, c') -> eats c [Byte.x00] c'.
Proof.
  unfold r_term, bind, position, ret. destruct (r_u8 c) as [[i c1]|] eqn:E; [|discriminate].
  apply eats_u8 in E as [E _]. destruct (Z.eqb_spec i 0) as [->|]; [|discriminate]. intros X. injection X as <-. exact E.
Qed.
Lemma eats_zero8 s c c' : zero_or s r_u8 c = Ok (tt, c') -> eats c [Byte.x00] c'.
Proof.
  unfold zero_or, bind, ret. destruct (r_u8 c) as [[i c1]|] eqn:E; [|discriminate].
  apply eats_u8 in E as [E _]. destruct (Z.eqb_spec i 0) as [->|]; [|discriminate]. intros X. injection X as <-. exact E.
Qed.
Lemma eats_zero32 s c c' : zero_or s r_u32 c = Ok (tt, c') -> eats c (le_bytes 4 0) c'.
Proof.
  unfold zero_or, bind, ret. destruct (r_u32 c) as [[i c1]|] eqn:E; [|discriminate].
  apply eats_u32 in E as [E _]. destruct (Z.eqb_spec i 0) as [->|]; [|discriminate]. intros X. injection X as <-. exact E.
Qed.
Lemma eats_check n c c' : check_size n c = Ok (tt, c') -> 0 <= n < 4294967296 ->
  eats c (le_bytes 4 n ++ le_bytes 4 0) c'.
Proof.
  unfold check_size, bind, position, ret. destruct (r_u64 c) as [[i c1]|] eqn:E; [|discriminate].
  apply eats_u64 in E as [E _]. destruct (Z.eqb_spec i n) as [->|]; [|discriminate]. intros X Hn. injection X as <-.
  replace (le_bytes 4 n ++ le_bytes 4 0) with (le_bytes 8 n); [exact E|].
  change 8%nat with (4 + 4)%nat. rewrite le_bytes_app. do 2 f_equal. apply Z.div_small. exact Hn.
Qed.
Lemma bind_ok {A B} (r : reader A) (k : A -> reader B) c y c' : bind r k c = Ok (y, c') ->
  exists x c1, r c = Ok (x, c1) /\ k x c1 = Ok (y, c').
Proof. unfold bind. destruct (r c) as [[x c1]|]; [eauto|discriminate]. Qed.
Lemma sized_ok {A} n (r : reader A) c x c' : sized n r c = Ok (x, c') -> r c = Ok (x, c') /\ pos c' - pos c = n.
Proof.
  unfold sized, bind, position, ret. destruct (r c) as [[y c1]|] eqn:E; [|discriminate].
  destruct (Z.eqb_spec (pos c1 - pos c) n); [|discriminate]. intros X. injection X as <- <-. auto.
Qed.
(** A header read by [headed], given what its strings are. *)
Lemma headed_ok {V A} (vars : reader V) (body : Z -> V -> reader A) (names : V -> list (option str)) (raw : V -> list byte) c x c' :
  (forall c v c', vars c = Ok (v, c') -> exists codes, Forall2 stored (names v) codes /\ eats c (List.concat codes ++ raw v) c') ->
  (forall n v, local (body n v)) ->
  headed vars body c = Ok (x, c') ->
  exists v codes bs, Forall2 stored (names v) codes
    /\ eats c (le_bytes 4 (len bs) ++ le_bytes 4 0 ++ List.concat codes ++ raw v ++ [Byte.x00] ++ bs) c'
    /\ len bs < 4294967296.
Proof.
  intros HV HB E. unfold headed in E. apply bind_ok in E as (n & c1 & E1 & E). apply eats_u32 in E1 as [E1 R1].
  apply bind_ok in E as ([] & c2 & E2 & E). apply eats_index0 in E2.
  apply bind_ok in E as (v & c3 & E3 & E). destruct (HV _ _ _ E3) as (codes & F & E3').
  apply bind_ok in E as ([] & c4 & E4 & E). apply eats_term in E4.
  apply sized_ok in E as [E L]. destruct (eats_local _ _ _ _ (HB n v) E) as (bs & E5).
  assert (n = len bs) as -> by (destruct E5 as (_ & P & _); lia).
  exists v, codes, bs. split; [exact F|]. split; [|lia].
  eapply eats_app; [exact E1|]. eapply eats_app; [exact E2|]. rewrite app_assoc.
  eapply eats_app; [exact E3'|]. eapply eats_app; [exact E4|exact E5].
Qed.
Definition good (names : list (option str)) : Prop := Forall (fun o => exists s, o = Some s) names.
(** What a property with a header must look like. *)
Definition frame_of (ty : str) (c c' : cur) : Prop :=
  exists size idx names raw body f,
    framed ty size idx names raw body f /\ eats c f c' /\ good names
    /\ 0 <= size < 4294967296 /\ 0 <= idx < 4294967296
    /\ (ty <> s2z "ByteProperty" -> size = len body)
    /\ (ty <> s2z "NameProperty" -> idx = 0).
Lemma frame_headed {V A} ty (vars : reader V) (body : Z -> V -> reader A) (names : V -> list str) (raw : V -> list byte) c x c' :
  (forall c v c', vars c = Ok (v, c') ->
     exists codes, Forall2 stored (map Some (names v)) codes /\ eats c (List.concat codes ++ raw v) c' /\ len (raw v) = header_raw ty) ->
  (forall v, List.length (names v) = header_strings ty) ->
  (forall n v, local (body n v)) ->
  headed vars body c = Ok (x, c') -> frame_of ty c c'.
Proof.
  intros HV HN HB E.
  unfold headed in E. apply bind_ok in E as (n & c1 & E1 & E). apply eats_u32 in E1 as [E1 R1].
  apply bind_ok in E as ([] & c2 & E2 & E). apply eats_index0 in E2.
  apply bind_ok in E as (v & c3 & E3 & E). destruct (HV _ _ _ E3) as (codes & F & E3' & LR).
  apply bind_ok in E as ([] & c4 & E4 & E). apply eats_term in E4.
  apply sized_ok in E as [E L]. destruct (eats_local _ _ _ _ (HB n v) E) as (bs & E5).
  assert (n = len bs) as -> by (destruct E5 as (_ & P & _); lia).
  exists (len bs), 0, (map Some (names v)), (raw v), bs, (le_bytes 4 (len bs) ++ le_bytes 4 0 ++ List.concat codes ++ raw v ++ [Byte.x00] ++ bs).
  split. { exists codes. split; [exact F|]. rewrite map_length, HN. auto. }
  split. { eapply eats_app; [exact E1|]. eapply eats_app; [exact E2|]. rewrite app_assoc.
    eapply eats_app; [exact E3'|]. eapply eats_app; [exact E4|exact E5]. }
  split. { apply Forall_forall. intros o Ho. apply in_map_iff in Ho as (s & <- & _). eauto. }
  split; [exact R1|]. split; [lia|]. auto.
Qed.
Lemma frame_plain ty {A} (r : reader A) c x c' : local r -> header_strings ty = 0%nat -> header_raw ty = 0 ->
  plain true r c = Ok (x, c') -> frame_of ty c c'.
Proof.
  intros HL HS HR E. unfold plain in E.
  eapply (frame_headed ty _ _ (fun _ => []) (fun _ => [])); [| | |exact E].
  - intros c0 v c1 X. exists []. cbn [map]. split; [constructor|]. injection X as _ <-. split; [apply eats_nil|]. now rewrite HR.
  - intros _. now rewrite HS.
  - auto.
Qed.
Lemma frame_one ty {A} (body : Z -> str -> reader A) c x c' : (forall n s, local (body n s)) ->
  header_strings ty = 1%nat -> header_raw ty = 0 ->
  headed r_string body c = Ok (x, c') -> frame_of ty c c'.
Proof.
  intros HL HS HR E. eapply (frame_headed ty _ _ (fun s => [s]) (fun _ => [])); [| | |exact E].
  - intros c0 v c1 X. apply eats_string in X as (bs & X & Y). exists [bs]. cbn [map List.concat]. rewrite app_nil_r.
    split; [repeat constructor; exact X|]. rewrite app_nil_r. split; [exact Y|]. now rewrite HR.
  - intros v. cbn [List.length]. now rewrite HS.
  - auto.
Qed.
Lemma prim_any {A} (r : reader A) : prim (fun _ => True) r -> local r.
Proof. apply prim_local. Qed.
Lemma frame_body n o vs rp ty sug c x c' : (forall ty hdr sug, prim (fun _ => True) (rp ty hdr sug)) ->
  r_body n o vs rp ty true sug c = Ok (x, c') -> frame_of ty c c'.
Proof.
  intros Hrp. unfold r_body.
  assert (T : kind_of ty <> KOther -> ty = kind_name (kind_of ty)) by apply kind_of_name.
  destruct (kind_of ty) as [k| | | | | | | | |i| | | | | |] eqn:K;
    try (specialize (T ltac:(discriminate)); subst ty; clear K).
  - (* numbers *)
    unfold r_pnum. intros E. apply bind_ok in E as ([] & c1 & E & E3). apply bind_ok in E as ([] & c0 & E1 & E2).
    apply eats_check in E1; [|destruct k; cbn [num_width]; lia]. apply eats_zero8 in E2.
    destruct (eats_local _ _ _ _ (prim_any _ ltac:(apply p_bind; [apply q_num; auto|intros; apply p_ret])) E3) as (bs & E4).
    assert (L : len bs = num_width k).
    { apply bind_ok in E3 as (z & c2 & E3 & X). injection X as _ <-. destruct E4 as (R4 & P4 & _).
      assert (W : pos c2 = pos c1 + num_width k); [|lia]. unfold r_num in E3.
      destruct (num_signed k) eqn:Sg.
      - rewrite <- (Z2Nat.id (num_width k)) in E3 by (destruct k; cbn; lia).
        apply sint_inv in E3; [|destruct k; cbn; lia].
        rewrite Z2Nat.id in E3 by (destruct k; cbn; lia). apply E3.
      - rewrite <- (Z2Nat.id (num_width k)) in E3 by (destruct k; cbn; lia). apply uint_inv in E3.
        rewrite Z2Nat.id in E3 by (destruct k; cbn; lia). apply E3. }
    exists (num_width k), 0, [], [], bs, ((le_bytes 4 (num_width k) ++ le_bytes 4 0) ++ [Byte.x00] ++ bs).
    split. { exists []. split; [constructor|]. split; [destruct k; reflexivity|]. split; [destruct k; reflexivity|]. now rewrite <- app_assoc. }
    split. { eapply eats_app; [exact E1|]. eapply eats_app; [exact E2|exact E4]. }
    split; [constructor|]. split; [destruct k; cbn; lia|]. split; [lia|]. split; [congruence|reflexivity].
  - (* byte *)
    unfold r_pbyte. intros E. apply bind_ok in E as (n0 & c1 & E1 & E). apply eats_u32 in E1 as [E1 R1].
    apply bind_ok in E as ([] & c2 & E2 & E). apply eats_zero32 in E2.
    apply bind_ok in E as (s & c3 & E3 & E). apply eats_string in E3 as (cs & S3 & E3).
    apply bind_ok in E as ([] & c4 & E4 & E). apply eats_zero8 in E4.
    destruct (eats_local _ _ _ _ (prim_any _ ltac:(apply p_bind; [apply q_bytev; auto|intros; apply p_ret])) E) as (bs & E5).
    exists n0, 0, [Some s], [], bs, (le_bytes 4 n0 ++ le_bytes 4 0 ++ cs ++ [Byte.x00] ++ bs).
    split. { exists [cs]. split; [repeat constructor; exact S3|]. split; [reflexivity|]. split; [reflexivity|]. cbn [List.concat app]. now rewrite app_nil_r. }
    split. { repeat (eapply eats_app; [eassumption|]). exact E5. }
    split; [repeat constructor; eauto|]. split; [exact R1|]. split; [lia|]. split; [intros X; now contradict X|reflexivity].
  - (* bool *)
    unfold r_pbool. intros E. apply bind_ok in E as ([] & c1 & E1 & E). apply eats_check in E1; [|lia].
    apply bind_ok in E as (b & c2 & E2 & E). apply bind_ok in E as ([] & c3 & E3 & E). apply eats_zero8 in E3.
    injection E as _ <-.
    assert (E2' : exists z, eats c1 (le_bytes 1 z) c2).
    { unfold r_bool, r_boolw in E2. apply bind_ok in E2 as (z & c4 & E4 & E2). apply (eats_u8) in E4 as [E4 _].
      exists z. enough (c4 = c2) as <- by exact E4. unfold bind, position, ret, fail in E2.
      repeat match type of E2 with context [if ?b then _ else _] => destruct b end; congruence. }
    destruct E2' as (z & E2').
    exists 0, 0, [], (le_bytes 1 z), [], ((le_bytes 4 0 ++ le_bytes 4 0) ++ le_bytes 1 z ++ [Byte.x00]).
    split. { exists []. split; [constructor|]. split; [reflexivity|]. split; [reflexivity|]. now rewrite <- app_assoc. }
    split. { repeat (eapply eats_app; [eassumption|]). exact E3. }
    split; [constructor|]. split; [lia|]. split; [lia|]. auto.
  - apply frame_one; [|reflexivity|reflexivity]. intros; apply prim_any, p_bind; [apply q_string; auto|intros; apply p_ret].
  - apply frame_plain; [|reflexivity|reflexivity]. intros; apply prim_any, p_bind; [apply q_fstring; auto|intros; apply p_ret].
  - apply frame_plain; [|reflexivity|reflexivity]. intros; apply prim_any, p_bind; [apply q_text; auto|intros; apply p_ret].
  - (* name *)
    unfold r_pname, headed_index. intros E. apply bind_ok in E as (n0 & c1 & E1 & E). apply eats_u32 in E1 as [E1 R1].
    apply bind_ok in E as (i & c2 & E2 & E). apply eats_u32 in E2 as [E2 R2].
    apply bind_ok in E as ([] & c3 & E3 & E). apply eats_term in E3. apply sized_ok in E as [E L].
    destruct (eats_local _ _ _ _ (prim_any _ ltac:(apply p_bind; [apply q_fstring; auto|intros; apply p_ret])) E) as (bs & E4).
    assert (n0 = len bs) as -> by (destruct E4 as (_ & P & _); lia).
    exists (len bs), i, [], [], bs, (le_bytes 4 (len bs) ++ le_bytes 4 i ++ [Byte.x00] ++ bs).
    split. { exists []. split; [constructor|]. repeat split. }
    split. { repeat (eapply eats_app; [eassumption|]). exact E4. }
    split; [constructor|]. split; [exact R1|]. split; [exact R2|]. split; [reflexivity|intros X; now contradict X].
  - apply frame_plain; [|reflexivity|reflexivity]. intros; apply prim_any, p_bind; [apply q_string; auto|intros; apply p_ret].
  - apply frame_plain; [|reflexivity|reflexivity]. intros; apply prim_any, p_bind; [apply q_delegate; auto|intros; apply p_ret].
  - destruct i; (apply frame_plain; [|reflexivity|reflexivity]); apply prim_any;
      (apply p_bind; [apply q_uint; auto|intros; apply p_bind; [apply q_rep, q_delegate; auto|intros; apply p_ret]]).
  - apply frame_plain; [|reflexivity|reflexivity]. intros; apply prim_any.
    apply p_bind; [apply q_uint; auto|intros; apply p_bind; [apply q_rep, q_string; auto|intros; apply p_bind; [apply q_string; auto|intros; apply p_ret]]].
  - (* struct *)
    unfold r_pstruct. intros E.
    eapply (frame_headed _ _ _ (fun tg => [fst tg]) snd); [| | |exact E].
    + intros c0 [s g] c1 X. apply bind_ok in X as (s' & c2 & X1 & X). apply bind_ok in X as (g' & c3 & X2 & X).
      injection X as -> -> ->. apply eats_string in X1 as (bs & S1 & X1). apply eats_take in X2 as [X2 L]; [|lia].
      exists [bs]. cbn [map fst snd List.concat]. rewrite app_nil_r. split; [repeat constructor; exact S1|].
      split; [eapply eats_app; eauto|exact L].
    + reflexivity.
    + intros m v. apply prim_any, p_bind; [apply q_sval; [auto|exact Hrp]|intros; apply p_ret].
  - apply frame_one; [|reflexivity|reflexivity]. intros; apply prim_any, q_array; auto.
  - apply frame_one; [|reflexivity|reflexivity]. intros; apply prim_any, q_set; auto.
  - (* map *)
    intros E. eapply (frame_headed _ _ _ (fun kv => [fst kv; snd kv]) (fun _ => [])); [| | |exact E].
    + intros c0 [a b] c1 X. apply bind_ok in X as (a' & c2 & X1 & X). apply bind_ok in X as (b' & c3 & X2 & X).
      injection X as -> -> ->. apply eats_string in X1 as (bs & S1 & X1). apply eats_string in X2 as (bs' & S2 & X2).
      exists [bs; bs']. cbn [map fst snd List.concat]. rewrite !app_nil_r. split; [repeat constructor; assumption|].
      split; [eapply eats_app; eauto|reflexivity].
    + reflexivity.
    + intros m v. apply prim_any, q_map; auto.
  - (* unknown *)
    unfold r_unknown_header. intros E. apply bind_ok in E as (n0 & c1 & E1 & E). apply eats_u32 in E1 as [E1 R1].
    apply bind_ok in E as ([] & c2 & E2 & E). apply eats_zero32 in E2.
    apply bind_ok in E as ([] & c3 & E3 & E). apply eats_zero8 in E3.
    unfold r_unknown in E. apply bind_ok in E as (bs & c4 & E4 & E). injection E as _ <-.
    apply eats_take in E4 as [E4 L]; [|lia]. subst n0.
    exists (len bs), 0, [], [], bs, (le_bytes 4 (len bs) ++ le_bytes 4 0 ++ [Byte.x00] ++ bs).
    assert (NK : forall s, mem s known_types = true -> str_eqb ty s = false).
    { intros s Hs. destruct (str_eqb ty s) eqn:X; [|reflexivity]. apply str_eqb_eq in X. subst s.
      apply kind_other in K. congruence. }
    split. { exists []. split; [constructor|]. split; [|split; [|reflexivity]].
      - unfold header_strings, mem. cbn [map existsb]. rewrite !NK by reflexivity. reflexivity.
      - unfold header_raw. rewrite !NK by reflexivity. reflexivity. }
    split. { repeat (eapply eats_app; [eassumption|]). exact E4. }
    split; [constructor|]. split; [exact R1|]. split; [lia|]. auto.
Qed.
Lemma frame_prop n o vs ty sug c x c' : r_prop n o vs ty true sug c = Ok (x, c') -> frame_of ty c c'.
Proof.
  intros E.
  assert (HS : stk c' = stk c).
  { destruct (prim_any _ ltac:(apply q_prop; auto) _ _ _ E) as (bs & _ & _ & HS & _). exact HS. }
  destruct n as [|n]; [discriminate|]. cbn [r_prop] in E.
  unfold scoped in E. apply bind_ok in E as ([] & c1 & E1 & E). apply bind_ok in E as (y & c2 & E2 & E).
  apply bind_ok in E as ([] & c3 & E3 & E). injection E as -> <-.
  apply frame_body in E2; [|intros; apply q_prop; auto].
  injection E1 as <-. injection E3 as <-.
  destruct E2 as (size & idx & names & raw & body & f & F & (R & P & _) & X).
  exists size, idx, names, raw, body, f. split; [exact F|]. split; [|exact X]. split; [exact R|]. split; [exact P|exact HS].
Qed.

(** ** Changing the declared size *)
Lemma u32_at_front p L t st : 0 <= L < 4294967296 ->
  r_u32 (Cur p (le_bytes 4 L ++ t) st) = Ok (L, Cur (p + 4) t st).
Proof. intros H. apply (dec_uint st 4). unfold u_ok, in_range. change (2 ^ (8 * Z.of_nat 4)) with 4294967296. lia. Qed.
Lemma le4_front L L' a b : 0 <= L < 4294967296 -> 0 <= L' < 4294967296 ->
  le_bytes 4 L ++ a = le_bytes 4 L' ++ b -> L = L' /\ a = b.
Proof.
  intros H H' E. apply (f_equal (fun b => r_u32 (Cur 0 b []))) in E. rewrite !u32_at_front in E by assumption.
  injection E as -> ->. auto.
Qed.
Lemma headed_resize {V A} (vars : reader V) (body : Z -> V -> reader A) p t st L L' x c x' c' :
  0 <= L < 4294967296 -> 0 <= L' < 4294967296 ->
  (forall v c1 c2, r_index0 (Cur (p + 4) t st) = Ok (tt, c1) -> vars c1 = Ok (v, c2) ->
     forall c, forall y, body L v c = Ok y -> forall y', body L' v c = Ok y' -> y = y') ->
  headed vars body (Cur p (le_bytes 4 L ++ t) st) = Ok (x, c) ->
  headed vars body (Cur p (le_bytes 4 L' ++ t) st) = Ok (x', c') -> L = L'.
Proof.
  intros HL HL' HB E E'. unfold headed in E, E'.
  apply bind_ok in E as (n & c0 & E1 & E). apply bind_ok in E' as (n' & c0' & E1' & E').
  rewrite u32_at_front in E1, E1' by assumption. injection E1 as <- <-. injection E1' as <- <-.
  apply bind_ok in E as ([] & c1 & E2 & E). apply bind_ok in E' as ([] & c1' & E2' & E').
  rewrite E2 in E2'. injection E2' as <-.
  apply bind_ok in E as (v & c2 & E3 & E). apply bind_ok in E' as (v' & c2' & E3' & E').
  rewrite E3 in E3'. injection E3' as <- <-.
  apply bind_ok in E as ([] & c3 & E4 & E). apply bind_ok in E' as ([] & c3' & E4' & E').
  rewrite E4 in E4'. injection E4' as <-.
  apply sized_ok in E as [E5 P5]. apply sized_ok in E' as [E5' P5'].
  pose proof (HB v c1 c2 E2 E3 _ _ E5 _ E5') as X. injection X as <- <-. lia.
Qed.
Lemma sug_unused n o vs rp ty s s' : mem ty known_types = true -> ty <> s2z "ByteProperty" ->
  r_body n o vs rp ty false s = r_body n o vs rp ty false s'.
Proof.
  intros K B. unfold r_body. destruct (kind_of ty) eqn:E; try reflexivity.
  - exfalso. apply B. rewrite (kind_of_name ty), E; [reflexivity|]. rewrite E. discriminate.
  - apply kind_other in E. congruence.
Qed.
Lemma sug_unused_prop n o vs ty s s' : mem ty known_types = true -> ty <> s2z "ByteProperty" ->
  r_prop n o vs ty false s = r_prop n o vs ty false s'.
Proof. intros K B. destruct n; [reflexivity|]. cbn [r_prop]. f_equal. now apply sug_unused. Qed.
(** The element type of an array or set, just after the index. *)
Definition element_type (t : list byte) (et : str) : Prop :=
  exists e r, stored (Some et) e /\ t = le_bytes 4 0 ++ e ++ r.
(** Types whose value is read without looking at the declared size. *)
Definition size_unused (ty : str) (t : list byte) : Prop :=
  ty <> s2z "ByteProperty" /\ mem ty known_types = true
  /\ (ty = s2z "ArrayProperty" \/ ty = s2z "SetProperty" ->
      exists et, element_type t et /\ et <> s2z "ByteProperty" /\ mem et known_types = true).
Lemma element_read p t st et s c1 c2 : element_type t et -> r_index0 (Cur p t st) = Ok (tt, c1) -> r_string c1 = Ok (s, c2) -> s = et.
Proof.
  intros (e & r & Es & ->) E1 E2. apply eats_index0 in E1 as (R & P & K). cbn [rest pos stk] in *.
  apply le4_front in R as [_ R]; [|lia|lia].
  unfold r_string in E2. unfold bind, position in E2.
  destruct c1 as [p1 b1 s1]. cbn [rest] in R. subst b1.
  assert (X : r_fstring (Cur p1 (e ++ r) s1) = Ok (Some et, Cur (p1 + len e) r s1)) by (apply fstring_iff; eauto).
  rewrite X in E2. injection E2 as <-. reflexivity.
Qed.
Lemma resize_body n o vs rp ty sug p t st L L' x c x' c' :
  0 <= L < 4294967296 -> 0 <= L' < 4294967296 -> size_unused ty t ->
  (forall ty s s', mem ty known_types = true -> ty <> s2z "ByteProperty" -> rp ty false s = rp ty false s') ->
  r_body n o vs rp ty true sug (Cur p (le_bytes 4 L ++ t) st) = Ok (x, c) ->
  r_body n o vs rp ty true sug (Cur p (le_bytes 4 L' ++ t) st) = Ok (x', c') -> L = L'.
Proof.
  intros HL HL' (NB & KN & AS) Hrp. unfold r_body.
  assert (T : kind_of ty <> KOther -> ty = kind_name (kind_of ty)) by apply kind_of_name.
  assert (DET : forall {A} (r : reader A) c y y', r c = Ok y -> r c = Ok y' -> y = y') by (intros; congruence).
  destruct (kind_of ty) as [k| | | | | | | | |i| | | | | |] eqn:K;
    try (specialize (T ltac:(discriminate)); subst ty; clear K);
    try (apply headed_resize; try assumption; intros v c1 c2 _ _ c0 y Hy y' Hy'; eapply DET; [exact Hy|exact Hy']).
  - unfold r_pnum. intros E E'. apply bind_ok in E as ([] & c1 & E & _). apply bind_ok in E as ([] & c0 & E1 & _).
    apply bind_ok in E' as ([] & c1' & E' & _). apply bind_ok in E' as ([] & c0' & E1' & _).
    apply eats_check in E1 as (R1 & _ & _); [|destruct k; cbn [num_width]; lia].
    apply eats_check in E1' as (R1' & _ & _); [|destruct k; cbn [num_width]; lia].
    cbn [rest] in *. rewrite <- app_assoc in R1, R1'.
    apply le4_front in R1 as [-> _]; [|assumption|destruct k; cbn [num_width]; lia].
    apply le4_front in R1' as [-> _]; [|assumption|destruct k; cbn [num_width]; lia]. reflexivity.
  - now contradiction NB.
  - unfold r_pbool. intros E E'. apply bind_ok in E as ([] & c0 & E1 & _). apply bind_ok in E' as ([] & c0' & E1' & _).
    apply eats_check in E1 as (R1 & _ & _); [|lia]. apply eats_check in E1' as (R1' & _ & _); [|lia].
    cbn [rest] in *. rewrite <- app_assoc in R1, R1'.
    apply le4_front in R1 as [-> _]; [|assumption|lia].
    apply le4_front in R1' as [-> _]; [|assumption|lia]. reflexivity.
  - unfold r_pname, headed_index. intros E E'.
    apply bind_ok in E as (m & c0 & E1 & E). apply bind_ok in E' as (m' & c0' & E1' & E').
    rewrite u32_at_front in E1, E1' by assumption. injection E1 as <- <-. injection E1' as <- <-.
    apply bind_ok in E as (i & c1 & E2 & E). apply bind_ok in E' as (i' & c1' & E2' & E').
    rewrite E2 in E2'. injection E2' as <- <-.
    apply bind_ok in E as ([] & c3 & E4 & E). apply bind_ok in E' as ([] & c3' & E4' & E').
    rewrite E4 in E4'. injection E4' as <-.
    apply sized_ok in E as [E5 P5]. apply sized_ok in E' as [E5' P5'].
    rewrite E5 in E5'. injection E5' as <- <-. lia.
  - (* array *)
    destruct (AS (or_introl eq_refl)) as (et & Et & Nb & Kt).
    apply headed_resize; try assumption. intros s c1 c2 X1 X2 c0 y Hy y' Hy'.
    assert (s = et) as -> by (eapply element_read; eauto).
    unfold r_array in Hy, Hy'. destruct y as [y cy], y' as [y' cy'].
    apply bind_ok in Hy as (cnt & c3 & Y1 & Hy). apply bind_ok in Hy' as (cnt' & c3' & Y1' & Hy').
    rewrite Y1 in Y1'. injection Y1' as <- <-.
    set (a := if (0 <? cnt) && (4 <=? L) then Some ((L - 4) / cnt) else None) in *.
    set (a' := if (0 <? cnt) && (4 <=? L') then Some ((L' - 4) / cnt) else None) in *.
    cbv zeta in Hy, Hy'. rewrite (Hrp et a' a) in Hy' by assumption.
    destruct (kind_of et); congruence.
  - (* set *)
    destruct (AS (or_intror eq_refl)) as (et & Et & Nb & Kt).
    apply headed_resize; try assumption. intros s c1 c2 X1 X2 c0 y Hy y' Hy'.
    assert (s = et) as -> by (eapply element_read; eauto).
    unfold r_set in Hy, Hy'. destruct y as [y cy], y' as [y' cy'].
    apply bind_ok in Hy as (fl & c3 & Y1 & Hy). apply bind_ok in Hy' as (fl' & c3' & Y1' & Hy').
    rewrite Y1 in Y1'. injection Y1' as <- <-.
    apply bind_ok in Hy as (cnt & c4 & Y2 & Hy). apply bind_ok in Hy' as (cnt' & c4' & Y2' & Hy').
    rewrite Y2 in Y2'. injection Y2' as <- <-.
    destruct (0 <? cnt); [|congruence].
    destruct ((L <? 8) && dbg o); [discriminate|]. destruct ((L' <? 8) && dbg o); [discriminate|].
    rewrite (Hrp et (Some ((L' - 8) mod 4294967296 / cnt)) (Some ((L - 8) mod 4294967296 / cnt))) in Hy' by assumption.
    congruence.
  - apply kind_other in K. congruence.
Qed.
Lemma resize n o vs ty sug p t st L L' x c x' c' :
  0 <= L < 4294967296 -> 0 <= L' < 4294967296 -> size_unused ty t ->
  r_prop n o vs ty true sug (Cur p (le_bytes 4 L ++ t) st) = Ok (x, c) ->
  r_prop n o vs ty true sug (Cur p (le_bytes 4 L' ++ t) st) = Ok (x', c') -> L = L'.
Proof.
  intros HL HL' U E E'. destruct n as [|n]; [discriminate|]. cbn [r_prop] in E, E'. unfold scoped in E, E'.
  apply bind_ok in E as ([] & c1 & E1 & E). apply bind_ok in E as (y & c2 & E2 & _).
  apply bind_ok in E' as ([] & c1' & E1' & E'). apply bind_ok in E' as (y' & c2' & E2' & _).
  injection E1 as <-. injection E1' as <-. cbn [pos rest stk] in *.
  eapply resize_body; [exact HL|exact HL'|exact U| |exact E2|exact E2']. intros; now apply sug_unused_prop.
Qed.

(** ** The inner header of an array of structs *)
Lemma rep_local {A} n (r : reader A) : prim (fun _ => True) r -> local (rep n r).
Proof. intros H. now apply prim_any, q_rep. Qed.
Lemma struct_array_ok n o vs rp count c fname tname g l c' :
  (forall ty hdr sug, prim (fun _ => True) (rp ty hdr sug)) ->
  r_struct_array n o vs rp count c = Ok ((fname, tname, g, l), c') ->
  exists e1 e2 e3 body, stored (Some fname) e1 /\ stored (Some (s2z "StructProperty")) e2 /\ stored (Some tname) e3
    /\ len g = 16 /\ eats c (e1 ++ e2 ++ le_bytes 8 (len body) ++ e3 ++ g ++ [Byte.x00] ++ body) c'.
Proof.
  intros Hrp E. unfold r_struct_array in E.
  apply bind_ok in E as (f & c1 & E1 & E). apply eats_string in E1 as (e1 & S1 & E1).
  apply bind_ok in E as (ty & c2 & E2 & E). apply eats_string in E2 as (e2 & S2 & E2).
  destruct (str_eqb ty (kind_name KStruct)) eqn:T; [|discriminate]. apply str_eqb_eq in T. subst ty. cbn [negb] in E.
  apply bind_ok in E as (size & c3 & E3 & E). apply eats_u64 in E3 as [E3 _].
  apply bind_ok in E as (tn & c4 & E4 & E). apply eats_string in E4 as (e3 & S3 & E4).
  apply bind_ok in E as (g' & c5 & E5 & E). apply eats_take in E5 as [E5 L5]; [|lia].
  apply bind_ok in E as ([] & c6 & E6 & E). apply eats_term in E6.
  apply bind_ok in E as (s0 & c7 & E7 & E). injection E7 as <- <-.
  apply bind_ok in E as (l' & c8 & E8 & E).
  destruct (eats_local _ _ _ _ (rep_local _ _ ltac:(apply p_bind; [apply q_sval; auto|intros; apply p_ret])) E8) as (body & E9).
  apply bind_ok in E as (s1 & c9 & E10 & E). injection E10 as <- <-.
  destruct (Z.eqb_spec (pos c8 - pos c6) size) as [P|]; [|discriminate]. injection E as <- <- <- <- <-.
  assert (size = len body) as -> by (destruct E9 as (_ & X & _); lia).
  exists e1, e2, e3, body. repeat (split; [assumption|]). repeat (eapply eats_app; [eassumption|]). exact E9.
Qed.
Lemma struct_array_frame n o vs sug c x c' : r_prop n o vs (s2z "ArrayProperty") true sug c = Ok (x, c') ->
  element_type (skipn 4 (rest c)) (s2z "StructProperty") ->
  exists size count e e1 e2 e3 g body fname tname,
    stored (Some (s2z "StructProperty")) e /\ stored (Some fname) e1 /\ stored (Some (s2z "StructProperty")) e2
    /\ stored (Some tname) e3 /\ len g = 16
    /\ eats c (le_bytes 4 size ++ le_bytes 4 0 ++ e ++ [Byte.x00] ++ le_bytes 4 count
               ++ e1 ++ e2 ++ le_bytes 8 (len body) ++ e3 ++ g ++ [Byte.x00] ++ body) c'.
Proof.
  intros E ET.
  assert (HS : stk c' = stk c).
  { destruct (prim_any _ ltac:(apply q_prop; auto) _ _ _ E) as (bs & _ & _ & HS & _). exact HS. }
  destruct n as [|n]; [discriminate|]. cbn [r_prop] in E. unfold scoped in E.
  apply bind_ok in E as ([] & c1 & E1 & E). injection E1 as <-.
  apply bind_ok in E as (y & c2 & E2 & E). apply bind_ok in E as ([] & c3 & E3 & E). injection E3 as <-. injection E as -> <-.
  set (cc := Cur (pos c) (rest c) (s2z "ArrayProperty" :: stk c)) in *.
  change (headed r_string (fun length t => r_array (S n) o vs (r_prop n o vs) length t) cc = Ok (x, c2)) in E2.
  unfold headed in E2. apply bind_ok in E2 as (size & d1 & A1 & E2). pose proof (eats_u32 _ _ _ A1) as [B1 _].
  apply bind_ok in E2 as ([] & d2 & A2 & E2). pose proof (eats_index0 _ _ A2) as B2.
  apply bind_ok in E2 as (s & d3 & A3 & E2). pose proof (eats_string _ _ _ A3) as (e & S3 & B3).
  assert (s = s2z "StructProperty") as ->.
  { destruct B1 as (R1 & _). unfold cc in R1. cbn [rest] in R1. rewrite R1 in ET.
    change (skipn 4 (le_bytes 4 size ++ rest d1)) with (rest d1) in ET.
    destruct d1 as [p1 b1 s1]. eapply element_read; [exact ET|exact A2|exact A3]. }
  apply bind_ok in E2 as ([] & d4 & A4 & E2). apply eats_term in A4. apply sized_ok in E2 as [E2 _].
  unfold r_array in E2. apply bind_ok in E2 as (count & d5 & A5 & E2). apply eats_u32 in A5 as [A5 _].
  change (kind_of (s2z "StructProperty")) with KStruct in E2. cbv iota in E2.
  apply bind_ok in E2 as ([[[fname tname] g] l] & d6 & A6 & E2).
  apply struct_array_ok in A6 as (e1 & e2 & e3 & body & X1 & X2 & X3 & Lg & A6); [|intros; apply q_prop; auto].
  apply bind_ok in E2 as (a & d7 & A7 & E2). injection E2 as _ <-.
  unfold of_outcome in A7. destruct (array_new _ _ _); [|discriminate]. injection A7 as _ <-.
  exists size, count, e, e1, e2, e3, g, body, fname, tname.
  do 5 (split; [assumption|]).
  assert (F : eats cc (le_bytes 4 size ++ le_bytes 4 0 ++ e ++ [Byte.x00] ++ le_bytes 4 count
               ++ e1 ++ e2 ++ le_bytes 8 (len body) ++ e3 ++ g ++ [Byte.x00] ++ body) d6)
    by (repeat (eapply eats_app; [eassumption|]); exact A6).
  destruct F as (R & P & _). split; [exact R|]. split; [exact P|exact HS].
Qed.
Lemma string_at p e s t st : stored (Some s) e -> r_string (Cur p (e ++ t) st) = Ok (s, Cur (p + len e) t st).
Proof.
  intros H. unfold r_string, bind, position.
  assert (X : r_fstring (Cur p (e ++ t) st) = Ok (Some s, Cur (p + len e) t st)) by (apply fstring_iff; eauto).
  now rewrite X.
Qed.
Lemma u64_at_front p L t st : 0 <= L < 2 ^ 64 -> r_u64 (Cur p (le_bytes 8 L ++ t) st) = Ok (L, Cur (p + 8) t st).
Proof. intros H. apply (dec_uint st 8). unfold u_ok, in_range. change (2 ^ (8 * Z.of_nat 8)) with (2 ^ 64). lia. Qed.
(** Two accepted inner headers that differ in the size only. *)
Lemma inner_resize n o vs rp count p e1 e2 fname L L' t st x c x' c' :
  stored (Some fname) e1 -> stored (Some (s2z "StructProperty")) e2 ->
  0 <= L < 2 ^ 64 -> 0 <= L' < 2 ^ 64 ->
  r_struct_array n o vs rp count (Cur p (e1 ++ e2 ++ le_bytes 8 L ++ t) st) = Ok (x, c) ->
  r_struct_array n o vs rp count (Cur p (e1 ++ e2 ++ le_bytes 8 L' ++ t) st) = Ok (x', c') -> L = L'.
Proof.
  intros S1 S2 HL HL'. unfold r_struct_array. unfold bind at 1. rewrite (string_at _ _ _ _ _ S1).
  unfold bind at 1. rewrite (string_at _ _ _ _ _ S2).
  change (str_eqb (s2z "StructProperty") (kind_name KStruct)) with true. cbn [negb]. cbv iota.
  unfold bind at 1. rewrite u64_at_front by assumption. intros E.
  unfold bind at 1. rewrite (string_at _ _ _ _ _ S1).
  unfold bind at 1. rewrite (string_at _ _ _ _ _ S2).
  change (str_eqb (s2z "StructProperty") (kind_name KStruct)) with true. cbn [negb]. cbv iota.
  unfold bind at 1. rewrite u64_at_front by assumption. intros E'.
  apply bind_ok in E as (tn & c4 & E4 & E). apply bind_ok in E' as (tn' & c4' & E4' & E').
  rewrite E4 in E4'. injection E4' as <- <-.
  apply bind_ok in E as (g & c5 & E5 & E). apply bind_ok in E' as (g' & c5' & E5' & E').
  rewrite E5 in E5'. injection E5' as <- <-.
  apply bind_ok in E as ([] & c6 & E6 & E). apply bind_ok in E' as ([] & c6' & E6' & E').
  rewrite E6 in E6'. injection E6' as <-.
  apply bind_ok in E as (s0 & c7 & E7 & E). injection E7 as <- <-.
  apply bind_ok in E' as (s0' & c7' & E7' & E'). injection E7' as <- <-.
  apply bind_ok in E as (l & c8 & E8 & E). apply bind_ok in E' as (l' & c8' & E8' & E').
  rewrite E8 in E8'. injection E8' as <- <-.
  apply bind_ok in E as (s1 & c9 & E9 & E). injection E9 as <- <-.
  apply bind_ok in E' as (s1' & c9' & E9' & E'). injection E9' as <- <-.
  destruct (Z.eqb_spec (pos c8 - pos c6) L); [|discriminate].
  destruct (Z.eqb_spec (pos c8 - pos c6) L'); [|discriminate]. lia.
Qed.

(** ** Writers *)

(** The strings in the header of a value, and the bytes of its value. *)
Definition names_of (p : property) : list (option str) :=
  match p with
  | PByte name _ => [name]
  | PEnum ty _ => [ty]
  | PArray a => [Some (array_type a)]
  | PSet ty _ _ => [Some ty]
  | PMap m => [Some (map_key_type m); Some (map_value_type m)]
  | PStruct _ ty _ => [Some ty]
  | _ => []
  end.
Definition index_of (p : property) : Z := match p with PName i _ => i | _ => 0 end.
Definition raw_of (p : property) : list byte :=
  match p with
  | PStruct g _ _ => g
  | PBool b => [if b then Byte.x01 else Byte.x00]
  | _ => []
  end.
(** What a header can hold: strings that fit, a 16 byte guid, a type name that is
    not taken for another type. *)
Definition head_ok (p : property) : bool :=
  str_ok (type_of p) && forallb ostr_ok (names_of p)
  && match p with
     | PStruct g _ _ => guid_ok g
     | PUnknown name _ => negb (mem name known_types)
     | _ => true
     end.
Lemma str_stored s : str_ok s = true -> stored (Some s) (str_bytes s).
Proof. intros H. apply stored_encoding. apply (encoding_write (Some s)). exact H. Qed.
Lemma ostr_stored o bs q : ostr_ok o = true -> w_fstring o = Ok (bs, q) -> stored o bs.
Proof.
  intros H E. apply stored_encoding. pose proof (encoding_write o H) as X. destruct o; injection E as <- _; exact X.
Qed.
Lemma le8_small n : 0 <= n < 4294967296 -> le_bytes 8 n = le_bytes 4 n ++ le_bytes 4 0.
Proof. intros Hn. change 8%nat with (4 + 4)%nat. rewrite le_bytes_app. do 2 f_equal. apply Z.div_small. exact Hn. Qed.
(** The value part: nothing for a boolean, which is kept in the header. *)
Definition value_part (vs : list (guid * Z)) (p : property) (body : list byte) : Prop :=
  match p with
  | PBool _ => body = []
  | _ => exists q, w_prop vs false p = Ok (body, q)
  end.
Lemma unknown_header ty : mem ty known_types = false -> header_strings ty = 0%nat /\ header_raw ty = 0.
Proof.
  intros K.
  assert (NK : forall s, mem s known_types = true -> str_eqb ty s = false).
  { intros s Hs. destruct (str_eqb ty s) eqn:X; [|reflexivity]. apply str_eqb_eq in X. subst s. congruence. }
  split; [unfold header_strings, mem; cbn [map existsb]|unfold header_raw]; rewrite !NK by reflexivity; reflexivity.
Qed.
Lemma frame_written vs p bs n : w_prop vs true p = Ok (bs, n) -> head_ok p = true ->
  exists t body f, bs = t ++ f /\ stored (Some (type_of p)) t /\ value_part vs p body
    /\ (len body < 4294967296 -> framed (type_of p) (len body) (index_of p) (names_of p) (raw_of p) body f).
Proof.
  intros E H. unfold head_ok in H. andbs. rename H into HT, H1 into HN, H0 into HX.
  assert (G : forall name c extra body,
    with_header true name c (index_of p) extra body = Ok (bs, n) -> name = type_of p -> value_part vs p = (fun b => exists q, body = Ok (b, q)) ->
    List.length (names_of p) = header_strings (type_of p) -> len (raw_of p) = header_raw (type_of p) ->
    (forall be q, extra = Ok (be, q) -> exists codes, Forall2 stored (names_of p) codes /\ be = List.concat codes ++ raw_of p) ->
    exists t body f, bs = t ++ f /\ stored (Some (type_of p)) t /\ value_part vs p body
    /\ (len body < 4294967296 -> framed (type_of p) (len body) (index_of p) (names_of p) (raw_of p) body f)).
  { clear E. intros name c extra body E -> EV LN LR EX. apply header_inv in E as (b & nb & be & ne & Eb & Ee & ->).
    destruct (EX _ _ Ee) as (codes & F & ->).
    exists (str_bytes (type_of p)), b. eexists. split; [reflexivity|]. split; [now apply str_stored|].
    split; [rewrite EV; eauto|]. intros _. exists codes. split; [exact F|]. split; [exact LN|]. split; [exact LR|].
    rewrite <- !app_assoc. reflexivity. }
  assert (X0 : forall be q, skip = Ok (be, q) -> exists codes, Forall2 stored [] codes /\ be = List.concat codes ++ []).
  { intros be q X. injection X as <- _. exists []. split; [constructor|reflexivity]. }
  assert (X1 : forall o, ostr_ok o = true -> forall be q, w_fstring o = Ok (be, q) -> exists codes, Forall2 stored [o] codes /\ be = List.concat codes ++ []).
  { intros o Ho be q X. exists [be]. split; [constructor; [eapply ostr_stored; eauto|constructor]|]. cbn [List.concat]. now rewrite !app_nil_r. }
  destruct p as [k z|b|nm v|ty v|v|t|i v|v|a b|il l|l s|name raw|a|ty fl l|m|g ty v|v]; cbn [w_prop] in E; cbn [names_of forallb] in HN; andbs.
  - eapply G; [exact E|reflexivity|reflexivity|destruct k; reflexivity|destruct k; reflexivity|exact X0].
  - unfold w_pbool in E.
    apply seq_ok in E as (b1 & q1 & b2 & q2 & E1 & E & -> & ->).
    apply seq_ok in E as (b3 & q3 & b4 & q4 & E2 & E & -> & ->).
    apply seq_ok in E as (b5 & q5 & b6 & q6 & E3 & E & -> & ->).
    injection E1 as <- _. injection E2 as <- _. injection E3 as <- _. injection E as <- _.
    exists (str_bytes (s2z "BoolProperty")), []. eexists. split; [reflexivity|]. split; [now apply str_stored|].
    split; [reflexivity|]. intros _. exists []. split; [constructor|]. split; [reflexivity|]. split; [reflexivity|].
    destruct b; reflexivity.
  - unfold w_pbyte in E. destruct (w_bytev v) as [[b nb]|] eqn:Ev; [|discriminate].
    apply seq_ok in E as (b1 & q1 & b2 & q2 & E1 & E & -> & ->).
    apply seq_ok in E as (b3 & q3 & b4 & q4 & E2 & E & -> & ->).
    apply seq_ok in E as (b5 & q5 & b6 & q6 & E3 & E & -> & ->).
    apply seq_ok in E as (b7 & q7 & b8 & q8 & E4 & E & -> & ->).
    injection E1 as <- _. injection E2 as <- _. injection E4 as <- _. injection E as <- _.
    exists (str_bytes (s2z "ByteProperty")), b. eexists. split; [reflexivity|]. split; [now apply str_stored|].
    split; [exists nb; exact Ev|]. intros Lb. exists [b5]. split; [constructor; [eapply ostr_stored; eauto|constructor]|].
    split; [reflexivity|]. split; [reflexivity|]. pose proof (len_nonneg b).
    cbn [List.concat]. rewrite app_nil_r. pose proof (le8_small (len b) ltac:(lia)) as X8.
    transitivity ((le_bytes 4 (len b) ++ le_bytes 4 0) ++ b5 ++ [Byte.x00] ++ b); [now rewrite <- X8|].
    rewrite <- app_assoc. reflexivity.
  - eapply G; [exact E|reflexivity|reflexivity|reflexivity|reflexivity|now apply X1].
  - eapply G; [exact E|reflexivity|reflexivity|reflexivity|reflexivity|exact X0].
  - eapply G; [exact E|reflexivity|reflexivity|reflexivity|reflexivity|exact X0].
  - eapply G; [exact E|reflexivity|reflexivity|reflexivity|reflexivity|exact X0].
  - eapply G; [exact E|reflexivity|reflexivity|reflexivity|reflexivity|exact X0].
  - eapply G; [exact E|reflexivity|reflexivity|reflexivity|reflexivity|exact X0].
  - destruct il; (eapply G; [exact E|reflexivity|reflexivity|reflexivity|reflexivity|exact X0]).
  - eapply G; [exact E|reflexivity|reflexivity|reflexivity|reflexivity|exact X0].
  - apply negb_true_iff in HX. destruct (unknown_header _ HX) as [U1 U2].
    eapply G; [exact E|reflexivity|reflexivity|exact (eq_sym U1)|exact (eq_sym U2)|exact X0].
  - eapply G; [exact E|reflexivity|reflexivity|reflexivity|reflexivity|]. intros be q X. exact (X1 _ H _ _ X).
  - eapply G; [exact E|reflexivity|reflexivity|reflexivity|reflexivity|]. intros be q X. exact (X1 _ H _ _ X).
  - eapply G; [exact E|reflexivity|reflexivity|reflexivity|reflexivity|]. intros be q X.
    apply seq_ok in X as (b1 & q1 & b2 & q2 & Y1 & Y2 & -> & ->). exists [b1; b2].
    split; [constructor; [now apply (ostr_stored _ _ _ H Y1)|constructor; [now apply (ostr_stored _ _ _ H0 Y2)|constructor]]|].
    cbn [List.concat]. now rewrite !app_nil_r.
  - eapply G; [exact E|reflexivity|reflexivity|reflexivity|apply Z.eqb_eq; exact HX|]. intros be q X.
    apply seq_ok in X as (b1 & q1 & b2 & q2 & Y1 & Y2 & -> & ->). exists [b1]. injection Y2 as <- _.
    split; [constructor; [now apply (ostr_stored _ _ _ H Y1)|constructor]|].
    cbn [List.concat raw_of]. now rewrite app_nil_r.
  - discriminate.
Qed.
(** The end of a framed property is determined by its bytes. *)
Lemma stored_front o e : stored o e -> forall o' e' a b, stored o' e' -> e ++ a = e' ++ b -> o = o' /\ e = e' /\ a = b.
Proof.
  intros H o' e' a b H' E.
  assert (X : r_fstring (Cur 0 (e ++ a) []) = Ok (o, Cur (0 + len e) a [])) by (apply fstring_iff; eauto).
  assert (X' : r_fstring (Cur 0 (e ++ a) []) = Ok (o', Cur (0 + len e') b [])) by (rewrite E; apply fstring_iff; eauto).
  rewrite X in X'. injection X' as -> _ ->. split; [reflexivity|]. split; [|reflexivity]. now apply app_inv_tail in E.
Qed.
Lemma strings_front names codes : Forall2 stored names codes -> forall names' codes' a b, Forall2 stored names' codes' ->
  List.length names = List.length names' -> List.concat codes ++ a = List.concat codes' ++ b -> names = names' /\ codes = codes' /\ a = b.
Proof.
  induction 1 as [|o e names codes Ho Hs IH]; intros names' codes' a b H' L E.
  - destruct H'; [|discriminate L]. auto.
  - destruct H' as [|o' e' names' codes' Ho' Hs']; [discriminate L|]. cbn [List.concat] in E. rewrite <- !app_assoc in E.
    destruct (stored_front _ _ Ho _ _ _ _ Ho' E) as (-> & -> & E').
    destruct (IH _ _ _ _ Hs' ltac:(cbn in L; lia) E') as (-> & -> & ->). auto.
Qed.
Lemma framed_front ty size idx names raw body f size' idx' names' raw' body' f' t t' :
  framed ty size idx names raw body f -> framed ty size' idx' names' raw' body' f' ->
  0 <= size < 4294967296 -> 0 <= size' < 4294967296 -> 0 <= idx < 4294967296 -> 0 <= idx' < 4294967296 ->
  size = len body -> size' = len body' -> f ++ t = f' ++ t' ->
  f = f' /\ t = t' /\ size = size' /\ idx = idx' /\ names = names' /\ raw = raw' /\ body = body'.
Proof.
  intros (codes & F & LN & LR & ->) (codes' & F' & LN' & LR' & ->) B1 B2 B3 B4 LB LB' E.
  rewrite <- !app_assoc in E. apply le4_front in E as [-> E]; [|assumption|assumption].
  apply le4_front in E as [-> E]; [|assumption|assumption].
  destruct (strings_front _ _ F _ _ _ _ F' ltac:(congruence) E) as (-> & -> & E1).
  assert (App : forall (a a' b b' : list byte), len a = len a' -> a ++ b = a' ++ b' -> a = a' /\ b = b').
  { clear. intros a. induction a as [|x a IH]; intros [|x' a'] b b' L E; unfold len in *; cbn in L; try lia; [auto|].
    cbn [app] in E. injection E as -> E. destruct (IH a' b b') as [-> ->]; [lia|exact E|auto]. }
  apply App in E1 as [-> E1]; [|congruence]. apply App in E1 as [_ E1]; [|reflexivity].
  apply App in E1 as [-> ->]; [|congruence]. repeat split.
Qed.
(** Arrays of structs. *)
Lemma struct_array_written vs fname tname g l bs n :
  w_array vs (AStructs fname tname g l) = Ok (bs, n) -> str_ok fname = true -> str_ok tname = true ->
  exists e1 e2 e3 body q, stored (Some fname) e1 /\ stored (Some (s2z "StructProperty")) e2 /\ stored (Some tname) e3
    /\ seqs (w_sval vs) l = Ok (body, q)
    /\ bs = le_bytes 4 (len l) ++ e1 ++ e2 ++ le_bytes 8 (len body) ++ e3 ++ g ++ [Byte.x00] ++ body.
Proof.
  intros E H1 H2. cbn [w_array] in E. destruct (seqs (w_sval vs) l) as [[b nb]|] eqn:Eb; [|discriminate].
  exists (str_bytes fname), (str_bytes (s2z "StructProperty")), (str_bytes tname), b, nb.
  split; [now apply str_stored|]. split; [now apply str_stored|]. split; [now apply str_stored|]. split; [reflexivity|].
  apply seq_ok in E as (b1 & q1 & b2 & q2 & E1 & E & -> & ->). injection E1 as <- _.
  apply seq_ok in E as (b3 & q3 & b4 & q4 & E1 & E & -> & ->). injection E1 as <- _.
  apply seq_ok in E as (b5 & q5 & b6 & q6 & E1 & E & -> & ->). injection E1 as <- _.
  apply seq_ok in E as (b7 & q7 & b8 & q8 & E1 & E & -> & ->). injection E1 as <- _.
  apply seq_ok in E as (b9 & q9 & b10 & q10 & E1 & E & -> & ->). injection E1 as <- _.
  apply seq_ok in E as (b11 & q11 & b12 & q12 & E1 & E & -> & ->). injection E1 as <- _.
  apply seq_ok in E as (b13 & q13 & b14 & q14 & E1 & E & -> & ->). injection E1 as <- _. injection E as <- _.
  reflexivity.
Qed.
Lemma wf_head o vs sep path p : wf_prop o vs sep true path p = true -> head_ok p = true.
Proof.
  unfold head_ok. destruct p as [k z|b|nm v|ty v|v|t|i v|v|a b|il l|l s|name raw|a|ty fl l|m|g ty v|v]; cbn [wf_prop]; intros H; andbs;
    cbn [names_of forallb].
  - destruct k; reflexivity.
  - reflexivity.
  - destruct nm as [s|]; cbn [name_ok andb] in H; [|discriminate]. cbn [ostr_ok]. now rewrite H.
  - destruct ty as [s|]; cbn [name_ok andb] in H; [|discriminate]. cbn [ostr_ok]. now rewrite H.
  - reflexivity. - reflexivity. - reflexivity. - reflexivity. - reflexivity.
  - destruct il; reflexivity.
  - reflexivity.
  - cbn [type_of]. now rewrite H, H0.
  - cbn [ostr_ok]. destruct a; try reflexivity. cbn [wf_array] in H0. andbs. cbn [array_type]. now rewrite H0.
  - cbn [ostr_ok]. now rewrite H4.
  - cbn [ostr_ok]. destruct m as [k l|k l|k vt l|l|kt vt fl l]; try (destruct k; reflexivity); try reflexivity.
    all: cbn [wf_map] in H0; andbs; cbn [map_key_type map_value_type].
    + destruct k; cbn [keyk_name]; rewrite H0; reflexivity.
    + rewrite H0, H6. reflexivity.
  - cbn [ostr_ok]. now rewrite H1, H2.
  - discriminate.
Qed.
