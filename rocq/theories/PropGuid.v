(** Claims C30 and C31: guids. *)
From Coq Require Import ZArith List Bool String Lia.
From Verif Require Import Base Str Types Versions Spec BaseFacts Guid GuidThm.
Import ListNotations.
Open Scope Z_scope.

(** * C30: views of a guid *)
Theorem C30_u128_of_bytes : forall g, len g = 16 -> guid_of_u128 (guid_to_u128 g) = g.
Proof. exact u128_of_to. Qed.
Print Assumptions C30_u128_of_bytes.
Theorem C30_bytes_of_u128 : forall v, 0 <= v < 2 ^ 128 -> guid_to_u128 (guid_of_u128 v) = v.
Proof. exact u128_to_of. Qed.
Print Assumptions C30_bytes_of_u128.
Theorem C30_u32_of_bytes : forall g, len g = 16 -> guid_of_u32 (guid_to_u32 g) = g.
Proof. exact u32_of_to. Qed.
Print Assumptions C30_u32_of_bytes.
Theorem C30_bytes_of_u32 : forall a b c d,
  0 <= a < 2 ^ 32 -> 0 <= b < 2 ^ 32 -> 0 <= c < 2 ^ 32 -> 0 <= d < 2 ^ 32 ->
  guid_to_u32 (guid_of_u32 [a; b; c; d]) = [a; b; c; d].
Proof. exact u32_to_of. Qed.
Print Assumptions C30_bytes_of_u32.
(** The words are the base 2^32 digits of the number, the bytes its base 256 digits,
    least significant first. *)
Theorem C30_words_digits : forall g, len g = 16 ->
  match guid_to_u32 g with
  | [a; b; c; d] => guid_to_u128 g = a + 2 ^ 32 * b + 2 ^ 64 * c + 2 ^ 96 * d
  | _ => False
  end.
Proof. exact words_of_u128. Qed.
Print Assumptions C30_words_digits.
Theorem C30_bytes_digits : forall g n, (n < List.length g)%nat ->
  b2z (nth n g Byte.x00) = guid_to_u128 g / 2 ^ (8 * Z.of_nat n) mod 256.
Proof. exact le_val_digit. Qed.
Print Assumptions C30_bytes_digits.
Theorem C30_zero_iff : forall g, len g = 16 -> guid_is_zero g = true <-> g = repeat Byte.x00 16.
Proof. exact zero_iff. Qed.
Print Assumptions C30_zero_iff.

Definition guid1 : guid := guid_of_u32 [67305985; 134678021; 202050057; 4294967295].
Example views_concrete :
  len guid1 = 16 /\ List.map b2z guid1 = [1; 2; 3; 4; 5; 6; 7; 8; 9; 10; 11; 12; 255; 255; 255; 255]
  /\ guid_to_u32 guid1 = [67305985; 134678021; 202050057; 4294967295]
  /\ guid_to_u128 guid1 = 340282366845437466641246134639433810433.
Proof. vm_compute. repeat split. Qed.

(** * C31: text form *)
Theorem C31_round_trip : forall g, len g = 16 -> guid_parse (guid_display g) = Parsed g.
Proof. exact display_parse. Qed.
Print Assumptions C31_round_trip.
Theorem C31_printed : forall g, len g = 16 -> g <> repeat Byte.x00 16 ->
  exists a b c d e, guid_display g = a ++ [45] ++ b ++ [45] ++ c ++ [45] ++ d ++ [45] ++ e
    /\ groups (a ++ b ++ c ++ d ++ e) g /\ Forall upper (a ++ b ++ c ++ d ++ e)
    /\ len a = 8 /\ len b = 4 /\ len c = 4 /\ len d = 4 /\ len e = 12.
Proof. exact display_shape. Qed.
Print Assumptions C31_printed.
Theorem C31_printed_zero : forall g, len g = 16 -> guid_display g = [48] <-> g = repeat Byte.x00 16.
Proof. exact display_zero. Qed.
Print Assumptions C31_printed_zero.
(** [cleaned s t]: [t] is [s] without dashes, then without white space at both ends,
    then without one opening brace in front and one closing brace behind. *)
Theorem C31_cleaned_unique : forall s t t', cleaned s t -> cleaned s t' -> t = t'.
Proof. exact (fun s t t' H H' => eq_trans (cleaned_unique s t H) (eq_sym (cleaned_unique s t' H'))). Qed.
Print Assumptions C31_cleaned_unique.
Theorem C31_accepts_iff : forall s g, is_str s = true ->
  guid_parse s = Parsed g <->
  exists t, cleaned s t /\ ((t = [48] /\ g = repeat Byte.x00 16) \/ (groups t g /\ len g = 16)).
Proof. exact parse_ok_iff. Qed.
Print Assumptions C31_accepts_iff.
Theorem C31_panics_iff : forall s, is_str s = true ->
  guid_parse s = Panicked <->
  exists t pre g r, cleaned s t /\ widths t = 32 /\ t = pre ++ r /\ groups pre g /\ straddles r.
Proof. exact parse_panic_iff. Qed.
Print Assumptions C31_panics_iff.

Example text_concrete :
  guid_display guid1 = s2z "01020304-0506-0708-090A-0B0CFFFFFFFF"
  /\ guid_parse (s2z " {01020304-0506-0708-090a-0b0cFFFFFFFF} ") = Parsed guid1
  /\ guid_parse (s2z "{0}") = Parsed (repeat Byte.x00 16)
  (* a plus sign counts as a leading zero *)
  /\ guid_parse (s2z "+1+2+3+4-+5+6-+7+8-+90A-0B0CFFFFFFFF") = Parsed guid1
  (* braces inside white space only: white space inside braces is an error *)
  /\ guid_parse (s2z "{ 01020304-0506-0708-090A-0B0CFFFFFFFF}") = Rejected
  /\ guid_parse (s2z "01020304-0506-0708-090A-0B0CFFFFFFF") = Rejected
  (* a euro sign (three bytes) in first place *)
  /\ guid_parse (8364 :: s2z "20304-0506-0708-090A-0B0CFFFFFFFF") = Panicked
  (* after a bad group it is not reached *)
  /\ guid_parse (s2z "x1" ++ 8364 :: s2z "304-0506-0708-090A-0B0CFFFFFFFF") = Rejected.
Proof. vm_compute. repeat split. Qed.
