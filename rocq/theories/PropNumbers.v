(** Claim C51: numbers in JSON are rounded once, to the nearest. *)
From Coq Require Import ZArith List Bool String Lia QArith Qabs.
From Verif Require Import Base Str Types Versions Text Props File Spec BaseFacts Guid Json JsonSpec JsonFloat Nearest.
Import ListNotations.
Open Scope Z_scope.

(** A single-precision number is written as the double of the same value and sign. *)
Theorem C51_written : forall b, u_ok 4 b = true -> finite32 b = true ->
  exists c, e_f32 b = JFloat c /\ u_ok 8 c = true /\ finite64 c = true
    /\ c / 9223372036854775808 = b / 2147483648
    /\ (number 52 (-1074) (c mod 9223372036854775808) == number 23 (-149) (b mod 2147483648))%Q.
Proof. exact widened. Qed.
Print Assumptions C51_written.
(** Any double in a single-precision field is read as the nearest single (ties to
    even, infinite from half way beyond the largest), with its sign. *)
Theorem C51_read : forall b, exists r, d_f32 (JFloat b) = JOk r
  /\ rounded32 (9223372036854775808 <=? b) (number 52 (-1074) (b mod 9223372036854775808)) r.
Proof. exact narrowed. Qed.
Print Assumptions C51_read.
(** So is any integer, in fields of either precision. *)
Theorem C51_read_int32 : forall z, exists r, d_f32 (JInt z) = JOk r /\ rounded32 (z <? 0) (inject_Z (Z.abs z)) r.
Proof. exact int32_rounded. Qed.
Print Assumptions C51_read_int32.
Theorem C51_read_int64 : forall z, exists r, d_f64 (JInt z) = JOk r /\ rounded64 (z <? 0) (inject_Z (Z.abs z)) r.
Proof. exact int64_rounded. Qed.
Print Assumptions C51_read_int64.
(** "Nearest" leaves no choice, and is infinite exactly from half way on. *)
Theorem C51_unique : forall p low top x a b, 1 <= p -> nearest p low top x a -> nearest p low top x b -> a = b.
Proof. exact nearest_unique. Qed.
Print Assumptions C51_unique.
Theorem C51_infinite : forall x,
  (nearest32 x 2139095040 <-> (number 23 (-149) 2139095039 + number 23 (-149) 2139095040 <= x + x)%Q)
  /\ (nearest64 x 9218868437227405312
      <-> (number 52 (-1074) 9218868437227405311 + number 52 (-1074) 9218868437227405312 <= x + x)%Q).
Proof. intros x. split; apply nearest_top; try reflexivity; lia. Qed.
Print Assumptions C51_infinite.

(** 1/3 as a double and the nearest single, the largest finite single, the tie
    16777217 (2^24 + 1), which becomes 2^24, a subnormal, and 1e300. *)
Example C51_applies :
  (number 23 (-149) 2139095039 == inject_Z (2 ^ 128 - 2 ^ 104))%Q
  /\ d_f32 (JFloat 0x3FD5555555555555) = JOk 0x3EAAAAAB
  /\ d_f32 (JInt 16777217) = JOk 0x4B800000 /\ d_f32 (JInt (-16777219)) = JOk 0xCB800002
  /\ d_f32 (JFloat 1) = JOk 0 /\ d_f32 (JFloat 0x36A0000000000000) = JOk 1
  /\ e_f32 1 = JFloat 0x36A0000000000000
  /\ d_f32 (JFloat 0x7E37E43C8800759C) = JOk 0x7F800000
  /\ d_f64 (JInt 9007199254740993) = JOk 0x4340000000000000.
Proof. repeat split; vm_compute; reflexivity. Qed.
