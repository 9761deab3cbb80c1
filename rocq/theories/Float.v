(** Floating point arithmetic of the library: the durations given in seconds, and the getters of fixed point members.

    float is IEEE 754 binary32 and double is binary64, operations round to nearest even and are evaluated in the type of
    their operands (FLT_EVAL_METHOD = 0); the arithmetic itself is Flocq's. *)
From Verif Require Import Base Boxes.
From Flocq Require Import IEEE754.BinarySingleNaN.
Open Scope Z_scope.

#[global] Instance prec24 : FLX.Prec_gt_0 24. Proof. reflexivity. Qed.
#[global] Instance emax128 : Prec_lt_emax 24 128. Proof. reflexivity. Qed.
#[global] Instance prec53 : FLX.Prec_gt_0 53. Proof. reflexivity. Qed.
#[global] Instance emax1024 : Prec_lt_emax 53 1024. Proof. reflexivity. Qed.

Definition f32 := binary_float 24 128.
Definition f64 := binary_float 53 1024.

(** static_cast<float> of an integer, static_cast<double> of an integer *)
Definition f32_of_int (z : Z) : f32 := binary_normalize 24 128 _ _ mode_NE z 0 false.
Definition f64_of_int (z : Z) : f64 := binary_normalize 53 1024 _ _ mode_NE z 0 false.

(** static_cast<std::uint64_t> of a float truncates; it is undefined if the truncated value is not a std::uint64_t
    ([conv.fpint]), in particular for infinities and NaN. *)
Definition u64_of_f32 (x : f32) : outcome Z :=
  if is_finite x then
    let z := Btrunc x in if (0 <=? z) && (z <? 2 ^ 64) then Ok z else UB
  else UB.

(** static_cast<std::uint64_t>(static_cast<float>(timescale) * duration): Track::getDurationInTimescale and
    Track::getDurationInMvhdTimescale, track.cpp:158-164; simple_writer.cpp:31; faststart_writer.cpp:56 *)
Definition duration_in (timescale : Z) (duration : f32) : outcome Z :=
  u64_of_f32 (Bmult mode_NE (f32_of_int timescale) duration).

(** Tkhd::getWidth, Tkhd::getHeight, tkhd.cpp:114-120; Mvhd::getRate, mvhd.cpp:43-45; ElstEntry::getMediaRate,
    elst.cpp:45-47.  The int divisor (1 << 16) is converted to double. *)
Definition Tkhd_getWidth (b : tkhd) : f64 := Bdiv mode_NE (f64_of_int (tkhd_width b)) (f64_of_int 65536).
Definition Tkhd_getHeight (b : tkhd) : f64 := Bdiv mode_NE (f64_of_int (tkhd_height b)) (f64_of_int 65536).
Definition Mvhd_getRate (b : mvhd) : f64 := Bdiv mode_NE (f64_of_int (mvhd_rate b)) (f64_of_int 65536).
Definition ElstEntry_getMediaRate (e : elst_entry) : f64 := Bdiv mode_NE (f64_of_int (elste_media_rate e)) (f64_of_int 65536).
(** Smhd::getBalance, smhd.cpp:53-55.  The int divisor (1 << 8) is converted to float. *)
Definition Smhd_getBalance (b : smhd) : f32 := Bdiv mode_NE (f32_of_int (smhd_balance b)) (f32_of_int 256).
