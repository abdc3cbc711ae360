(** Property theorem C38, last part: the angle of two simhashes. *)
From Coq Require Import Reals NArith ZArith Lia.
From Verif Require Import Float SimHashBits SpecSimHash SpecAngle BitsFacts SimHashFacts AngleFacts.

(** The angle is the share of differing bits of pi, up to one unit in the last place of pi. *)
Theorem C38_angle_error (W : nat) (x y : N) : W = 64%nat \/ W = 128%nat ->
  (x < 2 ^ N.of_nat W)%N -> (y < 2 ^ N.of_nat W)%N ->
  (Rabs (real_of (hamming_angle W x y) - INR (hamming W x y) * PI / INR W) <= powerRZ 2 (-51))%R.
Proof.
  intros HW Hx Hy. change (hamming_angle W x y) with (angle_of W (hamming_distance x y)).
  rewrite (hamming_distance_spec W) by assumption. apply angle_error.
  - lia.
  - destruct HW as [-> | ->]; [exact angles_close_64|exact angles_close_128].
  - apply hamming_le.
Qed.

(** Distance 21 of 64, an angle that is rounded. *)
Example C38_angle_error_example : hamming 64 0 2097151 = 21%nat /\
  hamming_angle 64 0 2097151 = S754_finite false 4642468524768664 (-52).
Proof. vm_compute. split; reflexivity. Qed.
Print Assumptions C38_angle_error.
