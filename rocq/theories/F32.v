(* IEEE-754 binary32 (Rust's f32) as a scalar type, on Flocq's formalisation. NaNs are not distinguished.
   Round to nearest, ties to even, everywhere: the only mode Rust uses. The transcendental functions are parameters. *)
From Coq Require Import ZArith List Bool Lia Reals.
From Flocq Require Import Core BinarySingleNaN.
From Verif Require Import Base Scalar.
Import ListNotations.
Local Open Scope Z_scope.

Definition f32 : Set := binary_float 24 128.
Definition f32_prec : Prec_gt_0 24 := eq_refl.
Definition f32_emax : Prec_lt_emax 24 128 := eq_refl.
Global Existing Instance f32_prec.
Global Existing Instance f32_emax.

(* m * 2^e, rounded *)
Definition f32_norm (m e : Z) : f32 := binary_normalize 24 128 f32_prec f32_emax mode_NE m e false.
(* i32 as f32 *)
Definition f32_of_Z (z : Z) : f32 := f32_norm z 0.
(* A decimal literal m * 10^e. For e < 0 the quotient is taken with 200 extra bits and a sticky bit. *)
Definition f32_lit (d : Z * Z) : f32 :=
  let '(m, e) := d in
  if 0 <=? e then f32_norm (m * 10 ^ e) 0
  else
    let n := Z.abs m * 2 ^ 200 in
    let q := n / 10 ^ (- e) in
    let s := 2 * q + (if n mod 10 ^ (- e) =? 0 then 0 else 1) in
    f32_norm (if m <? 0 then - s else s) (-201).
(* `x as i32`: towards zero, saturating, 0 for NaN *)
Definition f32_to_i32 (x : f32) : Z :=
  match x with
  | B754_nan => 0
  | B754_infinity s => if s then -2147483648 else 2147483647
  | _ => Z.max (-2147483648) (Z.min 2147483647 (Btrunc x))
  end.

(* sin, cos, pow, exp2_raw: not modelled *)
Record libm : Set := mkLibm { lm_gain : Z -> f32; lm_exp2 : f32 -> f32; lm_sin17 : Z -> f32; lm_tw : Z -> Z -> f32 * f32; lm_tw4 : Z -> Z -> f32 * f32 }.
Definition f32_ops (l : libm) : ops f32 :=
  mkOps f32 f32_of_Z f32_lit (Bplus mode_NE) (Bminus mode_NE) (Bmult mode_NE) (Bdiv mode_NE) Bopp Bltb Beqb f32_to_i32 (Bsqrt mode_NE)
    (lm_gain l) (lm_exp2 l) (lm_sin17 l) (lm_tw l) (lm_tw4 l).

(* bit patterns, for tests *)
Definition f32_bits (x : f32) : option (Z * Z) :=   (* significand with sign, exponent *)
  match x with
  | B754_zero _ => Some (0, 0)
  | B754_finite s m e _ => Some ((if s then Z.neg m else Z.pos m), e)
  | _ => None
  end.
Example f32_lit_tests :
  map f32_bits (map f32_lit [(5, -1); (9, -1); (85, -2); (1, -1); (-4, -1); (327676, -1); (1875, -4); (0, -3); (3, 2)]) =
  [Some (8388608, -24); Some (15099494, -24); Some (14260634, -24); Some (13421773, -27); Some (-13421773, -25); Some (16777011, -9); Some (12582912, -26); Some (0, 0); Some (9830400, -15)].
Proof. vm_compute. reflexivity. Qed.
