(* Executable versions of the functions that `libm` and `elibm` leave open, to run the model on concrete frames (UpstreamTests.v).
   No theorem depends on them: fixed point with 80 fractional bits, rounded to binary32 at the end. *)
From Coq Require Import ZArith List Bool.
From Flocq Require Import Core BinarySingleNaN.
From Verif Require Import Base Scalar F32 EncF32.
Import ListNotations.
Local Open Scope Z_scope.

Definition FX : Z := 80.
Definition fx1 : Z := 2 ^ FX.
Definition fx_pi : Z := 3797952473636338580787994.
Definition fx_ln2 : Z := 837963523372001241319908.
Definition fx_log2_10 : Z := 4015964644812568162542768.
Definition fx_log10_2 : Z := 363922934236666733021125.
Definition fx_mul (a b : Z) : Z := Z.shiftr (a * b) FX.
Definition of_fx (z : Z) : f32 := f32_norm z (- FX).
Definition to_fx (x : f32) : Z :=
  match x with B754_finite s m e _ => let v := Z.shiftl (Z.pos m) (e + FX) in if s then - v else v | _ => 0 end.

(* t, t y / (k + 1), ... *)
Fixpoint fx_exp_terms (n : nat) (k y t : Z) : Z := match n with O => 0 | S n => t + fx_exp_terms n (k + 1) y (fx_mul t y / (k + 1)) end.
Definition fx_exp (y : Z) : Z := fx_exp_terms 40 0 y fx1.
Fixpoint fx_sin_terms (n : nat) (k y2 t : Z) : Z := match n with O => 0 | S n => t + fx_sin_terms n (k + 2) y2 (- (fx_mul t y2 / ((k + 1) * (k + 2)))) end.
Definition fx_sin (y : Z) : Z := fx_sin_terms 30 1 (fx_mul y y) y.
Definition fx_cos (y : Z) : Z := fx_sin_terms 30 0 (fx_mul y y) fx1.
Fixpoint fx_atanh_terms (n : nat) (k z2 t : Z) : Z := match n with O => 0 | S n => t / k + fx_atanh_terms n (k + 2) z2 (fx_mul t z2) end.
(* logarithm to base 2 of m 2^e *)
Definition fx_log2 (m e : Z) : Z :=
  let d := Z.log2 m in
  let y := Z.shiftl m (FX - d) in
  let z := (y - fx1) * fx1 / (y + fx1) in
  (d + e) * fx1 + 2 * fx_atanh_terms 40 1 (fx_mul z z) z * fx1 / fx_ln2.
Fixpoint fx_bisect (n : nat) (s lo hi : Z) : Z :=
  match n with O => lo | S n => let mid := (lo + hi) / 2 in if fx_sin mid <=? s then fx_bisect n s mid hi else fx_bisect n s lo mid end.

(* 2^(v / 2^80) *)
Definition fx_exp2 (v : Z) : f32 :=
  let i := Z.shiftr v FX in
  if 200 <? i then B754_infinity false else if i <? -300 then B754_zero false else f32_norm (fx_exp (fx_mul (v - Z.shiftl i FX) fx_ln2)) (i - FX).
Definition soft_exp2 (x : f32) : f32 := match x with B754_nan => B754_nan | B754_infinity s => if s then B754_zero false else x | _ => fx_exp2 (to_fx x) end.
Definition soft_pow10 (x : f32) : f32 := match x with B754_nan => B754_nan | B754_infinity s => if s then B754_zero false else x | _ => fx_exp2 (fx_mul (to_fx x) fx_log2_10) end.
Definition soft_log (scale : Z) (x : f32) : f32 :=
  match x with
  | B754_finite false m e _ => of_fx (fx_mul (fx_log2 (Z.pos m) e) scale)
  | B754_infinity false => x
  | B754_zero _ => B754_infinity true
  | _ => B754_nan
  end.
Definition soft_asin (x : f32) : f32 :=
  match x with
  | B754_finite _ _ _ _ => let v := to_fx x in if fx1 <? Z.abs v then B754_nan else of_fx (fx_bisect 82 v (- (fx_pi / 2)) (fx_pi / 2))
  | B754_zero _ => x
  | _ => B754_nan
  end.
(* repeated squaring *)
Fixpoint soft_pow (n : positive) (x : f32) : f32 :=
  match n with xH => x | xO n => soft_pow n (Bmult mode_NE x x) | xI n => Bmult mode_NE x (soft_pow n (Bmult mode_NE x x)) end.
Definition soft_powi (x : f32) (n : Z) : f32 :=
  match n with Z0 => f32_of_Z 1 | Zpos p => soft_pow p x | Zneg p => Bdiv mode_NE (f32_of_Z 1) (soft_pow p x) end.

(* fast_math::exp2_raw, from the published source of the crate: a quadratic in the fraction, the integer part added to the exponent *)
Definition fast_exp2 (x : f32) : f32 :=
  let n := f32_to_i32 (Bmult mode_NE (f32_of_Z (2 ^ 23)) x) in
  let frac := n mod 2 ^ 23 in
  let c0 := Bmult mode_NE (f32_lit (3371894346, -10)) (f32_norm 1 (-46)) in
  let c1 := Bmult mode_NE (f32_lit (657636276, -9)) (f32_norm 1 (-23)) in
  let f := f32_of_Z frac in
  let a := Bplus mode_NE (Bmult mode_NE (Bplus mode_NE (Bmult mode_NE c0 f) c1) f) (f32_lit (100172476, -8)) in
  Bmult mode_NE a (f32_norm 1 (n / 2 ^ 23)).

Definition soft_libm : libm :=
  mkLibm (fun k => soft_pow10 (Bdiv mode_NE (f32_of_Z k) (f32_of_Z 28))) fast_exp2
    (fun k => of_fx (fx_sin (to_fx (Bmult mode_NE (Bdiv mode_NE f32_pi (f32_of_Z 17)) (f32_of_Z k)))))
    (fun n i => let a := - (2 * fx_pi * i / n) in (of_fx (fx_cos a), of_fx (fx_sin a)))
    (fun n i => let a := - (fx_pi * (8 * i + 1) / (16 * n)) in (of_fx (fx_cos a), of_fx (fx_sin a))).
Definition soft_elibm : elibm := mkElibm (soft_log fx_log10_2) (soft_log fx1) soft_exp2 soft_asin soft_pow10 soft_powi.

Example soft_values :
  map f32_bits [soft_exp2 (f32_lit (5, -1)); soft_log fx1 (f32_of_Z 10); soft_log fx_log10_2 (f32_of_Z 1000); soft_asin (f32_lit (5, -1)); soft_pow10 (f32_of_Z 3); soft_powi (f32_of_Z 2) (-3)] =
  [Some (11863283, -23); Some (13933176, -22); Some (12582912, -22); Some (8784530, -24); Some (16384000, -14); Some (8388608, -26)].
Proof. vm_compute. reflexivity. Qed.
