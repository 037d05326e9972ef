(* The further operations on scalars used by the encoder; casts to the small integer types come from `f_i32`. *)
From Coq Require Import ZArith List Bool.
From Verif Require Import Base Scalar.
Import ListNotations.
Local Open Scope Z_scope.

Record eops (F : Type) : Type := mkEops {
  e_abs : F -> F;
  e_floor : F -> F;
  e_ceil : F -> F;
  e_log10 : F -> F;
  e_log2 : F -> F;
  e_exp2 : F -> F;        (* exp2: not the fast_math one of the decoder *)
  e_asin : F -> F;
  e_pow10 : F -> F;       (* 10.0.powf(x) *)
  e_powi : F -> Z -> F;
  e_inf : F;
  e_step17 : F            (* PI as Scaler / 17.0 *)
}.
Arguments e_abs {F}. Arguments e_floor {F}. Arguments e_ceil {F}. Arguments e_log10 {F}. Arguments e_log2 {F}. Arguments e_exp2 {F}. Arguments e_asin {F}.
Arguments e_pow10 {F}. Arguments e_powi {F}. Arguments e_inf {F}. Arguments e_step17 {F}.

Section EncScalar.
Context {F : Type} (o : ops F).
(* x >= y *)
Definition fge (x y : F) : bool := flt o y x || feq o y x.
(* x.max(y): a NaN gives way to the other one *)
Definition fmax (x y : F) : F := if feq o x x then (if feq o y y then (if flt o x y then y else x) else x) else y.
Definition fmin (x y : F) : F := if feq o x x then (if feq o y y then (if flt o y x then y else x) else x) else y.
(* .iter().sum() *)
Definition fsum (l : list F) : F := fold_left (fadd o) l (fz o 0).
(* casts: truncate and saturate; 0 for NaN *)
Definition as_i8 (x : F) : Z := Z.max (-128) (Z.min 127 (f_i32 o x)).
Definition as_i16 (x : F) : Z := Z.max (-32768) (Z.min 32767 (f_i32 o x)).
Definition as_u16 (x : F) : Z := Z.max 0 (Z.min 65535 (f_i32 o x)).
Definition as_usize (x : F) : Z := Z.max 0 (f_i32 o x).   (* for values below 2^31 *)
End EncScalar.

(* casts between integers wrap *)
Definition wrap (bits : Z) (n : Z) : Z := (n + 2 ^ (bits - 1)) mod 2 ^ bits - 2 ^ (bits - 1).
(* the result of an i16 operation: panics on overflow in a build with overflow checks, wraps otherwise *)
Definition i16c (chk : bool) (n : Z) : res Z :=
  if (-32768 <=? n) && (n <=? 32767) then Ok n else if chk then Panic else Ok (wrap 16 n).
Definition i8c (chk : bool) (n : Z) : res Z :=
  if (-128 <=? n) && (n <=? 127) then Ok n else if chk then Panic else Ok (wrap 8 n).
