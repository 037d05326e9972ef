(* The scalar type of the signal processing code (`Scaler = f32`, /repo/src/common/complex.rs:2) as a record of operations.
   A theorem that quantifies over `ops` holds for f32 with any libm, and for exact arithmetic. *)
From Coq Require Import ZArith List.
From Verif Require Import Base.
Import ListNotations.
Local Open Scope Z_scope.

Record ops (F : Type) : Type := mkOps {
  fz : Z -> F;                 (* `i as Scaler` *)
  flit : Z * Z -> F;           (* decimal literal (m, e): m * 10^e *)
  fadd : F -> F -> F;
  fsub : F -> F -> F;
  fmul : F -> F -> F;
  fdiv : F -> F -> F;
  fneg : F -> F;
  flt : F -> F -> bool;        (* < *)
  feq : F -> F -> bool;        (* == *)
  f_i32 : F -> Z;              (* `x as i32` *)
  fsqrt : F -> F;
  fgain : Z -> F;              (* 10.0.powf(k as Scaler / 28.0) *)
  fexp2 : F -> F;              (* fast_math::exp2_raw *)
  fsin17 : Z -> F;             (* ((PI / 17) as Scaler * k as Scaler).sin() *)
  ftw : Z -> Z -> F * F;       (* FFT twiddle i of n: cos and sin of -2 PI i / n *)
  ftw4 : Z -> Z -> F * F       (* DCT-IV twiddle i of count: cos and sin of -PI (8 i + 1) / (16 count) *)
}.
Arguments fz {F}. Arguments flit {F}. Arguments fadd {F}. Arguments fsub {F}. Arguments fmul {F}. Arguments fdiv {F}. Arguments fneg {F}.
Arguments flt {F}. Arguments feq {F}. Arguments f_i32 {F}. Arguments fsqrt {F}. Arguments fgain {F}. Arguments fexp2 {F}. Arguments fsin17 {F}.
Arguments ftw {F}. Arguments ftw4 {F}.

(* complex numbers: complex.rs:4-66 *)
Section Complex.
Context {F : Type} (o : ops F).
Definition cmul (a b : F * F) : F * F :=
  (fsub o (fmul o (fst a) (fst b)) (fmul o (snd a) (snd b)), fadd o (fmul o (fst a) (snd b)) (fmul o (snd a) (fst b))).
Definition cadd (a b : F * F) : F * F := (fadd o (fst a) (fst b), fadd o (snd a) (snd b)).
Definition csub (a b : F * F) : F * F := (fsub o (fst a) (fst b), fsub o (snd a) (snd b)).
Definition cscale (a : F * F) (x : F) : F * F := (fmul o (fst a) x, fmul o (snd a) x).
End Complex.
