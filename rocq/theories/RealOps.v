(* Exact arithmetic: the scalar operations on the real numbers, with the true sine, cosine and powers. *)
From Coq Require Import ZArith List Bool Lia Reals Lra.
From Flocq Require Import Core.
From Verif Require Import Base Scalar.
Import ListNotations.
Local Open Scope R_scope.

Definition R_lit (d : Z * Z) : R := IZR (fst d) * powerRZ 10 (snd d).
Definition R_ops : ops R :=
  mkOps R IZR R_lit Rplus Rminus Rmult Rdiv Ropp Rlt_bool Req_bool
    (fun x => Z.max (-2147483648) (Z.min 2147483647 (Ztrunc x))) sqrt
    (fun k => Rpower 10 (IZR k / 28)) (fun x => Rpower 2 x) (fun k => sin (PI / 17 * IZR k))
    (fun n i => (cos (- (2 * PI * IZR i / IZR n)), sin (- (2 * PI * IZR i / IZR n))))
    (fun n i => (cos (- (PI * IZR (8 * i + 1) / IZR (16 * n))), sin (- (PI * IZR (8 * i + 1) / IZR (16 * n))))).
Lemma R_half : flit R_ops (5, -1)%Z = / 2.
Proof. unfold R_ops, flit, R_lit, fst, snd. unfold powerRZ. change (Pos.to_nat 1) with 1%nat. cbn [pow]. lra. Qed.
