(* Factoring of the transform length: /repo/src/common/kissfft.rs:43-76 *)
From Coq Require Import ZArith List.
From Verif Require Import Base.
Import ListNotations.
Local Open Scope Z_scope.

(* kissfft.rs:53-64 inner `while`: next divisor to use. `gt p` stands for the f32 comparison `p as Scaler > floor_sqrt`. *)
Fixpoint next_p (gt : Z -> bool) (fuel : nat) (n p : Z) : res Z :=
  match fuel with
  | O => Panic
  | S f =>
      if n mod p =? 0 then Ok p
      else
        let p1 := if p =? 4 then 2 else if p =? 2 then 3 else p + 2 in
        next_p gt f n (if gt p1 then n else p1)
  end.

(* kissfft.rs:52-75 `loop`; `i` is the index of the next entry; `[usize; 64]` (line 30) panics from index 64 on *)
Fixpoint factor_loop (gt : Z -> bool) (pfuel fuel : nat) (n p i : Z) : res (list Z) :=
  match fuel with
  | O => Panic
  | S f =>
      p <- next_p gt pfuel n p ;;
      let n := n / p in
      if 64 <=? i + 1 then Panic
      else if n <=? 1 then Ok [p; n]
      else r <- factor_loop gt pfuel f n p (i + 2) ;; Ok (p :: n :: r)
  end.

(* kissfft.rs:47-76 `kf_factor` (entries beyond the last pair stay 0 and are not represented) *)
Definition kf_factor (gt : Z -> bool) (fuel : nat) (n : Z) : res (list Z) := factor_loop gt fuel fuel n 4 0.

(* comparison with an exactly computed floor of the square root *)
Definition gt_sqrt (n : Z) (p : Z) : bool := Z.sqrt n <? p.
