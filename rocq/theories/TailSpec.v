(* Specification of the tail of a frame: a list of bits, or of fields (value, width), least significant bit first. *)
From Coq Require Import ZArith List Bool.
From Verif Require Import Base.
Import ListNotations.
Local Open Scope Z_scope.

(* number whose binary digits are l, least significant first *)
Fixpoint bval (l : list bool) : Z :=
  match l with
  | [] => 0
  | b :: l' => b2z b + 2 * bval l'
  end.

Definition bits_of (v : Z) (w : nat) : list bool := map (fun i => Z.testbit v (Z.of_nat i)) (seq 0 w).

Definition field : Set := (Z * Z)%type.
Definition field_ok (f : field) : Prop := 0 <= fst f < 2 ^ snd f.
Definition widths (l : list field) : Z := fold_right (fun f s => snd f + s) 0 l.
