(* Results, list access and small numeric helpers shared by the whole model. *)
From Coq Require Import ZArith List Bool Lia.
Import ListNotations.
Local Open Scope Z_scope.

(* Error values of the decoder (the payloads of the Rust enum constructors are dropped, the nesting is flattened):
   /repo/src/decoder/buffer_reader.rs:4-9, side_info_reader.rs:14-21, arithmetic_codec.rs:28-49, lc3_decoder.rs:37-42 *)
Inductive err : Type :=
| ReadByteOutOfBounds
| ReadU24OutOfBounds
| TailUsizeOutOfRange
| TailBoolOutOfRange
| BandwidthIdxOutOfRange
| LastNonZeroTupleGreaterThanYLen
| PlcTriggerSns1OutOfRange
| PlcTriggerSns2OutOfRange
| AcRangeFlOutOfRange
| NegativeResidualNumBits
| ResidualBoolDataOverflow
| Only16BitsPerAudioSampleSupported.

(* A Rust computation: a value, an Err value, or a panic (out of bounds index, integer overflow in a build with
   overflow checks, unreachable!(), explicit panic!). *)
Inductive res (A : Type) : Type :=
| Ok (a : A)
| Err (e : err)
| Panic.
Arguments Ok {A} a.
Arguments Err {A} e.
Arguments Panic {A}.

Definition bind {A B} (m : res A) (f : A -> res B) : res B :=
  match m with
  | Ok a => f a
  | Err e => Err e
  | Panic => Panic
  end.

Notation "x <- m ;; k" := (bind m (fun x => k)) (at level 61, m at next level, right associativity).
Notation "' p <- m ;; k" := (bind m (fun x => match x with p => k end))
  (at level 61, p pattern, m at next level, right associativity).

(* slice indexing: panics when out of bounds *)
Definition idx {A} (l : list A) (i : Z) : res A :=
  if i <? 0 then Panic
  else match nth_error l (Z.to_nat i) with
       | Some a => Ok a
       | None => Panic
       end.

Definition idx2 {A} (l : list (list A)) (i j : Z) : res A :=
  r <- idx l i ;; idx r j.

(* usize subtraction: panics on underflow *)
Definition usub (a b : Z) : res Z := if a <? b then Panic else Ok (a - b).

Fixpoint upd {A} (l : list A) (n : nat) (v : A) : list A :=
  match l, n with
  | [], _ => []
  | _ :: t, O => v :: t
  | h :: t, S n' => h :: upd t n' v
  end.

(* slice store: panics when out of bounds *)
Definition store (l : list Z) (i : Z) (v : Z) : res (list Z) :=
  if (i <? 0) || (Z.of_nat (length l) <=? i) then Panic
  else Ok (upd l (Z.to_nat i) v).

Definition len {A} (l : list A) : Z := Z.of_nat (length l).

Definition is_byte (b : Z) : Prop := 0 <= b < 256.
Definition bytes (l : list Z) : Prop := Forall is_byte l.

Definition b2z (b : bool) : Z := if b then 1 else 0.

(* ceil(log2 n) and floor(log2 n) of a positive integer, standing for `(n as f64).log2().ceil()` / `.floor()` *)
Definition log2_ceil (n : Z) : Z := Z.log2_up n.
Definition log2_floor (n : Z) : Z := Z.log2 n.

Definition omap {A B} (f : A -> B) (m : res A) : res B := a <- m ;; Ok (f a).
