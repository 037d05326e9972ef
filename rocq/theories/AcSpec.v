(* Specification of interval coding over unbounded integers, independent of the register level encoder. *)
From Coq Require Import ZArith List Bool.
Import ListNotations.
Local Open Scope Z_scope.

(* A symbol of a probability model with total 1024: it owns the interval [cum, cum + freq). *)
Definition sym : Set := (Z * Z)%type.
Definition valid_sym (s : sym) : Prop := 0 <= fst s /\ 0 < snd s /\ fst s + snd s <= 1024.

(* After n bytes the code interval is [lo, lo + width) in units of 2^-(24 + 8 n). *)
Record ival : Set := mkIval { iF : Z; iR : Z; iN : Z }.

Definition ival0 : ival := mkIval 0 16777215 0.

(* scale up by bytes until the width is at least 2^16 (two steps are always enough, see AcSpecProofs) *)
Fixpoint inorm (fuel : nat) (s : ival) : ival :=
  if iR s <? 65536 then
    match fuel with
    | O => s
    | S f => inorm f (mkIval (iF s * 256) (iR s * 256) (iN s + 1))
    end
  else s.

Definition istep (s : ival) (y : sym) : ival :=
  let r := iR s / 1024 in
  inorm 4 (mkIval (iF s + r * fst y) (r * snd y) (iN s)).

Definition irun (s : ival) (l : list sym) : ival := fold_left istep l s.

(* Number of head bits charged for an interval: 8 n + 25 - floor(log2 width). *)
Definition ari_bits (s : ival) : Z := 8 * iN s + 25 - Z.log2 (iR s).

(* Code words: the smallest multiple of 2^j that is not below F. *)
Definition round_up (F j : Z) : Z := (F + (2 ^ j - 1)) / 2 ^ j * 2 ^ j.

(* The window of final intervals in which the terminating code word of the encoder is not protected against the
   bits that follow: rounding the lower end up carries out of the low 24 bits, and the rounded cell
   [v, v + 2^j) sticks out of the interval. *)
Definition term_window (s : ival) : Prop :=
  let j := Z.log2 (iR s) in
  iF s mod 2 ^ 24 + (2 ^ j - 1) >= 2 ^ 24 /\ round_up (iF s) j + 2 ^ j > iF s + iR s.

(* A probability model: cumulative and plain frequencies with total 1024. *)
Definition model : Set := (list Z * list Z)%type.
Record valid_model (m : model) : Prop := mkVm {
  vm_len : length (fst m) = length (snd m);
  vm_ne : (0 < length (fst m))%nat;
  vm_0 : nth 0 (fst m) 0 = 0;
  vm_step : forall i, (S i < length (fst m))%nat -> nth (S i) (fst m) 0 = nth i (fst m) 0 + nth i (snd m) 0;
  vm_pos : forall i, (i < length (fst m))%nat -> 0 < nth i (snd m) 0;
  vm_tot : nth (length (fst m) - 1) (fst m) 0 + nth (length (fst m) - 1) (snd m) 0 = 1024
}.
Definition msize (m : model) : Z := Z.of_nat (length (fst m)).
Definition msym (m : model) (i : Z) : sym := (nth (Z.to_nat i) (fst m) 0, nth (Z.to_nat i) (snd m) 0).

Definition valid_modelb (m : model) : bool :=
  let n := length (fst m) in
  (length (snd m) =? n)%nat && (0 <? n)%nat && (nth 0 (fst m) 0 =? 0) &&
  forallb (fun i => nth (S i) (fst m) 0 =? nth i (fst m) 0 + nth i (snd m) 0) (seq 0 (n - 1)) &&
  forallb (fun i => 0 <? nth i (snd m) 0) (seq 0 n) &&
  (nth (n - 1) (fst m) 0 + nth (n - 1) (snd m) 0 =? 1024).
