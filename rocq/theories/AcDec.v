(* Arithmetic decoder: /repo/src/decoder/arithmetic_codec.rs:21-97 *)
From Coq Require Import ZArith List Bool.
From Verif Require Import Base Reader.
Import ListNotations.
Local Open Scope Z_scope.

(* arithmetic_codec.rs:21-25 *)
Record acdec : Set := mkDec {
  d_low : Z;
  d_range : Z
}.

(* arithmetic_codec.rs:57-65 *)
Definition ac_dec_init (buf : list Z) (r : reader) : res (acdec * reader) :=
  '(v, r) <- read_head_u24 r buf ;;
  Ok (mkDec v 16777215, r).

(* arithmetic_codec.rs:82-84: linear search from the last symbol downwards *)
Fixpoint ac_search (low tmp : Z) (cum : list Z) (val : nat) : res Z :=
  c <- idx cum (Z.of_nat val) ;;
  if low <? tmp * c then
    match val with
    | O => Panic
    | S v => ac_search low tmp cum v
    end
  else Ok (Z.of_nat val).

(* arithmetic_codec.rs:89-94; fuel stands for termination *)
Fixpoint dec_renorm (fuel : nat) (buf : list Z) (r : reader) (st : acdec) : res (acdec * reader) :=
  if d_range st <? 65536 then
    match fuel with
    | O => Panic
    | S f =>
        '(b, r) <- read_head_byte r buf ;;
        dec_renorm f buf r (mkDec ((d_low st * 256) mod 16777216 + b) (d_range st * 256))
    end
  else Ok (st, r).

(* arithmetic_codec.rs:67-97; `cum_freq.len() - 1` underflows on an empty table; on an Err the state no longer
   matters since the whole frame is abandoned *)
Definition ac_decode (buf : list Z) (r : reader) (st : acdec) (cum freq : list Z) : res (Z * acdec * reader) :=
  let tmp := Z.shiftr (d_range st) 10 in
  let limit := Z.shiftl tmp 10 in
  if limit <=? d_low st then Err AcRangeFlOutOfRange
  else
    top <- usub (len cum) 1 ;;
    val <- ac_search (d_low st) tmp cum (Z.to_nat top) ;;
    c <- idx cum val ;;
    f <- idx freq val ;;
    low <- usub (d_low st) (tmp * c) ;;
    '(st, r) <- dec_renorm 4 buf r (mkDec low (tmp * f)) ;;
    Ok (val, st, r).
