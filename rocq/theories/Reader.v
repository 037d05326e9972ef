(* /repo/src/decoder/buffer_reader.rs *)
From Coq Require Import ZArith List Bool.
From Verif Require Import Base.
Import ListNotations.
Local Open Scope Z_scope.

(* buffer_reader.rs:11-15 *)
Record reader : Set := mkReader {
  r_head : Z;  (* head_byte_cursor *)
  r_tail : Z   (* tail_bit_cursor *)
}.

Definition reader_new : reader := mkReader 0 0.

(* big endian value of a slice, as BigEndian::read_u16/u24/u32 *)
Fixpoint be (l : list Z) : Z :=
  match l with
  | [] => 0
  | b :: t => b * 256 ^ len t + be t
  end.

(* buffer_reader.rs:42-50 *)
Definition read_head_byte (r : reader) (buf : list Z) : res (Z * reader) :=
  match nth_error buf (Z.to_nat (r_head r)) with
  | Some b => Ok (b, mkReader (r_head r + 1) (r_tail r))
  | None => Err ReadByteOutOfBounds
  end.

(* slice buf[from..to] *)
Definition slice (buf : list Z) (from to : Z) : res (list Z) :=
  if (from <? 0) || (to <? from) || (len buf <? to) then Panic
  else Ok (firstn (Z.to_nat (to - from)) (skipn (Z.to_nat from) buf)).

(* buffer_reader.rs:52-60 *)
Definition read_head_u24 (r : reader) (buf : list Z) : res (Z * reader) :=
  if r_head r + 2 <? len buf then
    s <- slice buf (r_head r) (r_head r + 3) ;;
    Ok (be s, mkReader (r_head r + 3) (r_tail r))
  else Err ReadU24OutOfBounds.

(* buffer_reader.rs:63-96; the u32 left shift drops the high bits; shift amounts of 32 or more panic *)
Definition read_tail_usize (r : reader) (buf : list Z) (num_bits : Z) : res (Z * reader) :=
  let byte_index := r_tail r / 8 in
  let bit_index := r_tail r mod 8 in
  let bits_left := 8 - bit_index in
  let add_bytes := if (bits_left <? num_bits) && (num_bits <? 8) then 2 else 1 in
  let num_bytes := num_bits / 8 + add_bytes in
  if len buf - r_head r - byte_index - num_bytes <? 0 then Err TailUsizeOutOfRange
  else
    from0 <- usub (len buf) byte_index ;;
    from_index <- usub from0 num_bytes ;;
    sl <- slice buf from_index (from_index + num_bytes) ;;
    let value := if (1 <=? num_bytes) && (num_bytes <=? 4) then be sl else 0 in
    s0 <- usub 32 num_bits ;;
    shift_by <- usub s0 bit_index ;;
    if 32 <=? shift_by then Panic
    else if 32 <=? shift_by + bit_index then Panic
    else
      let v := Z.shiftr ((Z.shiftl value shift_by) mod 2 ^ 32) (shift_by + bit_index) in
      Ok (v, mkReader (r_head r) (r_tail r + num_bits)).

(* buffer_reader.rs:98-114; `byte <<= 7 - bit_index` on u8 drops the high bits *)
Definition read_tail_bool (r : reader) (buf : list Z) : res (bool * reader) :=
  let byte_index := r_tail r / 8 in
  let bit_index := r_tail r mod 8 in
  if len buf - r_head r - byte_index + 2 <? 0 then Err TailBoolOutOfRange
  else
    f0 <- usub (len buf) byte_index ;;
    from_index <- usub f0 1 ;;
    byte <- idx buf from_index ;;
    let b := Z.shiftr ((Z.shiftl byte (7 - bit_index)) mod 256) 7 in
    Ok (b =? 1, mkReader (r_head r) (r_tail r + 1)).
