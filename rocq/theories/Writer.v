(* /repo/src/encoder/buffer_writer.rs *)
From Coq Require Import ZArith List Bool.
From Verif Require Import Base.
Import ListNotations.
Local Open Scope Z_scope.

(* buffer_writer.rs:4-9 *)
Record writer : Set := mkWriter {
  w_bp : Z;
  w_bp_side : Z;
  w_mask : Z
}.

(* buffer_writer.rs:12-18: `bp_side: buf_len as u16 - 1`; the cast truncates, the subtraction may underflow *)
Definition writer_new (buf_len : Z) : res writer :=
  bs <- usub (buf_len mod 65536) 1 ;;
  Ok (mkWriter 0 bs 1).

(* buffer_writer.rs:27-40 *)
Definition write_bool_backward (w : writer) (buf : list Z) (bit : bool) : res (writer * list Z) :=
  old <- idx buf (w_bp_side w) ;;
  let v := if bit then Z.lor old (w_mask w) else Z.land old (255 - w_mask w) in
  buf' <- store buf (w_bp_side w) v ;;
  if w_mask w =? 128 then
    bs <- usub (w_bp_side w) 1 ;;
    Ok (mkWriter (w_bp w) bs 1, buf')
  else Ok (mkWriter (w_bp w) (w_bp_side w) (2 * w_mask w), buf').

(* buffer_writer.rs:19-25 *)
Fixpoint write_uint_backward (w : writer) (buf : list Z) (val : Z) (num_bits : nat) : res (writer * list Z) :=
  match num_bits with
  | O => Ok (w, buf)
  | S n =>
      '(w, buf) <- write_bool_backward w buf (Z.odd val) ;;
      write_uint_backward w buf (Z.div2 val) n
  end.

(* buffer_writer.rs:42-53 (the loop body; `mask` is halved at each step, `bp` is not advanced) *)
Fixpoint write_uint_forward_loop (buf : list Z) (bp : Z) (val8 mask : Z) (num_bits : nat) : res (list Z) :=
  match num_bits with
  | O => Ok buf
  | S n =>
      old <- idx buf bp ;;
      let v := if Z.land val8 mask =? 0 then Z.land old (255 - mask) else Z.lor old mask in
      buf' <- store buf bp v ;;
      write_uint_forward_loop buf' bp val8 (Z.div2 mask) n
  end.

Definition write_uint_forward (w : writer) (buf : list Z) (val : Z) (num_bits : Z) : res (list Z) :=
  write_uint_forward_loop buf (w_bp w) (val mod 256) 128 (Z.to_nat num_bits).

(* buffer_writer.rs:55-58 *)
Definition write_byte_forward (w : writer) (buf : list Z) (val : Z) : res (writer * list Z) :=
  buf' <- store buf (w_bp w) val ;;
  Ok (mkWriter (w_bp w + 1) (w_bp_side w) (w_mask w), buf').

(* buffer_writer.rs:60-66 *)
Definition nbits_side_written (w : writer) (nbits : Z) : res Z :=
  let value := nbits - (8 * w_bp_side w + 8 - log2_floor (w_mask w)) in
  if value <? 0 then Panic else Ok value.
