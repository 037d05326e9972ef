(* Arithmetic encoder: /repo/src/encoder/bitstream_encoding.rs:216-222, 354-429 *)
From Coq Require Import ZArith List Bool.
From Verif Require Import Base Writer.
Import ListNotations.
Local Open Scope Z_scope.

(* bitstream_encoding.rs:27-34 *)
Record acenc : Set := mkAc {
  e_low : Z;
  e_range : Z;
  e_cache : Z;
  e_carry : Z;
  e_ccount : Z
}.

(* output side of the encoder: writer cursor, output buffer *)
Definition out : Type := (writer * list Z)%type.

(* bitstream_encoding.rs:216-222 *)
Definition ac_enc_init : acenc := mkAc 0 16777215 (-1) 0 0.

(* bitstream_encoding.rs:403-407: `while carry_count > 0`, also used with the byte 0xff at 386-389 *)
Fixpoint emit_n (o : out) (byte : Z) (n : nat) : res out :=
  match n with
  | O => Ok o
  | S n' =>
      o' <- write_byte_forward (fst o) (snd o) byte ;;
      emit_n o' byte n'
  end.

(* bitstream_encoding.rs:397-415 *)
Definition ac_shift (st : acenc) (o : out) : res (acenc * out) :=
  '(st1, o1) <-
    (if (e_low st <? 16711680) || (e_carry st =? 1) then
       o1 <- (if 0 <=? e_cache st
              then write_byte_forward (fst o) (snd o) ((e_cache st + e_carry st) mod 256)
              else Ok o) ;;
       o2 <- emit_n o1 ((e_carry st + 255) mod 256) (Z.to_nat (e_ccount st)) ;;
       Ok (mkAc (e_low st) (e_range st) (Z.shiftr (e_low st) 16) 0 (Z.min (e_ccount st) 0), o2)
     else
       Ok (mkAc (e_low st) (e_range st) (e_cache st) (e_carry st) (e_ccount st + 1), o)) ;;
  Ok (mkAc ((e_low st1 * 256) mod 16777216) (e_range st1) (e_cache st1) (e_carry st1) (e_ccount st1), o1).

(* bitstream_encoding.rs:425-428: renormalisation loop; fuel stands for termination *)
Fixpoint ac_renorm (fuel : nat) (st : acenc) (o : out) : res (acenc * out) :=
  if e_range st <? 65536 then
    match fuel with
    | O => Panic
    | S f =>
        '(st', o') <- ac_shift (mkAc (e_low st) (e_range st * 256) (e_cache st) (e_carry st) (e_ccount st)) o ;;
        ac_renorm f st' o'
    end
  else Ok (st, o).

(* bitstream_encoding.rs:417-429 *)
Definition ac_encode (st : acenc) (o : out) (cum_freq sym_freq : Z) : res (acenc * out) :=
  let r := Z.shiftr (e_range st) 10 in
  let low := e_low st + r * cum_freq in
  let carry := if Z.shiftr low 24 =? 0 then e_carry st else 1 in
  ac_renorm 4 (mkAc (low mod 16777216) (r * sym_freq) (e_cache st) carry (e_ccount st)) o.

(* bitstream_encoding.rs:355-358: smallest bits >= 1 with range >> (24 - bits) != 0 *)
Fixpoint finish_bits (fuel : nat) (range bits : Z) : res Z :=
  if Z.shiftr range (24 - bits) =? 0 then
    match fuel with
    | O => Panic
    | S f => finish_bits f range (bits + 1)
    end
  else Ok bits.

(* bitstream_encoding.rs:376-379 *)
Fixpoint finish_shift (fuel : nat) (st : acenc) (o : out) (bits : Z) : res (acenc * out * Z) :=
  if 0 <? bits then
    match fuel with
    | O => Panic
    | S f =>
        '(st', o') <- ac_shift st o ;;
        finish_shift f st' o' (bits - 8)
    end
  else Ok (st, o, bits).

(* bitstream_encoding.rs:359-375: choice of the terminating code value: (bits, val, carry) *)
Definition finish_val (st : acenc) (bits : Z) : Z * Z * Z :=
  let mask := Z.shiftr 16777215 bits in
  let val0 := e_low st + mask in
  let over1 := Z.shiftr val0 24 in
  let high := e_low st + e_range st in
  let over2 := Z.shiftr high 24 in
  let val := Z.land val0 (Z.land 16777215 (4294967295 - mask)) in
  if over1 =? over2 then
    let '(bits, val) :=
      if high <=? val + mask then
        let mask := Z.shiftr mask 1 in
        (bits + 1, Z.land (Z.land (e_low st + mask) 16777215) (4294967295 - mask))
      else (bits, val) in
    (bits, val, if val <? e_low st then 1 else e_carry st)
  else (bits, val, e_carry st).

(* bitstream_encoding.rs:354-395 *)
Definition ac_enc_finish (st : acenc) (o : out) : res out :=
  bits <- finish_bits 24 (e_range st) 1 ;;
  let '(bits, val, carry) := finish_val st bits in
  '(st, o, bits) <- finish_shift 4 (mkAc val (e_range st) (e_cache st) carry (e_ccount st)) o bits ;;
  let bits := bits + 8 in
  if bits <? 0 then Panic
  else if 0 <? e_ccount st then
    o <- write_byte_forward (fst o) (snd o) (e_cache st mod 256) ;;
    o <- emit_n o 255 (Z.to_nat (e_ccount st - 1)) ;;
    (* `0xff >> (8 - bits)` *)
    buf <- write_uint_forward (fst o) (snd o) (Z.shiftr 255 (8 - bits)) bits ;;
    Ok (fst o, buf)
  else
    buf <- write_uint_forward (fst o) (snd o) (e_cache st mod 65536) bits ;;
    Ok (fst o, buf).
