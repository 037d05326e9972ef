(* Spectrum parser: /repo/src/decoder/arithmetic_codec.rs:99-405 *)
From Coq Require Import ZArith List Bool.
From Verif Require Import Base Config Reader AcDec SideInfo TablesSpec TablesTns.
Import ListNotations.
Local Open Scope Z_scope.

(* arithmetic_codec.rs:100-107 *)
Record arith_data : Set := mkArith {
  a_rc_order : list Z;
  a_rc_i : list Z;
  a_residual : list bool;
  a_seed : Z;
  a_zero_frame : bool;
  a_nbits : Z
}.

(* ---- TNS: arithmetic_codec.rs:307-344 ---- *)

(* inner loop 333-339: writes tns_idx[f * 8 + k] for k = k0 .. k0 + n - 1 *)
Fixpoint dec_tns_coefs (n : nat) (k f : Z) (buf : list Z) (r : reader) (st : acdec) (tns_idx : list Z)
  : res (list Z * acdec * reader) :=
  match n with
  | O => Ok (tns_idx, st, r)
  | S n' =>
      cum <- idx AC_TNS_COEF_CUMFREQ k ;;
      freq <- idx AC_TNS_COEF_FREQ k ;;
      '(v, st, r) <- ac_decode buf r st cum freq ;;
      tns_idx <- store tns_idx (f * 8 + k) v ;;
      dec_tns_coefs n' (k + 1) f buf r st tns_idx
  end.

(* outer loop 325-341 over the flags of the filters f, f + 1, ... *)
Fixpoint dec_tns_filters (flags : list Z) (f widx : Z) (buf : list Z) (r : reader) (st : acdec) (tns_idx : list Z)
  : res (list Z * list Z * acdec * reader) :=
  match flags with
  | [] => Ok ([], tns_idx, st, r)
  | flag :: rest =>
      if 0 <? flag then
        cum <- idx AC_TNS_ORDER_CUMFREQ widx ;;
        freq <- idx AC_TNS_ORDER_FREQ widx ;;
        '(order, st, r) <- ac_decode buf r st cum freq ;;
        '(tns_idx, st, r) <- dec_tns_coefs (Z.to_nat (order + 1)) 0 f buf r st tns_idx ;;
        '(orders, tns_idx, st, r) <- dec_tns_filters rest (f + 1) widx buf r st tns_idx ;;
        Ok ((order + 1) :: orders, tns_idx, st, r)
      else
        '(orders, tns_idx, st, r) <- dec_tns_filters rest (f + 1) widx buf r st tns_idx ;;
        Ok (flag :: orders, tns_idx, st, r)
  end.

Definition tns_weighting (d : duration) (nbits : Z) : Z :=
  b2z (nbits <? match d with SevenPointFiveMs => 360 | TenMs => 480 end).

Definition decode_tns_data (buf : list Z) (r : reader) (si : side_info) (st : acdec) (nbits : Z) (d : duration)
  : res (list Z * list Z * acdec * reader) :=
  let n := Z.to_nat (s_num_tns si) in
  '(orders, tns_idx, st, r) <-
     dec_tns_filters (firstn n (s_rc_order si)) 0 (tns_weighting d nbits) buf r st (repeat 0 16) ;;
  Ok (tns_idx, orders ++ skipn n (s_rc_order si), st, r).

(* ---- spectrum: arithmetic_codec.rs:211-305 ---- *)

(* `while lev < 14`, lines 240-267; n = 14 - lev; the result is (sym, lev, x_k, x_kplus1, st, r) *)
Fixpoint dec_levels (n : nat) (lev t sym x0 x1 : Z) (lsb_mode : bool) (buf : list Z) (r : reader) (st : acdec)
  : res (Z * Z * Z * Z * acdec * reader) :=
  match n with
  | O => Ok (sym, lev, x0, x1, st, r)
  | S n' =>
      pki <- idx AC_SPEC_LOOKUP (t + Z.min lev 3 * 1024) ;;
      cum <- idx AC_SPEC_CUMFREQ pki ;;
      freq <- idx AC_SPEC_FREQ pki ;;
      '(sym, st, r) <- ac_decode buf r st cum freq ;;
      if sym <? 16 then Ok (sym, lev, x0, x1, st, r)
      else if negb lsb_mode || (0 <? lev) then
        '(b0, r) <- read_tail_bool r buf ;;
        '(b1, r) <- read_tail_bool r buf ;;
        dec_levels n' (lev + 1) t sym (x0 + Z.shiftl (b2z b0) lev) (x1 + Z.shiftl (b2z b1) lev) lsb_mode buf r st
      else dec_levels n' (lev + 1) t sym x0 x1 lsb_mode buf r st
  end.

(* 280-287, 289-296 *)
Definition dec_sign (x : Z) (buf : list Z) (r : reader) : res (Z * reader) :=
  if 0 <? x then
    '(b, r) <- read_tail_bool r buf ;;
    Ok (if b : bool then - x else x, r)
  else Ok (x, r).

(* 298-301 *)
Definition next_ctx (c lev a b : Z) : Z :=
  let lev := Z.min lev 3 in
  let t := if lev <=? 1 then 1 + (a + b) * (lev + 1) else 12 + lev in
  Z.land c 15 * 16 + t.

(* one pair k (226-302): returns (x_k, x_kplus1, lev, c, st, r) *)
Definition dec_pair (k c rate_flag ne : Z) (lsb_mode : bool) (buf : list Z) (r : reader) (st : acdec)
  : res (Z * Z * Z * Z * acdec * reader) :=
  let t := c + rate_flag + (if ne / 2 <? k * 2 then 256 else 0) in
  '(sym, lev, x0, x1, st, r) <- dec_levels 14 0 t 0 0 0 lsb_mode buf r st ;;
  let a := Z.land sym 3 in
  let b := Z.shiftr sym 2 in
  '(x0, r) <- dec_sign (x0 + Z.shiftl a lev) buf r ;;
  '(x1, r) <- dec_sign (x1 + Z.shiftl b lev) buf r ;;
  Ok (x0, x1, lev, next_ctx c lev a b, st, r).

(* all pairs; the lines are written in order, so they are returned as a list, with the levels *)
Fixpoint dec_pairs (n : nat) (k c rate_flag ne : Z) (lsb_mode : bool) (buf : list Z) (r : reader) (st : acdec)
  : res (list Z * list Z * acdec * reader) :=
  match n with
  | O => Ok ([], [], st, r)
  | S n' =>
      '(x0, x1, lev, c, st, r) <- dec_pair k c rate_flag ne lsb_mode buf r st ;;
      '(xs, levs, st, r) <- dec_pairs n' (k + 1) c rate_flag ne lsb_mode buf r st ;;
      Ok (x0 :: x1 :: xs, lev :: levs, st, r)
  end.

Definition rate_flag (nbits fs_ind : Z) : Z := if 160 + fs_ind * 160 <? nbits then 512 else 0.

(* x and save_lev are the zero initialised arrays of length MAX_LEN_SPECTRAL (lc3_decoder.rs:88,
   arithmetic_codec.rs:128); save_lev[k] is only written in lsb mode (269-272) and lines from lastnz on are zeroed
   (132-134) *)
Definition decode_spectral_data (buf : list Z) (r : reader) (si : side_info) (nbits fs_ind ne : Z) (st : acdec)
  : res (list Z * list Z * acdec * reader) :=
  if MAX_LEN_SPECTRAL <? s_lastnz si then Panic
  else
    let n := Z.to_nat (s_lastnz si / 2) in
    '(xs, levs, st, r) <- dec_pairs n 0 0 (rate_flag nbits fs_ind) ne (s_lsb_mode si) buf r st ;;
    let pad := fun l : list Z => l ++ repeat 0 (Z.to_nat MAX_LEN_SPECTRAL - length l) in
    Ok (pad xs, pad (if s_lsb_mode si then levs else []), st, r).

(* ---- residual: arithmetic_codec.rs:160-208, 346-405 ---- *)

(* 390-405 *)
Definition calc_num_residual_bits (r : reader) (st : acdec) (total_bits : Z) : res Z :=
  nbits_side <- usub (r_tail r) 8 ;;
  h <- usub (r_head r + 1) 3 ;;
  nbits_ari <- usub (h * 8 + 25) (log2_floor (d_range st)) ;;
  if nbits_side + nbits_ari <=? total_bits then Ok (total_bits - nbits_side - nbits_ari)
  else Err NegativeResidualNumBits.

(* 178-192; `count` is residual_bits.len(), whose capacity is 480 *)
Fixpoint dec_res_bits (xs : list Z) (count nres : Z) (buf : list Z) (r : reader) : res (list bool * reader) :=
  match xs with
  | [] => Ok ([], r)
  | x :: xs' =>
      if x =? 0 then dec_res_bits xs' count nres buf r
      else if count =? nres then Ok ([], r)
      else
        '(b, r) <- read_tail_bool r buf ;;
        if MAX_LEN_FREQUENCY <=? count then Err ResidualBoolDataOverflow
        else
          '(bs, r) <- dec_res_bits xs' (count + 1) nres buf r ;;
          Ok (b :: bs, r)
  end.

(* 346-388: returns (continue?, x, remaining bits, r) *)
Definition read_res_bit (x : list Z) (r : reader) (buf : list Z) (k nres : Z) : res (bool * list Z * Z * reader) :=
  if nres =? 0 then Ok (false, x, nres, r)
  else
    '(bit, r) <- read_tail_bool r buf ;;
    nres <- usub nres 1 ;;
    if bit : bool then
      v <- idx x k ;;
      if 0 <? v then x <- store x k (v + 1) ;; Ok (true, x, nres, r)
      else if v <? 0 then x <- store x k (v - 1) ;; Ok (true, x, nres, r)
      else if nres =? 0 then Ok (false, x, nres, r)
      else
        '(bit, r) <- read_tail_bool r buf ;;
        nres <- usub nres 1 ;;
        x <- store x k (if bit : bool then -1 else 1) ;;
        Ok (true, x, nres, r)
    else Ok (true, x, nres, r).

(* 194-204: k = 0, 2, 4, ... below lastnz (n pairs); save_lev is indexed with the line number k *)
Fixpoint dec_lsb_bits (n : nat) (k : Z) (x save_lev : list Z) (nres : Z) (buf : list Z) (r : reader) : res (list Z * reader) :=
  match n with
  | O => Ok (x, r)
  | S n' =>
      lev <- idx save_lev k ;;
      if 0 <? lev then
        '(go, x, nres, r) <- read_res_bit x r buf k nres ;;
        if negb go then Ok (x, r)
        else
          '(go, x, nres, r) <- read_res_bit x r buf (k + 1) nres ;;
          if negb go then Ok (x, r) else dec_lsb_bits n' (k + 2) x save_lev nres buf r
      else dec_lsb_bits n' (k + 2) x save_lev nres buf r
  end.

Definition decode_residual_bits (buf : list Z) (r : reader) (si : side_info) (st : acdec) (nbits ne : Z)
  (x save_lev : list Z) : res (list bool * list Z * reader) :=
  nres <- calc_num_residual_bits r st nbits ;;
  if negb (s_lsb_mode si) then
    xs <- slice x 0 ne ;;
    '(bs, r) <- dec_res_bits xs 0 nres buf r ;;
    Ok (bs, x, r)
  else
    '(x, r) <- dec_lsb_bits (Z.to_nat ((s_lastnz si + 1) / 2)) 0 x save_lev nres buf r ;;
    Ok ([], x, r).

(* ---- noise filling seed: arithmetic_codec.rs:140-145 ---- *)

(* i32 arithmetic: with overflow checks (`chk`) an overflow panics, without them the sum wraps *)
Definition i32_max : Z := 2147483647.
Fixpoint seed_sum (chk : bool) (xs : list Z) (k acc : Z) : res Z :=
  match xs with
  | [] => Ok acc
  | x :: xs' =>
      let p := Z.abs x * k in
      if chk && ((i32_max <? p) || (i32_max <? acc + p)) then Panic
      else seed_sum chk xs' (k + 1) (acc + p)
  end.

(* arithmetic_codec.rs:109-158; the result also holds the spectrum x *)
Definition decode_arith (chk : bool) (buf : list Z) (r : reader) (fs_ind ne : Z) (si : side_info) (d : duration)
  : res (arith_data * list Z * reader) :=
  let nbits := len buf * 8 in
  '(st, r) <- ac_dec_init buf r ;;
  '(tns_idx, tns_order, st, r) <- decode_tns_data buf r si st nbits d ;;
  '(x, save_lev, st, r) <- decode_spectral_data buf r si nbits fs_ind ne st ;;
  '(residual, x, r) <- decode_residual_bits buf r si st nbits ne x save_lev ;;
  xs <- slice x 0 ne ;;
  sum <- seed_sum chk xs 0 0 ;;
  x0 <- idx x 0 ;;
  x1 <- idx x 1 ;;
  let zero := (s_lastnz si =? 2) && (x0 =? 0) && (x1 =? 0) && (s_gg si =? 0) in
  Ok (mkArith tns_order tns_idx residual (Z.land sum 65535) zero nbits, x, r).
