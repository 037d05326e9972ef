(* Frame writer: /repo/src/encoder/bitstream_encoding.rs:36-352 *)
From Coq Require Import ZArith List Bool.
From Verif Require Import Base Writer AcEnc TablesSpec TablesTns TablesSns.
Import ListNotations.
Local Open Scope Z_scope.

(* the arguments of `BitstreamEncoding::encode` (bitstream_encoding.rs:77-88) that it uses *)
Record enc_params : Set := mkEnc {
  p_bw : Z;            (* bandwidth.bandwidth_ind *)
  p_nbits_bw : Z;      (* bandwidth.nbits_bandwidth *)
  p_lastnz : Z;        (* spec.lastnz_trunc *)
  p_lsb_mode : bool;   (* spec.lsb_mode *)
  p_gg : Z;            (* spec.gg_ind *)
  p_num_tns : Z;       (* tns.num_tns_filters *)
  p_rc_order : list Z; (* tns.rc_order *)
  p_rc_i : list Z;     (* tns.rc_i *)
  p_lpc_weighting : Z; (* tns.lpc_weighting *)
  p_pitch_present : bool;
  p_ltpf_active : bool;
  p_pitch_index : Z;
  p_ind_lf : Z; p_ind_hf : Z; p_shape_j : Z; p_gind : Z; p_ls_inda : Z; p_index_joint : Z;
  p_nf : Z;            (* noise_factor *)
  p_rate_flag : Z;     (* spec.rate_flag *)
  p_nbits_lsb : Z;     (* spec.nbits_lsb *)
  p_xq : list Z;       (* spec_output *)
  p_res_bits : list bool (* residual_bits *)
}.

Definition wbool (o : out) (b : bool) : res out := write_bool_backward (fst o) (snd o) b.
Definition wuint (o : out) (v n : Z) : res out := write_uint_backward (fst o) (snd o) v (Z.to_nat n).

Fixpoint wbools (o : out) (l : list bool) : res out :=
  match l with
  | [] => Ok o
  | b :: l' => o <- wbool o b ;; wbools o l'
  end.

(* 146-150 *)
Definition enc_bandwidth (o : out) (p_bw nbits_bw : Z) : res out :=
  if 0 <? nbits_bw then wuint o p_bw nbits_bw else Ok o.

(* 152-156; `(ne as f64 / 2.0).log2().ceil()` is taken as ceil(log2(ne/2)) for even ne *)
Definition enc_lastnz (o : out) (ne lastnz : Z) : res out :=
  v <- usub (Z.shiftr lastnz 1) 1 ;;
  wuint o v (log2_ceil (ne / 2)).

(* 166-171 *)
Definition enc_tns_flags (o : out) (num : Z) (rc_order : list Z) : res out :=
  if len rc_order <? num then Panic
  else wbools o (map (fun x => negb (x =? 0)) (firstn (Z.to_nat num) rc_order)).

(* 182-205 *)
Definition enc_scf2 (o : out) (shape_j gain_i ls_inda index_joint : Z) : res out :=
  let submode_msb := negb (Z.shiftr shape_j 1 =? 0) in
  o <- wbool o submode_msb ;;
  nb <- idx SNS_GAIN_MSB_BITS shape_j ;;
  lb <- idx SNS_GAIN_LSB_BITS shape_j ;;
  o <- wuint o (Z.shiftr gain_i lb) nb ;;
  o <- wbool o (negb (ls_inda =? 0)) ;;
  if negb submode_msb then
    o <- wuint o index_joint 13 ;;
    wuint o (Z.shiftr index_joint 13) 12
  else
    o <- wuint o index_joint 12 ;;
    wuint o (Z.shiftr index_joint 12) 12.

(* side information, 90-110 *)
Definition enc_side (o : out) (ne : Z) (p : enc_params) : res out :=
  o <- enc_bandwidth o (p_bw p) (p_nbits_bw p) ;;
  o <- enc_lastnz o ne (p_lastnz p) ;;
  o <- wbool o (p_lsb_mode p) ;;
  o <- wuint o (p_gg p) 8 ;;
  o <- enc_tns_flags o (p_num_tns p) (p_rc_order p) ;;
  o <- wbool o (p_pitch_present p) ;;
  o <- wuint o (p_ind_lf p) 5 ;;
  o <- wuint o (p_ind_hf p) 5 ;;
  o <- enc_scf2 o (p_shape_j p) (p_gind p) (p_ls_inda p) (p_index_joint p) ;;
  o <- (if p_pitch_present p then
          o <- wbool o (p_ltpf_active p) ;;
          wuint o (p_pitch_index p) 9
        else Ok o) ;;
  wuint o (p_nf p) 3.

(* 237-241 *)
Fixpoint enc_tns_coefs (n : nat) (k f : Z) (rc_i : list Z) (st : acenc) (o : out) : res (acenc * out) :=
  match n with
  | O => Ok (st, o)
  | S n' =>
      v <- idx rc_i (k + 8 * f) ;;
      cum_freq <- idx2 AC_TNS_COEF_CUMFREQ k v ;;
      sym_freq <- idx2 AC_TNS_COEF_FREQ k v ;;
      '(st, o) <- ac_encode st o cum_freq sym_freq ;;
      enc_tns_coefs n' (k + 1) f rc_i st o
  end.

(* 232-243: filters f, f + 1, ... *)
Fixpoint enc_tns_filters (n : nat) (f w : Z) (rc_order rc_i : list Z) (st : acenc) (o : out) : res (acenc * out) :=
  match n with
  | O => Ok (st, o)
  | S n' =>
      ord <- idx rc_order f ;;
      '(st, o) <-
        (if 0 <? ord then
           cum_freq <- idx2 AC_TNS_ORDER_CUMFREQ w (ord - 1) ;;
           sym_freq <- idx2 AC_TNS_ORDER_FREQ w (ord - 1) ;;
           '(st, o) <- ac_encode st o cum_freq sym_freq ;;
           enc_tns_coefs (Z.to_nat ord) 0 f rc_i st o
         else Ok (st, o)) ;;
      enc_tns_filters n' (f + 1) w rc_order rc_i st o
  end.

(* 271-287: the escape loop on one pair; fuel stands for termination.
   Result: (a, b, lev, lsb0, lsb1, st, o) *)
Fixpoint enc_levels (fuel : nat) (t a b lev lsb0 lsb1 : Z) (lsb_mode : bool) (st : acenc) (o : out)
  : res (Z * Z * Z * Z * Z * acenc * out) :=
  if 4 <=? Z.max a b then
    match fuel with
    | O => Panic
    | S f =>
        pki <- idx AC_SPEC_LOOKUP (t + Z.min lev 3 * 1024) ;;
        cum_freq <- idx2 AC_SPEC_CUMFREQ pki 16 ;;
        sym_freq <- idx2 AC_SPEC_FREQ pki 16 ;;
        '(st, o) <- ac_encode st o cum_freq sym_freq ;;
        if lsb_mode && (lev =? 0) then
          enc_levels f t (Z.shiftr a 1) (Z.shiftr b 1) (lev + 1) (Z.land a 1) (Z.land b 1) lsb_mode st o
        else
          o <- wbool o (Z.land a 1 =? 1) ;;
          o <- wbool o (Z.land b 1 =? 1) ;;
          enc_levels f t (Z.shiftr a 1) (Z.shiftr b 1) (lev + 1) lsb0 lsb1 lsb_mode st o
    end
  else Ok (a, b, lev, lsb0, lsb1, st, o).

(* self.lsbs[self.nlsbs] = v; self.nlsbs += 1 : the vector was filled with nbits_lsb zeros (256-259) and only
   the entries written here are read later, so the written prefix is kept as a list *)
Definition push_lsb (nbits_lsb : Z) (lsbs : list Z) (v : Z) : res (list Z) :=
  if len lsbs <? nbits_lsb then Ok (lsbs ++ [v]) else Panic.

(* 319-324 *)
Definition enc_next_ctx (c lev a b : Z) : Z :=
  let lev := Z.min lev 3 in
  let t := if lev <=? 1 then 1 + (a + b) * (lev + 1) else 12 + lev in
  Z.land c 15 * 16 + t.

(* one pair, 263-324 *)
Definition enc_pair (ne k c rate_flag : Z) (lsb_mode : bool) (nbits_lsb x0 x1 : Z) (lsbs : list Z) (st : acenc) (o : out)
  : res (Z * list Z * acenc * out) :=
  let t := c + rate_flag + (if ne / 2 <? k then 256 else 0) in
  let a0 := Z.abs x0 in
  let b0 := Z.abs x1 in
  '(a, b, lev, lsb0, lsb1, st, o) <- enc_levels 16 t a0 b0 0 0 0 lsb_mode st o ;;
  pki <- idx AC_SPEC_LOOKUP (t + Z.min lev 3 * 1024) ;;
  let sym := a + 4 * b in
  cum_freq <- idx2 AC_SPEC_CUMFREQ pki sym ;;
  sym_freq <- idx2 AC_SPEC_FREQ pki sym ;;
  '(st, o) <- ac_encode st o cum_freq sym_freq ;;
  '(a_lsb, b_lsb, lsbs) <-
    (if lsb_mode && (0 <? lev) then
       let a_lsb := Z.shiftr a0 1 in
       let b_lsb := Z.shiftr b0 1 in
       lsbs <- push_lsb nbits_lsb lsbs lsb0 ;;
       lsbs <- (if (a_lsb =? 0) && negb (x0 =? 0) then push_lsb nbits_lsb lsbs (if 0 <? x0 then 0 else 1) else Ok lsbs) ;;
       lsbs <- push_lsb nbits_lsb lsbs lsb1 ;;
       lsbs <- (if (b_lsb =? 0) && negb (x1 =? 0) then push_lsb nbits_lsb lsbs (if 0 <? x1 then 0 else 1) else Ok lsbs) ;;
       Ok (a_lsb, b_lsb, lsbs)
     else Ok (a0, b0, lsbs)) ;;
  o <- (if 0 <? a_lsb then wbool o (x0 <=? 0) else Ok o) ;;
  o <- (if 0 <? b_lsb then wbool o (x1 <=? 0) else Ok o) ;;
  Ok (enc_next_ctx c lev a b, lsbs, st, o).

(* 262-325: k, k + 2, ... (n pairs) *)
Fixpoint enc_pairs (n : nat) (ne k c rate_flag : Z) (lsb_mode : bool) (nbits_lsb : Z) (xq lsbs : list Z) (st : acenc) (o : out)
  : res (list Z * acenc * out) :=
  match n with
  | O => Ok (lsbs, st, o)
  | S n' =>
      x0 <- idx xq k ;;
      x1 <- idx xq (k + 1) ;;
      '(c, lsbs, st, o) <- enc_pair ne k c rate_flag lsb_mode nbits_lsb x0 x1 lsbs st o ;;
      enc_pairs n' ne (k + 2) c rate_flag lsb_mode nbits_lsb xq lsbs st o
  end.

(* MAX_NBITS_LSB, 13 *)
Definition MAX_NBITS_LSB : Z := 3840.

(* 64-75 *)
Definition nbits_side_forecast (st : acenc) (w : writer) : Z :=
  w_bp w * 8 + (25 - log2_floor (e_range st)) + (if 0 <=? e_carry st then 8 else 0) +
  (if 0 <? e_ccount st then e_ccount st * 8 else 0).

(* 328-352 *)
Definition enc_residual (nbits : Z) (lsb_mode : bool) (lsbs : list Z) (res_bits : list bool) (st : acenc) (o : out) : res out :=
  nbits_side <- nbits_side_written (fst o) nbits ;;
  let nres := Z.max 0 (nbits - (nbits_side + nbits_side_forecast st (fst o))) in
  o <- (if negb lsb_mode then wbools o (firstn (Z.to_nat nres) res_bits)
        else wbools o (map (fun v => v =? 1) (firstn (Z.to_nat (Z.min nres (len lsbs))) lsbs))) ;;
  ac_enc_finish st o.

(* 77-144: the output buffer is passed in with arbitrary content and cleared *)
Definition encode_frame (ne : Z) (p : enc_params) (buf0 : list Z) : res (list Z) :=
  let nbits := len buf0 * 8 in
  w <- writer_new (len buf0) ;;
  o <- enc_side (w, repeat 0 (length buf0)) ne p ;;
  '(st, o) <- enc_tns_filters (Z.to_nat (p_num_tns p)) 0 (p_lpc_weighting p) (p_rc_order p) (p_rc_i p) ac_enc_init o ;;
  _ <- nbits_side_written (fst o) nbits ;;
  if MAX_NBITS_LSB <? p_nbits_lsb p then Panic
  else
    '(lsbs, st, o) <- enc_pairs (Z.to_nat ((p_lastnz p + 1) / 2)) ne 0 0 (p_rate_flag p) (p_lsb_mode p) (p_nbits_lsb p) (p_xq p) [] st o ;;
    o <- enc_residual nbits (p_lsb_mode p) lsbs (p_res_bits p) st o ;;
    Ok (snd o).
