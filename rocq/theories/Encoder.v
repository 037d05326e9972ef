(* The encoder as a state machine over any scalar type: /repo/src/encoder/lc3_encoder.rs *)
From Coq Require Import ZArith List Bool.
From Verif Require Import Base Config SideInfo Buffers Loops Scalar EncScalar DecSignal EncMdct EncDetect EncSns EncTns EncLtpf EncQuant FrameEnc Decoder.
Import ListNotations.
Local Open Scope Z_scope.

Section Encoder.
Context {F : Type} (o : ops F) (e : eops F) (t : target).

(* lc3_encoder.rs:43-60. The stages without a state of their own (noise shaping, noise level, residual bits, bit stream) have no field. *)
Record echannel : Type := mkEch {
  ec_mdct : emdct F;
  ec_bw : bwdet;
  ec_attack : attack F;
  ec_ltpf : eltpf F;
  ec_quant : equant F;
  ec_index : Z;         (* frame_index *)
  ec_bands : list F;    (* energy_bands, nb *)
  ec_out : list F;      (* mdct_out, nf *)
  ec_xq : list Z        (* spec_quant_out, ne *)
}.

(* 103-105: what is handed to the bit stream writer *)
Definition frame_params (bw nbw : Z) (s : sns_result) (tns : tns_result F) (p : ltpf_result) (q : quant_result F) (res : list bool) (nf : Z) (xq : list Z) : enc_params :=
  mkEnc bw nbw (qr_last q) (qr_lsb_mode q) (qr_gg_ind q) (tr_num tns) (tr_order tns) (tr_rc_i tns) (tr_weighting tns) (lr_present p) (lr_active p) (lr_index p)
    (sr_lf s) (sr_hf s) (sr_shape s) (sr_gind s) (sr_lsa s) (sr_joint s) nf (qr_rate q) (qr_lsb q) xq res.

(* 62-108: everything up to the call of the bit stream writer; nbytes is the length of the output buffer *)
Definition analyse (c : config) (ch : echannel) (x : list Z) (nbytes : Z) : res (enc_params * echannel) :=
  index <- uincr t (ec_index ch) ;;
  let nbits := nbytes * 8 in
  '(nn, out, bands, mdct) <- emdct_run o c (ec_mdct ch) x (ec_out ch) (ec_bands ch) ;;
  '(lines, rest) <- split_at (ne c) out ;;
  '(bw, nbw) <- bw_run o (ec_bw ch) bands ;;
  '(attack, at') <- attack_run o c (ec_attack ch) x nbytes ;;
  '(sns, lines) <- sns_encode o e c lines bands attack ;;
  '(tns, lines) <- tns_encode o e (t_chk t) c lines bw nbits nn ;;
  '(ltpf, lt') <- eltpf_run o e c (ec_ltpf ch) x nn nbits ;;
  '(q, xq, qst) <- quant_run o e (t_chk t) (ne c) (fs_ind c) (ec_quant ch) lines (ec_xq ch) nbits nbw (tr_nbits tns) (lr_nbits ltpf) ;;
  rb <- residual_encode o (qr_spec q) (qr_trunc q) (ne c) (qr_gg q) lines xq ;;
  nf <- noise_factor o e (n_ms c) (ne c) lines xq bw (qr_gg q) ;;
  Ok (frame_params bw nbw sns tns ltpf q rb nf xq, mkEch mdct (ec_bw ch) at' lt' qst index bands (lines ++ rest) xq).
(* 62-111 *)
Definition encode (c : config) (ch : echannel) (x buf : list Z) : res (echannel * list Z) :=
  '(p, ch) <- analyse c ch x (len buf) ;;
  buf <- FrameEnc.encode_frame (ne c) p buf ;;
  Ok (ch, buf).

(* 32-36 *)
Record encoder : Type := mkEncoder { e_config : config; e_channels : list echannel }.
(* 175-191 *)
Definition encode_call (en : encoder) (ch : Z) (x buf : list Z) : res (encoder * list Z) :=
  c <- idx (e_channels en) ch ;;
  '(c, buf) <- encode (e_config en) c x buf ;;
  cs <- put (e_channels en) ch c ;;
  Ok (mkEncoder (e_config en) cs, buf).

(* one channel from its buffers: 132-166. The buffers keep the caller's contents. *)
Definition echannel_of_parts (c : config) (ips : list (list Z)) (sps : list (list F)) (cps : list (list (F * F))) : res echannel :=
  match ips, sps, cps with
  | [frq; xs; xq], [x12; x6; out; bands], [_; input; output; _] =>
      b <- bwdet_new (n_ms c) (fs_ind c) ;;
      Ok (mkEch (mkEmdct frq input output) b (attack_new o) (eltpf_new o xs x12 x6) (equant_new o) 0 bands out xq)
  | _, _, _ => Panic
  end.
(* 117-173 *)
Definition encoder_new (num_channels : Z) (d : duration) (f : freq) (integer_buf : list Z) (scaler_buf : list F) (complex_buf : list (F * F)) : res encoder :=
  let c := config_new f d in
  '(parts, _, _, _) <- enc_new num_channels d f integer_buf scaler_buf complex_buf ;;
  chs <- map_res (fun '(i, s, x) => echannel_of_parts c i s x) parts ;;
  Ok (mkEncoder c chs).
End Encoder.
Arguments echannel : clear implicits.
Arguments encoder : clear implicits.
