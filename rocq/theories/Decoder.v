(* The decoder as a state machine over any scalar type: /repo/src/decoder/lc3_decoder.rs *)
From Coq Require Import ZArith List Bool.
From Verif Require Import Base Config SideInfo ArithDec FrameDec Buffers Loops Scalar DecSignal DecMdct DecLtpf.
Import ListNotations.
Local Open Scope Z_scope.

Section Decoder.
Context {F : Type} (o : ops F) (t : target).

(* lc3_decoder.rs:61-68 *)
Record channel : Type := mkChannel {
  ch_lines : list F;    (* spec_lines, ne *)
  ch_freq : list F;     (* freq_samples, nf *)
  ch_plc : plc F;
  ch_mdct : mdct F;
  ch_ltpf : ltpf F;
  ch_index : Z          (* frame_index *)
}.

(* lc3_decoder.rs:73-154. The result is the returned value (None = Ok), the new state and the output samples; a panic is `Panic`. *)
(* 93-135: a parsed frame *)
Definition decode_lines (c : config) (f : frame) (lines : list F) : res (list F) :=
  spec <- sub (f_spec f) 0 (ne c) ;;
  let lines := zipmod (fun _ v => fz o v) lines spec in
  let si := f_side f in
  let ad := f_arith f in
  let lines := residual_decode o (s_lsb_mode si) (a_residual ad) lines in
  lines <- noise_fill o (t_chk t) (a_zero_frame ad) (a_seed ad) (s_bw si) (n_ms c) (s_nf si) (f_spec f) lines ;;
  let lines := global_gain o (a_nbits ad) (fs_ind c) (s_gg si) lines in
  lines <- tns_decode o (n_ms c) (s_bw si) (s_num_tns si) (a_rc_order ad) (a_rc_i ad) lines ;;
  sns_decode o c (s_sns si) lines.
(* 91-144: parsed or concealed *)
Definition decode_spectrum (c : config) (ch : channel) (buf : list Z) : res (plc F * list F * ltpf_info) :=
  match read_frame (t_chk t) c buf with
  | Ok f =>
      lines <- decode_lines c f (ch_lines ch) ;;
      p <- plc_save o (ch_plc ch) lines ;;
      Ok (p, lines, s_ltpf (f_side f))
  | Err _ => '(p, lines) <- plc_load o t (ch_plc ch) (ch_lines ch) ;; Ok (p, lines, plc_ltpf)
  | Panic => Panic
  end.
Definition decode_channel (c : config) (ch : channel) (bits : Z) (buf : list Z) (out : list Z) : res (option err * channel * list Z) :=
  if negb (bits =? 16) then Ok (Some Only16BitsPerAudioSampleSupported, ch, out)
  else
    index <- uincr t (ch_index ch) ;;
    '(p, lines, info) <- decode_spectrum c ch buf ;;
    '(freq, m) <- mdct_run o c (ch_mdct ch) lines (ch_freq ch) ;;
    '(freq, l) <- ltpf_run o c (ch_ltpf ch) info (len buf * 8) freq ;;
    Ok (None, mkChannel lines freq p m l index, scale_and_round o freq out).

(* lc3_decoder.rs:47-58 *)
Record decoder : Type := mkDecoder { d_config : config; d_channels : list channel }.

(* lc3_decoder.rs:217-234 *)
Definition decode_frame (d : decoder) (bits ch : Z) (buf : list Z) (out : list Z) : res (option err * decoder * list Z) :=
  c <- idx (d_channels d) ch ;;
  '(r, c, out) <- decode_channel (d_config d) c bits buf out ;;
  cs <- put (d_channels d) ch c ;;
  Ok (r, mkDecoder (d_config d) cs, out).

(* one channel from its parts: lc3_decoder.rs:193-209, packet_loss_concealment.rs:24-38, modified_dct.rs:24-68,
   long_term_post_filter.rs:61-102. The buffers keep the caller's contents, except the two that are cleared. *)
Definition channel_of_parts (sps : list (list F)) (cps : list (list (F * F))) : res channel :=
  match sps, cps with
  | [x_hat; last; ola; t_hat; zeros; half; x; xl; cn; cd; cnm; cdm; cz; scratch; freq], [_; input; output; _] =>
      Ok (mkChannel x_hat freq (plc_new o last) (mkMdct ola t_hat (map (fun _ => fz o 0) zeros) half input output)
            (mkLtpfSt (map (fun _ => fz o 0) cz) false 0 cn cd cnm cdm 0 0 xl x scratch) 0)
  | _, _ => Panic
  end.
Fixpoint map_res {A B} (f : A -> res B) (l : list A) : res (list B) :=
  match l with [] => Ok [] | a :: t => b <- f a ;; bs <- map_res f t ;; Ok (b :: bs) end.
(* lc3_decoder.rs:181-215 *)
Definition decoder_new (num_channels : Z) (d : duration) (f : freq) (scaler_buf : list F) (complex_buf : list (F * F)) : res decoder :=
  '(parts, _, _) <- dec_new num_channels d f scaler_buf complex_buf ;;
  chs <- map_res (fun '(s, c) => channel_of_parts s c) parts ;;
  Ok (mkDecoder (config_new f d) chs).
End Decoder.
Arguments channel : clear implicits.
Arguments decoder : clear implicits.
