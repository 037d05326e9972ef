(* Splitting of the caller's working buffers by the constructors.
   Buffers are lists; `split_at_mut` hands out disjoint parts, so a constructor returns the parts it keeps and the rest. *)
From Coq Require Import ZArith List Bool.
From Verif Require Import Base Config TablesBand FftFactor.
Import ListNotations.
Local Open Scope Z_scope.

(* <[T]>::split_at_mut: panics when n > len *)
Definition split_at {A} (n : Z) (l : list A) : res (list A * list A) :=
  if (n <? 0) || (len l <? n) then Panic else Ok (firstn (Z.to_nat n) l, skipn (Z.to_nat n) l).

(* consecutive splits *)
Fixpoint splits {A} (ns : list Z) (l : list A) : res (list (list A) * list A) :=
  match ns with
  | [] => Ok ([], l)
  | n :: t => '(a, l) <- split_at n l ;; '(ps, l) <- splits t l ;; Ok (a :: ps, l)
  end.

Definition factor_fuel (n : Z) : nat := S (S (Z.to_nat n)).

(* kissfft.rs:17-41 and common/dct_iv.rs:22-50: twiddles of the FFT, input, output, twiddles of the DCT *)
Definition dct_new {A} (nf : Z) (complex_buf : list A) : res (list (list A) * list A) :=
  let count := nf / 2 in
  '(tw, complex_buf) <- split_at count complex_buf ;;
  _ <- kf_factor (gt_sqrt count) (factor_fuel count) count ;;
  '(ps, complex_buf) <- splits [count; count; count] complex_buf ;;
  Ok (tw :: ps, complex_buf).

(* dct_iv.rs:69-71 *)
Definition dct_len (c : config) : Z := nf c / 2 * 4.

(* ---- decoder ---- *)
(* decoder/modified_dct.rs:24-68; the window match at 36-52 panics for an unknown frame length *)
Definition dec_mdct_new {A B} (c : config) (scaler_buf : list A) (complex_buf : list B) : res (list (list A) * list (list B) * list A * list B) :=
  '(cps, complex_buf) <- dct_new (nf c) complex_buf ;;
  n1 <- usub (nf c) (zlead c) ;;
  n3 <- usub (nf c) (ne c) ;;
  '(sps, scaler_buf) <- splits [n1; nf c * 2; n3; nf c / 2] scaler_buf ;;
  _ <- match n_ms c with
       | SevenPointFiveMs => if existsb (Z.eqb (nf c)) [60; 120; 180; 240; 360] then Ok tt else Panic
       | TenMs => if existsb (Z.eqb (nf c)) [80; 160; 240; 320; 480] then Ok tt else Panic
       end ;;
  Ok (sps, cps, scaler_buf, complex_buf).
(* decoder/modified_dct.rs:153-164 *)
Definition dec_mdct_len (c : config) : Z * Z := (nf c / 2 + (nf c - ne c) + (nf c - zlead c) + nf c * 2 + nf c, dct_len c).

(* decoder/long_term_post_filter.rs:104-134: (num_mem_blocks, x_hat_mem, x_hat_ltpf_mem, c_num, c_den, norm, scratch) *)
Record ltpf_lens : Set := mkLtpfLens { l_blocks : Z; l_x : Z; l_xltpf : Z; l_cnum : Z; l_cden : Z; l_norm : Z; l_scratch : Z }.
Definition ltpf_l_den (fs : Z) : res Z :=
  if fs =? 8000 then Ok 4 else if fs =? 16000 then Ok 4 else if fs =? 24000 then Ok 6 else if fs =? 32000 then Ok 8
  else if fs =? 44100 then Ok 11 else if fs =? 48000 then Ok 12 else Panic.
Definition ltpf_lengths (c : config) : res ltpf_lens :=
  l_den <- ltpf_l_den (fs c) ;;
  let l_num := l_den - 2 in
  let '(blocks, norm) := match n_ms c with TenMs => (2, nf c / 4) | SevenPointFiveMs => (3, nf c / 3) end in
  Ok (mkLtpfLens blocks (nf c * blocks) (nf c * blocks) (l_num + 1) (l_den + 1) norm (l_num + norm)).
(* decoder/long_term_post_filter.rs:61-102 *)
Definition dec_ltpf_new {A} (c : config) (scaler_buf : list A) : res (list (list A) * list A) :=
  n <- ltpf_lengths c ;;
  splits [l_x n; l_xltpf n; l_cnum n; l_cden n; l_cnum n; l_cden n; l_cden n; l_scratch n] scaler_buf.
(* decoder/long_term_post_filter.rs:136-139 *)
Definition dec_ltpf_len (c : config) : res Z :=
  n <- ltpf_lengths c ;; Ok (l_cden n * 3 + l_cnum n * 2 + l_xltpf n + l_x n + l_scratch n).

(* decoder/lc3_decoder.rs:156-162 *)
Definition dec_channel_len (c : config) : res (Z * Z) :=
  let '(s, cx) := dec_mdct_len c in
  l <- dec_ltpf_len c ;;
  Ok (ne c + ne c + s + l, cx).

(* lc3_decoder.rs:193-209: one channel; packet_loss_concealment.rs:25-38 takes ne *)
Definition dec_channel_new {A B} (c : config) (scaler_buf : list A) (complex_buf : list B) : res (list (list A) * list (list B) * list A * list B) :=
  '(x_hat, scaler_buf) <- split_at (ne c) scaler_buf ;;
  '(last_good, scaler_buf) <- split_at (ne c) scaler_buf ;;
  '(sps, cps, scaler_buf, complex_buf) <- dec_mdct_new c scaler_buf complex_buf ;;
  '(lps, scaler_buf) <- dec_ltpf_new c scaler_buf ;;
  '(freq_buf, scaler_buf) <- split_at (nf c) scaler_buf ;;
  Ok (x_hat :: last_good :: sps ++ lps ++ [freq_buf], cps, scaler_buf, complex_buf).

(* a loop `for _ in 0..num_channels`, handing the rest of the buffers from channel to channel *)
Fixpoint dec_channels {A B} (k : nat) (c : config) (scaler_buf : list A) (complex_buf : list B) : res (list (list (list A) * list (list B)) * list A * list B) :=
  match k with
  | O => Ok ([], scaler_buf, complex_buf)
  | S k => '(sps, cps, scaler_buf, complex_buf) <- dec_channel_new c scaler_buf complex_buf ;;
           '(chs, scaler_buf, complex_buf) <- dec_channels k c scaler_buf complex_buf ;;
           Ok ((sps, cps) :: chs, scaler_buf, complex_buf)
  end.

(* lc3_decoder.rs:181-215 `Lc3Decoder::new`; the buffers left over are also returned *)
Definition dec_new {A B} (num_channels : Z) (d : duration) (f : freq) (scaler_buf : list A) (complex_buf : list B) :=
  dec_channels (Z.to_nat num_channels) (config_new f d) scaler_buf complex_buf.
(* lc3_decoder.rs:236-244 *)
Definition dec_lens (num_channels : Z) (d : duration) (f : freq) : res (Z * Z) :=
  '(s, cx) <- dec_channel_len (config_new f d) ;; Ok (num_channels * s, num_channels * cx).

(* ---- encoder ---- *)
(* encoder/modified_dct.rs:27-65, with the band table at 35-51 *)
Definition band_table (c : config) : res (list Z) :=
  match n_ms c with
  | SevenPointFiveMs => idx [I_8000_7P5MS; I_16000_7P5MS; I_24000_7P5MS; I_32000_7P5MS; I_48000_7P5MS] (fs_ind c)
  | TenMs => idx [I_8000_10MS; I_16000_10MS; I_24000_10MS; I_32000_10MS; I_48000_10MS] (fs_ind c)
  end.
Definition enc_mdct_new {I B} (c : config) (integer_buf : list I) (complex_buf : list B) : res (list I * list (list B) * list Z * list I * list B) :=
  '(frq, integer_buf) <- split_at (nf c * 2) integer_buf ;;
  '(cps, complex_buf) <- dct_new (nf c) complex_buf ;;
  bands <- band_table c ;;
  Ok (frq, cps, bands, integer_buf, complex_buf).

(* encoder/bandwidth_detector.rs:5-8, 19-20, 35-54 *)
Definition I_BW_START_TABLE : list (list Z) := [[53; 0; 0; 0]; [47; 59; 0; 0]; [44; 54; 60; 0]; [41; 51; 57; 61]].
Definition I_BW_STOP_TABLE : list (list Z) := [[63; 0; 0; 0]; [56; 63; 0; 0]; [52; 59; 63; 0]; [49; 55; 60; 63]].
Definition I_BW_START_TABLE_7P5MS : list (list Z) := [[51; 0; 0; 0]; [45; 58; 0; 0]; [42; 53; 60; 0]; [40; 51; 57; 61]].
Definition I_BW_STOP_TABLE_7P5MS : list (list Z) := [[63; 0; 0; 0]; [55; 63; 0; 0]; [51; 58; 63; 0]; [48; 55; 60; 63]].
Definition L_10MS : list Z := [4; 4; 3; 1].
Definition L_7P5MS : list Z := [4; 4; 3; 2].
Record bw_detector : Set := mkBwDet { bd_fs_ind : Z; bd_start : list Z; bd_stop : list Z; bd_l : list Z }.
Definition bw_new (d : duration) (fs_ind : Z) : res bw_detector :=
  let '(ts, te, l) := match d with
                      | TenMs => (I_BW_START_TABLE, I_BW_STOP_TABLE, L_10MS)
                      | SevenPointFiveMs => (I_BW_START_TABLE_7P5MS, I_BW_STOP_TABLE_7P5MS, L_7P5MS)
                      end in
  i <- usub fs_ind 1 ;; s <- idx ts i ;; i <- usub fs_ind 1 ;; e <- idx te i ;;
  Ok (mkBwDet fs_ind s e l).

(* encoder/spectral_noise_shaping.rs:50-56, 66-74 *)
Definition G_TILT : list Z := [14; 18; 22; 26; 30].

(* encoder/long_term_post_filter.rs:96-129: (len12p8, delay, x_s_extended, x_tilde_12p8d_extended, x_6p4_extended) *)
Definition NMEM_12P8D : Z := 232.
Definition K_MIN : Z := 17.
Definition K_MAX : Z := 114.
Definition enc_ltpf_lengths (c : config) : res (Z * Z * Z) :=
  let '(len12p8, delay) := match n_ms c with TenMs => (128, 24) | SevenPointFiveMs => (96, 44) end in
  ext <- (if fs c =? 8000 then Ok 10 else if fs c =? 16000 then Ok 20 else if fs c =? 24000 then Ok 30 else if fs c =? 32000 then Ok 40
          else if fs c =? 44100 then Ok 60 else if fs c =? 48000 then Ok 60 else Panic) ;;
  Ok (ext + nf c, len12p8 + delay + NMEM_12P8D, 64 + K_MAX).
(* encoder/long_term_post_filter.rs:63-94 *)
Definition enc_ltpf_new {I A} (c : config) (scaler_buf : list A) (integer_buf : list I) : res (list I * list (list A) * list A * list I) :=
  '(n1, n2, n3) <- enc_ltpf_lengths c ;;
  '(xs, integer_buf) <- split_at n1 integer_buf ;;
  '(sps, scaler_buf) <- splits [n2; n3] scaler_buf ;;
  Ok (xs, sps, scaler_buf, integer_buf).

(* encoder/lc3_encoder.rs:132-166: one channel *)
Definition enc_channel_new {I A B} (c : config) (integer_buf : list I) (scaler_buf : list A) (complex_buf : list B)
  : res (list (list I) * list (list A) * list (list B) * list I * list A * list B) :=
  '(frq, cps, bands, integer_buf, complex_buf) <- enc_mdct_new c integer_buf complex_buf ;;
  bd <- bw_new (n_ms c) (fs_ind c) ;;
  tilt <- idx G_TILT (fs_ind c) ;;
  '(xs, sps, scaler_buf, integer_buf) <- enc_ltpf_new c scaler_buf integer_buf ;;
  '(ops, scaler_buf) <- splits [nf c; nb c] scaler_buf ;;
  '(x_q, integer_buf) <- split_at (ne c) integer_buf ;;
  Ok ([frq; xs; x_q], sps ++ ops, cps, integer_buf, scaler_buf, complex_buf).

Fixpoint enc_channels {I A B} (k : nat) (c : config) (integer_buf : list I) (scaler_buf : list A) (complex_buf : list B)
  : res (list (list (list I) * list (list A) * list (list B)) * list I * list A * list B) :=
  match k with
  | O => Ok ([], integer_buf, scaler_buf, complex_buf)
  | S k => '(ips, sps, cps, integer_buf, scaler_buf, complex_buf) <- enc_channel_new c integer_buf scaler_buf complex_buf ;;
           '(chs, integer_buf, scaler_buf, complex_buf) <- enc_channels k c integer_buf scaler_buf complex_buf ;;
           Ok ((ips, sps, cps) :: chs, integer_buf, scaler_buf, complex_buf)
  end.
(* lc3_encoder.rs:117-173 `Lc3Encoder::new` *)
Definition enc_new {I A B} (num_channels : Z) (d : duration) (f : freq) (integer_buf : list I) (scaler_buf : list A) (complex_buf : list B) :=
  enc_channels (Z.to_nat num_channels) (config_new f d) integer_buf scaler_buf complex_buf.
(* lc3_encoder.rs:194-209: (integer, scaler, complex) *)
Definition enc_lens (num_channels : Z) (d : duration) (f : freq) : res (Z * Z * Z) :=
  let c := config_new f d in
  '(xs, x12, x6) <- enc_ltpf_lengths c ;;
  let scaler_len := (x12 + x6) + nf c + nb c in
  let integer_len := nf c * 2 + xs + ne c in
  Ok (integer_len * num_channels, scaler_len * num_channels, dct_len c * num_channels).
