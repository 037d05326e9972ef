(* Decoder stages that work on one frame of spectral lines, over any scalar type.
   /repo/src/decoder/{residual_spectrum,noise_filling,global_gain,temporal_noise_shaping,spectral_noise_shaping,
   packet_loss_concealment,output_scaling}.rs *)
From Coq Require Import ZArith List Bool.
From Verif Require Import Base Config SideInfo SnsIndex Buffers TablesSnsF Loops Scalar.
Import ListNotations.
Local Open Scope Z_scope.

(* `for (to, from) in l.iter_mut().zip(src) { to := f to from }`: stops at the shorter one *)
Fixpoint zipmod {A B} (f : A -> B -> A) (l : list A) (src : list B) : list A :=
  match l, src with
  | x :: l', s :: src' => f x s :: zipmod f l' src'
  | _, _ => l
  end.

(* Build dependent facts: overflow checks on or off, and the largest usize *)
Record target : Set := mkTarget { t_chk : bool; t_umax : Z }.
(* `n += 1` for a usize *)
Definition uincr (t : target) (n : Z) : res Z := if t_umax t <=? n then (if t_chk t then Panic else Ok 0) else Ok (n + 1).

Definition in_i32 (x : Z) : bool := (-2147483648 <=? x) && (x <=? 2147483647).

Section Signal.
Context {F : Type} (o : ops F).
Let f0 := fz o 0.

(* residual_spectrum.rs:17-37 *)
Fixpoint residual_lines (bits : list bool) (lines : list F) : list F :=
  match lines with
  | [] => []
  | x :: t =>
      if feq o x f0 then x :: residual_lines bits t
      else match bits with
           | true :: bs => (if flt o f0 x then fadd o x (flit o (3125, -4)) else fadd o x (flit o (1875, -4))) :: residual_lines bs t
           | false :: bs => (if flt o f0 x then fsub o x (flit o (1875, -4)) else fsub o x (flit o (3125, -4))) :: residual_lines bs t
           | [] => x :: t
           end
  end.
(* residual_spectrum.rs:13-39 *)
Definition residual_decode (lsb_mode : bool) (bits : list bool) (lines : list F) : list F :=
  if lsb_mode then lines else residual_lines bits lines.

(* noise_filling.rs:28-34: (bw_stop, nf_start, nf_width) *)
Definition nf_params (d : duration) (bw : Z) : res (Z * Z * Z) :=
  match d with
  | SevenPointFiveMs => s <- idx [60; 120; 180; 240; 300] bw ;; Ok (s, 18, 2)
  | TenMs => s <- idx [80; 160; 240; 320; 400] bw ;; Ok (s, 24, 3)
  end.
(* noise_filling.rs:51, i32 arithmetic *)
Definition nf_next (chk : bool) (s : Z) : res Z :=
  if chk && negb (in_i32 (s * 31821) && in_i32 (13849 + s * 31821)) then Panic else Ok (Z.land (13849 + s * 31821) 65535).
(* noise_filling.rs:40-54: one line *)
Definition nf_line (chk : bool) (stop width : Z) (level : F) (spec : list Z) (k : Z) (st : Z * list F) : res (Z * list F) :=
  let '(seed, lines) := st in
  from <- usub k width ;;
  let to := Z.min (stop - 1) (k + width) in
  w <- sub spec from (to + 1) ;;
  if forallb (Z.eqb 0) w then
    seed <- nf_next chk seed ;;
    lines <- put lines k (if seed <? 32768 then level else fneg o level) ;;
    Ok (seed, lines)
  else Ok (seed, lines).
(* noise_filling.rs:18-56 *)
Definition noise_fill (chk zero_frame : bool) (seed bw : Z) (d : duration) (factor : Z) (spec : list Z) (lines : list F) : res (list F) :=
  if zero_frame then Ok lines
  else
    '(stop, start, width) <- nf_params d bw ;;
    let level := fdiv o (fsub o (fz o 8) (fz o factor)) (fz o 16) in
    '(_, lines) <- for_range start (Z.min stop (len lines)) (nf_line chk stop width level spec) (seed, lines) ;;
    Ok lines.

(* global_gain.rs:15-25; the i32 quantities are far from overflow *)
Definition gain_off (nbits fs_ind : Z) : Z := - (Z.min (nbits / (10 * (fs_ind + 1))) 115) - 105 - 5 * (fs_ind + 1).
Definition global_gain (nbits fs_ind gg : Z) (lines : list F) : list F :=
  let g := fgain o (gg + gain_off nbits fs_ind) in map (fun x => fmul o x g) lines.

(* temporal_noise_shaping.rs:83-138 *)
Definition tns_dec_bands (d : duration) (bw : Z) : res (list (Z * Z)) :=
  match d with
  | TenMs => idx [[(12, 80)]; [(12, 160)]; [(12, 240)]; [(12, 160); (160, 320)]; [(12, 200); (200, 400)]] bw
  | SevenPointFiveMs => idx [[(9, 60)]; [(9, 120)]; [(9, 180)]; [(9, 120); (120, 240)]; [(9, 150); (150, 300)]] bw
  end.
(* temporal_noise_shaping.rs:39-46 *)
Definition tns_rc (rc_i : list Z) : list F :=
  zipmod (fun z i => if i =? 0 then z else fsin17 o (i - 8)) (repeat f0 16) rc_i.
(* temporal_noise_shaping.rs:60-70: one line; state: lattice *)
Definition tns_step (rc : list F) (offset order : Z) (x : F) (st : list F) : res (F * list F) :=
  let k := order - 1 in
  r <- idx rc (k + offset) ;; s <- idx st k ;;
  '(t, st) <- for_rev 0 (order - 1) (fun k '(t, st) =>
      r <- idx rc (k + offset) ;; s <- idx st k ;;
      let t := fsub o t (fmul o r s) in
      st <- put st (k + 1) (fadd o (fmul o r t) s) ;;
      Ok (t, st)) (fsub o x (fmul o r s), st) ;;
  st <- put st 0 t ;;
  Ok (t, st).
(* temporal_noise_shaping.rs:50-73: bands with their orders, f = index of the filter *)
Fixpoint tns_filters (rc : list F) (f : Z) (bands : list (Z * Z)) (orders : list Z) (st : list F) (lines : list F) : res (list F) :=
  match bands, orders with
  | (lo, hi) :: bands, order :: orders =>
      '(st, lines) <- (if 0 <? order then
                         for_range lo hi (fun n '(st, lines) =>
                           x <- idx lines n ;;
                           '(x, st) <- tns_step rc (f * 8) order x st ;;
                           lines <- put lines n x ;;
                           Ok (st, lines)) (st, lines)
                       else Ok (st, lines)) ;;
      tns_filters rc (f + 1) bands orders st lines
  | _, _ => Ok lines
  end.
(* temporal_noise_shaping.rs:24-74; taking the band slices panics when a band does not fit *)
Definition tns_decode (d : duration) (bw num_tns : Z) (rc_order rc_i : list Z) (lines : list F) : res (list F) :=
  bands <- tns_dec_bands d bw ;;
  _ <- assert (forallb (fun '(_, hi) => hi <=? len lines) bands) ;;
  orders <- sub rc_order 0 num_tns ;;
  tns_filters (tns_rc rc_i) 0 bands orders (repeat f0 8) lines.

(* spectral_noise_shaping.rs:60-75 *)
Definition sns_gains (shape : Z) : res (list (Z * Z)) :=
  idx [SNS_VQ_REG_ADJ_GAINS; SNS_VQ_REG_LF_ADJ_GAINS; SNS_VQ_NEAR_ADJ_GAINS; SNS_VQ_FAR_ADJ_GAINS] shape.
(* spectral_noise_shaping.rs:77-87: D[n][col] summed over the pulses *)
Definition sns_row (y : list Z) (row : list (Z * Z)) : F :=
  fold_left (fun acc '(yc, d) => fadd o acc (fmul o (fz o yc) (flit o d))) (combine y row) f0.
(* spectral_noise_shaping.rs:21-87: the 16 quantised scale factors *)
Definition sns_factors (q : sns_vq) : res (list F) :=
  lf <- idx LFCB (q_ind_lf q) ;;
  hf <- idx HFCB (q_ind_hf q) ;;
  let shape := Z.shiftl (q_submode_msb q) 1 + q_submode_lsb q in
  y <- sns_vector q ;;
  let norm := fsqrt o (fold_left (fun acc v => fadd o acc (fmul o (fz o v) (fz o v))) y f0) in
  gains <- sns_gains shape ;;
  g <- idx gains (q_g_ind q) ;;
  let g := if feq o norm f0 then flit o g else fdiv o (flit o g) norm in
  Ok (map (fun '(st1, row) => fadd o (flit o st1) (fmul o g (sns_row y row))) (combine (lf ++ hf) D)).
(* spectral_noise_shaping.rs:89-105 *)
Definition eighth (n : Z) : F := fdiv o (fz o n) (fz o 8).
Definition sns_interp (q : list F) : res (list F) :=
  q0 <- idx q 0 ;;
  s <- put (repeat f0 64) 0 q0 ;;
  s <- put s 1 q0 ;;
  s <- for_range 0 15 (fun n s =>
      a <- idx q n ;; b <- idx q (n + 1) ;;
      let diff := fsub o b a in
      s <- put s (4 * n + 2) (fadd o a (fmul o (eighth 1) diff)) ;;
      s <- put s (4 * n + 3) (fadd o a (fmul o (eighth 3) diff)) ;;
      s <- put s (4 * n + 4) (fadd o a (fmul o (eighth 5) diff)) ;;
      put s (4 * n + 5) (fadd o a (fmul o (eighth 7) diff))) s ;;
  a <- idx q 14 ;; b <- idx q 15 ;;
  s <- put s 62 (fadd o b (fmul o (eighth 1) (fsub o b a))) ;;
  put s 63 (fadd o b (fmul o (eighth 3) (fsub o b a))).
(* spectral_noise_shaping.rs:107-118 *)
Definition sns_reduce (nb : Z) (s : list F) : res (list F) :=
  n2 <- usub 64 nb ;;
  if n2 =? 0 then Ok s
  else
    s <- for_range 0 n2 (fun i s => a <- idx s (2 * i) ;; b <- idx s (2 * i + 1) ;; put s i (fdiv o (fadd o a b) (fz o 2))) s ;;
    for_range n2 nb (fun i s => a <- idx s (i + n2) ;; put s i a) s.
(* spectral_noise_shaping.rs:120-129: gains of the bands *)
Definition sns_linear (nb : Z) (s : list F) : res (list F) := s <- sub s 0 nb ;; Ok (map (fexp2 o) s).
(* spectral_noise_shaping.rs:145-150 *)
Definition sns_shape (edges : list Z) (gains : list F) (lines : list F) : res (list F) :=
  for_range 0 (len gains) (fun b lines =>
    g <- idx gains b ;; lo <- idx edges b ;; hi <- idx edges (b + 1) ;;
    _ <- sub lines lo hi ;;
    for_range lo hi (fun n lines => x <- idx lines n ;; put lines n (fmul o x g)) lines) lines.
(* spectral_noise_shaping.rs:21-151 *)
Definition sns_decode (c : config) (q : sns_vq) (lines : list F) : res (list F) :=
  scf <- sns_factors q ;;
  s <- sns_interp scf ;;
  s <- sns_reduce (nb c) s ;;
  g <- sns_linear (nb c) s ;;
  edges <- band_table c ;;
  sns_shape edges g lines.

(* packet_loss_concealment.rs:7-22, 24-38 *)
Record plc : Type := mkPlc { pl_last : list F; pl_lost : Z; pl_alpha : F; pl_seed : Z }.
Definition plc_new (last : list F) : plc := mkPlc last 0 (fz o 1) 24607.
(* packet_loss_concealment.rs:50-54; ne = length of the saved lines *)
Definition plc_save (p : plc) (lines : list F) : res plc :=
  l <- sub lines 0 (len (pl_last p)) ;; Ok (mkPlc l 0 (fz o 1) (pl_seed p)).
(* packet_loss_concealment.rs:71 (usize) *)
Definition plc_next (s : Z) : Z := Z.land (16831 + s * 12821) 65535.
(* packet_loss_concealment.rs:70-78 *)
Fixpoint plc_lines (alpha : F) (seed : Z) (lines last : list F) : Z * list F :=
  match lines, last with
  | _ :: lines', g :: last' =>
      let seed := plc_next seed in
      let v := if seed <? 32768 then fmul o g alpha else fmul o g (fneg o alpha) in
      let '(seed', r) := plc_lines alpha seed lines' last' in (seed', v :: r)
  | _, _ => (seed, lines)
  end.
(* packet_loss_concealment.rs:63-86; the filter info returned is always `mkLtpf false false 0` *)
Definition plc_load (t : target) (p : plc) (lines : list F) : res (plc * list F) :=
  let alpha := if 4 <=? pl_lost p then fmul o (pl_alpha p) (flit o (if pl_lost p <? 8 then (9, -1) else (85, -2))) else pl_alpha p in
  lost <- uincr t (pl_lost p) ;;
  let '(seed, lines) := plc_lines alpha (pl_seed p) lines (pl_last p) in
  Ok (mkPlc (pl_last p) lost alpha seed, lines).
Definition plc_ltpf : ltpf_info := mkLtpf false false 0.

(* output_scaling.rs:17-24 *)
Definition to_i16 (x : F) : Z :=
  let tmp := if flt o f0 x then f_i32 o (fadd o x (flit o (5, -1))) else f_i32 o (fsub o x (flit o (5, -1))) in
  Z.max (Z.min tmp 32767) (-32768).
(* output_scaling.rs:13-26 *)
Definition scale_and_round (x : list F) (out : list Z) : list Z := zipmod (fun _ v => to_i16 v) out x.

End Signal.
Arguments plc : clear implicits.
