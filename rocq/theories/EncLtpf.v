(* Long term post filter of the encoder (pitch detection): /repo/src/encoder/long_term_post_filter.rs *)
From Coq Require Import ZArith List Bool.
From Verif Require Import Base Config Loops Scalar EncScalar DecSignal DecLtpf TablesLtpf.
Import ListNotations.
Local Open Scope Z_scope.

Definition NMEM : Z := 232.    (* NMEM_12P8D, 18 *)
Definition K_MIN : Z := 17.
Definition K_MAX : Z := 114.

(* 96-130: (len12p8, len6p4, delay_ltpf) and (upsampling_factor, resampling_factor, extension of x_s) *)
Definition eltpf_lens (d : duration) : Z * Z * Z := match d with TenMs => (128, 64, 24) | SevenPointFiveMs => (96, 48, 44) end.
Definition eltpf_factors (fs : Z) : res (Z * (Z * Z) * Z) :=
  if fs =? 8000 then Ok (24, (5, -1), 10)
  else if fs =? 16000 then Ok (12, (10, -1), 20)
  else if fs =? 24000 then Ok (8, (10, -1), 30)
  else if fs =? 32000 then Ok (6, (10, -1), 40)
  else if fs =? 44100 then Ok (4, (10, -1), 60)
  else if fs =? 48000 then Ok (4, (10, -1), 60)
  else Panic.

Section EncLtpf.
Context {F : Type} (o : ops F) (e : eops F).
Let f0 := fz o 0.

(* 22-42 *)
Record eltpf : Type := mkEltpf {
  el_t : Z;             (* t_prev *)
  el_pitch : F;         (* mem_pitch *)
  el_active : bool;     (* mem_ltpf_active *)
  el_nc : F;            (* mem_nc *)
  el_nc2 : F;           (* mem_mem_nc *)
  el_xs : list Z;       (* x_s_extended *)
  el_x12 : list F;      (* x_tilde_12p8d_extended *)
  el_x6 : list F;       (* x_6p4_extended *)
  el_h1 : F; el_h2 : F  (* h50_minus1, h50_minus2 *)
}.
(* 61-93, on the buffers cut off for it *)
Definition eltpf_new (xs : list Z) (x12 x6 : list F) : eltpf := mkEltpf K_MIN f0 false f0 f0 xs x12 x6 f0 f0.

(* copy_within(from.., 0) *)
Definition shift_front {A} (l : list A) (from : Z) : res (list A) :=
  s <- sub l from (len l) ;; blit l 0 (len l - from) s.
(* 226-241 *)
Definition shift_samples (up l12 l6 : Z) (st : eltpf) (x : list Z) : res (list Z * list F * list F) :=
  let n := 240 / up in
  k <- usub (len (el_xs st)) n ;;
  xs <- shift_front (el_xs st) k ;;
  xs <- blit xs n (len xs) x ;;
  x12 <- shift_front (el_x12 st) l12 ;;
  x6 <- shift_front (el_x6 st) l6 ;;
  Ok (xs, x12, x6).

(* 148-163: one sample at 12.8 kHz; signed quotients and remainders of non-negative numbers *)
Definition resample_one (xs : list Z) (up : Z) (rf : Z * Z) (n : Z) : res F :=
  let q := 120 / up in
  s <- for_range (- q) (q + 1) (fun k s =>
      let index_h := up * k - (15 * n) mod up in
      if (-120 <? index_h) && (index_h <? 120) then
        x <- idx xs (240 / up + ((15 * n) / up + k - q)) ;;
        h <- idx TAB_RESAMP_FILTER (119 + index_h) ;;
        Ok (fadd o s (fmul o (fz o x) (flit o h)))
      else Ok s) f0 ;;
  Ok (fmul o s (fmul o (fz o up) (flit o rf))).
Definition resample (xs : list Z) (up : Z) (rf : Z * Z) (base l12 : Z) (x12 : list F) : res (list F) :=
  _ <- sub x12 base (base + l12) ;;
  for_range 0 l12 (fun n x12 => v <- resample_one xs up rf n ;; put x12 (base + n) v) x12.

(* 166-174: 50 Hz high-pass; state (x12, h1, h2) *)
Definition highpass50 (base l12 : Z) (s : list F * F * F) : res (list F * F * F) :=
  for_range base (base + l12) (fun n '(x12, h1, h2) =>
    x <- idx x12 n ;;
    let h := fsub o (fsub o x (fmul o (flit o (-19652933726226904, -16)) h1)) (fmul o (flit o (9658854605688177, -16)) h2) in
    let y := fadd o (fadd o (fmul o (flit o (9827947082978771, -16)) h) (fmul o (flit o (-1965589416595754, -15)) h1))
               (fmul o (flit o (9827947082978771, -16)) h2) in
    x12 <- put x12 n y ;;
    Ok (x12, h, h1)) s.

(* 246-258 *)
Definition downsample2 (x12 : list F) (l6 : Z) (x6 : list F) : res (list F) :=
  _ <- sub x6 K_MAX (K_MAX + l6) ;;
  w <- sub x12 (NMEM - 3) (len x12) ;;
  let a := flit o (1236796411180537, -16) in let b := flit o (2353512128364889, -16) in let m := flit o (2819382920909148, -16) in
  for_range 0 (Z.min l6 ((len w - 5) / 2 + 1)) (fun n x6 =>
    s0 <- idx w (2 * n) ;; s1 <- idx w (2 * n + 1) ;; s2 <- idx w (2 * n + 2) ;; s3 <- idx w (2 * n + 3) ;; s4 <- idx w (2 * n + 4) ;;
    put x6 (K_MAX + n) (fadd o (fadd o (fadd o (fadd o (fmul o a s0) (fmul o b s1)) (fmul o m s2)) (fmul o b s3)) (fmul o a s4))) x6.

(* sum of products of two slices *)
Definition dotp (l1 l2 : list F) : F := fsum o (map (fun '(a, b) => fmul o a b) (combine l1 l2)).
(* 261-274 *)
Definition autocorr6 (x6 : list F) (l6 : Z) : res (list F * list F) :=
  for_range 0 98 (fun k '(r, rw) =>
    u <- sub x6 K_MAX (K_MAX + l6) ;;
    v <- sub x6 (K_MAX - K_MIN - k) (K_MAX - K_MIN - k + l6) ;;
    let c := dotp u v in
    let weight := fsub o (fz o 1) (fdiv o (fmul o (flit o (5, -1)) (fz o k)) (fz o 97)) in
    r <- put r k c ;;
    rw <- put rw k (fmul o weight c) ;;
    Ok (r, rw)) (repeat f0 98, repeat f0 98).
(* 423-440: value, index *)
Fixpoint max_from (l : list F) (n best : Z) (mx : F) : Z :=
  match l with [] => best | v :: l => if flt o mx v then max_from l (n + 1) n v else max_from l (n + 1) best mx end.
Definition index_of_max (l : list F) : Z := match l with [] => 0 | v :: _ => max_from l 0 0 v end.
(* 442-452 *)
Definition norm_value (x6 : list F) (l6 lag : Z) : res F :=
  from <- usub K_MAX lag ;;
  w <- sub x6 from (from + l6) ;;
  Ok (fold_left (fun a x => fadd o a (fmul o x x)) w f0).
(* 245-308: (lag, pitch_present, x6) *)
Definition pitch_detect (l6 t_prev : Z) (x12 x6 : list F) : res (Z * bool * list F) :=
  x6 <- downsample2 x12 l6 x6 ;;
  '(r, rw) <- autocorr6 x6 l6 ;;
  let t1 := index_of_max rw + K_MIN in
  m <- usub t_prev 4 ;;
  let k_from := Z.max K_MIN m - K_MIN in
  k_to <- usub (Z.min K_MAX (t_prev + 4)) K_MIN ;;
  w <- sub r k_from (k_to + 1) ;;
  let t2 := index_of_max w + k_from + K_MIN in
  n0 <- norm_value x6 l6 0 ;;
  n1 <- norm_value x6 l6 t1 ;;
  r1 <- idx r (t1 - K_MIN) ;;
  let c1 := fmax o f0 (fdiv o r1 (fsqrt o (fmul o n0 n1))) in
  c2 <- (if t1 =? t2 then Ok c1
         else
           n2 <- norm_value x6 l6 t2 ;;
           r2 <- idx r (t2 - K_MIN) ;;
           Ok (fmax o f0 (fdiv o r2 (fsqrt o (fmul o n0 n2))))) ;;
  Ok (if flt o (fmul o (flit o (85, -2)) c1) c2 then (t2, flt o (flit o (6, -1)) c2, x6) else (t1, flt o (flit o (6, -1)) c1, x6)).

(* 454-466 *)
Definition interpolate (r : list F) (rel d : Z) : res F :=
  for_range (-4) 5 (fun m s =>
    let n := 4 * m - d in
    if (-16 <? n) && (n <? 16) then
      h <- idx TAB_LTPF_INTERP_R (n + 15) ;;
      x <- idx r (rel + m) ;;
      Ok (fadd o s (fmul o x (flit o h)))
    else Ok s) f0.
(* the fraction with the largest positive value: d = first, first + step, ... (n of them); state (max, fraction) *)
Fixpoint best_fraction (n : nat) (d step : Z) (r : list F) (rel : Z) (s : F * Z) : res Z :=
  match n with
  | O => Ok (snd s)
  | S n' =>
      v <- interpolate r rel d ;;
      best_fraction n' (d + step) step r rel (if flt o (fst s) v then (v, d) else s)
  end.
(* 310-375: (pitch_index, pitch_int, pitch_fr) *)
Definition pitch_lag (l12 t : Z) (x12 : list F) : res (Z * Z * Z) :=
  m <- usub (2 * t) 4 ;;
  let k_min := Z.max 32 m in
  let k_max := Z.min 228 (2 * t + 4) in
  lo <- usub k_min 4 ;;
  n <- usub (k_max + 4) lo ;;
  r <- sub (repeat f0 233) 0 (n + 1) ;;
  '(r, _, p) <- for_range lo (k_max + 5) (fun k '(r, mx, p) =>
      u <- sub x12 NMEM (NMEM + l12) ;;
      b <- usub NMEM k ;; b' <- usub (NMEM + l12) k ;;
      v <- sub x12 b b' ;;
      let c := fold_left (fun a '(x, y) => fadd o a (fmul o x y)) (combine u v) f0 in
      r <- put r (k - lo) c ;;
      Ok (if flt o mx c && (k_min <=? k) && (k <=? k_max) then (r, c, k) else (r, mx, p))) (r, f0, k_min) ;;
  rel <- usub p lo ;;
  fr <- (if p =? 32 then best_fraction 4 0 1 r rel (f0, 0)
         else if (p <? 127) && (32 <? p) then best_fraction 7 (-3) 1 r rel (f0, 0)
         else if (127 <=? p) && (p <? 157) then best_fraction 3 (-2) 2 r rel (f0, 0)
         else Ok 0) ;;
  '(p, fr) <- (if fr <? 0 then p <- usub p 1 ;; Ok (p, fr + 4) else Ok (p, fr)) ;;
  let index := if p <? 127 then (4 * p + fr - 128) mod 2 ^ 64 else if p <? 157 then (2 * p + Z.quot fr 2 - 126) mod 2 ^ 64 else p + 283 in
  Ok (index, p, fr).

(* 408-420; i16 arithmetic on small numbers *)
Definition interp12 (x12 : list F) (n d : Z) : res F :=
  for_range (-2) 3 (fun k s =>
    let h := 4 * k - d in
    if (-8 <? h) && (h <? 8) then
      x <- idx x12 (NMEM + n - k) ;;
      w <- idx TAB_LTPF_INTERP_X12K8 (h + 7) ;;
      Ok (fadd o s (fmul o x (flit o w)))
    else Ok s) f0.
(* 377-405: (ltpf_active, nc, pitch) *)
Definition activation (c : config) (st : eltpf) (l12 : Z) (x12 : list F) (p fr : Z) (near_nyquist gain_on : bool) : res (bool * F * F) :=
  '(num, t0, t1) <- for_range 0 l12 (fun n '(num, t0, t1) =>
      a <- interp12 x12 n 0 ;;
      b <- interp12 x12 (n - p) fr ;;
      Ok (fadd o num (fmul o a b), fadd o t0 (fmul o a a), fadd o t1 (fmul o b b))) (f0, f0, f0) ;;
  let den := fsqrt o (fmul o t0 t1) in
  let nc := if flt o f0 den then fdiv o num den else f0 in
  let pitch := fadd o (fz o p) (fdiv o (fz o fr) (fz o 4)) in
  let above x l := flt o (flit o l) x in
  let active :=
    if gain_on && negb near_nyquist then
      negb (el_active st) && (match n_ms c with TenMs => true | SevenPointFiveMs => above (el_nc2 st) (94, -2) end) &&
        above (el_nc st) (94, -2) && above nc (94, -2)
      || el_active st && above nc (9, -1)
      || el_active st && flt o (e_abs e (fsub o pitch (el_pitch st))) (fz o 2) && above (fsub o nc (el_nc st)) (-1, -1) && above nc (84, -2)
    else false in
  Ok (active, nc, pitch).

(* 44-49 *)
Record ltpf_result : Set := mkLr { lr_index : Z; lr_present : bool; lr_active : bool; lr_nbits : Z }.
(* 141-224 *)
Definition eltpf_run (c : config) (st : eltpf) (x : list Z) (near_nyquist : bool) (nbits : Z) : res (ltpf_result * eltpf) :=
  _ <- assert (len x =? nf c) ;;
  let '(l12, l6, delay) := eltpf_lens (n_ms c) in
  '(up, rf, _) <- eltpf_factors (fs c) ;;
  let gain_on := ltpf_nbits (n_ms c) nbits <? 560 + fs_ind c * 80 in
  '(xs, x12, x6) <- shift_samples up l12 l6 st x ;;
  let base := delay + NMEM in
  x12 <- resample xs up rf base l12 x12 ;;
  '(x12, h1, h2) <- highpass50 base l12 (x12, el_h1 st, el_h2 st) ;;
  '(t, present, x6) <- pitch_detect l6 (el_t st) x12 x6 ;;
  '(index, p, fr) <- pitch_lag l12 t x12 ;;
  '(active, nc, pitch) <- activation c st l12 x12 p fr near_nyquist gain_on ;;
  let st' := mkEltpf t (if present then pitch else f0) (if present then active else false) (if present then nc else f0) (el_nc st) xs x12 x6 h1 h2 in
  Ok (mkLr (if present then index else 0) present active (if present then 11 else 1), st').
End EncLtpf.
Arguments eltpf : clear implicits.
