(* Long term post filter of the decoder over any scalar type: /repo/src/decoder/long_term_post_filter.rs *)
From Coq Require Import ZArith List Bool.
From Verif Require Import Base Config SideInfo Buffers Loops Scalar DecSignal DecMdct TablesLtpf.
Import ListNotations.
Local Open Scope Z_scope.

(* 145-148: `(nbits as f64 * 10. / 7.5).round() as usize`, the nearest integer to 4 nbits / 3 (never a tie) *)
Definition ltpf_nbits (d : duration) (nbits : Z) : Z := match d with SevenPointFiveMs => (8 * nbits + 3) / 6 | TenMs => nbits end.
(* 142-160: decimal literal of the gain, and gain_ind *)
Definition ltpf_gain (c : config) (nbits : Z) : (Z * Z) * Z :=
  let t := ltpf_nbits (n_ms c) nbits in
  let sf := fs_ind c * 80 in
  if t <? 320 + sf then ((4, -1), 0)
  else if t <? 400 + sf then ((35, -2), 1)
  else if t <? 480 + sf then ((3, -1), 2)
  else if t <? 560 + sf then ((25, -2), 3)
  else ((0, 0), 0).

(* 170-181: the pitch lag at 12.8 kHz in quarter samples, 4 * pitch_int + pitch_fr (usize subtractions may panic) *)
Definition ltpf_quarter_lag (pitch_index : Z) : res Z :=
  if 440 <=? pitch_index then p <- usub pitch_index 283 ;; Ok (4 * p)
  else if 380 <=? pitch_index then
    p <- usub (pitch_index / 2) 63 ;;
    f <- usub (2 * pitch_index) (4 * p) ;; f <- usub f 252 ;;
    Ok (4 * p + f)
  else
    let p := pitch_index / 4 + 32 in
    f <- usub (pitch_index + 128) (4 * p) ;;
    Ok (4 * p + f).
(* 183-187: the f64 operations are exact: pitch is a multiple of 1/4 and 8000 * ceil(fs / 8000) / 12800 = ceil(fs / 8000) * 10 / 16;
   p_up = floor(lag * that + 1/2) with the lag in quarter samples *)
Definition ceil_div (a b : Z) : Z := (a + b - 1) / b.
Definition ltpf_p_up (fs quarter_lag : Z) : Z := (quarter_lag * ceil_div fs 8000 * 10 + 8) / 16.
(* 164-189 *)
Definition ltpf_params (fs : Z) (i : ltpf_info) : res (Z * Z) :=
  if l_active i then
    q <- ltpf_quarter_lag (l_pitch i) ;;
    let p_up := ltpf_p_up fs q in
    Ok (p_up / 4, p_up - 4 * (p_up / 4))
  else Ok (0, 0).

(* 205-231 *)
Definition ltpf_tables (fs gain_ind pitch_frac : Z) : res (list (Z * Z) * list (Z * Z)) :=
  let pick num den := a <- idx num gain_ind ;; b <- idx den pitch_frac ;; Ok (a, b) in
  if fs =? 8000 then pick TAB_LTPF_NUM_8000 TAB_LTPF_DEN_8000
  else if fs =? 16000 then pick TAB_LTPF_NUM_16000 TAB_LTPF_DEN_16000
  else if fs =? 24000 then pick TAB_LTPF_NUM_24000 TAB_LTPF_DEN_24000
  else if fs =? 32000 then pick TAB_LTPF_NUM_32000 TAB_LTPF_DEN_32000
  else if fs =? 44100 then pick TAB_LTPF_NUM_48000 TAB_LTPF_DEN_48000
  else if fs =? 48000 then pick TAB_LTPF_NUM_48000 TAB_LTPF_DEN_48000
  else Panic.

Section Ltpf.
Context {F : Type} (o : ops F).
Let f0 := fz o 0.

(* 12-31; num_mem_blocks and norm are recomputed from the configuration *)
Record ltpf : Type := mkLtpfSt {
  t_zeros : list F;       (* c_den_zeros *)
  t_active : bool;        (* ltpf_active_prev *)
  t_blk : Z;              (* block_start_index *)
  t_num : list F;
  t_den : list F;
  t_num_mem : list F;
  t_den_mem : list F;
  t_pint : Z;             (* p_int_mem *)
  t_pfr : Z;              (* p_fr_mem *)
  t_xl : list F;          (* x_hat_ltpf_mem *)
  t_x : list F;           (* x_hat_mem *)
  t_scratch : list F
}.

(* 192-242: (c_num_mem, c_den_mem, c_num, c_den) *)
Definition ltpf_coeffs (c : config) (st : ltpf) (i : ltpf_info) (nbits pitch_frac : Z) : res (list F * list F * list F * list F) :=
  nm <- blit (t_num_mem st) 0 (len (t_num_mem st)) (t_num st) ;;
  dm <- blit (t_den_mem st) 0 (len (t_den_mem st)) (t_den st) ;;
  if l_active i then
    let '(gain, gain_ind) := ltpf_gain c nbits in
    '(tn, td) <- ltpf_tables (fs c) gain_ind pitch_frac ;;
    Ok (nm, dm, zipmod (fun _ v => fmul o (fmul o (flit o (85, -2)) (flit o gain)) (flit o v)) (t_num st) tn,
        zipmod (fun _ v => fmul o (flit o gain) (flit o v)) (t_den st) td)
  else
    z <- sub (t_zeros st) 0 (len (t_num st)) ;;
    n <- blit (t_num st) 0 (len (t_num st)) z ;;
    d <- blit (t_den st) 0 (len (t_den st)) (t_zeros st) ;;
    Ok (nm, dm, n, d).

(* 244-250; `total` = num_mem_blocks * nf *)
Definition wrap_neg (total i : Z) : Z := if i <? 0 then i + total else i.

(* sum of c[k] * x[wrap (start - k)], added to or subtracted from acc *)
Fixpoint fir (op : F -> F -> F) (total : Z) (cs x : list F) (start k : Z) (acc : F) : res F :=
  match cs with
  | [] => Ok acc
  | c :: t => v <- idx x (wrap_neg total (start - k)) ;; fir op total t x start (k + 1) (op acc (fmul o c v))
  end.
(* 380-396 and 398-415 (the same with the remembered coefficients; l_den is taken from c_den in both) *)
Definition compute_filter (total l_den : Z) (cnum cden x xl : list F) (start pitch_int : Z) : res F :=
  a <- fir (fadd o) total cnum x start 0 f0 ;;
  fir (fsub o) total cden xl (start - pitch_int + l_den / 2) 0 a.

(* one output sample: 289-292 and the same pattern at 296-298, 303-306 (scale absent), 312-314, 324-326, 418-422;
   `g` scales the filter output *)
Definition ltpf_sample (g : F -> F) (total l_den : Z) (cnum cden x : list F) (blk pitch n : Z) (xl : list F) : res (list F) :=
  v <- idx x (blk + n) ;;
  xl <- put xl (blk + n) v ;;
  f <- compute_filter total l_den cnum cden x xl (blk + n) pitch ;;
  w <- idx xl (blk + n) ;;
  put xl (blk + n) (fsub o w (g f)).

(* 345-378 *)
Definition activate_from_mem (total l_den norm : Z) (cnum cden : list F) (blk pitch s25 : Z) (scratch xl : list F) : res (list F * list F) :=
  l_num <- usub (len cnum) 1 ;;
  scratch <- (if blk <? l_num then
                from <- usub total l_num ;;
                s <- sub xl from (from + l_num) ;; scratch <- blit scratch 0 l_num s ;;
                s <- sub xl 0 norm ;; blit scratch l_num (len scratch) s
              else
                from <- usub blk l_num ;;
                s <- sub xl from (blk + norm) ;; blit scratch 0 (len scratch) s) ;;
  xl <- for_range 0 s25 (fun n xl =>
      v <- idx scratch (n + l_num) ;;
      xl <- put xl (blk + n) v ;;
      a <- fir (fadd o) 0 cnum scratch (l_num + n) 0 f0 ;;
      f <- fir (fsub o) total cden xl (blk + n - pitch + l_den / 2) 0 a ;;
      w <- idx xl (blk + n) ;;
      put xl (blk + n) (fsub o w (fmul o f (fdiv o (fz o n) (fz o norm))))) xl ;;
  Ok (scratch, xl).

(* 45-59, 268-280 *)
Inductive transition : Set := Inactive | Activated | Deactivated | ActiveNoPitchChange | ActivePitchChanged.
Definition ltpf_transition (active prev : bool) (same_pitch : bool) : transition :=
  if negb active && negb prev then Inactive
  else if active && negb prev then Activated
  else if negb active && prev then Deactivated
  else if same_pitch then ActiveNoPitchChange
  else ActivePitchChanged.

(* 252-343 *)
Definition ltpf_run (c : config) (st : ltpf) (i : ltpf_info) (nbits : Z) (freq : list F) : res (list F * ltpf) :=
  n <- ltpf_lengths c ;;
  '(pitch_int, pitch_frac) <- ltpf_params (fs c) i ;;
  '(num_mem, den_mem, num, den) <- ltpf_coeffs c st i nbits pitch_frac ;;
  let blk := t_blk st in
  let nf := nf c in
  let total := l_blocks n * nf in
  let norm := l_norm n in
  l_den <- usub (len den) 1 ;;
  x <- blit (t_x st) blk (blk + nf) freq ;;
  let s25 := if fs c =? 44100 then 48000 / 400 else fs c / 400 in
  let plain g := ltpf_sample g total l_den num den x blk pitch_int in
  let fade_in k := fun f => fmul o f (fdiv o (fz o k) (fz o norm)) in
  let fade_out k := fun f => fmul o f (fsub o (fz o 1) (fdiv o (fz o k) (fz o norm))) in
  let deactivate xl := for_range 0 s25 (fun k => ltpf_sample (fade_out k) total l_den num_mem den_mem x blk (t_pint st) k) xl in
  '(scratch, xl) <-
    match ltpf_transition (l_active i) (t_active st) ((pitch_int =? t_pint st) && (pitch_frac =? t_pfr st)) with
    | Inactive => s <- sub x blk (blk + nf) ;; xl <- blit (t_xl st) blk (blk + nf) s ;; Ok (t_scratch st, xl)
    | Activated =>
        xl <- for_range 0 s25 (fun k => plain (fade_in k) k) (t_xl st) ;;
        xl <- for_range s25 nf (fun k => plain (fun f => f) k) xl ;;
        Ok (t_scratch st, xl)
    | Deactivated =>
        xl <- deactivate (t_xl st) ;;
        xl <- for_range s25 nf (fun k xl => v <- idx x (blk + k) ;; put xl (blk + k) v) xl ;;
        Ok (t_scratch st, xl)
    | ActiveNoPitchChange =>
        xl <- for_range 0 nf (fun k => plain (fun f => f) k) (t_xl st) ;;
        Ok (t_scratch st, xl)
    | ActivePitchChanged =>
        xl <- deactivate (t_xl st) ;;
        '(scratch, xl) <- activate_from_mem total l_den norm num den blk pitch_int s25 (t_scratch st) xl ;;
        xl <- for_range s25 nf (fun k => plain (fun f => f) k) xl ;;
        Ok (scratch, xl)
    end ;;
  s <- sub xl blk (blk + nf) ;;
  freq <- blit freq 0 (len freq) s ;;
  let blk := if (l_blocks n - 1) * nf <? blk + nf then 0 else blk + nf in
  Ok (freq, mkLtpfSt (t_zeros st) (l_active i) blk num den num_mem den_mem pitch_int pitch_frac xl x scratch).
End Ltpf.
Arguments ltpf : clear implicits.
