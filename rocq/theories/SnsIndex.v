(* Second stage of the scale factor quantiser: pulse search, choice of shape and gain, joint index; and the decoder's view of it.
   /repo/src/encoder/spectral_noise_shaping.rs:285-325 and 363-568, /repo/src/decoder/spectral_noise_shaping.rs:21-51 *)
From Coq Require Import ZArith List Bool.
From Verif Require Import Base SideInfo Mpvq.
Import ListNotations.
Local Open Scope Z_scope.

Definition N_SCALES : Z := 16.

(* Floating point comparisons are oracles: the integer results are the same for every oracle that answers as the code's floats do. *)
Record oracle : Type := mkOracle {
  o_better : list Z -> Z -> Z -> bool; (* add_unit_pulse 308: candidate vector, n_c, current n_best *)
  o_proj : Z -> Z;                     (* 396: floor(abs_x[n] * projection_factor) as i32 *)
  o_rises : Z -> bool;                 (* 448: abs_x[n_c] > max_abs_x *)
  o_neg : Z -> bool;                   (* 458, 472: t2rot[n] < 0 *)
  o_improves : Z -> Z -> bool          (* 509: d_mse < d_mse_min for shape j and gain i *)
}.

Section Search.
Variable o : oracle.

(* 305-314: n_c = nc .. n_max-1, `n` of them *)
Fixpoint best_loop (n : nat) (nc best : Z) (cand : list Z) : Z :=
  match n with
  | O => best
  | S m => best_loop m (nc + 1) (if o_better o cand nc best then nc else best) cand
  end.

(* 285-319: `iters` = max(k_max - k, 0) iterations *)
Fixpoint add_unit_pulse (iters : nat) (n_max : Z) (cand : list Z) : res (list Z) :=
  match iters with
  | O => Ok cand
  | S m =>
      let b := best_loop (Z.to_nat (n_max - 1)) 1 0 cand in
      v <- idx cand b ;;
      cand <- store cand b (v + 1) ;;
      add_unit_pulse m n_max cand
  end.

Definition zrange (a b : Z) : list Z := map (fun i => a + Z.of_nat i) (seq 0 (Z.to_nat (b - a))).
Definition zsum (l : list Z) : Z := fold_right Z.add 0 l.

(* 446-451 *)
Fixpoint b_loop (ns : list Z) (best : Z) : Z :=
  match ns with [] => best | n :: t => b_loop t (if o_rises o n then n else best) end.

(* 457-480 *)
Definition with_sign (y : list Z) : list Z := map (fun '(n, v) => if o_neg o n then - v else v) (combine (zrange 0 (len y)) y).

(* the four candidate vectors y0 (16), y1 (10), y2 (16), y3 (16), lines 384-480.
   `k as usize` of a negative k (443) would be a huge number: no iterations *)
Definition candidates : res (list Z * list Z * list Z * list Z) :=
  let p3 := map (o_proj o) (zrange 0 N_SCALES) in
  y3 <- add_unit_pulse (Z.to_nat (6 - zsum p3)) N_SCALES p3 ;;
  y2 <- add_unit_pulse (Z.to_nat (8 - 6)) N_SCALES y3 ;;
  let k := 8 - zsum (skipn 10 y2) in
  y1 <- add_unit_pulse (if k <? 0 then 0%nat else Z.to_nat (10 - k)) 10 (firstn 10 y2) ;;
  let y0 := y1 ++ repeat 0 6 in
  y0 <- store y0 (b_loop (zrange 10 16) 0) 1 ;;
  Ok (with_sign y0, with_sign y1, with_sign y2, with_sign y3).

(* 491-519: gains[..g_maxind_j] of each shape; shape 0 and gain 0 stay if nothing improves *)
Definition g_maxind (j : Z) : Z := if j =? 0 then 1 else if j =? 1 then 3 else if j =? 2 then 3 else 7.
Definition shape_gain : Z * Z :=
  fold_left (fun acc '(j, i) => if o_improves o j i then (j, i) else acc)
    (flat_map (fun j => map (fun i => (j, i)) (zrange 0 (g_maxind j))) (zrange 0 4)) (0, 0).

End Search.

(* 520-549; `ls_indb as usize` of the sentinel i32::MIN makes the product overflow: a panic with overflow checks *)
Definition joint_index (shape gind : Z) (y0 y1 y2 y3 : list Z) : res (Z * Z * Z) :=
  let lsb_gain := Z.land gind 1 in
  if shape =? 0 then
    '(ia, la) <- mvpq_enum 10 y0 ;;
    '(ib, lb) <- mvpq_enum 6 (skipn 10 y0) ;;
    if lb <? 0 then Panic
    else Ok ((2 * ib + lb + 2) * 2390004 + ia, la, lb)
  else if shape =? 1 then
    '(ia, la) <- mvpq_enum 10 y1 ;; Ok (lsb_gain * 2390004 + ia, la, 0)
  else if shape =? 2 then
    '(ia, la) <- mvpq_enum 16 y2 ;; Ok (ia, la, 0)
  else if shape =? 3 then
    '(ia, la) <- mvpq_enum 16 y3 ;; Ok (15158272 + lsb_gain + 2 * ia, la, 0)
  else Panic.

(* result of sns_quant_stage2: shape, gain index, joint index, leading sign of set A, of set B, chosen vector (zero padded to 16) *)
Definition stage2 (o : oracle) : res (Z * Z * Z * Z * Z * list Z) :=
  '(y0, y1, y2, y3) <- candidates o ;;
  let '(j, i) := shape_gain o in
  '(ix, la, lb) <- joint_index j i y0 y1 y2 y3 ;;
  Ok (j, i, ix, la, lb, if j =? 0 then y0 else if j =? 1 then y1 ++ repeat 0 6 else if j =? 2 then y2 else y3).

(* decoder 28-51: the pulse vector of the demultiplexed parameters *)
Definition sns_vector (q : sns_vq) : res (list Z) :=
  let shape := Z.shiftl (q_submode_msb q) 1 + q_submode_lsb q in
  if shape =? 0 then
    y <- mpvq_deenum 10 10 (q_ls_inda q) (q_idx_a q) ;;
    z <- mpvq_deenum 6 1 (q_ls_indb q) (q_idx_b q) ;;
    Ok (y ++ z)
  else if shape =? 1 then
    y <- mpvq_deenum 10 10 (q_ls_inda q) (q_idx_a q) ;;
    Ok (y ++ repeat 0 6)
  else if shape =? 2 then mpvq_deenum 16 8 (q_ls_inda q) (q_idx_a q)
  else if shape =? 3 then mpvq_deenum 16 6 (q_ls_inda q) (q_idx_a q)
  else Panic.

(* decoder 60-69: length of the gain table of each shape *)
Definition gain_table_len (shape : Z) : Z := if shape =? 0 then 2 else if shape =? 1 then 4 else if shape =? 2 then 4 else 8.
