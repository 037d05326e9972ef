(* Spectral noise shaping of the encoder over any scalar type: /repo/src/encoder/spectral_noise_shaping.rs.
   The pulse enumeration and the joint index are in Mpvq.v and SnsIndex.v. *)
From Coq Require Import ZArith List Bool.
From Verif Require Import Base Config Mpvq SnsIndex Buffers TablesSnsF Loops Scalar EncScalar DecSignal.
Import ListNotations.
Local Open Scope Z_scope.

Section EncSns.
Context {F : Type} (o : ops F) (e : eops F).
Let f0 := fz o 0.
Let q25 := flit o (25, -2).

(* 51-57 *)
Definition G_TILT : list Z := [14; 18; 22; 26; 30].
(* 59; the divisions are done by the compiler, on f32 *)
Definition WEIGHTING : list F := map (fun k => fdiv o (fz o k) (fz o 12)) [1; 2; 3; 3; 2; 1].

(* 76-92 *)
Definition sns_pad (nb : Z) (x : list F) (out : list F) : res (list F) :=
  diff <- usub 64 nb ;;
  if 0 <? diff then
    out <- for_range 0 diff (fun i out => v <- idx x i ;; out <- put out (i * 2) v ;; put out (i * 2 + 1) v) out ;;
    for_range 0 nb (fun i out => v <- idx x (diff + i) ;; put out (2 * diff + i) v) out
  else blit out 0 (len out) x.
(* 94-100 *)
Definition sns_smooth (x out : list F) : res (list F) :=
  a <- idx x 0 ;; b <- idx x 1 ;;
  out <- put out 0 (fadd o (fmul o (flit o (75, -2)) a) (fmul o q25 b)) ;;
  out <- for_range 1 63 (fun n out =>
      a <- idx x (n - 1) ;; b <- idx x n ;; c <- idx x (n + 1) ;;
      put out n (fadd o (fadd o (fmul o q25 a) (fmul o (flit o (5, -1)) b)) (fmul o q25 c))) out ;;
  a <- idx x 62 ;; b <- idx x 63 ;;
  put out 63 (fadd o (fmul o q25 a) (fmul o (flit o (75, -2)) b)).
(* 103-129 *)
Definition sns_group (x : list F) : res (list F) :=
  w0 <- idx WEIGHTING 0 ;; x0 <- idx x 0 ;;
  d0 <- for_range 1 6 (fun k s => w <- idx WEIGHTING k ;; v <- idx x (k - 1) ;; Ok (fadd o s (fmul o w v))) (fmul o w0 x0) ;;
  d <- put (repeat f0 16) 0 d0 ;;
  d <- for_range 1 15 (fun b d =>
      s <- sub x (4 * b - 1) (4 * b - 1 + 6) ;;
      put d b (fold_left (fun a '(w, v) => fadd o a (fmul o w v)) (combine WEIGHTING s) f0)) d ;;
  w5 <- idx WEIGHTING 5 ;; x63 <- idx x 63 ;;
  d15 <- for_range 0 5 (fun k s => w <- idx WEIGHTING k ;; v <- idx x (60 + k - 1) ;; Ok (fadd o s (fmul o w v))) (fmul o w5 x63) ;;
  put d 15 d15.
(* 131-137 *)
Definition sns_mean (x : list F) : list F :=
  let avg := fdiv o (fsum o x) (fz o (len x)) in map (fun v => fmul o (flit o (85, -2)) (fsub o v avg)) x.
(* 139-165 *)
Definition sns_attack (attack : bool) (d : duration) (x out : list F) : res (list F) :=
  _ <- assert (len x =? 16) ;;
  _ <- assert (len out =? 16) ;;
  if attack then
    a <- idx x 0 ;; b <- idx x 1 ;; c <- idx x 2 ;; g <- idx x 3 ;;
    out <- put out 0 (fdiv o (fadd o (fadd o a b) c) (fz o 3)) ;;
    out <- put out 1 (fdiv o (fadd o (fadd o (fadd o a b) c) g) (fz o 4)) ;;
    out <- for_range 2 14 (fun n out => s <- sub x (n - 2) (n + 3) ;; put out n (fdiv o (fsum o s) (fz o 5))) out ;;
    a <- idx x 12 ;; b <- idx x 13 ;; c <- idx x 14 ;; g <- idx x 15 ;;
    out <- put out 14 (fdiv o (fadd o (fadd o (fadd o a b) c) g) (fz o 4)) ;;
    out <- put out 15 (fdiv o (fadd o (fadd o b c) g) (fz o 3)) ;;
    let avg := fdiv o (fsum o out) (fz o (len out)) in
    let att := flit o (match d with TenMs => (5, -1) | SevenPointFiveMs => (3, -1) end) in
    Ok (map (fun v => fmul o att (fsub o v avg)) out)
  else blit out 0 (len out) x.
(* 219-247: from the band energies to the sixteen scale factors *)
Definition sns_scale_factors (c : config) (eb : list F) (attack : bool) : res (list F) :=
  tilt <- idx G_TILT (fs_ind c) ;;
  p <- sns_pad (nb c) eb (repeat f0 64) ;;
  s <- sns_smooth p (repeat f0 64) ;;
  let ex := fdiv o (fz o tilt) (fz o 630) in
  let s := map (fun '(b, v) => fmul o v (e_pow10 e (fmul o (fz o b) ex))) (combine (zrange 0 (len s)) s) in
  let floor := fmax o (e_powi e (fz o 2) (-32)) (fmul o (fdiv o (fsum o s) (fz o 64)) (e_powi e (fz o 10) (-4))) in
  let s := map (fun v => fdiv o (e_log2 e (fadd o (flit o (11920928955078125, -23)) (fmax o v floor))) (fz o 2)) s in
  d <- sns_group s ;;
  sns_attack attack (n_ms c) (sns_mean d) (repeat f0 16).

(* ---- stage 1: 327-361 ---- *)
Definition dist8 (x : list F) (code : list (Z * Z)) : F :=
  fold_left (fun a '(v, l) => let d := fsub o v (flit o l) in fadd o a (fmul o d d)) (combine x code) f0.
(* index of the first code vector with the smallest distance; (index, minimum) *)
Fixpoint nearest (x : list F) (codes : list (list (Z * Z))) (i : Z) (s : Z * F) : Z * F :=
  match codes with
  | [] => s
  | c :: codes => let d := dist8 x c in nearest x codes (i + 1) (if flt o d (snd s) then (i, d) else s)
  end.
(* (ind_lf, ind_hf, st1, r1) *)
Definition sns_stage1 (scf : list F) : res (Z * Z * list F * list F) :=
  lo <- sub scf 0 8 ;;
  hi <- sub scf 8 16 ;;
  let ind_lf := fst (nearest lo LFCB 0 (0, e_inf e)) in
  let ind_hf := fst (nearest hi HFCB 0 (0, e_inf e)) in
  l <- idx LFCB ind_lf ;;
  h <- idx HFCB ind_hf ;;
  let st1 := map (flit o) (l ++ h) in
  Ok (ind_lf, ind_hf, st1, map (fun '(a, b) => fsub o a b) (combine scf st1)).

(* ---- stage 2: 363-568 ---- *)
(* 378-383: D transposed times r1 *)
Definition sns_rotate (r1 : list F) : list F :=
  fold_left (fun t '(r, row) => zipmod (fun t d => fadd o t (fmul o r (flit o d))) t row) (combine r1 D) (repeat f0 16).

(* 304-314: position n_c = 1 .. n_max - 1; state: best position, its squared correlation and energy *)
Definition pulse_best (ax : list F) (corr en : F) (cand : list Z) (n_max : Z) : res Z :=
  a0 <- idx ax 0 ;; c0 <- idx cand 0 ;;
  let energy c := fadd o (fadd o en (fmul o (fz o 2) (fz o c))) (fz o 1) in
  let cr := fadd o corr a0 in
  '(b, _, _) <- for_range 1 n_max (fun n '(b, bc, be) =>
      a <- idx ax n ;; c <- idx cand n ;;
      let cr := fadd o corr a in
      let en := energy c in
      Ok (if flt o (fmul o bc en) (fmul o (fmul o cr cr) be) then (n, fmul o cr cr, en) else (b, bc, be))) (0, fmul o cr cr, energy c0) ;;
  Ok b.
(* 294-319, k_max - k iterations; corr, energy are the values of the two variables `*_last`. On return the code leaves in
   corr_xy and energy_y the values of the last position tried (299, 306, 307), not those of the best one. *)
Fixpoint pulses (iters : nat) (ax : list F) (n_max : Z) (cand : list Z) (corr en : F) (ret : F * F) : res (list Z * (F * F)) :=
  match iters with
  | O => Ok (cand, ret)
  | S m =>
      b <- pulse_best ax corr en cand n_max ;;
      al <- idx ax (n_max - 1) ;; cl <- idx cand (n_max - 1) ;;
      let energy c := fadd o (fadd o en (fmul o (fz o 2) (fz o c))) (fz o 1) in
      let ret := (fadd o corr al, energy cl) in
      ab <- idx ax b ;; cb <- idx cand b ;;
      cand' <- put cand b (cb + 1) ;;
      pulses m ax n_max cand' (fadd o corr ab) (energy cb) ret
  end.
Definition add_pulses (iters : nat) (ax : list F) (n_max : Z) (cand : list Z) (s : F * F) : res (list Z * (F * F)) :=
  pulses iters ax n_max cand (fst s) (snd s) s.

(* 385-404: (y3 start, k, (corr, energy)); `k += y as usize` wraps or panics only for a negative projection *)
Definition project (ax : list F) : list Z * Z * (F * F) :=
  let factor := fdiv o (fsub o (fz o 6) (fz o 1)) (fsum o ax) in
  fold_left (fun '(y, k, (cr, en)) a =>
    let v := f_i32 o (e_floor e (fmul o a factor)) in
    (y ++ [v], k + v, if v =? 0 then (cr, en) else (fadd o cr (fmul o (fz o v) a), fadd o en (fmul o (fz o v) (fz o v))))) ax ([], 0, (f0, f0)).
(* 443-452: the position in set B with the largest value *)
Fixpoint largest (l : list F) (n best : Z) (mx : F) : Z :=
  match l with [] => best | v :: l => if flt o mx v then largest l (n + 1) n v else largest l (n + 1) best mx end.
Definition signed (t : list F) (y : list Z) : list Z := map (fun '(v, x) => if flt o v f0 then - x else x) (combine t y).
(* 384-480: the four candidate vectors *)
Definition sns_candidates (t2 : list F) : res (list Z * list Z * list Z * list Z) :=
  let ax := map (e_abs e) t2 in
  let '(p3, k, s) := project ax in
  if k <? 0 then Panic else
  '(y3, s) <- add_pulses (Z.to_nat (6 - k)) ax 16 p3 s ;;
  '(y2, (cr, en)) <- add_pulses 2 ax 16 y3 s ;;
  y1 <- sub y2 0 10 ;;
  t <- sub y2 10 16 ;;
  at_ <- sub ax 10 16 ;;
  let k := 8 - zsum t in
  let s := fold_left (fun '(cr, en) '(v, a) => if v =? 0 then (cr, en) else (fsub o cr (fmul o (fz o v) a), fsub o en (fmul o (fz o v) (fz o v)))) (combine t at_) (cr, en) in
  '(y1, _) <- add_pulses (if k <? 0 then 0%nat else Z.to_nat (10 - k)) ax 10 y1 s ;;
  y0 <- put (y1 ++ repeat 0 6) (largest at_ 10 0 f0) 1 ;;
  Ok (signed t2 y0, signed t2 y1, signed t2 y2, signed t2 y3).

(* 622-649 *)
Definition normalise (y : list Z) : list F :=
  let norm := fsqrt o (fold_left (fun a v => if v =? 0 then a else fadd o a (fmul o (fz o v) (fz o v))) y f0) in
  map (fun v => if v =? 0 then fz o v else fdiv o (fz o v) norm) y ++ repeat f0 (16 - length y).
(* 503-507 *)
Definition d_mse (t2 xq : list F) (g : F) : F :=
  fold_left (fun a '(x, t) => let d := fsub o t (fmul o g x) in fadd o a (fmul o d d)) (combine xq t2) f0.
(* 491-519: state: shape, gain index, minimum, gain, vector; gains i, i + 1, ... of shape j *)
Definition choice : Type := (Z * Z * F * F * list F)%type.
Fixpoint choose_gain (t2 xq : list F) (j i : Z) (gains : list (Z * Z)) (s : choice) : choice :=
  match gains with
  | [] => s
  | g :: gains =>
      let '(_, _, mn, _, _) := s in
      let d := d_mse t2 xq (flit o g) in
      choose_gain t2 xq j (i + 1) gains (if flt o d mn then (j, i, d, flit o g, xq) else s)
  end.
Definition choose (t2 : list F) (x0 x1 x2 x3 : list F) : res choice :=
  g0 <- sub SNS_VQ_REG_ADJ_GAINS 0 1 ;; g1 <- sub SNS_VQ_REG_LF_ADJ_GAINS 0 3 ;; g2 <- sub SNS_VQ_NEAR_ADJ_GAINS 0 3 ;; g3 <- sub SNS_VQ_FAR_ADJ_GAINS 0 7 ;;
  let s := choose_gain t2 x0 0 0 g0 (0, 0, e_inf e, f0, x0) in
  let s := choose_gain t2 x1 1 0 g1 s in
  let s := choose_gain t2 x2 2 0 g2 s in
  Ok (choose_gain t2 x3 3 0 g3 s).

(* 21-29 *)
Record sns_result : Set := mkSr { sr_lf : Z; sr_hf : Z; sr_shape : Z; sr_gind : Z; sr_lsa : Z; sr_lsb : Z; sr_joint : Z }.
(* 570-582, with the synthesis of the quantised factors 551-559 *)
Definition sns_quant (scf : list F) : res (sns_result * list F) :=
  '(lf, hf, st1, r1) <- sns_stage1 scf ;;
  let t2 := sns_rotate r1 in
  '(y0, y1, y2, y3) <- sns_candidates t2 ;;
  '(j, i, _, g, xq) <- choose t2 (normalise y0) (normalise y1) (normalise y2) (normalise y3) ;;
  '(joint, la, lb) <- joint_index j i y0 y1 y2 y3 ;;
  let row r := fold_left (fun a '(x, d) => fadd o a (fmul o x (flit o d))) (combine xq r) f0 in
  Ok (mkSr lf hf j i la lb joint, map (fun '(s, r) => fadd o s (fmul o g (row r))) (combine st1 D)).

(* 167-188 *)
Definition sns_interpolate (q : list F) : res (list F) :=
  _ <- assert (len q =? 16) ;;
  let f n d := flit o (n, d) in
  q0 <- idx q 0 ;;
  s <- put (repeat f0 64) 0 q0 ;;
  s <- put s 1 q0 ;;
  s <- for_range 0 15 (fun n s =>
      a <- idx q n ;; b <- idx q (n + 1) ;;
      let diff := fsub o b a in
      s <- put s (4 * n + 2) (fadd o a (fmul o (f 125 (-3)) diff)) ;;
      s <- put s (4 * n + 3) (fadd o a (fmul o (f 375 (-3)) diff)) ;;
      s <- put s (4 * n + 4) (fadd o a (fmul o (f 625 (-3)) diff)) ;;
      put s (4 * n + 5) (fadd o a (fmul o (f 875 (-3)) diff))) s ;;
  a <- idx q 14 ;; b <- idx q 15 ;;
  s <- put s 62 (fadd o b (fmul o (f 125 (-3)) (fsub o b a))) ;;
  put s 63 (fadd o b (fmul o (f 375 (-3)) (fsub o b a))).
(* 190-207: the second loop copies one and the same entry *)
Definition sns_narrow (nb : Z) (s : list F) : res (list F) :=
  diff <- usub 64 nb ;;
  if 0 <? diff then
    s <- for_range 0 diff (fun i s => a <- idx s (2 * i) ;; b <- idx s (2 * i + 1) ;; put s i (fdiv o (fadd o a b) (fz o 2))) s ;;
    for_range diff nb (fun i s => a <- idx s (diff + 1) ;; put s i a) s
  else Ok s.
(* 267-272: bands and gains up to the shorter list *)
Definition sns_apply (edges : list Z) (gains lines : list F) : res (list F) :=
  for_range 0 (Z.min (len gains) (len edges - 1)) (fun b lines =>
    g <- idx gains b ;; lo <- idx edges b ;; hi <- idx edges (b + 1) ;;
    _ <- sub lines lo hi ;;
    for_range lo hi (fun n lines => x <- idx lines n ;; put lines n (fmul o x g)) lines) lines.
(* 209-283 *)
Definition sns_encode (c : config) (lines eb : list F) (attack : bool) : res (sns_result * list F) :=
  _ <- assert (len lines =? ne c) ;;
  scf <- sns_scale_factors c eb attack ;;
  '(r, scfq) <- sns_quant scf ;;
  s <- sns_interpolate scfq ;;
  s <- sns_narrow (nb c) s ;;
  edges <- band_table c ;;
  lines <- sns_apply edges (map (fun v => e_exp2 e (fneg o v)) s) lines ;;
  Ok (r, lines).
End EncSns.
