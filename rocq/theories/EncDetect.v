(* Encoder stages that look at one frame and decide something: /repo/src/encoder/{bandwidth_detector,attack_detector,
   noise_level_estimation,residual_spectrum}.rs *)
From Coq Require Import ZArith List Bool.
From Verif Require Import Base Config Loops Scalar EncScalar.
Import ListNotations.
Local Open Scope Z_scope.

Section EncDetect.
Context {F : Type} (o : ops F) (e : eops F).
Let f0 := fz o 0.

(* ---- bandwidth_detector.rs ---- *)
(* 5-9 *)
Definition BW_START_10 : list (list Z) := [[53; 0; 0; 0]; [47; 59; 0; 0]; [44; 54; 60; 0]; [41; 51; 57; 61]].
Definition BW_STOP_10 : list (list Z) := [[63; 0; 0; 0]; [56; 63; 0; 0]; [52; 59; 63; 0]; [49; 55; 60; 63]].
Definition BW_START_75 : list (list Z) := [[51; 0; 0; 0]; [45; 58; 0; 0]; [42; 53; 60; 0]; [40; 51; 57; 61]].
Definition BW_STOP_75 : list (list Z) := [[63; 0; 0; 0]; [55; 63; 0; 0]; [51; 58; 63; 0]; [48; 55; 60; 63]].
Definition NBITS_BW : list Z := [0; 1; 2; 2; 3].
(* 12-18 *)
Definition QUIETNESS : list Z := [20; 10; 10; 10].
Definition CUTOFF : list Z := [15; 23; 20; 20].
Definition L_10 : list Z := [4; 4; 3; 1].
Definition L_75 : list Z := [4; 4; 3; 2].

(* 33-53: the constructor *)
Record bwdet : Set := mkBwdet { bd_ind : Z; bd_start : list Z; bd_stop : list Z; bd_l : list Z }.
Definition bwdet_new (d : duration) (fs_ind : Z) : res bwdet :=
  i <- usub fs_ind 1 ;;
  match d with
  | TenMs => a <- idx BW_START_10 i ;; b <- idx BW_STOP_10 i ;; Ok (mkBwdet fs_ind a b L_10)
  | SevenPointFiveMs => a <- idx BW_START_75 i ;; b <- idx BW_STOP_75 i ;; Ok (mkBwdet fs_ind a b L_75)
  end.

(* 74-95: bands k - 1, ..., 0 *)
Fixpoint bw_candidate (b : bwdet) (eb : list F) (k : nat) : res Z :=
  match k with
  | O => Ok 0
  | S k' =>
      let j := Z.of_nat k' in
      start <- idx (bd_start b) j ;;
      stop <- idx (bd_stop b) j ;;
      w <- usub (stop + 1) start ;;
      s <- sub eb start (stop + 1) ;;
      let q := fold_left (fun q x => fadd o q (fdiv o x (fz o w))) s f0 in
      t <- idx QUIETNESS j ;;
      if fge o q (fz o t) then Ok (j + 1) else bw_candidate b eb k'
  end.
(* 62-128: (bandwidth_ind, nbits_bandwidth) *)
Definition bw_run (b : bwdet) (eb : list F) : res (Z * Z) :=
  nbits <- idx NBITS_BW (bd_ind b) ;;
  if bd_ind b =? 0 then Ok (0, nbits)
  else
    bw <- bw_candidate b eb (Z.to_nat (bd_ind b)) ;;
    if bd_ind b =? bw then Ok (bw, nbits)
    else
      l <- idx (bd_l b) bw ;;
      to <- idx (bd_start b) bw ;;
      from <- usub (to + 1) l ;;
      cut <- for_range from to (fun n cut => m <- usub n l ;; x <- idx eb m ;; y <- idx eb n ;; Ok (fmax o (fdiv o x y) cut)) f0 ;;
      t <- idx CUTOFF bw ;;
      if flt o (fz o t) cut then Ok (bw, nbits) else Ok (bd_ind b, nbits).

(* ---- attack_detector.rs ---- *)
(* 9-22 *)
Record attack : Type := mkAttack { at_energy : F; at_max : F; at_pos : Z; at_d1 : Z; at_d2 : Z }.
(* 24-41 *)
Definition attack_new : attack := mkAttack f0 f0 (-1) 0 0.
Definition attack_params (d : duration) : Z * Z * Z := match d with TenMs => (160, 4, 2) | SevenPointFiveMs => (120, 3, 1) end.
(* 91-105 *)
Definition attack_active (c : config) (nbytes : Z) : bool :=
  if fs c <? 32000 then false
  else match n_ms c with
       | SevenPointFiveMs => ((fs c =? 32000) && (61 <=? nbytes) && (nbytes <? 150)) || ((44100 <=? fs c) && (75 <=? nbytes) && (nbytes <? 150))
       | TenMs => ((fs c =? 32000) && (80 <? nbytes)) || ((41000 <=? fs c) && (100 <=? nbytes))
       end.
(* 107-116; i32 sums of at most 3 samples *)
Definition downsample (c : config) (nd : Z) (x : list Z) (out : list Z) : res (list Z) :=
  let bl := nf c / nd in
  for_range 0 (len out) (fun n out => s <- sub x (bl * n) (bl * n + bl) ;; put out n (fold_left Z.add s 0)) out.
(* 118-128 *)
Definition hp (a b c : F) : F := fadd o (fsub o (fmul o (flit o (375, -3)) a) (fmul o (flit o (5, -1)) b)) (fmul o (flit o (125, -3)) c).
Definition highpass (st : attack) (x : list Z) (out : list F) : res (list F) :=
  x0 <- idx x 0 ;; x1 <- idx x 1 ;;
  out <- put out 0 (hp (fz o x0) (fz o (at_d1 st)) (fz o (at_d2 st))) ;;
  out <- put out 1 (hp (fz o x1) (fz o x0) (fz o (at_d1 st))) ;;
  for_range 2 (len out) (fun n out => a <- idx x n ;; b <- idx x (n - 1) ;; c <- idx x (n - 2) ;; put out n (hp (fz o a) (fz o b) (fz o c))) out.
(* 66-83: state of the loop: energy_last, max_energy_last, position *)
Definition attack_block (h : list F) (n : Z) (s : F * F * Z) : res (F * F * Z) :=
  let '(en, mx, pos) := s in
  b <- sub h (40 * n) (40 * n + 40) ;;
  let energy := fold_left (fun a x => fadd o a (fmul o x x)) b f0 in
  let mx := fmax o (fmul o (flit o (25, -2)) mx) en in
  Ok (energy, mx, if flt o (fmul o (flit o (85, -1)) mx) energy then n else pos).
(* 44-89 *)
Definition attack_run (c : config) (st : attack) (x : list Z) (nbytes : Z) : res (bool * attack) :=
  _ <- assert (len x =? nf c) ;;
  if negb (attack_active c nbytes) then Ok (false, mkAttack f0 f0 (-1) (at_d1 st) (at_d2 st))
  else
    let '(nd, nblocks, limit) := attack_params (n_ms c) in
    d <- downsample c nd x (repeat 0 (Z.to_nat nd)) ;;
    h <- highpass st d (repeat f0 (Z.to_nat nd)) ;;
    d1 <- idx d (len d - 1) ;;
    d2 <- idx d (len d - 2) ;;
    '(en, mx, pos) <- for_range 0 nblocks (attack_block h) (at_energy st, at_max st, -1) ;;
    Ok ((0 <=? pos) || (limit <=? at_pos st), mkAttack en mx pos d1 d2).

(* ---- noise_level_estimation.rs:21-55 ---- *)
Definition nle_params (d : duration) (bw : Z) : res (Z * Z * Z) :=
  match d with
  | TenMs => s <- idx [80; 160; 240; 320; 400] bw ;; Ok (s, 24, 3)
  | SevenPointFiveMs => s <- idx [60; 120; 180; 240; 300] bw ;; Ok (s, 18, 2)
  end.
Definition nle_line (xf : list F) (xq : list Z) (stop width : Z) (gg : F) (k : Z) (s : F * Z) : res (F * Z) :=
  x <- idx xf k ;;
  from <- usub k width ;;
  w <- sub xq from (Z.min stop (k + width + 1)) ;;
  if forallb (Z.eqb 0) w then Ok (fadd o (fst s) (fdiv o (e_abs e x) gg), snd s + 1) else Ok s.
Definition noise_factor (d : duration) (ne : Z) (xf : list F) (xq : list Z) (bw : Z) (gg : F) : res Z :=
  '(stop, start, width) <- nle_params d bw ;;
  '(sum, count) <- for_range start (Z.min (Z.min ne stop) (len xf)) (nle_line xf xq stop width gg) (f0, 0) ;;
  let level := if 0 <? count then fdiv o sum (fz o count) else f0 in
  let diff := fsub o (fz o 8) (fmul o (fz o 16) level) in
  Ok (if fge o diff f0 then Z.min 7 (f_i32 o (fadd o diff (flit o (5, -1)))) mod 2 ^ 64 else 0).

(* ---- residual_spectrum.rs:32-62: the array holds 400 bits; the bits set are those of the first `n` entries ---- *)
Fixpoint residual_bits (fuel : nat) (max n : Z) (gg : F) (lines : list F) (xq : list Z) : res (list bool) :=
  match lines, xq with
  | x :: lines, q :: xq =>
      if max <=? n then Ok []
      else if q =? 0 then residual_bits fuel max n gg lines xq
      else match fuel with
           | O => Panic   (* res_bits.set: index 400 *)
           | S f => r <- residual_bits f max (n + 1) gg lines xq ;; Ok (fge o x (fmul o (fz o q) gg) :: r)
           end
  | _, _ => Ok []
  end.
Definition residual_encode (nbits_spec nbits_trunc ne : Z) (gg : F) (lines : list F) (xq : list Z) : res (list bool) :=
  let max := Z.max 0 (nbits_spec - nbits_trunc + 4) in
  if 0 <? max then
    l <- sub lines 0 ne ;;
    q <- sub xq 0 ne ;;
    residual_bits 400 max 0 gg l q
  else Ok [].
End EncDetect.
Arguments attack : clear implicits.
