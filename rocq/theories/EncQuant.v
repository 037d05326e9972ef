(* Spectral quantisation: /repo/src/encoder/spectral_quantization.rs *)
From Coq Require Import ZArith List Bool.
From Verif Require Import Base Config Loops Scalar EncScalar DecSignal TablesSpec.
Import ListNotations.
Local Open Scope Z_scope.

Section EncQuant.
Context {F : Type} (o : ops F) (e : eops F).
Let f0 := fz o 0.

(* 50-58; nbits_spec_old is never written after construction (see run) *)
Record equant : Type := mkEquant { eq_reset : bool; eq_offset : F; eq_spec_old : Z; eq_est : Z }.
(* 62-71 *)
Definition equant_new : equant := mkEquant false f0 0 0.

(* 122-134; `(ne as Scaler / 2.0).log2().ceil()` is taken as ceil(log2(ne/2)) for even ne *)
Definition ari_bits_reserved (ne nbits : Z) : Z := log2_ceil (ne / 2) + (if nbits <=? 1280 then 3 else if nbits <=? 2560 then 4 else 5).
Definition bit_budget (ne nbits nbits_bw nbits_tns nbits_ltpf : Z) : res Z :=
  usub nbits (nbits_bw + nbits_tns + nbits_ltpf + 38 + 8 + 3 + ari_bits_reserved ne nbits).

(* 156-172: (nbits_offset, nbits_spec_adj, gg_off); the i16 quantities other than the cast are small *)
Definition gg_off (fs_ind nbits : Z) : Z := - (Z.min 115 (Z.quot (wrap 16 nbits) (10 * (fs_ind + 1)))) - 105 - 5 * (fs_ind + 1).
Definition gain_params (q : equant) (nbits_spec : Z) : F * Z :=
  let offset :=
    if eq_reset q then f0
    else
      let prev := fsub o (fadd o (eq_offset q) (fz o (eq_spec_old q))) (fz o (eq_est q)) in
      fadd o (fmul o (flit o (8, -1)) (eq_offset q)) (fmul o (flit o (2, -1)) (fmin o (fz o 40) (fmax o (fz o (-40)) prev))) in
  (offset, as_u16 o (fadd o (fadd o (fz o nbits_spec) offset) (flit o (5, -1)))).

(* 390-395 *)
Fixpoint spectral_energy (en : list F) (x : list F) : list F :=
  match en, x with
  | _ :: en, x0 :: x1 :: x2 :: x3 :: x =>
      let total := fadd o (fadd o (fadd o (fmul o x0 x0) (fmul o x1 x1)) (fmul o x2 x2)) (fmul o x3 x3) in
      fmul o (fz o 10) (e_log10 e (fadd o (flit o (11920928955078125, -23)) total)) :: spectral_energy en x
  | _, _ => en
  end.

(* 174-209 *)
Definition twentieths (x : F) : F := fdiv o (fmul o x (fz o 28)) (fz o 20).
Definition gain_cost (g : F) (en : list F) : F * bool :=   (* (tmp, is_zero) *)
  fold_left (fun (s : F * bool) x => let '(tmp, z) := s in
    if flt o (twentieths x) g then ((if z then tmp else fadd o tmp (twentieths (flit o (27, -1)))), z)
    else if flt o g (fsub o (twentieths x) (twentieths (fz o 43))) then
      (fadd o tmp (fsub o (fsub o (fdiv o (fmul o (fmul o (fz o 2) x) (fz o 28)) (fz o 20)) (fmul o (fz o 2) g)) (twentieths (fz o 36))), false)
    else (fadd o tmp (fadd o (fsub o (twentieths x) g) (twentieths (fz o 7))), false)) (rev en) (f0, true).
Fixpoint gain_search (n : nat) (fac gg off : Z) (adj : Z) (en : list F) : Z :=
  match n with
  | O => gg
  | S n' =>
      let fac := fac / 2 in
      let gg := gg - fac in
      let '(tmp, z) := gain_cost (fadd o (fz o gg) (fz o off)) en in
      let limit := fdiv o (fmul o (fmul o (fz o adj) (flit o (14, -1))) (fz o 28)) (fz o 20) in
      gain_search n' fac (if flt o limit tmp && negb z then gg + fac else gg) off adj en
  end.

(* 212-228: (reset_offset, gg_min, gg_ind) *)
Definition gain_limit (chk : bool) (x : list F) (off gg : Z) : res (bool * Z * Z) :=
  let mx := fold_left (fun m v => fmax o m (e_abs e v)) x f0 in
  gg_min <- (if flt o f0 mx then
               i16c chk (as_i16 o (e_ceil e (fmul o (fz o 28) (e_log10 e (fdiv o mx (fsub o (fz o 32768) (flit o (375, -3))))))) - off)
             else Ok 0) ;;
  Ok (if (gg <? gg_min) || feq o mx f0 then (true, gg_min, gg_min) else (false, gg_min, gg)).

(* (n as Scaler / 2048.0).ceil() as usize *)
Definition cost_bits (n : Z) : Z := as_usize o (e_ceil e (fdiv o (fz o n) (fz o 2048))).

(* 268-273 *)
Fixpoint last_nz (fuel : nat) (xq : list Z) (n : Z) : res Z :=
  if 2 <? n then
    a <- idx xq (n - 1) ;;
    b <- (if a =? 0 then idx xq (n - 2) else Ok 1) ;;
    if b =? 0 then match fuel with O => Panic | S f => last_nz f xq (n - 2) end else Ok n
  else Ok n.

(* 287-304; fuel stands for termination *)
Fixpoint bc_levels (fuel : nat) (mode : bool) (t a b lev est lsb : Z) : res (Z * Z * Z * Z * Z) :=
  if 4 <=? Z.max a b then
    match fuel with
    | O => Panic
    | S f =>
        pki <- idx AC_SPEC_LOOKUP (t + lev * 1024) ;;
        bits <- idx2 AC_SPEC_BITS pki 16 ;;
        let first := (lev =? 0) && mode in
        bc_levels f mode t (Z.shiftr a 1) (Z.shiftr b 1) (Z.min 3 (lev + 1)) (est + bits + (if first then 0 else 4096)) (if first then lsb + 2 else lsb)
    end
  else Ok (a, b, lev, est, lsb).

(* 280-334: one pair; state: context, estimate, lsb bits, truncated index, truncated estimate *)
Record bc : Set := mkBc { bc_c : Z; bc_est : Z; bc_lsb : Z; bc_last : Z; bc_trunc : Z }.
Definition bc_pair (ne rate nbits_spec : Z) (mode : bool) (n x0 x1 : Z) (s : bc) : res bc :=
  let t := bc_c s + rate + (if ne / 2 <? n then 256 else 0) in
  let a0 := Z.abs x0 in
  let b0 := Z.abs x1 in
  '(a, b, lev, est, lsb) <- bc_levels 16 mode t a0 b0 0 (bc_est s) (bc_lsb s) ;;
  pki <- idx AC_SPEC_LOOKUP (t + lev * 1024) ;;
  bits <- idx2 AC_SPEC_BITS pki (a + 4 * b) ;;
  let est := est + bits + (if 0 <? a0 then 2048 else 0) + (if 0 <? b0 then 2048 else 0) in
  let lsb :=
    if (0 <? lev) && mode then
      lsb + (if (Z.shiftr a0 1 =? 0) && negb (x0 =? 0) then 1 else 0) + (if (Z.shiftr b0 1 =? 0) && negb (x1 =? 0) then 1 else 0)
    else lsb in
  let keep := (negb (x0 =? 0) || negb (x1 =? 0)) && (cost_bits est <=? nbits_spec) in
  let t := if lev <=? 1 then 1 + (a + b) * (lev + 1) else 12 + lev in
  Ok (mkBc (Z.land (bc_c s) 15 * 16 + t) est lsb (if keep then n + 2 else bc_last s) (if keep then est else bc_trunc s)).
Fixpoint bc_pairs (k : nat) (ne rate nbits_spec : Z) (mode : bool) (n : Z) (xq : list Z) (s : bc) : res bc :=
  match k with
  | O => Ok s
  | S k' =>
      x0 <- idx xq n ;;
      x1 <- idx xq (n + 1) ;;
      s <- bc_pair ne rate nbits_spec mode n x0 x1 s ;;
      bc_pairs k' ne rate nbits_spec mode (n + 2) xq s
  end.

(* 17-25 *)
Record consumption : Set := mkCons { cn_rate : Z; cn_last : Z; cn_lsb : Z; cn_last_trunc : Z; cn_est : Z; cn_trunc : Z; cn_mode : bool }.
(* 265-348 *)
Definition bit_consumption (ne fs_ind nbits nbits_spec : Z) (xq : list Z) : res consumption :=
  let rate := if 160 + fs_ind * 160 <? nbits then 512 else 0 in
  let mode := 480 + fs_ind * 160 <=? nbits in
  last <- last_nz (length xq) xq ne ;;
  s <- bc_pairs (Z.to_nat ((last + 1) / 2)) ne rate nbits_spec mode 0 xq (mkBc 0 0 0 2 0) ;;
  Ok (mkCons rate last (bc_lsb s) (bc_last s) (cost_bits (bc_est s) + bc_lsb s) (cost_bits (bc_trunc s)) mode).

(* 230-263: (xq, lsb_mode, bit_consumption, gg) *)
Definition quantise_line (gg x : F) : Z :=
  if fge o x f0 then as_i16 o (fadd o (fdiv o x gg) (flit o (375, -3))) else as_i16 o (fsub o (fdiv o x gg) (flit o (375, -3))).
Definition quantise (ne fs_ind nbits off gg_ind nbits_spec : Z) (x : list F) (xq : list Z) : res (list Z * bool * consumption * F) :=
  let gg := fgain o (gg_ind + off) in
  let xq := zipmod (fun _ v => quantise_line gg v) xq x in
  b <- bit_consumption ne fs_ind nbits nbits_spec xq ;;
  _ <- sub xq (cn_last_trunc b) (cn_last b) ;;
  xq <- for_range (cn_last_trunc b) (cn_last b) (fun i l => put l i 0) xq ;;
  Ok (xq, cn_mode b && (nbits_spec <? cn_est b), b, gg).

(* 350-388: (gg_ind, adjusted) *)
Definition T1 : list Z := [80; 230; 380; 530; 680].
Definition T2 : list Z := [500; 1025; 1550; 2075; 2600].
Definition T3 : list Z := [850; 1700; 2550; 3400; 4250].
(* 360-372 *)
Definition gain_delta (t1 t2 t3 est : Z) : F :=
  let z := fz o in
  let delta :=
    if est <? t1 then fdiv o (fadd o (z est) (z 48)) (z 16)
    else if est <? t2 then
      let tmp1 := fadd o (fdiv o (z t1) (z 16)) (z 3) in
      let tmp2 := fdiv o (z t2) (z 48) in
      fadd o (fdiv o (fmul o (fsub o (z est) (z t1)) (fsub o tmp2 tmp1)) (fsub o (z t2) (z t1))) tmp1
    else if est <? t3 then fdiv o (z est) (z 48)
    else fdiv o (z t3) (z 48) in
  e_floor e (fadd o delta (flit o (5, -1))).
Definition gain_adjust (fs_ind gg gg_min nbits_spec est : Z) : res (Z * bool) :=
  t1 <- idx T1 fs_ind ;; t2 <- idx T2 fs_ind ;; t3 <- idx T3 fs_ind ;;
  let z := fz o in
  let delta := gain_delta t1 t2 t3 est in
  let low := flt o (z est) (fsub o (z nbits_spec) (fadd o delta (z 2))) in
  let gg' :=
    if (gg <? 255) && (nbits_spec <? est) || (0 <? gg) && low then
      Z.max (if low then gg - 1 else if (gg =? 254) || flt o (z est) (fadd o (z nbits_spec) delta) then gg + 1 else gg + 2) gg_min
    else gg in
  Ok (gg', negb (gg =? gg')).

(* 39-48 *)
Record quant_result : Type := mkQr { qr_gg_ind : Z; qr_spec : Z; qr_lsb : Z; qr_trunc : Z; qr_lsb_mode : bool; qr_rate : Z; qr_last : Z; qr_gg : F }.
(* 75-120 *)
Definition quant_run (chk : bool) (ne fs_ind : Z) (q : equant) (x : list F) (xq : list Z) (nbits nbits_bw nbits_tns nbits_ltpf : Z)
  : res (quant_result * list Z * equant) :=
  _ <- assert (len x =? ne) ;;
  _ <- assert (len xq =? ne) ;;
  spec <- bit_budget ne nbits nbits_bw nbits_tns nbits_ltpf ;;
  let '(offset, adj) := gain_params q spec in
  let off := gg_off fs_ind nbits in
  en <- sub (repeat f0 100) 0 (ne / 4) ;;
  let en := spectral_energy en x in
  '(reset, gg_min, gg) <- gain_limit chk x off (gain_search 8 256 255 off adj en) ;;
  '(xq1, lsb1, b1, g1) <- quantise ne fs_ind nbits off gg spec x xq ;;
  let q := mkEquant reset offset (eq_spec_old q) (cn_est b1) in
  '(gg', adjusted) <- gain_adjust fs_ind gg gg_min spec (cn_est b1) ;;
  '(xq, lsb, b, g) <- (if adjusted then quantise ne fs_ind nbits off gg' spec x xq1 else Ok (xq1, lsb1, b1, g1)) ;;
  Ok (mkQr gg' spec (cn_lsb b) (cn_trunc b) lsb (cn_rate b) (cn_last_trunc b) g, xq, q).
End EncQuant.
Arguments equant : clear implicits.
Arguments quant_result : clear implicits.
