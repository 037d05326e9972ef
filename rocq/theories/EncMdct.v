(* Forward MDCT, band energies and near-Nyquist detection over any scalar type: /repo/src/encoder/modified_dct.rs *)
From Coq Require Import ZArith List Bool.
From Verif Require Import Base Config FftFactor Buffers Loops Scalar DecSignal Fft DecMdct TablesWindow.
Import ListNotations.
Local Open Scope Z_scope.

(* modified_dct.rs:35-52: chosen by the frequency index here, by the frame length in the decoder *)
Definition enc_window (c : config) : res (list (Z * Z)) :=
  match n_ms c with
  | SevenPointFiveMs => idx [W_N60_7P5MS; W_N120_7P5MS; W_N180_7P5MS; W_N240_7P5MS; W_N360_7P5MS] (fs_ind c)
  | TenMs => idx [W_N80_10MS; W_N160_10MS; W_N240_10MS; W_N320_10MS; W_N480_10MS] (fs_ind c)
  end.

Section EncMdct.
Context {F : Type} (o : ops F).
Let f0 := fz o 0.

(* modified_dct.rs:18-24 *)
Record emdct : Type := mkEmdct {
  em_time : list Z;       (* freq: the time buffer, 2 nf samples *)
  em_in : list (F * F);   (* dct_iv.input *)
  em_out : list (F * F)   (* dct_iv.output *)
}.

(* 123-137 *)
Definition update_time (c : config) (t input : list Z) : res (list Z) :=
  '(l, r) <- split_at (nf c) t ;;
  n <- usub (nf c) (zlead c) ;;
  s <- sub r 0 n ;;
  l <- blit l 0 n s ;;
  blit (l ++ r) n (2 * nf c - zlead c) input.

(* 78-98: windowing and folding *)
Definition mdct_fold (c : config) (w : list (Z * Z)) (t : list Z) (out : list F) : res (list F) :=
  let h := nf c / 2 in
  let mid := 3 * h in
  let p x y := fmul o (fz o x) (flit o y) in
  t1 <- sub t (mid - h) mid ;; w1 <- sub w (mid - h) mid ;;
  t2 <- sub t mid (mid + h) ;; w2 <- sub w mid (mid + h) ;;
  out <- zipsub (fun _ '(((a, wa), b), wb) => fsub o (fneg o (p a wa)) (p b wb)) out 0 h (combine (combine (combine (rev t1) (rev w1)) t2) w2) ;;
  t1 <- sub t 0 h ;; w1 <- sub w 0 h ;;
  t2 <- sub t h (nf c) ;; w2 <- sub w h (nf c) ;;
  zipsub (fun _ '(((a, wa), b), wb) => fsub o (p a wa) (p b wb)) out h (nf c) (combine (combine (combine t1 w1) (rev t2)) (rev w2)).

(* 73-104 *)
Definition apply_mdct (c : config) (st : emdct) (out : list F) : res (list F * emdct) :=
  _ <- assert (len out =? nf c) ;;
  w <- enc_window c ;;
  out <- mdct_fold c w (em_time st) out ;;
  factors <- dct_factors (nf c) ;;
  '(out, i, u) <- dct_iv o (nf c) factors (em_in st) (em_out st) out ;;
  let gain := fdiv o (fz o 1) (fsqrt o (fmul o (fz o 2) (fz o (nf c)))) in
  Ok (map (fun x => fmul o x gain) out, mkEmdct (em_time st) i u).

(* 139-152 *)
Definition band_energy (edges : list Z) (lines : list F) (b : Z) : res F :=
  from <- idx edges b ;;
  to <- idx edges (b + 1) ;;
  width <- usub to from ;;
  s <- sub lines from to ;;
  Ok (fold_left (fun acc x => fadd o acc (fdiv o (fmul o x x) (fz o width))) s f0).
Definition energies (edges : list Z) (lines : list F) (bands : list F) : res (list F) :=
  for_range 0 (len bands) (fun b bands => e <- band_energy edges lines b ;; put bands b e) bands.

(* 154-178 *)
Fixpoint nyquist_sums (n : Z) (nn : Z) (bands : list F) (lower upper : F) : F * F :=
  match bands with
  | [] => (lower, upper)
  | e :: t => if n <? nn then nyquist_sums (n + 1) nn t (fadd o lower e) upper else nyquist_sums (n + 1) nn t lower (fadd o upper e)
  end.
Definition near_nyquist (c : config) (bands : list F) : res bool :=
  if fs c <=? 32000 then
    nn <- usub (nb c) (match n_ms c with SevenPointFiveMs => 4 | TenMs => 2 end) ;;
    let '(lower, upper) := nyquist_sums 0 nn bands f0 f0 in
    Ok (flt o (fmul o (fz o 30) lower) upper)
  else Ok false.

(* 107-121 *)
Definition emdct_run (c : config) (st : emdct) (input : list Z) (out bands : list F) : res (bool * list F * list F * emdct) :=
  _ <- assert (len input =? nf c) ;;
  _ <- assert (len out =? nf c) ;;
  _ <- assert (len bands =? nb c) ;;
  t <- update_time c (em_time st) input ;;
  '(out, st) <- apply_mdct c (mkEmdct t (em_in st) (em_out st)) out ;;
  edges <- band_table c ;;
  bands <- energies edges out bands ;;
  nn <- near_nyquist c bands ;;
  Ok (nn, out, bands, st).
End EncMdct.
Arguments emdct : clear implicits.
