(* Mixed radix FFT and DCT-IV over any scalar type: /repo/src/common/kissfft.rs, /repo/src/common/dct_iv.rs *)
From Coq Require Import ZArith List Bool.
From Verif Require Import Base FftFactor Loops Scalar.
Import ListNotations.
Local Open Scope Z_scope.

Section Fft.
Context {F : Type} (o : ops F).
Let C : Type := (F * F)%type.
Let c0 : C := (fz o 0, fz o 0).
Let half : F := flit o (5, -1).

(* kissfft.rs:18-27 (forward transform; `inverse` is always false: dct_iv.rs:24) *)
Definition fft_twiddles (n : Z) : list C := map (fun i => ftw o n (Z.of_nat i)) (seq 0 (Z.to_nat n)).

(* The butterflies get the whole output and the index `b` where their slice `fout[fout_idx_begin..]` starts. *)
(* kissfft.rs:133-141 *)
Definition bfly2 (tw : list C) (b fstride m : Z) (fout : list C) : res (list C) :=
  for_range 0 m (fun i fout =>
    x <- idx fout (b + m + i) ;; w <- idx tw (i * fstride) ;;
    let t := cmul o x w in
    y <- idx fout (b + i) ;;
    fout <- put fout (b + m + i) (csub o y t) ;;
    put fout (b + i) (cadd o y t)) fout.

(* kissfft.rs:143-173 *)
Definition bfly4 (tw : list C) (b fstride m : Z) (fout : list C) : res (list C) :=
  let m2 := m * 2 in
  let m3 := m * 3 in
  for_range 0 m (fun i fout =>
    a1 <- idx fout (b + (i + m)) ;; w1 <- idx tw (i * fstride) ;;
    a2 <- idx fout (b + (i + m2)) ;; w2 <- idx tw (i * (fstride * 2)) ;;
    a3 <- idx fout (b + (i + m3)) ;; w3 <- idx tw (i * (fstride * 3)) ;;
    let s0 := cmul o a1 w1 in
    let s1 := cmul o a2 w2 in
    let s2 := cmul o a3 w3 in
    y <- idx fout (b + i) ;;
    let s5 := csub o y s1 in
    let y := cadd o y s1 in
    let s3 := cadd o s0 s2 in
    let s4 := csub o s0 s2 in
    fout <- put fout (b + (i + m2)) (csub o y s3) ;;
    fout <- put fout (b + i) (cadd o y s3) ;;
    fout <- put fout (b + (i + m)) (fadd o (fst s5) (snd s4), fsub o (snd s5) (fst s4)) ;;
    put fout (b + (i + m3)) (fsub o (fst s5) (snd s4), fadd o (snd s5) (fst s4))) fout.

(* kissfft.rs:175-203 *)
Definition bfly3 (tw : list C) (b fstride m : Z) (fout : list C) : res (list C) :=
  let m2 := m * 2 in
  epi3 <- idx tw (fstride * m) ;;
  for_range 0 m (fun i fout =>
    a1 <- idx fout (b + (i + m)) ;; w1 <- idx tw (i * fstride) ;;
    a2 <- idx fout (b + (i + m2)) ;; w2 <- idx tw (i * (fstride * 2)) ;;
    let s1 := cmul o a1 w1 in
    let s2 := cmul o a2 w2 in
    let s3 := cadd o s1 s2 in
    let s0 := csub o s1 s2 in
    y <- idx fout (b + i) ;;
    let fm := (fsub o (fst y) (fmul o (fst s3) half), fsub o (snd y) (fmul o (snd s3) half)) in
    let s0 := cscale o s0 (snd epi3) in
    fout <- put fout (b + i) (cadd o y s3) ;;
    fout <- put fout (b + (i + m2)) (fadd o (fst fm) (snd s0), fsub o (snd fm) (fst s0)) ;;
    put fout (b + (i + m)) (fsub o (fst fm) (snd s0), fadd o (snd fm) (fst s0))) fout.

(* kissfft.rs:205-256 *)
Definition bfly5 (tw : list C) (b fstride m : Z) (fout : list C) : res (list C) :=
  ya <- idx tw (fstride * m) ;;
  yb <- idx tw (fstride * 2 * m) ;;
  for_range 0 m (fun i fout =>
    s0 <- idx fout (b + i) ;;
    a1 <- idx fout (b + (i + m)) ;; w1 <- idx tw (i * fstride) ;;
    a2 <- idx fout (b + (i + m * 2)) ;; w2 <- idx tw (i * 2 * fstride) ;;
    a3 <- idx fout (b + (i + m * 3)) ;; w3 <- idx tw (i * 3 * fstride) ;;
    a4 <- idx fout (b + (i + m * 4)) ;; w4 <- idx tw (i * 4 * fstride) ;;
    let s1 := cmul o a1 w1 in
    let s2 := cmul o a2 w2 in
    let s3 := cmul o a3 w3 in
    let s4 := cmul o a4 w4 in
    let s7 := cadd o s1 s4 in
    let s10 := csub o s1 s4 in
    let s8 := cadd o s2 s3 in
    let s9 := csub o s2 s3 in
    fout <- put fout (b + i) (fadd o (fst s0) (fadd o (fst s7) (fst s8)), fadd o (snd s0) (fadd o (snd s7) (snd s8))) ;;
    let s5 := (fadd o (fadd o (fst s0) (fmul o (fst s7) (fst ya))) (fmul o (fst s8) (fst yb)),
               fadd o (fadd o (snd s0) (fmul o (snd s7) (fst ya))) (fmul o (snd s8) (fst yb))) in
    let s6 := (fadd o (fmul o (snd s10) (snd ya)) (fmul o (snd s9) (snd yb)),
               fsub o (fneg o (fmul o (fst s10) (snd ya))) (fmul o (fst s9) (snd yb))) in
    fout <- put fout (b + (i + m)) (csub o s5 s6) ;;
    fout <- put fout (b + (i + m * 4)) (cadd o s5 s6) ;;
    let s11 := (fadd o (fadd o (fst s0) (fmul o (fst s7) (fst yb))) (fmul o (fst s8) (fst ya)),
                fadd o (fadd o (snd s0) (fmul o (snd s7) (fst yb))) (fmul o (snd s8) (fst ya))) in
    let s12 := (fadd o (fneg o (fmul o (snd s10) (snd yb))) (fmul o (snd s9) (snd ya)),
                fsub o (fmul o (fst s10) (snd yb)) (fmul o (fst s9) (snd ya))) in
    fout <- put fout (b + (i + m * 2)) (cadd o s11 s12) ;;
    put fout (b + (i + m * 3)) (csub o s11 s12)) fout.

(* kissfft.rs:258-288; `scratch[..m]` at 266 and `[Complex; 480]` at 262 as in the code *)
Definition bfly_gen (tw : list C) (nfft b fstride m p : Z) (fout : list C) : res (list C) :=
  omap snd (for_range 0 m (fun u '(scratch, fout) =>
    _ <- sub scratch 0 m ;;
    '(scratch, _) <- for_range 0 m (fun q '(scratch, k) => x <- idx fout (b + k) ;; scratch <- put scratch q x ;; Ok (scratch, k + m)) (scratch, u) ;;
    '(fout, _) <- for_range 0 p (fun _ '(fout, k) =>
        s0 <- idx scratch 0 ;;
        fout <- put fout (b + k) s0 ;;
        _ <- sub scratch 1 p ;;
        '(fout, _) <- for_range 1 p (fun q '(fout, twidx) =>
            let twidx := twidx + fstride * k in
            let twidx := if nfft <=? twidx then twidx - nfft else twidx in
            s <- idx scratch q ;; w <- idx tw twidx ;;
            y <- idx fout (b + k) ;;
            fout <- put fout (b + k) (cadd o y (cmul o s w)) ;;
            Ok (fout, twidx)) (fout, 0) ;;
        Ok (fout, k + m)) (fout, u) ;;
    Ok (scratch, fout)) (repeat c0 480, fout)).

(* kissfft.rs:103-110: `fout[a..a+p]` zipped with every step-th element of `fin[fin_idx..]` *)
Definition leaf_copy (fin : list C) (p step fin_idx fout_idx : Z) (fout : list C) : res (list C) :=
  _ <- sub fout fout_idx (fout_idx + p) ;;
  _ <- sub fin fin_idx (len fin) ;;
  for_range 0 p (fun q fout =>
    if len fin <=? fin_idx + q * step then Ok fout
    else x <- idx fin (fin_idx + q * step) ;; put fout (fout_idx + q) x) fout.

(* kissfft.rs:125-131 *)
Definition butterfly (tw : list C) (nfft b fstride m p : Z) (fout : list C) : res (list C) :=
  _ <- sub fout b (len fout) ;;
  if p =? 2 then bfly2 tw b fstride m fout
  else if p =? 3 then bfly3 tw b fstride m fout
  else if p =? 4 then bfly4 tw b fstride m fout
  else if p =? 5 then bfly5 tw b fstride m fout
  else bfly_gen tw nfft b fstride m p fout.

(* kissfft.rs:86-131 with in_stride = 1 (the only value used, line 79). The factor list is consumed from the front; past the
   stored pairs the array holds zeros (p = m = 0), the `loop` would not terminate: Panic. For m = 0 likewise. *)
Fixpoint kf_work (tw fin : list C) (nfft : Z) (factors : list Z) (fstride fin_idx fout_idx : Z) (fout : list C) {struct factors} : res (list C) :=
  match factors with
  | p :: m :: rest =>
      fout <- (if m =? 1 then leaf_copy fin p fstride fin_idx fout_idx fout
               else if (p <=? 0) || (m <=? 0) then Panic
               else for_range 0 p (fun q fout => kf_work tw fin nfft rest (fstride * p) (fin_idx + q * fstride) (fout_idx + q * m) fout) fout) ;;
      butterfly tw nfft fout_idx fstride m p fout
  | _ => Panic
  end.
(* kissfft.rs:78-84 *)
Definition fft_transform (n : Z) (factors : list Z) (fin fout : list C) : res (list C) :=
  kf_work (fft_twiddles n) fin n factors 1 0 0 fout.

(* dct_iv.rs:32-37 *)
Definition dct_twiddles (count : Z) : list C := map (fun i => ftw4 o count (Z.of_nat i)) (seq 0 (Z.to_nat count)).
(* dct_iv.rs:51-67; returns the buffer and the two scratch buffers `input`, `output` *)
Definition dct_iv (nf : Z) (factors : list Z) (input output : list C) (buf : list F) : res (list F * list C * list C) :=
  let count := nf / 2 in
  _ <- assert (len buf =? nf) ;;
  let tw := dct_twiddles count in
  input <- for_range 0 (Z.min (len input) count) (fun n input =>
      re <- idx buf (2 * n) ;; j <- usub nf (2 * n + 1) ;; im <- idx buf j ;; w <- idx tw n ;;
      put input n (cmul o w (re, im))) input ;;
  output <- fft_transform count factors input output ;;
  buf <- for_range 0 (Z.min (len output) count) (fun n buf =>
      x <- idx output n ;; w <- idx tw n ;;
      let c := cmul o w x in
      buf <- put buf (2 * n) (fmul o (fst c) (fz o 2)) ;;
      j <- usub nf (2 * n + 1) ;;
      put buf j (fmul o (fneg o (snd c)) (fz o 2))) buf ;;
  Ok (buf, input, output).
End Fft.
