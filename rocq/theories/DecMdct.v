(* Inverse MDCT with overlap-add over any scalar type: /repo/src/decoder/modified_dct.rs *)
From Coq Require Import ZArith List Bool.
From Verif Require Import Base Config FftFactor Buffers Loops Scalar DecSignal Fft TablesWindow.
Import ListNotations.
Local Open Scope Z_scope.

(* modified_dct.rs:37-54 *)
Definition mdct_window (c : config) : res (list (Z * Z)) :=
  match n_ms c with
  | SevenPointFiveMs =>
      if nf c =? 60 then Ok W_N60_7P5MS else if nf c =? 120 then Ok W_N120_7P5MS else if nf c =? 180 then Ok W_N180_7P5MS
      else if nf c =? 240 then Ok W_N240_7P5MS else if nf c =? 360 then Ok W_N360_7P5MS else Panic
  | TenMs =>
      if nf c =? 80 then Ok W_N80_10MS else if nf c =? 160 then Ok W_N160_10MS else if nf c =? 240 then Ok W_N240_10MS
      else if nf c =? 320 then Ok W_N320_10MS else if nf c =? 480 then Ok W_N480_10MS else Panic
  end.
(* the factors stored by `KissFastFourierTransform::new(nf / 2)` *)
Definition dct_factors (nf : Z) : res (list Z) := kf_factor (gt_sqrt (nf / 2)) (factor_fuel (nf / 2)) (nf / 2).

(* `for (to, from) in l[a..b].iter_mut().zip(src)` *)
Definition zipsub {A B} (f : A -> B -> A) (l : list A) (a b : Z) (src : list B) : res (list A) :=
  s <- sub l a b ;; blit l a b (zipmod f s src).

Section Mdct.
Context {F : Type} (o : ops F).

(* modified_dct.rs:13-21: the buffers; window and factors are recomputed from the configuration *)
Record mdct : Type := mkMdct {
  m_ola : list F;       (* mem_ola_add, nf - z *)
  m_t : list F;         (* t_hat_mdct, 2 nf *)
  m_zeros : list F;     (* nf - ne *)
  m_half : list F;      (* half_nf_scratch, nf / 2 *)
  m_in : list (F * F);  (* dct_iv.input *)
  m_out : list (F * F)  (* dct_iv.output *)
}.

(* modified_dct.rs:97-136; returns the buffer and the new state (without the gain the result is the TDA buffer) *)
Definition mdct_inverse (c : config) (st : mdct) (buf : list F) : res (list F * mdct) :=
  let nf := nf c in
  factors <- dct_factors nf ;;
  '(buf, i, u) <- dct_iv o nf factors (m_in st) (m_out st) buf ;;
  _ <- assert (len buf =? nf) ;;
  t <- blit (m_t st) 0 nf buf ;;
  t <- zipsub (fun _ x => fneg o x) t nf (nf * 2) (rev buf) ;;
  let h := nf / 2 in
  s <- sub t 0 h ;;
  half <- blit (m_half st) 0 (len (m_half st)) s ;;
  s <- sub t h (h + h) ;; t <- blit t 0 h s ;;
  s <- sub t (h + h) (h + h + h) ;; t <- blit t h (h + h) s ;;
  s <- sub t (nf + h) (nf + h + h) ;; t <- blit t nf (nf + h) s ;;
  t <- zipsub (fun _ x => fneg o x) t (h * 3) (len t) half ;;
  let gain := fdiv o (fz o 1) (fsqrt o (fmul o (fz o 2) (fz o nf))) in
  t <- zipsub (fun x _ => fmul o x gain) t 0 (Z.min (2 * nf) (len t)) t ;;
  Ok (buf, mkMdct (m_ola st) t (m_zeros st) half i u).

(* modified_dct.rs:138-151 *)
Definition overlap_add (c : config) (st : mdct) (buf : list F) : res (list F * mdct) :=
  let nf := nf c in
  let z := zlead c in
  n <- usub nf z ;;
  a <- sub (m_ola st) 0 n ;;
  b <- sub (m_t st) z nf ;;
  buf <- zipsub (fun _ '(x, y) => fadd o x y) buf 0 n (combine a b) ;;
  s <- sub (m_t st) (nf + z) (nf * 2) ;;
  ola <- blit (m_ola st) 0 n s ;;
  s <- sub (m_t st) nf (nf + z) ;;
  buf <- blit buf n nf s ;;
  Ok (buf, mkMdct ola (m_t st) (m_zeros st) (m_half st) (m_in st) (m_out st)).

(* modified_dct.rs:76-95 *)
Definition mdct_run (c : config) (st : mdct) (lines freq : list F) : res (list F * mdct) :=
  _ <- assert (len lines =? ne c) ;;
  _ <- assert (len freq =? nf c) ;;
  freq <- blit freq 0 (ne c) lines ;;
  freq <- blit freq (ne c) (len freq) (m_zeros st) ;;
  '(freq, st) <- mdct_inverse c st freq ;;
  w <- mdct_window c ;;
  let t := zipmod (fun x w => fmul o x (flit o w)) (m_t st) (rev w) in
  overlap_add c (mkMdct (m_ola st) t (m_zeros st) (m_half st) (m_in st) (m_out st)) freq.
End Mdct.
Arguments mdct : clear implicits.
