(* What the pitch analysis of the encoder computes, on signals indexed by time; exact arithmetic. Nothing here refers to the code but the coefficient tables. *)
From Coq Require Import ZArith Lia List Bool Reals Lra.
From Verif Require Import Base Config Loops RealOps SnsIndex DctSpec TablesLtpf EncLtpfOk.
From Coq Require Import List.
Import ListNotations.
Local Open Scope Z_scope.

(* ---- signals ---- *)
(* a table of 2 h + 1 taps around time 0 *)
Definition tap (l : list (Z * Z)) (h q : Z) : R := if Z.abs q <=? h then R_lit (getz (0, 0) l (h + q)) else 0%R.
(* up - 1 zeros after every sample: the signal at 192 kHz *)
Definition stuffed (up : Z) (s : Z -> Z) (u : Z) : R := if u mod up =? 0 then IZR (s (u / up)) else 0%R.
(* low-pass at 192 kHz, 120 samples late, every 15th sample kept: 12.8 kHz *)
Definition resampled (up : Z) (gain : R) (s : Z -> Z) (m : Z) : R :=
  (IZR up * gain * rsum 239 (fun q => tap TAB_RESAMP_FILTER 119 (q - 119) * stuffed up s (15 * m - 120 + (q - 119))))%R.
(* z is the 50 Hz high-pass of y, both being silent before time 0 *)
Definition highpassed (y z : Z -> R) : Prop := (forall m, m < 0 -> z m = 0%R) /\ forall m, 0 <= m ->
  z m = (9827947082978771 / 10 ^ 16 * y m + - 1965589416595754 / 10 ^ 15 * y (m - 1)%Z + 9827947082978771 / 10 ^ 16 * y (m - 2)%Z
         - (- 19652933726226904 / 10 ^ 16) * z (m - 1)%Z - 9658854605688177 / 10 ^ 16 * z (m - 2)%Z)%R.
(* half the rate: 6.4 kHz *)
Definition halved (d : Z -> R) (m : Z) : R :=
  (1236796411180537 / 10 ^ 16 * (d (2 * m - 3)%Z + d (2 * m + 1)%Z) + 2353512128364889 / 10 ^ 16 * (d (2 * m - 2)%Z + d (2 * m)%Z) + 2819382920909148 / 10 ^ 16 * d (2 * m - 1)%Z)%R.
Definition corr (n : Z) (a : Z -> R) (k : Z) : R := rsum (Z.to_nat n) (fun j => a j * a (j - k)%Z)%R.
Definition power (n : Z) (a : Z -> R) (k : Z) : R := rsum (Z.to_nat n) (fun j => a (j - k)%Z * a (j - k)%Z)%R.

(* ---- choices ---- *)
(* d is the first of the best *)
Definition first_best (f : Z -> R) (cs : list Z) (d : Z) : Prop := exists l1 l2, cs = l1 ++ d :: l2 /\ (forall k, In k l1 -> (f k < f d)%R) /\ forall k, In k l2 -> (f k <= f d)%R.
(* the same among positive values, with a default *)
Definition first_positive (f : Z -> R) (cs : list Z) (dflt d : Z) : Prop := (d = dflt /\ forall k, In k cs -> (f k <= 0)%R) \/ (0 < f d)%R /\ first_best f cs d.

(* ---- per configuration ---- *)
(* samples per frame at 12.8 kHz, at 6.4 kHz, and the delay at 12.8 kHz *)
Definition len12 (d : duration) : Z := match d with TenMs => 128 | SevenPointFiveMs => 96 end.
Definition len6 (d : duration) : Z := match d with TenMs => 64 | SevenPointFiveMs => 48 end.
Definition late12 (d : duration) : Z := match d with TenMs => 24 | SevenPointFiveMs => 44 end.
(* 192 kHz over the sampling rate; 44.1 kHz counts as 48 kHz *)
Definition up_factor (c : config) : Z := 15 * len12 (n_ms c) / nf c.
Definition up_gain (c : config) : R := if fs c =? 8000 then (/ 2)%R else 1%R.
Definition signal12 (c : config) (s : Z -> Z) (z : Z -> R) : Prop := highpassed (resampled (up_factor c) (up_gain c) s) z.

(* ---- decisions of one frame ---- *)
Record pmem : Type := mkPmem { pm_t : Z; pm_pitch : R; pm_active : bool; pm_nc : R; pm_nc2 : R }.
Record pout : Type := mkPout { po_present : bool; po_active : bool; po_lag : Z; po_frac : Z; po_nc : R }.

Section Frame.
Variables (c : config) (z : Z -> R) (n : Z).
Let L12 := len12 (n_ms c). Let L6 := len6 (n_ms c).
(* the frame at 12.8 kHz, late; the frame at 6.4 kHz *)
Definition frame12 (j : Z) : R := z (n * L12 + j - late12 (n_ms c)).
Definition frame6 (j : Z) : R := halved (fun i => z (i - late12 (n_ms c))%Z) (n * L6 + j).
Definition weighted (k : Z) : R := ((1 - / 2 * (IZR (k - 17) / 97)) * corr L6 frame6 k)%R.
Definition ncorr (k : Z) : R := Rmax 0 (corr L6 frame6 k / sqrt (power L6 frame6 0 * power L6 frame6 k)).
(* whole lag at 6.4 kHz *)
Definition coarse (t_prev t : Z) : Prop := exists t1 t2, first_best weighted (zrange 17 115) t1 /\ first_best (corr L6 frame6) (zrange (Z.max 17 (t_prev - 4)) (Z.min 114 (t_prev + 4) + 1)) t2 /\
  ((85 / 100 * ncorr t1 < ncorr t2)%R /\ t = t2 \/ (ncorr t2 <= 85 / 100 * ncorr t1)%R /\ t = t1).
(* whole lag at 12.8 kHz *)
Definition fine (t p : Z) : Prop := first_positive (corr L12 frame12) (zrange (Z.max 32 (2 * t - 4)) (Z.min 228 (2 * t + 4) + 1)) (Z.max 32 (2 * t - 4)) p.
(* quarters of it *)
Definition quarter (p d : Z) : R := rsum 9 (fun i => corr L12 frame12 (p + (i - 4))%Z * tap TAB_LTPF_INTERP_R 15 (4 * (i - 4) - d))%R.
Definition quarters (p : Z) : list Z := if p =? 32 then [0; 1; 2; 3] else if p <? 127 then [-3; -2; -1; 0; 1; 2; 3] else if p <? 157 then [-2; 0; 2] else [].
Definition fractional (p d : Z) : Prop := first_positive (quarter p) (quarters p) 0 d.
(* the frame delayed by p + d / 4 samples *)
Definition shifted (p d j : Z) : R := rsum 5 (fun i => frame12 (j - p - (i - 2))%Z * tap TAB_LTPF_INTERP_X12K8 7 (4 * (i - 2) - d))%R.
Definition similarity (p d : Z) : R :=
  let ab := rsum (Z.to_nat L12) (fun j => shifted 0 0 j * shifted p d j)%R in
  let e := sqrt (rsum (Z.to_nat L12) (fun j => shifted 0 0 j * shifted 0 0 j)%R * rsum (Z.to_nat L12) (fun j => shifted p d j * shifted p d j)%R) in
  if Rlt_dec 0 e then (ab / e)%R else 0%R.
(* the post filter: off to on after two (10 ms) or three (7.5 ms) very similar frames; on to on while similar *)
Definition switched_on (m : pmem) (nc pitch : R) : Prop :=
  pm_active m = false /\ (n_ms c = SevenPointFiveMs -> (94 / 100 < pm_nc2 m)%R) /\ (94 / 100 < pm_nc m)%R /\ (94 / 100 < nc)%R \/
  pm_active m = true /\ ((9 / 10 < nc)%R \/ (Rabs (pitch - pm_pitch m) < 2 /\ - 1 / 10 < nc - pm_nc m /\ 84 / 100 < nc)%R).
(* allowed: the bit rate is low enough and there is no energy next to the Nyquist frequency *)
Definition pitch_frame (allowed : bool) (m : pmem) (r : pout) (m' : pmem) : Prop :=
  exists t p d, coarse (pm_t m) t /\ fine t p /\ fractional p d /\
    (po_present r = true <-> (6 / 10 < ncorr t)%R) /\
    po_lag r = (if d <? 0 then p - 1 else p) /\ po_frac r = (if d <? 0 then d + 4 else d) /\
    po_nc r = similarity (po_lag r) (po_frac r) /\
    (let pitch := (IZR (po_lag r) + IZR (po_frac r) / 4)%R in
     (po_active r = true <-> allowed = true /\ switched_on m (po_nc r) pitch) /\
     m' = (if po_present r then mkPmem t pitch (po_active r) (po_nc r) (pm_nc m) else mkPmem t 0 false 0 (pm_nc m))).
End Frame.

(* frames n, n + 1, ... *)
Fixpoint pitch_run (c : config) (z : Z -> R) (n : Z) (m : pmem) (allowed : list bool) (rs : list pout) (m' : pmem) : Prop :=
  match allowed, rs with
  | [], [] => m' = m
  | a :: allowed, r :: rs => exists m1, pitch_frame c z n a m r m1 /\ pitch_run c z (n + 1) m1 allowed rs m'
  | _, _ => False
  end.
(* before the first frame *)
Definition pmem0 : pmem := mkPmem 17 0 false 0 0.
