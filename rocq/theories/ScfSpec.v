(* Noise shaping analysis of the encoder on functions, in exact arithmetic: the sixteen scale factors and how they are quantised. Nothing here refers to the code but the tables. *)
From Coq Require Import ZArith Lia List Bool Reals Lra.
From Flocq Require Import Core.Raux.
From Verif Require Import Base Config Loops RealOps SnsIndex DctSpec TablesSnsF PitchSpec.
From Coq Require Import List.
Import ListNotations.
Local Open Scope R_scope.

(* ---- scale factors of 64 band energies ---- *)
(* an index outside 0 .. n - 1 means the nearest one inside *)
Definition inside (n k : Z) : Z := Z.max 0 (Z.min (n - 1) k).
Definition mean (n : nat) (f : Z -> R) : R := rsum n f / INR n.
Definition log2 (v : R) : R := ln v / ln 2.
Definition blurred (e : Z -> R) (b : Z) : R := (e (inside 64 (b - 1)) + 2 * e b + e (inside 64 (b + 1))) / 4.
(* 14 dB at the top band, 4 dB more for each higher sampling rate *)
Definition tilted (fs : Z) (e : Z -> R) (b : Z) : R := blurred e b * Rpower 10 (IZR b * IZR (14 + 4 * fs) / 630).
Definition noise_floor (fs : Z) (e : Z -> R) : R := Rmax (/ 2 ^ 32) (mean 64 (tilted fs e) / 10000).
Definition band_level (fs : Z) (e : Z -> R) (b : Z) : R := log2 (/ 2 ^ 23 + Rmax (tilted fs e b) (noise_floor fs e)) / 2.
Definition weight6 (i : Z) : R := IZR (Z.min (i + 1) (6 - i)) / 12.
(* four bands each, with the neighbours *)
Definition group_level (fs : Z) (e : Z -> R) (n : Z) : R := rsum 6 (fun i => weight6 i * band_level fs e (inside 64 (4 * n - 1 + i))).
Definition centred (fs : Z) (e : Z -> R) (n : Z) : R := 85 / 100 * (group_level fs e n - mean 16 (group_level fs e)).
(* mean of the factors at most two away *)
Definition spread (x : Z -> R) (n : Z) : R := let lo := Z.max 0 (n - 2) in let hi := Z.min 15 (n + 2) in mean (Z.to_nat (hi - lo + 1)) (fun i => x (lo + i)%Z).
Definition softened (d : duration) (x : Z -> R) (n : Z) : R := (match d with TenMs => 5 / 10 | SevenPointFiveMs => 3 / 10 end) * (spread x n - mean 16 (spread x)).
Definition scale_factors (c : config) (attack : bool) (e : Z -> R) : Z -> R :=
  let x := centred (fs_ind c) e in if attack then softened (n_ms c) x else x.

(* ---- the pulse search of the second stage ---- *)
Section Search.
Variable a : Z -> R.      (* magnitudes of the target *)
Definition one_more (y : Z -> Z) (b k : Z) : Z := if (k =? b)%Z then (y k + 1)%Z else y k.
(* similarity of a vector of pulses with the target *)
Definition corr16 (y : Z -> Z) : R := rsum 16 (fun k => IZR (y k) * a k).
Definition energy16 (y : Z -> Z) : R := rsum 16 (fun k => IZR (y k) * IZR (y k)).
Definition merit (y : Z -> Z) : R := corr16 y * corr16 y / energy16 y.
(* m pulses more, each where it helps most *)
Fixpoint greedy (m : nat) (y y' : Z -> Z) : Prop :=
  match m with
  | O => forall k, (0 <= k < 16)%Z -> y' k = y k
  | S m => exists b, first_best (fun k => merit (one_more y k)) (zrange 0 16) b /\ greedy m (one_more y b) y'
  end.
(* the same with a correlation c and an energy e which need not be those of y: one position after the other against the best so far *)
Definition better (c e : R) (y : Z -> Z) (b k : Z) : Prop := (c + a b) * (c + a b) * (e + 2 * IZR (y k) + 1) < (c + a k) * (c + a k) * (e + 2 * IZR (y b) + 1).
Inductive scan (bt : Z -> Z -> Prop) : Z -> list Z -> Z -> Prop :=
| scan_nil b : scan bt b [] b
| scan_take b k l r : bt b k -> scan bt k l r -> scan bt b (k :: l) r
| scan_keep b k l r : ~ bt b k -> scan bt b l r -> scan bt b (k :: l) r.
(* m pulses more on positions 0 .. n - 1; what is handed on are the correlation and energy of the last position tried, not those of the one chosen *)
Fixpoint grown (n : Z) (m : nat) (y : Z -> Z) (c e : R) (l : R * R) (y' : Z -> Z) (l' : R * R) : Prop :=
  match m with
  | O => (forall k, (0 <= k < n)%Z -> y' k = y k) /\ l' = l
  | S m => exists b, scan (better c e y) 0 (zrange 1 n) b /\
      grown n m (one_more y b) (c + a b) (e + 2 * IZR (y b) + 1) (c + a (n - 1)%Z, e + 2 * IZR (y (n - 1)%Z) + 1) y' l'
  end.
End Search.

Definition sgn_of (v : R) (k : Z) : Z := if Rlt_dec v 0 then (- k)%Z else k.
(* the four candidates for a target t *)
Definition candidates (t : Z -> R) (y0 y1 y2 y3 : Z -> Z) : Prop :=
  let a k := Rabs (t k) in
  exists p m3 m2 m1 (l3 l2 l1 : R * R) b,
    (* onto the pyramid of five, then six, then eight pulses *)
    (forall k, (0 <= k < 16)%Z -> p k = Zfloor (5 * a k / rsum 16 a)) /\
    grown a 16 (Z.to_nat (6 - zsum (map p (zrange 0 16)))) p (corr16 a p) (energy16 p) (corr16 a p, energy16 p) m3 l3 /\
    grown a 16 2 m3 (fst l3) (snd l3) l3 m2 l2 /\
    (* set A alone, ten pulses *)
    (let r := zrange 10 16 in
     let l := (fst l2 - rsum 6 (fun i => IZR (m2 (10 + i)%Z) * a (10 + i)%Z), snd l2 - rsum 6 (fun i => IZR (m2 (10 + i)%Z) * IZR (m2 (10 + i)%Z))) in
     grown a 10 (Z.to_nat (2 + zsum (map m2 r))) m2 (fst l) (snd l) l m1 l1) /\
    (* and one in set B *)
    first_best a (zrange 10 16) b /\
    (forall k, (0 <= k < 16)%Z -> y3 k = sgn_of (t k) (m3 k) /\ y2 k = sgn_of (t k) (m2 k)) /\
    (forall k, (0 <= k < 10)%Z -> y1 k = sgn_of (t k) (m1 k) /\ y0 k = sgn_of (t k) (m1 k)) /\
    (forall k, (10 <= k < 16)%Z -> y1 k = 0%Z /\ y0 k = sgn_of (t k) (if (k =? b)%Z then 1 else 0)).

(* ---- the vector quantiser ---- *)
(* the first of the candidates with the least value *)
Definition first_least {A} (f : A -> R) (cs : list A) (d : A) : Prop := exists l1 l2, cs = l1 ++ d :: l2 /\ (forall k, In k l1 -> f d < f k) /\ forall k, In k l2 -> f d <= f k.
(* entry k of row n of a table of decimal literals *)
Definition cell (t : list (list (Z * Z))) (n k : Z) : R := R_lit (getz (0, 0)%Z (getz [] t n) k).
Definition sqdist (n : nat) (x y : Z -> R) : R := rsum n (fun k => (x k - y k) * (x k - y k)).
(* first stage: a code vector for each half *)
Definition near_lf (x : Z -> R) (i : Z) : Prop := first_least (fun i => sqdist 8 x (cell LFCB i)) (zrange 0 32) i.
Definition near_hf (x : Z -> R) (i : Z) : Prop := first_least (fun i => sqdist 8 (fun k => x (k + 8)%Z) (cell HFCB i)) (zrange 0 32) i.
Definition first_stage (lf hf n : Z) : R := if (n <? 8)%Z then cell LFCB lf n else cell HFCB hf (n - 8).
(* the rest, rotated *)
Definition target (x : Z -> R) (lf hf n : Z) : R := rsum 16 (fun k => (x k - first_stage lf hf k) * cell D k n).
(* second stage: a vector of pulses on the unit sphere times a gain *)
Definition norm16 (y : Z -> Z) : R := sqrt (energy16 y).
Definition shape_gains (j : Z) : list (Z * Z) := if (j =? 0)%Z then SNS_VQ_REG_ADJ_GAINS else if (j =? 1)%Z then SNS_VQ_REG_LF_ADJ_GAINS else if (j =? 2)%Z then SNS_VQ_NEAR_ADJ_GAINS else SNS_VQ_FAR_ADJ_GAINS.
Definition shape_gain (p : Z * Z) : R := R_lit (getz (0, 0)%Z (shape_gains (fst p)) (snd p)).
Definition one_of (y0 y1 y2 y3 : Z -> Z) (j : Z) : Z -> Z := if (j =? 0)%Z then y0 else if (j =? 1)%Z then y1 else if (j =? 2)%Z then y2 else y3.
Definition pairs : list (Z * Z) := map (pair 0%Z) (zrange 0 1) ++ map (pair 1%Z) (zrange 0 3) ++ map (pair 2%Z) (zrange 0 3) ++ map (pair 3%Z) (zrange 0 7).
Definition point (p : Z * Z) (y : Z -> Z) (n : Z) : R := shape_gain p * (IZR (y n) / norm16 y).
Definition chosen (t : Z -> R) (y0 y1 y2 y3 : Z -> Z) (p : Z * Z) : Prop := first_least (fun p => sqdist 16 t (point p (one_of y0 y1 y2 y3 (fst p)))) pairs p.
(* what the decoder gets *)
Definition quantised (lf hf : Z) (p : Z * Z) (y : Z -> Z) (n : Z) : R := first_stage lf hf n + rsum 16 (fun k => point p y k * cell D n k).
