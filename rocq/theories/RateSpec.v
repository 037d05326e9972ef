(* The rate control of the encoder in exact arithmetic: which global gain a frame should get. Nothing here refers to the code. *)
From Coq Require Import ZArith Lia List Bool Reals Lra.
From Flocq Require Import Core.
From Verif Require Import Base Loops DetectSpec DctSpec.
From Coq Require Import List.
Import ListNotations.
Local Open Scope R_scope.

Definition log10 (v : R) : R := ln v / ln 10.
(* the level of four lines in dB *)
Definition quad_db (x : Z -> R) (k : Z) : R := 10 * log10 (/ 2 ^ 23 + rsum 4 (fun i => x (4 * k + i)%Z * x (4 * k + i)%Z)).
Definition quads (x : Z -> R) (n : Z) : list R := map (quad_db x) (iota n).
(* what four lines of level e are expected to cost at gain index g (28 indices are 20 dB); a bit is 1.96 *)
Definition quad_cost (g e : R) : R :=
  let v := 7 / 5 * e - g in
  if Rlt_dec v 0 then 189 / 50 else if Rlt_dec (301 / 5) v then 2 * v - 252 / 5 else v + 49 / 5.
Fixpoint total (l : list R) : R := match l with [] => 0 | a :: l => a + total l end.
(* the quads below the gain at the head of the list cost nothing *)
Fixpoint drop_quiet (g : R) (l : list R) : list R :=
  match l with [] => [] | e :: l' => if Rlt_dec (7 / 5 * e - g) 0 then drop_quiet g l' else l end.
(* the quads are listed from low to high frequency: those above the last one reaching the gain are not coded *)
Definition frame_cost (g : R) (es : list R) : R := total (map (quad_cost g) (drop_quiet g (rev es))).

(* a higher gain never costs more *)
Lemma quad_cost_pos g e : 0 < quad_cost g e.
Proof. unfold quad_cost. destruct (Rlt_dec _ 0); [lra|]. destruct (Rlt_dec _ _); lra. Qed.
Lemma quad_cost_le g g' e : g <= g' -> quad_cost g' e <= quad_cost g e.
Proof. intros H. unfold quad_cost. repeat destruct (Rlt_dec _ _); lra. Qed.
Lemma total_pos g l : 0 <= total (map (quad_cost g) l).
Proof. induction l as [|e l IH]; cbn [map total]; [lra|]. pose proof (quad_cost_pos g e). lra. Qed.
Lemma drop_quiet_le g l : total (map (quad_cost g) (drop_quiet g l)) <= total (map (quad_cost g) l).
Proof. induction l as [|e l IH]; cbn [drop_quiet]; [lra|]. destruct (Rlt_dec _ _); [|lra]. cbn [map total]. pose proof (quad_cost_pos g e). lra. Qed.
Lemma total_le g g' l : g <= g' -> total (map (quad_cost g') l) <= total (map (quad_cost g) l).
Proof. intros H. induction l as [|e l IH]; cbn [map total]; [lra|]. pose proof (quad_cost_le g g' e H). lra. Qed.
Lemma frame_cost_le g g' es : g <= g' -> frame_cost g' es <= frame_cost g es.
Proof.
  intros H. unfold frame_cost. generalize (rev es). induction l as [|e l IH]; cbn [drop_quiet]; [apply Rle_refl|].
  destruct (Rlt_dec (7 / 5 * e - g) 0); [destruct (Rlt_dec (7 / 5 * e - g') 0); [exact IH|lra]|].
  destruct (Rlt_dec (7 / 5 * e - g') 0).
  - cbn [map total]. pose proof (quad_cost_pos g e). pose proof (drop_quiet_le g l). lra.
  - apply total_le. exact H.
Qed.
Lemma frame_cost_pos g es : 0 <= frame_cost g es.
Proof. apply total_pos. Qed.

(* ---- choices ---- *)
(* the correction of the bit budget, from the last frame: its correction, the budget remembered and the bits estimated *)
Definition correction (reset : bool) (prev : R) (spec est : Z) : R :=
  if reset then 0 else 8 / 10 * prev + 2 / 10 * Rmin 40 (Rmax (-40) (prev + IZR spec - IZR est)).
(* bits aimed at, for a budget of B *)
Definition aim (B : Z) (corr : R) : Z := Z.max 0 (Zfloor (IZR B + corr + / 2)).
(* g is the smallest index below 255 whose expected cost is within the bits aimed at, and 255 if there is none *)
Definition smallest_affordable (es : list R) (off : Z) (bits : Z) (g : Z) : Prop :=
  (0 <= g <= 255)%Z /\ (forall k, (0 <= k < g)%Z -> 49 / 25 * IZR bits < frame_cost (IZR (k + off)) es) /\ ((g < 255)%Z -> frame_cost (IZR (g + off)) es <= 49 / 25 * IZR bits).
(* the gain in twenty-eighths of a decade at index 0, by sampling rate index and frame size *)
Definition base_index (fs nbits : Z) : Z := (- Z.min 115 (nbits / (10 * (fs + 1))) - 105 - 5 * (fs + 1))%Z.
Definition gain (k : Z) : R := Rpower 10 (IZR k / 28).
(* the loudest line can be represented from index g on *)
Definition smallest_fitting (x : Z -> R) (ne off : Z) (g : Z) : Prop :=
  forall k, (0 <= k)%Z -> ((forall i, (0 <= i < ne)%Z -> Rabs (x i) <= (32768 - 3 / 8) * gain (k + off)) <-> (g <= k)%Z).
Definition silent (x : Z -> R) (ne : Z) : Prop := forall i, (0 <= i < ne)%Z -> x i = 0.
(* dead zone quantiser; the largest 16 bit number stands for the one after it *)
Definition line_index (g v : R) : Z := if Rle_dec 0 v then Z.min 32767 (Zfloor (v / g + 3 / 8)) else (- Zfloor (- v / g + 3 / 8))%Z.
(* margin around the budget, by sampling rate index: from est / 16 + 3 for low estimates to est / 48 for high ones, no more than 17.7 bits per rate step *)
Definition margin (fs : Z) (est : Z) : R :=
  let t1 := IZR (80 + 150 * fs) in let t2 := IZR (500 + 525 * fs) in let t3 := IZR (850 + 850 * fs) in let b := IZR est in
  if Rlt_dec b t1 then b / 16 + 3
  else if Rlt_dec b t2 then (t1 / 16 + 3) + (b - t1) / (t2 - t1) * (t2 / 48 - (t1 / 16 + 3))
  else Rmin b t3 / 48.
(* the index after looking at the bits really needed *)
Definition adjusted (fs B est gmin g g' : Z) : Prop :=
  let d := Zfloor (margin fs est + / 2) in
  if (B <? est)%Z && (g <? 255)%Z then g' = Z.max gmin (g + (if (g =? 254)%Z || (est <? B + d)%Z then 1 else 2))
  else if (est <? B - d - 2)%Z && (0 <? g)%Z then g' = Z.max gmin (g - 1)
  else g' = g.
