(* Rounding errors of the transform in binary32: the butterflies. *)
From Coq Require Import ZArith List Bool Lia Reals Lra.
From Coquelicot Require Import Complex.
From Flocq Require Import Core BinarySingleNaN.
From Verif Require Import Base FftFactor FactorProofs Loops Scalar Fft DecTotal DecState FftSpec RealOps Dft DctSpec F32 F32Round F32Lines F32Err.
From Coq Require Import List.
Import ListNotations.
Local Open Scope R_scope.

Definition apc (k : nat) (S : R) (z : f32 * f32) (c : C) : Prop := ap k S (fst z) (fst c) /\ ap k S (snd z) (snd c).
Lemma half_ap : ap 0 1 (f32_lit (5, -1)%Z) (R_lit (5, -1)%Z).
Proof. destruct half_val as [V F]. apply ap_const; [exact F|rewrite V; symmetry; exact R_half| |apply th_small]. change (R_lit (5, -1)%Z) with (flit R_ops (5, -1)%Z). rewrite R_half, Rabs_pos_eq; lra. Qed.

(* roundings in a row, and the growth of the sizes, of a butterfly of p inputs *)
Definition bf_k (p : Z) : nat := if (p =? 2)%Z then 5 else if (p =? 3)%Z then 9 else if (p =? 4)%Z then 6 else 11.
Definition bf_f (p : Z) : R := if (p =? 2)%Z then 1 else if (p =? 3)%Z then 2 else if (p =? 4)%Z then 1 else 2.
Ltac ap_side := first [lra | cbn; lia].

Ltac ap_go := lazymatch goal with
  | |- ap _ _ (Bplus _ _ _) _ => eapply ap_plus; [ap_go|ap_go|ap_side|ap_side]
  | |- ap _ _ (Bminus _ _ _) _ => eapply ap_minus; [ap_go|ap_go|ap_side|ap_side]
  | |- ap _ _ (Bmult _ _ _) _ => eapply ap_mult; [ap_go|ap_go|ap_side|ap_side|ap_side]
  | |- ap _ _ (Bopp _) _ => eapply ap_neg; ap_go
  | |- _ => eassumption
  end.
Section Butterfly.
Variables (lm : libm) (y w e : Z -> f32 * f32) (yr wr er : Z -> C) (A B : Z -> R).
Local Notation o := (f32_ops lm).
Lemma bf_ap p k : (2 <= p <= 5)%Z -> (0 <= k < p)%Z ->
  (forall q, (0 <= q < p)%Z -> ap 0 (A q) (fst (y q)) (fst (yr q)) /\ ap 0 (B q) (snd (y q)) (snd (yr q))) ->
  (forall q, (0 <= q < p)%Z -> apc 2 1 (w q) (wr q)) -> (forall q, (0 <= q < p)%Z -> apc 2 1 (e q) (er q)) ->
  2 * rsum (Z.to_nat p) (fun q => A q + B q) <= big ->
  apc (bf_k p) (bf_f p * rsum (Z.to_nat p) (fun q => A q + B q)) (bf o p y w e k) (bf R_ops p yr wr er k).
Proof.
  intros Hp Hk Hy Hw He L. assert (D : p = 2%Z \/ p = 3%Z \/ p = 4%Z \/ p = 5%Z) by lia. pose proof half_ap as HH. pose proof th_pos as T0.
  assert (P : forall q, (0 <= q < p)%Z -> th <= A q /\ th <= B q). { intros q Hq. destruct (Hy q Hq) as [(_ & _ & _ & H1) (_ & _ & _ & H2)]. split; assumption. }
  unfold bf, bf_k, bf_f. destruct D as [->|[->|[->| ->]]]; cbn [Z.eqb Pos.eqb]; change (Z.to_nat 2) with 2%nat in *; change (Z.to_nat 3) with 3%nat in *; change (Z.to_nat 4) with 4%nat in *; change (Z.to_nat 5) with 5%nat in *; cbn [rsum] in *; unfold Z.of_nat in *; cbn [Pos.of_succ_nat Pos.succ] in *.
  - destruct (Hy 0%Z ltac:(lia)) as [Y0 Y0']. destruct (Hy 1%Z ltac:(lia)) as [Y1 Y1']. destruct (Hw 1%Z ltac:(lia)) as [W1 W1'].
    pose proof (P 0%Z ltac:(lia)). pose proof (P 1%Z ltac:(lia)). unfold apc, bf2; cbv zeta; unfold cmul, cadd, csub, cscale; cbn [fst snd f32_ops R_ops fadd fsub fmul fneg flit].
    destruct (Z.eqb_spec k 0); cbn [fst snd]; split; (eapply ap_weaken; [ap_go|cbn; lia|lra]).
  - destruct (Hy 0%Z ltac:(lia)) as [Y0 Y0']. destruct (Hy 1%Z ltac:(lia)) as [Y1 Y1']. destruct (Hy 2%Z ltac:(lia)) as [Y2 Y2']. destruct (Hw 1%Z ltac:(lia)) as [W1 W1']. destruct (Hw 2%Z ltac:(lia)) as [W2 W2']. destruct (He 1%Z ltac:(lia)) as [E1 E1'].
    pose proof (P 0%Z ltac:(lia)). pose proof (P 1%Z ltac:(lia)). pose proof (P 2%Z ltac:(lia)). unfold apc, bf3; cbv zeta; unfold cmul, cadd, csub, cscale; cbn [fst snd f32_ops R_ops fadd fsub fmul fneg flit].
    destruct (Z.eqb_spec k 0); [|destruct (Z.eqb_spec k 1)]; cbn [fst snd]; split; (eapply ap_weaken; [ap_go|cbn; lia|lra]).
  - destruct (Hy 0%Z ltac:(lia)) as [Y0 Y0']. destruct (Hy 1%Z ltac:(lia)) as [Y1 Y1']. destruct (Hy 2%Z ltac:(lia)) as [Y2 Y2']. destruct (Hy 3%Z ltac:(lia)) as [Y3 Y3'].
    destruct (Hw 1%Z ltac:(lia)) as [W1 W1']. destruct (Hw 2%Z ltac:(lia)) as [W2 W2']. destruct (Hw 3%Z ltac:(lia)) as [W3 W3'].
    pose proof (P 0%Z ltac:(lia)). pose proof (P 1%Z ltac:(lia)). pose proof (P 2%Z ltac:(lia)). pose proof (P 3%Z ltac:(lia)). unfold apc, bf4; cbv zeta; unfold cmul, cadd, csub, cscale; cbn [fst snd f32_ops R_ops fadd fsub fmul fneg flit].
    destruct (Z.eqb_spec k 0); [|destruct (Z.eqb_spec k 1); [|destruct (Z.eqb_spec k 2)]]; cbn [fst snd]; split; (eapply ap_weaken; [ap_go|cbn; lia|lra]).
  - destruct (Hy 0%Z ltac:(lia)) as [Y0 Y0']. destruct (Hy 1%Z ltac:(lia)) as [Y1 Y1']. destruct (Hy 2%Z ltac:(lia)) as [Y2 Y2']. destruct (Hy 3%Z ltac:(lia)) as [Y3 Y3']. destruct (Hy 4%Z ltac:(lia)) as [Y4 Y4'].
    destruct (Hw 1%Z ltac:(lia)) as [W1 W1']. destruct (Hw 2%Z ltac:(lia)) as [W2 W2']. destruct (Hw 3%Z ltac:(lia)) as [W3 W3']. destruct (Hw 4%Z ltac:(lia)) as [W4 W4']. destruct (He 1%Z ltac:(lia)) as [E1 E1']. destruct (He 2%Z ltac:(lia)) as [E2 E2'].
    pose proof (P 0%Z ltac:(lia)). pose proof (P 1%Z ltac:(lia)). pose proof (P 2%Z ltac:(lia)). pose proof (P 3%Z ltac:(lia)). pose proof (P 4%Z ltac:(lia)). unfold apc, bf5; cbv zeta; unfold cmul, cadd, csub, cscale; cbn [fst snd f32_ops R_ops fadd fsub fmul fneg flit].
    destruct (Z.eqb_spec k 0); [|destruct (Z.eqb_spec k 1); [|destruct (Z.eqb_spec k 2); [|destruct (Z.eqb_spec k 3)]]]; cbn [fst snd]; split; (eapply ap_weaken; [ap_go|cbn; lia|lra]).
Qed.
End Butterfly.
