(* C52: the decoder's temporal noise shaping is stable, on the real numbers.

   Specification: a coefficient sin((i - 8) pi / 17) can raise energies by 1 / cos^2((i - 8) pi / 17); the frame by the product over the
   coefficients of its filters.  (A coefficient with index 0 is not applied by the decoder, see C28.) *)
From Coq Require Import ZArith Lia List Bool Reals Lra.
From Verif Require Import Base Config Loops ParseBase Scalar EncScalar RealOps EncF32 DecSignal DecTotal EncTns TnsOk TnsInverse MdctSpec Lpc TnsStable PropertiesShaping.
From Coq Require Import List.
Import ListNotations.
Local Open Scope Z_scope.

Definition coef_gain (i : Z) : R := if i =? 0 then 1%R else (/ (cos (IZR (i - 8) * (PI / 17)) * cos (IZR (i - 8) * (PI / 17))))%R.
Fixpoint prod (n : nat) (f : nat -> R) : R := match n with O => 1%R | S n => (prod n f * f n)%R end.
Definition frame_gain (num : Z) (orders rc_i : list Z) : R := prod (Z.to_nat num) (fun f => prod (Z.to_nat (getz 0 orders (Z.of_nat f))) (fun k => coef_gain (getz 0 rc_i (Z.of_nat f * 8 + Z.of_nat k)))).

Lemma cos_low i : 1 <= i <= 16 -> (/ 12 <= cos (IZR (i - 8) * (PI / 17)))%R.
Proof.
  intros H. pose proof PI_RGT_0 as P. pose proof PI2_3_2 as P3. pose proof PI_4 as P4.
  assert (A : cos (IZR (i - 8) * (PI / 17)) = cos (IZR (Z.abs (i - 8)) * (PI / 17))).
  { destruct (Z.le_gt_cases 0 (i - 8)) as [C|C]; [now rewrite Z.abs_eq by lia|]. rewrite Z.abs_neq by lia. rewrite opp_IZR. rewrite <- cos_neg. f_equal. ring. }
  rewrite A. set (k := Z.abs (i - 8)). assert (K : 0 <= k <= 8) by (unfold k; lia). assert (K1 : (0 <= IZR k <= 8)%R) by (split; apply IZR_le; lia).
  apply Rle_trans with (cos (8 * (PI / 17))).
  - replace (8 * (PI / 17))%R with (PI / 2 - PI / 34)%R by (field). rewrite cos_shift. set (a := (PI / 34)%R). assert (Ha : (3 / 34 < a <= 4 / 34)%R) by (unfold a; lra).
    destruct (pre_sin_bound a 0 ltac:(lra) ltac:(lra)) as [t _]. apply Rle_trans with (2 := t). assert (Es : (sin_approx a (2 * 0 + 1) = a - a * (a * a) / 6)%R) by (unfold sin_approx, sin_term; simpl; field). rewrite Es.
    assert (a * a <= 4 / 34 * (4 / 34))%R by (apply Rmult_le_compat; lra). assert (0 <= a * a)%R by (apply Rmult_le_pos; lra). assert (a * (a * a) <= 4 / 34 * (4 / 34 * (4 / 34)))%R by (apply Rmult_le_compat; lra). lra.
  - destruct (Req_dec (IZR k) 8) as [->|N]; [lra|]. left. apply cos_decreasing_1; try lra; try (apply Rmult_le_pos; lra).
    + apply Rle_trans with (8 * (PI / 17))%R; [apply Rmult_le_compat_r; lra|lra].
    + apply Rmult_lt_compat_r; lra.
Qed.
Lemma coef_gain_range i : 0 <= i <= 16 -> (1 <= coef_gain i <= 144)%R.
Proof.
  intros H. unfold coef_gain. destruct (Z.eqb_spec i 0) as [->|N]; [lra|]. pose proof (cos_low i ltac:(lia)) as C. pose proof (COS_bound (IZR (i - 8) * (PI / 17))) as [_ B]. set (x := cos (IZR (i - 8) * (PI / 17))) in *.
  assert (x * x <= 1 * 1)%R by (apply Rmult_le_compat; lra). assert (/ 12 * / 12 <= x * x)%R by (apply Rmult_le_compat; lra). split.
  - rewrite <- Rinv_1 at 1. apply Rinv_le_contravar; lra.
  - replace 144%R with (/ (/ 12 * / 12))%R by field. apply Rinv_le_contravar; lra.
Qed.
Lemma prod_range n f m : (1 <= m)%R -> (forall k, (k < n)%nat -> (1 <= f k <= m)%R) -> (1 <= prod n f <= m ^ n)%R.
Proof.
  intros Hm. induction n as [|n IH]; intros H; cbn [prod pow]; [lra|]. specialize (IH ltac:(intros; apply H; lia)). specialize (H n ltac:(lia)). split.
  - apply Rle_trans with (1 * 1)%R; [lra|]. apply Rmult_le_compat; lra.
  - rewrite (Rmult_comm m). apply Rmult_le_compat; lra.
Qed.
Lemma tns_rc_get rc_i j : len rc_i = 16 -> 0 <= j < 16 -> getz 0%R (tns_rc R_ops rc_i) j = if getz 0 rc_i j =? 0 then 0%R else sin (IZR (getz 0 rc_i j - 8) * (PI / 17)).
Proof.
  intros L H. unfold tns_rc. change (getz 0%R ?l j) with (getz (fz R_ops 0) l j). rewrite (zipmod_get _ _ 0) by (change (len (repeat (fz R_ops 0) 16)) with 16; lia). destruct (getz 0 rc_i j =? 0).
  - unfold getz. now rewrite nth_repeat.
  - cbn [R_ops fsin17]. f_equal. ring.
Qed.
Lemma coef_shrink i : 0 <= i <= 16 -> let r := if i =? 0 then 0%R else sin (IZR (i - 8) * (PI / 17)) in (r * r < 1)%R /\ (/ (1 - r * r) = coef_gain i)%R.
Proof.
  intros H. unfold coef_gain. destruct (Z.eqb_spec i 0) as [E|N]; cbv zeta; [split; [lra|]; rewrite Rmult_0_l, Rminus_0_r; apply Rinv_1|]. pose proof (cos_low i ltac:(lia)) as C. set (a := (IZR (i - 8) * (PI / 17))%R) in *.
  pose proof (sin2_cos2 a) as SC. unfold Rsqr in SC. assert (0 < cos a * cos a)%R by (apply Rmult_lt_0_compat; lra). split; [lra|]. f_equal. lra.
Qed.
Lemma filters_gain_prod rc_i : len rc_i = 16 -> Forall (fun i => 0 <= i <= 16) rc_i -> forall orders (f : nat), Z.of_nat f + len orders <= 2 -> Forall (fun p => 0 <= p <= 8) orders ->
  filters_gain (tns_rc R_ops rc_i) (Z.of_nat f) orders = prod (length orders) (fun i => prod (Z.to_nat (getz 0 orders (Z.of_nat i))) (fun k => coef_gain (getz 0 rc_i (Z.of_nat (f + i) * 8 + Z.of_nat k)))).
Proof.
  intros L F. assert (First : forall n g, prod (S n) g = (g 0%nat * prod n (fun i => g (S i)))%R) by (intros n g; induction n as [|n IH]; [cbn [prod]; ring|change (prod (S (S n)) g) with (prod (S n) g * g (S n))%R; rewrite IH; cbn [prod]; ring]).
  assert (PE : forall n g h, (forall i, (i < n)%nat -> g i = h i) -> prod n g = prod n h) by (intros n g h; induction n as [|n IH]; intros E; cbn [prod]; [reflexivity|]; rewrite IH by (intros; apply E; lia); now rewrite E by lia).
  induction orders as [|p orders IH]; intros f Hf HO; [reflexivity|]. assert (LO : len (p :: orders) = len orders + 1) by (unfold len; cbn [length]; lia). rewrite LO in Hf. assert (0 <= len orders) by (unfold len; lia). apply Forall_cons_iff in HO. destruct HO as [Hp HO].
  cbn [filters_gain length]. rewrite First. change (getz 0 (p :: orders) (Z.of_nat 0)) with p. rewrite Nat.add_0_r. f_equal.
  - assert (G : forall n, (n <= 8)%nat -> (0 < shrink (fun k => getz 0%R (tns_rc R_ops rc_i) (Z.of_nat f * 8 + Z.of_nat k)) n)%R /\ (/ shrink (fun k => getz 0%R (tns_rc R_ops rc_i) (Z.of_nat f * 8 + Z.of_nat k)) n = prod n (fun k => coef_gain (getz 0%Z rc_i (Z.of_nat f * 8 + Z.of_nat k))))%R); [|exact (proj2 (G (Z.to_nat p) ltac:(lia)))].
    induction n as [|n IHn]; intros Hn; cbn [shrink prod]; [split; [lra|apply Rinv_1]|]. destruct (IHn ltac:(lia)) as [I1 I2]. rewrite tns_rc_get by lia.
    assert (Hi : 0 <= getz 0 rc_i (Z.of_nat f * 8 + Z.of_nat n) <= 16) by (rewrite Forall_forall in F; apply F; unfold getz; apply nth_In; unfold len in L; lia). destruct (coef_shrink _ Hi) as [S1 S2]. cbv zeta in S1, S2. split; [apply Rmult_lt_0_compat; lra|].
    rewrite Rinv_mult, S2, I2. reflexivity.
  - replace (Z.of_nat f + 1) with (Z.of_nat (S f)) by lia. rewrite IH by first [assumption | lia]. apply PE. intros i Hi. replace (S f + i)%nat with (f + S i)%nat by lia. replace (getz 0 (p :: orders) (Z.of_nat (S i))) with (getz 0 orders (Z.of_nat i)) by (unfold getz; rewrite !Nat2Z.id; reflexivity). reflexivity.
Qed.
(* every line given out is bounded by the energy of the lines read up to there *)
Theorem C52_lines_bounded : forall d bw orders rc_i lines, 0 <= bw <= 4 -> len orders = 2 -> Forall (fun p => 0 <= p <= 8) orders -> len rc_i = 16 -> Forall (fun i => 0 <= i <= 16) rc_i ->
  Forall (fun ab => snd ab <= len lines) (spec_bands d bw) ->
  let num := len (spec_bands d bw) in
  exists out, tns_decode R_ops d bw num orders rc_i lines = Ok out /\ len out = len lines /\
    forall n, 0 <= n < len lines -> (getz 0 out n * getz 0 out n <= frame_gain num orders rc_i * sm (S (Z.to_nat n)) (fun m => getz 0 lines (Z.of_nat m) * getz 0 lines (Z.of_nat m)))%R.
Proof.
  intros d bw orders rc_i lines Hb Lo FO Lr FR FB num. unfold tns_decode. rewrite dec_bands_spec by exact Hb. cbn [bind].
  assert (AS : forallb (fun '(_, hi) => hi <=? len lines) (spec_bands d bw) = true). { apply forallb_forall. intros [a b] Hin. rewrite Forall_forall in FB. apply Z.leb_le. exact (FB _ Hin). }
  rewrite AS. cbn [assert bind]. assert (Hn : 1 <= num <= 2) by (unfold num; destruct d, (bw_cases bw Hb) as [->|[->|[->|[->| ->]]]]; cbn; lia).
  destruct (sub_ok orders 0 num) as (ord & -> & LOrd & KO); [lia|lia|]. cbn [bind]. change (repeat (fz R_ops 0) 8) with (repeat 0%R 8).
  assert (PO : forall i, 0 <= i < num -> 0 <= getz 0 ord i <= 8). { intros i Hi. rewrite KO by lia. rewrite Z.add_0_l. rewrite Forall_forall in FO. apply FO. unfold getz. apply nth_In. unfold len in Lo. lia. }
  assert (FO' : Forall (fun p => 0 <= p <= 8) ord). { apply Forall_forall. intros v Hv. apply (In_nth _ _ 0) in Hv. destruct Hv as (n & Hn' & <-). specialize (PO (Z.of_nat n) ltac:(unfold len in LOrd; lia)). unfold getz in PO. now rewrite Nat2Z.id in PO. }
  destruct (filters_energy (tns_rc R_ops rc_i) lines (spec_bands d bw) ord 0 (repeat 0%R 8) lines 0 1%R) as (y & E & Ly & _ & V); try lia.
  - assert (Or : ordered 0 (len lines) (spec_bands d bw)); [|exact Or]. clear -Hb FB. destruct d, (bw_cases bw Hb) as [->|[->|[->|[->| ->]]]]; cbn in FB |- *; repeat match goal with H : Forall _ (_ :: _) |- _ => apply Forall_cons_iff in H; destruct H end; cbn [snd] in *; lia.
  - fold num. unfold tns_rc. rewrite len_zipmod. change (len (repeat (fz R_ops 0) 16)) with 16. lia.
  - reflexivity.
  - intros i Hi. apply PO. lia.
  - intros i k Hi Hk. specialize (PO i ltac:(lia)). rewrite Z.add_0_l. rewrite tns_rc_get by lia. apply coef_shrink. rewrite Forall_forall in FR. apply FR. unfold getz. apply nth_In. unfold len in Lr. lia.
  - reflexivity.
  - lra.
  - unfold power at 1. rewrite (sm_ext 8 _ (fun _ => 0%R)) by (intros i Hi; unfold getz; rewrite nth_repeat; ring). rewrite sm_zero, Rmult_1_l. apply power_nonneg.
  - exists y. split; [exact E|]. split; [exact Ly|]. intros n Hn'. specialize (V n ltac:(lia)). rewrite Rmult_1_l in V. change 0 with (Z.of_nat 0) in V at 3. rewrite filters_gain_prod in V by first [assumption | lia].
    replace (frame_gain num orders rc_i) with (prod (length ord) (fun i => prod (Z.to_nat (getz 0 ord (Z.of_nat i))) (fun k => coef_gain (getz 0 rc_i (Z.of_nat (0 + i) * 8 + Z.of_nat k))))); [exact V|].
    unfold frame_gain. replace (length ord) with (Z.to_nat num) by (unfold len in LOrd; lia).
    assert (PE : forall n g h, (forall i, (i < n)%nat -> g i = h i) -> prod n g = prod n h) by (intros n0 g h; induction n0 as [|n0 IH]; intros E0; cbn [prod]; [reflexivity|]; rewrite IH by (intros; apply E0; lia); now rewrite E0 by lia).
    apply PE. intros i Hi. rewrite KO by lia. rewrite Z.add_0_l. reflexivity.
Qed.
(* whatever is read, the energy of a line is at most 12^32 times the energy of the lines read *)
Theorem C52_gain_bounded : forall num orders rc_i, 0 <= num <= 2 -> len orders = 2 -> Forall (fun p => 0 <= p <= 8) orders -> len rc_i = 16 -> Forall (fun i => 0 <= i <= 16) rc_i ->
  (1 <= frame_gain num orders rc_i <= 12 ^ 32)%R.
Proof.
  intros num orders rc_i Hn Lo FO Lr FR.
  assert (G : forall f, (f < Z.to_nat num)%nat -> (1 <= prod (Z.to_nat (getz 0%Z orders (Z.of_nat f))) (fun k => coef_gain (getz 0%Z rc_i (Z.of_nat f * 8 + Z.of_nat k))) <= 144 ^ 8)%R).
  { intros f Hf. assert (Ho : 0 <= getz 0 orders (Z.of_nat f) <= 8) by (rewrite Forall_forall in FO; apply FO; unfold getz; apply nth_In; unfold len in Lo; lia).
    destruct (prod_range (Z.to_nat (getz 0 orders (Z.of_nat f))) (fun k => coef_gain (getz 0 rc_i (Z.of_nat f * 8 + Z.of_nat k))) 144 ltac:(lra)) as [G1 G2].
    - intros k Hk. apply coef_gain_range. rewrite Forall_forall in FR. apply FR. unfold getz. apply nth_In. unfold len in Lr. lia.
    - split; [exact G1|]. apply Rle_trans with (1 := G2). apply Rle_pow; [lra|lia]. }
  destruct (prod_range (Z.to_nat num) _ (144 ^ 8)%R ltac:(rewrite <- (pow1 8); apply pow_incr; lra) G) as [G1 G2]. split; [exact G1|]. apply Rle_trans with (1 := G2).
  apply Rle_trans with ((144 ^ 8) ^ 2)%R; [apply Rle_pow; [rewrite <- (pow1 8); apply pow_incr; lra|lia]|]. right. replace 144%R with (12 ^ 2)%R by ring. rewrite <- !pow_mult. reflexivity.
Qed.
(* a frame with both filters in use and a gain above 1 *)
Example C52_case : let d := TenMs in let orders := [1; 2] in let rc_i := [16; 8; 8; 8; 8; 8; 8; 8; 3; 12; 8; 8; 8; 8; 8; 8] in let lines := repeat 1%R 400 in
  0 <= 4 <= 4 /\ len orders = 2 /\ Forall (fun p => 0 <= p <= 8) orders /\ len rc_i = 16 /\ Forall (fun i => 0 <= i <= 16) rc_i /\ Forall (fun ab => snd ab <= len lines) (spec_bands d 4) /\ (1 < coef_gain 16)%R.
Proof.
  cbv zeta. split; [lia|]. split; [reflexivity|]. split; [repeat constructor; lia|]. split; [reflexivity|]. split; [repeat constructor; lia|]. split; [unfold len; rewrite repeat_length; unfold spec_bands; cbn; repeat constructor; cbn [snd]; lia|].
  unfold coef_gain. cbn [Z.eqb]. change (16 - 8) with 8. pose proof PI_RGT_0 as P. assert (C1 : (cos (IZR 8 * (PI / 17)) < 1)%R) by (rewrite <- cos_0; apply cos_decreasing_1; lra). pose proof (cos_low 16 ltac:(lia)) as C2. change (16 - 8) with 8 in C2. set (x := cos (IZR 8 * (PI / 17))) in *.
  rewrite <- Rinv_1 at 1. apply Rinv_lt_contravar; [rewrite Rmult_1_r; apply Rmult_lt_0_compat; lra|]. apply Rle_lt_trans with (x * 1)%R; [apply Rmult_le_compat_l; lra|lra].
Qed.
Print Assumptions C52_lines_bounded.
Print Assumptions C52_gain_bounded.
