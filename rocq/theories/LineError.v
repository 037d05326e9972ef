(* The lines that the decoder has before its noise shaping, against the lines that the encoder quantised, on the real numbers. *)
From Coq Require Import ZArith Lia List Bool Reals Lra.
From Flocq Require Import Core.
From Verif Require Import Base Config SideInfo ArithDec FrameDec FrameSpec Loops ParseBase Scalar EncScalar RealOps EncF32 DecSignal DecTotal LineSpec MdctSpec EncDetect DetectSpec EncQuant QuantSpec QuantReal Decoder F32Lines PropertiesSignal PropertiesQuant.
From Coq Require Import List.
Import ListNotations.
Local Open Scope Z_scope.

Lemma R_quantise_sides g x : (0 < g)%R -> (Rabs x <= top * g)%R -> let q := quantise_line R_ops g x in
  (0 < q -> (- (3 / 8) * g <= x - IZR q * g <= 5 / 8 * g)%R) /\ (q < 0 -> (- (5 / 8) * g <= x - IZR q * g <= 3 / 8 * g)%R).
Proof.
  intros Hg Hx q. assert (HY : (Rabs (x / g) <= top)%R).
  { unfold Rdiv. rewrite Rabs_mult, (Rabs_pos_eq (/ g)) by (apply Rlt_le; now apply Rinv_0_lt_compat). apply Rmult_le_reg_r with g; [exact Hg|]. rewrite Rmult_assoc, Rinv_l, Rmult_1_r by lra. exact Hx. }
  assert (Sc : forall a b, (a <= x / g - IZR q <= b)%R -> (a * g <= x - IZR q * g <= b * g)%R).
  { intros a b [H1 H2]. replace (x - IZR q * g)%R with ((x / g - IZR q) * g)%R by (field; lra). split; apply Rmult_le_compat_r; lra. }
  assert (K : (0 < q -> (- (3 / 8) <= x / g - IZR q <= 5 / 8)%R) /\ (q < 0 -> (- (5 / 8) <= x / g - IZR q <= 3 / 8)%R)).
  { unfold q, quantise_line, fge, as_i16. clear Sc. cbn [R_ops flt feq fz f_i32 fadd fsub fdiv]. rewrite R_375. set (y := (x / g)%R) in *. unfold top in HY. apply Rabs_le_inv in HY.
    assert (SG : Rlt_bool 0 x || Req_bool 0 x = Rle_bool 0 y).
    { unfold y. destruct (Rle_bool_spec 0 (x / g)) as [P|P].
      - assert (0 <= x)%R by (replace x with (x / g * g)%R by (field; lra); apply Rmult_le_pos; lra). destruct (Rlt_bool_spec 0 x); [reflexivity|]. rewrite Req_bool_true by lra. reflexivity.
      - assert (x < 0)%R. { replace x with (x / g * g)%R by (field; lra). assert (0 < (- (x / g)) * g)%R by (apply Rmult_lt_0_compat; lra). lra. } rewrite Rlt_bool_false, Req_bool_false by lra. reflexivity. }
    rewrite SG. destruct (Rle_bool_spec 0 y) as [P|P].
    - rewrite Ztrunc_floor by lra. pose proof (Zfloor_lb (y + 3 / 8)) as F1. pose proof (Zfloor_ub (y + 3 / 8)) as F2. set (f := Zfloor (y + 3 / 8)) in *.
      assert (B1 : 0 <= f) by (apply Zfloor_lub; lra). assert (B2 : f <= 32768) by (apply le_IZR; lra).
      replace (Z.max (-32768) (Z.min 32767 (Z.max (-2147483648) (Z.min 2147483647 f)))) with (Z.min 32767 f) by lia. split; [|lia]. intros _. destruct (Z.eq_dec f 32768) as [->|N].
      + change (Z.min 32767 32768) with 32767. lra.
      + rewrite Z.min_r by lia. lra.
    - rewrite Ztrunc_ceil by lra. pose proof (Zceil_ub (y - 3 / 8)) as F1. pose proof (Zceil_lb (y - 3 / 8)) as F2. set (f := Zceil (y - 3 / 8)) in *.
      assert (B1 : -32768 <= f) by (apply le_IZR; lra). assert (B2 : f <= 0) by (apply Zceil_glb; lra).
      replace (Z.max (-32768) (Z.min 32767 (Z.max (-2147483648) (Z.min 2147483647 f)))) with f by lia. split; [lia|]. intros _. lra. }
  destruct K as [K1 K2]. split; intros H; apply Sc; auto.
Qed.
(* the residual bit halves the error *)
Lemma refined_error g x : (0 < g)%R -> (Rabs x <= top * g)%R -> let q := quantise_line R_ops g x in q <> 0 ->
  (Rabs (x - refine R_ops (fge R_ops x (fmul R_ops (fz R_ops q) g)) (IZR q) * g) <= 5 / 16 * g)%R.
Proof.
  intros Hg Hx q Hq. destruct (R_quantise_sides g x Hg Hx) as [K1 K2]. fold q in K1, K2. rewrite refine_R. unfold fge. cbn [R_ops flt feq fz fmul].
  replace (x - (IZR q + offset _ _) * g)%R with ((x - IZR q * g) - offset (Rlt_bool (IZR q * g) x || Req_bool (IZR q * g) x) (Rlt_bool 0 (IZR q)) * g)%R by ring.
  destruct (Z.lt_gt_cases q 0) as [Hc _]. destruct (Hc Hq) as [H|H].
  - rewrite (Rlt_bool_false 0) by (apply IZR_le; lia). specialize (K2 H). destruct (Rlt_bool_spec (IZR q * g) x) as [P|P]; cbn [orb offset].
    + apply Rabs_le. lra.
    + destruct (Req_bool_spec (IZR q * g) x) as [P1|P1]; cbn [offset]; apply Rabs_le; lra.
  - rewrite (Rlt_bool_true 0) by (apply IZR_lt; lia). specialize (K1 H). destruct (Rlt_bool_spec (IZR q * g) x) as [P|P]; cbn [orb offset].
    + apply Rabs_le. lra.
    + destruct (Req_bool_spec (IZR q * g) x) as [P1|P1]; cbn [offset]; apply Rabs_le; lra.
Qed.

(* what the decoder has before its noise shaping: w times the gain *)
Lemma lines_read t c f (lines0 : list R) : legal_config c -> len lines0 = ne c -> len (f_spec f) = 400 -> 0 <= a_seed (f_arith f) < 65536 -> 0 <= s_bw (f_side f) <= 4 -> 0 <= s_nf (f_side f) < 8 ->
  exists y, len y = ne c /\
    decode_lines R_ops t c f lines0 = (l <- tns_decode R_ops (n_ms c) (s_bw (f_side f)) (s_num_tns (f_side f)) (a_rc_order (f_arith f)) (a_rc_i (f_arith f)) y ;; sns_decode R_ops c (s_sns (f_side f)) l) /\
    forall i, 0 <= i < ne c -> exists w, getz 0%R y i = (w * fgain R_ops (s_gg (f_side f) + gain_off (a_nbits (f_arith f)) (fs_ind c)))%R /\
      (getz 0 (f_spec f) i = 0 -> (Rabs w <= 1 / 2)%R) /\
      (getz 0 (f_spec f) i <> 0 -> w = if s_lsb_mode (f_side f) then IZR (getz 0 (f_spec f) i)
        else match nth_error (a_residual (f_arith f)) (Z.to_nat (rank (fun k => negb (getz 0 (f_spec f) k =? 0)) i)) with Some b => refine R_ops b (IZR (getz 0 (f_spec f) i)) | None => IZR (getz 0 (f_spec f) i) end).
Proof.
  intros Lc L0 Ls Hseed Hbw Hnf. destruct f as [si ad xs]. cbn [f_spec f_side f_arith] in *. unfold decode_lines. cbn [f_spec f_side f_arith].
  assert (Hne : 0 <= ne c <= 400) by (destruct Lc as (f' & d & ->); destruct f', d; vm_compute; intuition discriminate).
  destruct (sub_ok xs 0 (ne c)) as (sp & -> & Lsp & Ksp); [lia|lia|]. cbn [bind].
  set (z1 := zipmod (fun _ v => fz R_ops v) lines0 sp). assert (L1 : len z1 = ne c) by (unfold z1; rewrite len_zipmod; exact L0).
  assert (K1 : forall i, 0 <= i < ne c -> getz 0%R z1 i = IZR (getz 0 xs i)). { intros i Hi. unfold z1. rewrite (zipmod_get _ 0%R 0) by lia. rewrite Ksp by lia. rewrite Z.add_0_l. reflexivity. }
  set (z2 := residual_decode R_ops (s_lsb_mode si) (a_residual ad) z1). assert (L2 : len z2 = ne c) by (unfold z2; rewrite residual_decode_len; exact L1).
  assert (K2 : forall i, 0 <= i < ne c -> getz 0%R z2 i = if getz 0 xs i =? 0 then 0%R else if s_lsb_mode si then IZR (getz 0 xs i)
     else match nth_error (a_residual ad) (Z.to_nat (rank (fun k => negb (getz 0 xs k =? 0)) i)) with Some b => refine R_ops b (IZR (getz 0 xs i)) | None => IZR (getz 0 xs i) end).
  { assert (Zb : forall k, 0 <= k < ne c -> is_zero R_ops (getz 0%R z1 k) = (getz 0 xs k =? 0)).
    { intros k Hk. unfold is_zero. cbn [R_ops feq fz]. rewrite K1 by exact Hk. destruct (Z.eqb_spec (getz 0 xs k) 0) as [->|N]; [now apply Req_bool_true|]. apply Req_bool_false. now apply not_0_IZR || (intro Q; apply N; now apply eq_IZR). }
    intros i Hi. unfold z2, residual_decode. destruct (s_lsb_mode si).
    - rewrite K1 by exact Hi. destruct (Z.eqb_spec (getz 0 xs i) 0) as [->|]; reflexivity.
    - change 0%R with (fz R_ops 0) at 1. rewrite residual_lines_spec by lia. unfold refined. change (fz R_ops 0) with 0%R. rewrite Zb by exact Hi. rewrite K1 by exact Hi.
      rewrite (rank_ext _ (fun k => negb (getz 0 xs k =? 0))) by (intros k Hk; rewrite Zb by lia; reflexivity). destruct (Z.eqb_spec (getz 0 xs i) 0) as [->|]; reflexivity. }
  assert (NF : exists z3, noise_fill R_ops (t_chk t) (a_zero_frame ad) (a_seed ad) (s_bw si) (n_ms c) (s_nf si) xs z2 = Ok z3 /\ len z3 = ne c /\
     forall i, 0 <= i < ne c -> (getz 0 xs i <> 0 -> getz 0%R z3 i = getz 0%R z2 i) /\ (getz 0 xs i = 0 -> (Rabs (getz 0%R z3 i) <= 1 / 2)%R)).
  { destruct (a_zero_frame ad).
    - exists z2. split; [reflexivity|]. split; [exact L2|]. intros i Hi. split; [reflexivity|]. intros E. rewrite K2 by exact Hi. rewrite E. cbn [Z.eqb]. rewrite Rabs_R0. lra.
    - destruct (C19_noise_filling R R_ops (t_chk t) (a_seed ad) (s_bw si) (n_ms c) (s_nf si) xs z2 Hseed Hbw Ls) as (z3 & E3 & L3 & A & B). exists z3. split; [exact E3|]. split; [lia|]. change (fz R_ops 0) with 0%R in A, B.
      assert (LV : (Rabs (nf_level R_ops (s_nf si)) <= 1 / 2)%R).
      { unfold nf_level. cbn [R_ops fdiv fsub fz]. assert (IZR 0 <= IZR (s_nf si) <= IZR 8)%R by (split; apply IZR_le; lia). apply Rabs_le. lra. }
      intros i Hi. split.
      + intros N. apply A; [lia|]. apply C19_nonzero_lines_are_kept; [lia|exact N].
      + intros N. destruct (filled (n_ms c) (s_bw si) (len z2) xs i) eqn:FL.
        * destruct (B i ltac:(lia) FL) as [-> | ->]; [exact LV|]. cbn [R_ops fneg]. rewrite Rabs_Ropp. exact LV.
        * rewrite (A i ltac:(lia) FL), K2 by exact Hi. rewrite N. cbn [Z.eqb]. rewrite Rabs_R0. lra. }
  destruct NF as (z3 & E3 & L3 & K3). rewrite E3. cbn [bind].
  exists (global_gain R_ops (a_nbits ad) (fs_ind c) (s_gg si) z3). split; [unfold global_gain; rewrite len_map; exact L3|]. split; [reflexivity|].
  intros i Hi. exists (getz 0%R z3 i). destruct (K3 i Hi) as [A B]. split; [|split].
  - unfold global_gain. cbv zeta. rewrite (getz_map _ 0%R 0%R) by lia. reflexivity.
  - exact B.
  - intros N. rewrite A by exact N. rewrite K2 by exact Hi. destruct (Z.eqb_spec (getz 0 xs i) 0); [contradiction|reflexivity].
Qed.
