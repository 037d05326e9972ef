(* One frame from the encoder's spectrum to the decoder's, on the real numbers: what the quantiser, the bit stream and the noise filling do to each line. *)
From Coq Require Import ZArith Lia List Bool Reals Lra.
From Flocq Require Import Core.
From Verif Require Import Base Config SideInfo Reader Mpvq SnsIndex AcSpec Loops BufLemmas Scalar EncScalar RealOps EncF32 DecSignal DecTotal DecState ParseBase EncMdct EncDetect DetectSpec
  EncSns EncSnsOk EncTns TnsOk EncLtpf EncLtpfOk EncQuant QuantSpec QuantReal EstimateSpec ArithDec FrameDec TailSpec FrameEnc PayloadSpec DecSide EncPayload FrameProofs EncFrame FrameSpec RoundTrip SeedBound ParseTotal LineSpec MdctSpec Decoder Encoder EncOk PayloadBound EncRun
  Lpc TnsStable ChainError F32Lines PropertiesSignal PropertiesQuant LineError EncShape SnsShape PropertiesShape PropertiesStable TnsLinear EncReal.
From Verif Require Import EncTrip.
From Coq Require Import List.
Import ListNotations.
Local Open Scope Z_scope.

(* ---- residual bits ---- *)
Definition nz (v : Z) : bool := negb (v =? 0).
Definition nonzero_at (xq : list Z) (k : Z) : bool := nz (getz 0 xq k).
Lemma firstn_snoc {A} (d : A) : forall l i, (i < length l)%nat -> firstn (S i) l = firstn i l ++ [nth i l d].
Proof. induction l as [|a l IH]; intros [|i] H; cbn [length] in H; try lia; [reflexivity|]. change (firstn (S (S i)) (a :: l)) with (a :: firstn (S i) l). rewrite IH by lia. reflexivity. Qed.
Lemma nth_firstn_any {A} (d : A) l k i : (i < length (firstn k l))%nat -> nth i (firstn k l) d = nth i l d.
Proof. intros H. rewrite <- (firstn_skipn k l) at 2. now rewrite app_nth1. Qed.
Lemma rank_filter xq : forall i, (i <= length xq)%nat -> rank (nonzero_at xq) (Z.of_nat i) = len (filter nz (firstn i xq)).
Proof.
  induction i as [|i IH]; intros H; [rewrite rank_0 by lia; reflexivity|]. replace (Z.of_nat (S i)) with (Z.of_nat i + 1) by lia. rewrite rank_succ by lia. rewrite IH by lia.
  rewrite (firstn_snoc 0) by lia. rewrite filter_app, len_app. f_equal. cbn [filter]. unfold nonzero_at, getz. rewrite Nat2Z.id. destruct (nz _); reflexivity.
Qed.
Lemma filter_combine_nth {A} (d : A) : forall (l : list A) xq i, length l = length xq -> (i < length xq)%nat -> nth i xq 0 <> 0 ->
  nth_error (filter (fun '(_, q) => nz q) (combine l xq)) (length (filter nz (firstn i xq))) = Some (nth i l d, nth i xq 0).
Proof.
  induction l as [|a l IH]; intros [|q xq] i Hl Hi Hn; try discriminate Hl; cbn [length] in *; [lia|]. destruct i as [|i].
  - cbn [firstn filter combine nth length] in *. destruct (nz q) eqn:E; [reflexivity|]. unfold nz in E. destruct (Z.eqb_spec q 0); [contradiction|discriminate E].
  - cbn [firstn filter combine nth] in *. specialize (IH xq i ltac:(lia) ltac:(lia) Hn). destruct (nz q); cbn [length nth_error]; exact IH.
Qed.
Lemma directions_nth g l xq i : len l = len xq -> 0 <= i < len xq -> getz 0 xq i <> 0 ->
  nth_error (directions R_ops g l xq) (Z.to_nat (rank (nonzero_at xq) i)) = Some (fge R_ops (getz 0%R l i) (fmul R_ops (fz R_ops (getz 0 xq i)) g)).
Proof.
  intros Hl Hi Hn. unfold len in *. unfold directions. rewrite nth_error_map. pose proof (rank_filter xq (Z.to_nat i) ltac:(lia)) as E. rewrite Z2Nat.id in E by lia. rewrite E. unfold len. rewrite Nat2Z.id.
  pose proof (filter_combine_nth 0%R l xq (Z.to_nat i) ltac:(lia) ltac:(lia) Hn) as Q. unfold nz in Q at 1. rewrite Q. reflexivity.
Qed.
Lemma rank_below xq i n : 0 <= i < n -> n <= len xq -> getz 0 xq i <> 0 -> rank (nonzero_at xq) i < nonzero_count (firstn (Z.to_nat n) xq).
Proof.
  intros Hi Hn H. assert (M : forall k j : nat, rank (nonzero_at xq) (Z.of_nat k) <= rank (nonzero_at xq) (Z.of_nat (k + j))).
  { intros k j. induction j as [|j IH]; [rewrite Nat.add_0_r; lia|]. replace (Z.of_nat (k + S j)) with (Z.of_nat (k + j) + 1) by lia. rewrite rank_succ by lia. destruct (nonzero_at _ _); lia. }
  specialize (M (Z.to_nat (i + 1)) (Z.to_nat (n - (i + 1)))). rewrite Z2Nat.id in M by lia. rewrite rank_succ in M by lia. unfold nonzero_at at 2 in M. unfold nz in M. destruct (Z.eqb_spec (getz 0 xq i) 0); [contradiction|]. cbn [negb] in M.
  rewrite rank_filter in M by (unfold len in Hn; lia). replace (Z.to_nat (i + 1) + Z.to_nat (n - (i + 1)))%nat with (Z.to_nat n) in M by lia. unfold nonzero_count. fold nz. lia.
Qed.

(* ---- how far a line may be off ---- *)
(* g: gain, last: number of lines sent, sure: number of residual bits that certainly reach the decoder, xq: quantised lines, l: lines that were quantised *)
Definition line_gap (g : R) (lsb : bool) (last sure : Z) (xq : list Z) (l : list R) (i : Z) : R :=
  if last <=? i then (Rabs (getz 0 l i) + 1 / 2 * g)%R
  else if lsb then (25 / 8 * g)%R
  else if getz 0 xq i =? 0 then (9 / 8 * g)%R
  else if rank (nonzero_at xq) i <? sure then (5 / 16 * g)%R else (15 / 16 * g)%R.

Lemma refine_near b v : (Rabs (refine R_ops b v - v) <= 5 / 16)%R.
Proof. rewrite refine_R. replace (v + offset b (Rlt_bool 0 v) - v)%R with (offset b (Rlt_bool 0 v)) by ring. destruct b, (Rlt_bool 0 v); cbn [offset]; apply Rabs_le; lra. Qed.

Section Line.
Variables (g l w : R) (q : Z).
Hypothesis Hg : (0 < g)%R.
Hypothesis Hl : (Rabs l <= top * g)%R.
Hypothesis Hq : q = quantise_line R_ops g l.
Lemma zero_line : q = 0 -> (Rabs w <= 1 / 2)%R -> (Rabs (w * g - l) <= 9 / 8 * g)%R.
Proof using Hg Hl Hq.
  intros E Hw. pose proof (R_quantise_error g l Hg Hl) as Q. rewrite <- Hq, E in Q. replace (l - 0 * g)%R with l in Q by ring. apply Rabs_le_inv in Q, Hw. apply Rabs_le. nra.
Qed.
Lemma near_line (v : R) d : (Rabs (w - v) <= d)%R -> (Rabs (v - IZR q) <= 2)%R -> (Rabs (w * g - l) <= (d + Rabs (v - IZR q) + 5 / 8) * g)%R.
Proof using Hg Hl Hq.
  intros H1 H2. pose proof (R_quantise_error g l Hg Hl) as Q. rewrite <- Hq in Q. replace (w * g - l)%R with ((w - v) * g + ((v - IZR q) * g + - (l - IZR q * g)))%R by ring.
  eapply Rle_trans; [apply Rabs_triang|]. eapply Rle_trans; [apply Rplus_le_compat_l, Rabs_triang|]. rewrite !Rabs_mult, Rabs_Ropp, (Rabs_pos_eq g) by lra. assert (Rabs (w - v) * g <= d * g)%R by (apply Rmult_le_compat_r; lra). lra.
Qed.
End Line.

(* ---- the frame ---- *)
Lemma same_offset fs nbits : 0 <= fs <= 4 -> 0 <= nbits < 32768 -> gain_off nbits fs = gg_off fs nbits.
Proof.
  intros Hf Hn. unfold gg_off, gain_off. assert (W : wrap 16 nbits = nbits) by (unfold wrap; change (2 ^ (16 - 1)) with 32768; change (2 ^ 16) with 65536; rewrite Z.mod_small; lia). rewrite W, Z.quot_div_nonneg by lia. lia.
Qed.
Lemma orders_read p : len (p_rc_order p) = 2 -> Forall (fun k => 0 <= k <= 8) (p_rc_order p) -> 1 <= p_num_tns p <= 2 ->
  len (spec_orders p) = 2 /\ Forall (fun k => 0 <= k <= 8) (spec_orders p) /\ forall f, 0 <= f < p_num_tns p -> getz 0 (spec_orders p) f = getz 0 (p_rc_order p) f.
Proof.
  intros L HF Hn. destruct (p_rc_order p) as [|a [|b [|? ?]]] eqn:E; try discriminate L; [|unfold len in L; cbn [length] in L; lia].
  inversion HF as [|? ? F1 F2]; subst. inversion F2; subst. unfold spec_orders. rewrite E. cbn [nth]. split; [reflexivity|]. split; [repeat constructor; try lia; destruct (_ =? _); lia|].
  intros f Hf. assert (C : f = 0 \/ f = 1) by lia. destruct C as [-> | ->]; [reflexivity|]. unfold getz. change (Z.to_nat 1) with 1%nat. cbn [nth]. destruct (Z.eqb_spec (p_num_tns p) 1); [lia|reflexivity].
Qed.
Lemma indices_read p : len (p_rc_i p) = 16 -> Forall (fun k => 0 <= k <= 16) (p_rc_i p) ->
  len (spec_tns_idx p) = 16 /\ Forall (fun k => 0 <= k <= 16) (spec_tns_idx p) /\
  forall f k, 0 <= f < p_num_tns p -> 0 <= f < 2 -> 0 <= k < 8 -> k < getz 0 (p_rc_order p) f -> getz 0 (spec_tns_idx p) (f * 8 + k) = getz 0 (p_rc_i p) (f * 8 + k).
Proof.
  intros L HF. unfold spec_tns_idx. split; [unfold len; rewrite map_length, seq_length; reflexivity|]. split.
  - apply Forall_forall. intros v Hv. apply in_map_iff in Hv. destruct Hv as (i & <- & Hi). apply in_seq in Hi. destruct (_ && _); [|lia]. rewrite Forall_forall in HF. apply HF. apply nth_In. unfold len in L. lia.
  - intros f k Hf Hf2 Hk Ho. unfold getz at 1. rewrite (nth_indep _ _ ((fun i => if (Z.of_nat i / 8 <? p_num_tns p) && (Z.of_nat i mod 8 <? nth (i / 8) (p_rc_order p) 0) then nth i (p_rc_i p) 0 else 0) 0%nat)) by (rewrite map_length, seq_length; lia).
    rewrite (map_nth (fun i => if (Z.of_nat i / 8 <? p_num_tns p) && (Z.of_nat i mod 8 <? nth (i / 8) (p_rc_order p) 0) then nth i (p_rc_i p) 0 else 0)). rewrite seq_nth by lia. rewrite Nat.add_0_l. rewrite Z2Nat.id by lia.
    assert (D : (f * 8 + k) / 8 = f) by (rewrite Z.div_add_l by lia; rewrite Z.div_small by lia; lia). assert (M : (f * 8 + k) mod 8 = k) by (rewrite Z.add_comm, Z.mod_add by lia; apply Z.mod_small; lia). rewrite D, M.
    assert (ND : (Z.to_nat (f * 8 + k) / 8)%nat = Z.to_nat f) by (rewrite <- D at 2; rewrite Z2Nat.inj_div by lia; reflexivity). rewrite ND. unfold getz in Ho. destruct (Z.ltb_spec f (p_num_tns p)); [|lia]. destruct (Z.ltb_spec k (nth (Z.to_nat f) (p_rc_order p) 0)); [|lia]. reflexivity.
Qed.

Section Frame.
Context (c : config) (N : Z) (bw nbw : Z) (s : sns_result) (tr : tns_result R) (lp : ltpf_result) (q : quant_result R) (xq : list Z) (rb : list bool) (nfv : Z) (l1 l2 : list R) (h n m : nat) (b : consumption) (B : Z).
Hypothesis Lc : legal_config c.
Hypothesis HN : 20 <= N <= 400.
Hypothesis ST : stages R_ops R_eops c N bw nbw s tr lp q xq rb nfv l1 l2 h n m b B.
Hypothesis GF : gain_floor R_ops R_eops l2 (gg_off (fs_ind c) (N * 8)) <= 32767.
Let p := frame_params bw nbw s tr lp q rb nfv xq.
Let g := qr_gg q.

Lemma gain_value : g = Rpower 10 (IZR (p_gg p + gg_off (fs_ind c) (8 * N)) / 28) /\ (0 < g)%R.
Proof.
  destruct ST. unfold g. rewrite (ro_gain _ _ _ _ _ _ _ _ _ _ _ _ st_run). rewrite (Z.mul_comm 8 N). split; [reflexivity|]. apply exp_pos.
Qed.
Lemma quantised_lines i : 0 <= i < ne c -> (Rabs (getz 0 l2 i) <= top * g)%R /\ (i < qr_last q -> getz 0 xq i = quantise_line R_ops g (getz 0%R l2 i)).
Proof.
  intros Hi. destruct ST. destruct (config_geom c Lc) as (_ & _ & _ & _ & _ & G6 & _). pose proof (tl_len _ _ _ _ _ _ _ _ st_tns) as T2. split.
  - pose proof (gg_off_range (fs_ind c) (N * 8) G6 ltac:(lia)) as GO. pose proof (gain_floor_enough l2 (gg_off (fs_ind c) (N * 8)) (qr_gg_ind q) ltac:(lia) GF (proj1 (proj2 (ro_ind _ _ _ _ _ _ _ _ _ _ _ _ st_run)))) as Q.
    unfold g. rewrite (ro_gain _ _ _ _ _ _ _ _ _ _ _ _ st_run). cbn [R_ops fgain]. eapply Rle_trans; [|exact Q]. destruct (R_peak l2) as (_ & P1 & _). rewrite Forall_forall in P1. apply P1. unfold getz. apply nth_In. unfold len in *. lia.
  - intros Hl. rewrite (ro_lines _ _ _ _ _ _ _ _ _ _ _ _ st_run i ltac:(lia)). destruct (Z.ltb_spec i (qr_last q)); [reflexivity|lia].
Qed.

Lemma legal_for sv : describes sv s -> sns_legal sv -> p_gg p < 256 -> Forall (fun v => v <> -32768) xq -> frame_legal c N p sv.
Proof.
  intros (D1 & D2 & D3 & D4 & D5 & D6) Q HG HM.
  assert (M : forall i, 0 <= i < qr_last q -> getz 0 xq i <> -32768).
  { intros i Hl. rewrite Forall_forall in HM. unfold getz. destruct (Nat.lt_ge_cases (Z.to_nat i) (length xq)) as [K|K]; [apply HM, nth_In, K|rewrite nth_overflow by exact K; discriminate]. }
  destruct (stages_legal R_ops R_eops c N bw nbw s tr lp q xq rb nfv l1 l2 h n m b B Lc ST HG M) as (sv0 & FL). fold p in FL. destruct FL as [[] ]. constructor; try assumption. constructor; assumption.
Qed.
Definition sure : Z := Z.min (8 * N - payload_bits (payload (ne c) p) - 8) (len rb).
Theorem frame_lines sv buf : describes sv s -> sns_legal sv -> p_gg p < 256 -> Forall (fun v => v <> -32768) xq -> len buf = N ->
  let l := payload (ne c) p in payload_bits l <= 8 * N -> ~ term_window (fin l) \/ tbits l + Z.min (8 * N - payload_bits l) (len (res_source p)) + 8 * iN (fin l) + 24 <= 8 * N ->
  exists buf' fr, encode_frame (ne c) p buf = Ok buf' /\ len buf' = N /\ bytes buf' /\ read_frame true c buf' = Ok fr /\ f_side fr = spec_side p sv /\ a_rc_order (f_arith fr) = spec_orders p /\ a_rc_i (f_arith fr) = spec_tns_idx p /\
    forall t lines0, len lines0 = ne c -> exists y, len y = ne c /\
      decode_lines R_ops t c fr lines0 = (l <- tns_decode R_ops (n_ms c) bw (tr_num tr) (spec_orders p) (spec_tns_idx p) y ;; sns_decode R_ops c sv l) /\
      forall i, 0 <= i < ne c -> (Rabs (getz 0 y i - getz 0 l2 i) <= line_gap g (p_lsb_mode p) (p_lastnz p) sure xq l2 i)%R.
Proof.
  intros Ds Q HG HM Lb l HP HW. pose proof (legal_for sv Ds Q HG HM) as FL. destruct gain_value as [Gv Gp]. pose proof quantised_lines as QL. destruct (config_geom c Lc) as (_ & _ & _ & _ & G5 & G6 & _).
  assert (Hne : 0 <= ne c <= 400) by (destruct (ne_half c Lc) as (h' & Hh & Eh); lia).
  pose proof ST as ST'. destruct ST' as [S1 Ll S2 S3 S4 S5 S6 S7 S8 S9 S10 S11]. pose proof (legal_writer _ _ _ _ FL) as WP. pose proof (ro_len _ _ _ _ _ _ _ _ _ _ _ _ S9) as Lq. pose proof (tl_len _ _ _ _ _ _ _ _ S5) as T2.
  assert (PL : 2 <= qr_last q <= ne c) by exact (le_lastnz _ _ _ (fl_side _ _ _ _ FL)).
  assert (GG : fgain R_ops (qr_gg_ind q + gain_off (8 * N) (fs_ind c)) = g) by (rewrite (same_offset (fs_ind c) (8 * N) G6 ltac:(lia)); rewrite Gv; reflexivity).
  assert (Line : forall i w xs, 0 <= i < ne c -> (xs = 0 -> (Rabs w <= 1 / 2)%R) -> (qr_last q <= i -> xs = 0) -> forall e, (i < qr_last q -> (Rabs (w * g - getz 0 l2 i) <= e)%R) -> (Rabs (w * g - getz 0 l2 i) <= if qr_last q <=? i then Rabs (getz 0 l2 i) + 1 / 2 * g else e)%R).
  { intros i w xs Hi Hw H0 e He. destruct (Z.leb_spec (qr_last q) i) as [C|C]; [|now apply He]. specialize (Hw (H0 C)). unfold Rminus. eapply Rle_trans; [apply Rabs_triang|]. rewrite Rabs_Ropp, Rabs_mult, (Rabs_pos_eq g) by lra. assert (Rabs w * g <= 1 / 2 * g)%R by (apply Rmult_le_compat_r; lra). lra. }
  destruct (qr_lsb_mode q) eqn:Em.
  - rewrite <- Lb in FL, HP, HW.
    destruct (round_trip_lsb false c p sv buf Lc ltac:(lia) FL Em HP HW) as (buf' & room & xs & E4 & L4 & B4 & _ & Lx4 & D4 & Z4 & _ & _ & R4). destruct (R4 ltac:(discriminate)) as (zero & R5).
    apply (read_frame_safe_len c buf' _ Lc B4 ltac:(unfold SAFE_LEN; lia)) in R5. destruct R5 as [R5 _]. exists buf'. eexists. split; [exact E4|]. split; [lia|]. split; [exact B4|]. split; [exact R5|]. cbn [f_side f_arith a_rc_order a_rc_i]. split; [reflexivity|]. split; [reflexivity|]. split; [reflexivity|].
    intros t lines0 L0. set (fr := mkFrame _ _ _). destruct (lines_read t c fr lines0 Lc L0) as (y & Ly & Ey & Ty).
    { unfold fr. cbn [f_spec]. unfold len. lia. }
    { unfold fr. cbn [f_arith a_seed]. unfold spec_seed. apply Z.mod_pos_bound. lia. }
    { unfold fr. cbn [f_side spec_side s_bw p frame_params p_bw]. lia. }
    { unfold fr. cbn [f_side spec_side s_nf p frame_params p_nf]. lia. }
    exists y. split; [exact Ly|]. split; [exact Ey|]. intros i Hi. destruct (Ty i Hi) as (w & -> & T0 & T1). unfold fr in T0, T1. cbn [f_spec f_side spec_side s_lsb_mode] in T0, T1. unfold fr at 1 2. cbn [f_side f_arith spec_side s_gg a_nbits]. rewrite Lb.
    change (p_gg p) with (qr_gg_ind q). rewrite GG. unfold line_gap. change (p_lastnz p) with (qr_last q). change (p_lsb_mode p) with (qr_lsb_mode q). rewrite Em.
    apply (Line i w (getz 0 xs i) Hi T0); [intros K; unfold getz; apply Z4; change (p_lastnz p) with (qr_last q); lia|]. intros Hl. destruct (QL i Hi) as [Q1 Q2]. specialize (Q2 Hl). destruct (D4 i ltac:(change (p_lastnz p) with (qr_last q); lia)) as [D5 _]. change (p_xq p) with xq in D5. fold (getz 0 xq i) (getz 0 xs i) in D5.
    change (p_lsb_mode p) with (qr_lsb_mode q) in T1. rewrite Em in T1.
    assert (DD : (Rabs (IZR (getz 0%Z xs i) - IZR (getz 0%Z xq i)) <= 2)%R) by (rewrite <- minus_IZR, <- abs_IZR; apply IZR_le; lia).
    eapply Rle_trans; [apply (near_line g (getz 0%R l2 i) w (getz 0 xq i) Gp Q1 Q2 (IZR (getz 0%Z xs i)) (1 / 2)); [|exact DD]|apply Rmult_le_compat_r; lra].
    destruct (Z.eq_dec (getz 0 xs i) 0) as [E0|E0]; [rewrite E0, Rminus_0_r; auto|]. rewrite (T1 E0), Rminus_diag_eq by reflexivity. rewrite Rabs_R0. lra.
  - assert (HW' := HW). unfold res_source in HW'. change (p_lsb_mode p) with (qr_lsb_mode q) in HW'. rewrite Em in HW'. rewrite <- Lb in FL, HP, HW'.
    destruct (round_trip_regular false c p sv buf Lc ltac:(lia) FL Em HP HW' ltac:(discriminate)) as (buf' & room & got & E4 & L4 & B4 & RM & R5 & Lg & Tg).
    apply (read_frame_safe_len c buf' _ Lc B4 ltac:(unfold SAFE_LEN; lia)) in R5. destruct R5 as [R5 _]. exists buf'. eexists. split; [exact E4|]. split; [lia|]. split; [exact B4|]. split; [exact R5|]. cbn [f_side f_arith a_rc_order a_rc_i]. split; [reflexivity|]. split; [reflexivity|]. split; [reflexivity|].
    pose proof (spec_lines_length p WP ltac:(unfold MAX_LEN_SPECTRAL; change (p_lastnz p) with (qr_last q); lia)) as SL.
    assert (X0 : forall i, 0 <= i < qr_last q -> getz 0 (spec_lines p) i = getz 0 xq i) by (intros i Hi; unfold getz; rewrite (spec_lines_nth p (Z.to_nat i) WP) by (change (p_lastnz p) with (qr_last q); lia); reflexivity).
    assert (X1 : forall i, qr_last q <= i -> getz 0 (spec_lines p) i = 0) by (intros i Hi; unfold getz, spec_lines; change (p_lastnz p) with (qr_last q); rewrite app_nth2; rewrite firstn_length; [apply nth_repeat|]; lia).
    intros t lines0 L0. set (fr := mkFrame _ _ _). destruct (lines_read t c fr lines0 Lc L0) as (y & Ly & Ey & Ty).
    { unfold fr. cbn [f_spec]. unfold len. lia. }
    { unfold fr. cbn [f_arith a_seed]. unfold spec_seed. apply Z.mod_pos_bound. lia. }
    { unfold fr. cbn [f_side spec_side s_bw p frame_params p_bw]. lia. }
    { unfold fr. cbn [f_side spec_side s_nf p frame_params p_nf]. lia. }
    exists y. split; [exact Ly|]. split; [exact Ey|]. intros i Hi. destruct (Ty i Hi) as (w & -> & T0 & T1). unfold fr in T0, T1. cbn [f_spec f_side spec_side s_lsb_mode f_arith a_residual] in T0, T1. unfold fr at 1 2. cbn [f_side f_arith spec_side s_gg a_nbits]. rewrite Lb.
    change (p_gg p) with (qr_gg_ind q). rewrite GG. unfold line_gap. change (p_lastnz p) with (qr_last q). change (p_lsb_mode p) with (qr_lsb_mode q). rewrite Em.
    apply (Line i w (getz 0 (spec_lines p) i) Hi T0 (X1 i)). intros Hl. destruct (QL i Hi) as [Q1 Q2]. specialize (Q2 Hl). rewrite X0 in T0, T1 by lia. change (p_lsb_mode p) with (qr_lsb_mode q) in T1. rewrite Em in T1.
    destruct (Z.eqb_spec (getz 0 xq i) 0) as [E0|E0]; [apply (zero_line g _ w (getz 0 xq i)); auto|]. specialize (T1 E0).
    rewrite (rank_ext _ (nonzero_at xq)) in T1 by (intros k Hk; rewrite X0 by lia; reflexivity).
    pose proof (rank_nonneg (nonzero_at xq) i) as R0. pose proof (rank_below xq i (qr_last q) ltac:(lia) ltac:(lia) E0) as R1. set (r := rank (nonzero_at xq) i) in *.
    destruct (Z.ltb_spec r sure) as [C|C].
    + unfold sure in C. rewrite Lb in Lg. change (p_lastnz p) with (qr_last q) in Lg. change (p_xq p) with xq in Lg. fold l in Lg, C, HP.
      assert (K : nth_error got (Z.to_nat r) = Some (nth (Z.to_nat r) got false)) by (apply nth_error_nth'; unfold len in Lg; lia).
      rewrite K in T1. rewrite (Tg (Z.to_nat r)) in T1; [| unfold len in Lg; lia| |].
      * change (p_res_bits p) with rb in T1. rewrite S10 in T1. rewrite nth_firstn_any in T1 by (rewrite S10 in C; unfold len in C; lia).
        pose proof (directions_nth g l2 xq i ltac:(lia) ltac:(lia) E0) as DN. fold r in DN. fold g in T1. apply (nth_error_nth _ _ false) in DN. rewrite DN in T1. rewrite T1. rewrite Rabs_minus_sym. rewrite Q2. apply (refined_error g (getz 0%R l2 i) Gp Q1). rewrite <- Q2. exact E0.
      * unfold room_ok in RM. fold l in RM. rewrite Lb in RM. lia.
      * change (p_res_bits p) with rb. unfold len in C. lia.
    + assert (DD : (Rabs (IZR (getz 0%Z xq i) - IZR (getz 0%Z xq i)) = 0)%R) by (rewrite Rminus_diag_eq by reflexivity; apply Rabs_R0).
      eapply Rle_trans; [apply (near_line g (getz 0%R l2 i) w (getz 0 xq i) Gp Q1 Q2 (IZR (getz 0%Z xq i)) (5 / 16)); [|rewrite DD; lra]|rewrite DD; apply Rmult_le_compat_r; lra].
      rewrite T1. destruct (nth_error got (Z.to_nat r)); [apply refine_near|]. rewrite Rminus_diag_eq by reflexivity. rewrite Rabs_R0. lra.
Qed.
End Frame.
