(* C48: the gains of the noise shaping, in the decoder and in the encoder, and that the decoder undoes what the encoder did *)
From Coq Require Import ZArith Lia List Bool Reals Lra.
From Flocq Require Import Core.
From Verif Require Import Base Config SideInfo FrameSpec EncPayload Mpvq MpvqProofs SnsIndex SnsProofs Buffers BufLemmas TablesSnsF Loops Scalar EncScalar RealOps EncF32 DecSignal DecTotal LineSpec DecState EncSns EncSnsOk SnsShape EncShape ScfBound.
Import ListNotations.
Local Open Scope Z_scope.

Lemma curve_ext q q' b : 0 <= b < 64 -> (forall n, 0 <= n < 16 -> q n = q' n) -> curve q b = curve q' b.
Proof.
  intros Hb H. unfold curve. destruct (Z.ltb_spec b 2); [apply H; lia|]. cbv zeta. assert (0 <= Z.min 14 ((b - 2) / 4) <= 14) by (Z.div_mod_to_equations; lia). now rewrite !H by lia.
Qed.
Lemma band_curve_ext nb q q' b : nb = 64 \/ nb = 60 -> 0 <= b < nb -> (forall n, 0 <= n < 16 -> q n = q' n) -> band_curve nb q b = band_curve nb q' b.
Proof.
  intros Hn Hb H. unfold band_curve. destruct Hn; subst nb; cbn [Z.eqb Pos.eqb]; [now apply curve_ext|]. change (64 - 60) with 4. destruct (Z.ltb_spec b 4); [rewrite !(curve_ext q q') by (auto; lia)|rewrite (curve_ext q q') by (auto; lia)]; reflexivity.
Qed.
Lemma gain_list_ext c q q' : legal_config c -> (forall n, 0 <= n < 16 -> q n = q' n) -> gain_list c q = gain_list c q'.
Proof. intros Lc H. apply map_zrange_ext. intros b Hb. f_equal. apply band_curve_ext; auto using legal_nb. Qed.
Lemma gain_list_get c q b : 0 <= b < nb c -> getz 0%R (gain_list c q) b = Rpower 2 (band_curve (nb c) q b).
Proof. intros H. unfold gain_list. now rewrite zrange_nth. Qed.
Lemma gain_list_len c q : legal_config c -> len (gain_list c q) = nb c.
Proof. intros Lc. unfold gain_list. rewrite len_map, zrange_len; [reflexivity|]. destruct (legal_nb c Lc); lia. Qed.

(* The decoder multiplies every line of band b by 2^(curve at b) where the curve goes through the sixteen scale factors that the parameters describe;
   lines past the last band keep their value. Any legal configuration, any legal parameters, any lines. *)
Theorem C48_decoder c q lines : legal_config c -> sns_legal q -> ne c <= len lines ->
  exists y edges out, sns_vector q = Ok y /\ band_table c = Ok edges /\ sns_decode R_ops c q lines = Ok out /\ len out = len lines /\
    (forall b j, 0 <= b < nb c -> getz 0 edges b <= j < getz 0 edges (b + 1) -> getz 0%R out j = (getz 0 lines j * Rpower 2 (band_curve (nb c) (scale_factor q y) b))%R) /\
    (forall j, 0 <= j < ne c -> exists! b, 0 <= b < nb c /\ getz 0 edges b <= j < getz 0 edges (b + 1)) /\
    (forall j, ne c <= j -> getz 0%R out j = getz 0%R lines j).
Proof.
  intros Lc Q Hl. destruct (shape_of_legal q Q) as (y & Ey & _). destruct (factor_decoder q y Q Ey) as (s & Es & Ls & Ts). pose proof Lc as (f & d & Ec). destruct (band_table_ok f d) as (edges & Eb & Hb). rewrite <- Ec in *.
  exists y, edges. unfold sns_decode. rewrite Es. cbn [bind]. pose proof (decoder_gains c s Lc Ls) as G.
  destruct (sns_interp R_ops s) as [s1| |] eqn:E1; [|discriminate G|discriminate G]. cbn [bind] in *. destruct (sns_reduce R_ops (nb c) s1) as [s2| |] eqn:E2; [|discriminate G|discriminate G]. cbn [bind] in *. rewrite G, Eb. cbn [bind].
  rewrite (gain_list_ext c (getz 0%R s) (scale_factor q y)) by assumption. pose proof (gain_list_len c (scale_factor q y) Lc) as Lg.
  destruct (sns_shape_spec R_ops edges (gain_list c (scale_factor q y)) lines (ne c) ltac:(rewrite Lg; exact Hb) Hl) as (out & Eo & Lo & T1 & T2). cbn [R_ops fz fmul] in T1, T2.
  exists out. split; [exact Ey|]. split; [reflexivity|]. split; [exact Eo|]. split; [exact Lo|]. split; [|split].
  - intros b j Hb' Hj. rewrite (T1 b j) by (rewrite ?Lg; assumption). now rewrite gain_list_get.
  - exact (band_of edges (nb c) (ne c) Hb).
  - exact T2.
Qed.

(* ---- encoder ---- *)
Lemma lit_eighth k m : IZR m = (125 * IZR k)%R -> R_lit (m, -3) = eighth R_ops k.
Proof. intros H. unfold R_lit, eighth. cbn [fst snd R_ops fdiv fz]. unfold powerRZ. change (Pos.to_nat 3) with 3%nat. cbn [pow]. rewrite H. field. Qed.
Lemma interpolate_R q : len q = 16 -> sns_interpolate R_ops q = Ok (map (at_ R_ops q) (SnsIndex.zrange 0 64)).
Proof.
  intros H. rewrite <- interp_at by exact H. unfold sns_interpolate, sns_interp. rewrite H. cbn [Z.eqb Pos.eqb assert bind]. cbv zeta. cbn [R_ops flit].
  rewrite (lit_eighth 1 125), (lit_eighth 3 375), (lit_eighth 5 625), (lit_eighth 7 875) by lra. reflexivity.
Qed.
Lemma apply_shape edges (gains lines : list R) : len edges = len gains + 1 -> sns_apply R_ops edges gains lines = sns_shape R_ops edges gains lines.
Proof. intros H. unfold sns_apply, sns_shape. now replace (Z.min (len gains) (len edges - 1)) with (len gains) by lia. Qed.

Theorem C48_scale_factors_bounded c eb attack : legal_config c -> nb c = 64 -> len eb = 64 -> Forall (fun v => 0 <= v)%R eb ->
  exists scf, sns_scale_factors R_ops R_eops c eb attack = Ok scf /\ len scf = 16 /\ Forall (fun s => - (17 / 2) <= s <= 17 / 2)%R scf.
Proof. apply scale_factors_bounded. Qed.

(* The encoder divides every line of band b by the gain that the decoder will multiply it with: the decoder, given the parameters that describe the encoder's result, returns the lines
   the encoder started from. The code vectors it takes are the nearest ones. *)
Theorem C48_encoder c lines eb attack scf : legal_config c -> nb c = 64 -> len lines = ne c -> len eb = 64 -> Forall (fun v => 0 <= v)%R eb ->
  sns_scale_factors R_ops R_eops c eb attack = Ok scf -> set_b_alive scf ->
  exists r out q y edges, sns_encode R_ops R_eops c lines eb attack = Ok (r, out) /\ describes q r /\ sns_legal q /\ sns_vector q = Ok y /\ band_table c = Ok edges /\ len out = ne c /\
    (forall b j, 0 <= b < 64 -> getz 0 edges b <= j < getz 0 edges (b + 1) -> getz 0%R out j = (getz 0 lines j * Rpower 2 (- curve (scale_factor q y) b))%R) /\
    sns_decode R_ops c q out = Ok lines /\
    (forall k, 0 <= k < 32 -> (dist (getz 0%R scf) LFCB (q_ind_lf q) <= dist (getz 0%R scf) LFCB k)%R) /\
    (forall k, 0 <= k < 32 -> (dist (fun n => getz 0%R scf (n + 8)) HFCB (q_ind_hf q) <= dist (fun n => getz 0%R scf (n + 8)) HFCB k)%R).
Proof.
  intros Lc Nb Ll Le He Es A. destruct (scale_factors_bounded c eb attack Lc Nb Le He) as (scf' & E & Ls & W). rewrite Es in E. apply ParseBase.Ok_inj in E. subst scf'.
  assert (M80 : (0 <= 17 / 2 <= IZR (2 ^ 80))%R) by (split; [lra|]; apply Rle_trans with (IZR 9); [lra|apply IZR_le; vm_compute; congruence]).
  destruct (quant_R scf (17 / 2) Ls M80 (within_bounded _ _ (proj1 M80) W) A) as (r & s & q & y & Eq & Dq & Q & Ey & Lq & Tq & _ & Ml & Mh).
  pose proof Lc as (f & d & Ec). destruct (band_table_ok f d) as (edges & Eb & Hb). rewrite <- Ec in *.
  unfold sns_encode. rewrite Ll, Z.eqb_refl. cbn [assert bind]. rewrite Es. cbn [bind]. rewrite Eq. cbn [bind]. rewrite interpolate_R by exact Lq. cbn [bind]. unfold sns_narrow. rewrite Nb. unfold usub. change (64 <? 64) with false. cbn [bind]. change (0 <? 64 - 64) with false. cbv iota. cbn [bind]. rewrite Eb. cbn [bind].
  set (gains := map _ (map (at_ R_ops s) (SnsIndex.zrange 0 64))). assert (Lg : len gains = 64) by (unfold gains; rewrite !len_map; reflexivity).
  assert (Tg : forall b, 0 <= b < 64 -> getz 0%R gains b = Rpower 2 (- curve (scale_factor q y) b)).
  { intros b Hb'. unfold gains. rewrite map_map, zrange_nth by exact Hb'. cbn [R_eops R_ops e_exp2 fneg]. rewrite at_curve by exact Hb'. do 2 f_equal. now apply curve_ext. }
  pose proof (proj1 Hb) as Le'. rewrite apply_shape by (rewrite Lg; rewrite Nb in Le'; exact Le').
  destruct (sns_shape_spec R_ops edges gains lines (ne c) ltac:(rewrite Lg, <- Nb; exact Hb) ltac:(lia)) as (out & Eo & Lo & T1 & T2). cbn [R_ops fz fmul] in T1, T2. rewrite Eo. cbn [bind].
  exists r, out, q, y, edges. split; [reflexivity|]. split; [exact Dq|]. split; [exact Q|]. split; [exact Ey|]. split; [reflexivity|]. split; [lia|].
  assert (To : forall b j, 0 <= b < 64 -> getz 0 edges b <= j < getz 0 edges (b + 1) -> getz 0%R out j = (getz 0 lines j * Rpower 2 (- curve (scale_factor q y) b))%R).
  { intros b j Hb' Hj. rewrite (T1 b j) by (rewrite ?Lg; assumption). now rewrite Tg. }
  split; [exact To|]. split; [|auto].
  destruct (C48_decoder c q out Lc Q ltac:(lia)) as (y' & edges' & back & Ey' & Eb' & Ed & Ld & Td & U & Tn). rewrite Ey in Ey'. apply ParseBase.Ok_inj in Ey'. subst y'. rewrite Eb in Eb'. apply ParseBase.Ok_inj in Eb'. subst edges'.
  rewrite Ed. f_equal. apply (list_eq_getz 0%R); [lia|]. intros j Hj. destruct (U j ltac:(lia)) as (b & (Hb1 & Hb2) & _). rewrite (Td b j Hb1 Hb2), (To b j) by (try assumption; lia). rewrite Nb. unfold band_curve. cbn [Z.eqb Pos.eqb].
  rewrite Rmult_assoc, <- Rpower_plus. replace (- curve (scale_factor q y) b + curve (scale_factor q y) b)%R with 0%R by lra. rewrite Rpower_O by lra. lra.
Qed.

(* The quantiser itself, for any sixteen scale factors in a very wide range. *)
Theorem C48_quantiser scf : len scf = 16 -> (forall n, Rabs (getz 0%R scf n) <= IZR (2 ^ 80))%R -> set_b_alive scf ->
  exists r s q y, sns_quant R_ops R_eops scf = Ok (r, s) /\ describes q r /\ sns_legal q /\ sns_vector q = Ok y /\ len s = 16 /\ (forall n, 0 <= n < 16 -> getz 0%R s n = scale_factor q y n) /\
    sns_factors R_ops q = Ok s.
Proof.
  intros L B A. assert (P : (0 <= IZR (2 ^ 80))%R) by (apply IZR_le; vm_compute; congruence). destruct (quant_R scf (IZR (2 ^ 80)) L ltac:(lra) B A) as (r & s & q & y & Eq & Dq & Q & Ey & Lq & Tq & _).
  exists r, s, q, y. split; [exact Eq|]. split; [exact Dq|]. split; [exact Q|]. split; [exact Ey|]. split; [exact Lq|]. split; [exact Tq|].
  destruct (factor_decoder q y Q Ey) as (s' & E & L' & T'). rewrite E. f_equal. apply (list_eq_getz 0%R); [lia|]. intros n Hn. rewrite T', Tq by lia. reflexivity.
Qed.

(* The last gain of every shape is in the tables and in the format, but no call of the quantiser ever chooses it: in any arithmetic. *)
Theorem C48_last_gain_never_sent {F} (o : ops F) (e : eops F) scf r s : sns_quant o e scf = Ok (r, s) -> 0 <= sr_shape r < 4 /\ 0 <= sr_gind r < gain_table_len (sr_shape r) - 1.
Proof.
  unfold sns_quant. intros H. destruct (sns_stage1 o e scf) as [[[[lf hf] st1] r1]| |]; cbn [bind] in H; try discriminate H. cbv zeta in H.
  destruct (sns_candidates o e _) as [[[[y0 y1] y2] y3]| |]; cbn [bind] in H; try discriminate H.
  destruct (choose_ok o e (sns_rotate o r1) (normalise o y0) (normalise o y1) (normalise o y2) (normalise o y3)) as ([[[[j i] mn] g] xq] & E & Rj & Ri). rewrite E in H. cbn [bind] in H.
  destruct (joint_index j i y0 y1 y2 y3) as [[[ji la] lb]| |]; cbn [bind] in H; try discriminate H. apply ParseBase.Ok_inj in H. assert (r = mkSr lf hf j i la lb ji) by congruence. subst r. cbn [sr_shape sr_gind]. split; [exact Rj|].
  unfold g_maxind, gain_table_len in *. destruct (j =? 0), (j =? 1), (j =? 2); lia.
Qed.

(* ---- a case: ten thousand times column 10 of the rotation is far from every code vector ---- *)
Definition ex_scf : list R := map (fun k => (10000 * entry D k 10)%R) (SnsIndex.zrange 0 16).
Lemma ex_get n : 0 <= n < 16 -> getz 0%R ex_scf n = (10000 * entry D n 10)%R.
Proof. intros H. unfold ex_scf. now rewrite zrange_nth. Qed.
Lemma ex_bound n : (Rabs (getz 0%R ex_scf n) <= 10000)%R.
Proof.
  apply within_bounded; [lra|]. apply within_map. intros k _. pose proof (D_small k 10) as G. apply Rabs_le_inv in G. lra.
Qed.
Lemma Rsum_minus (f g : Z -> R) l : Rsum (map (fun k => f k - g k)%R l) = (Rsum (map f l) - Rsum (map g l))%R.
Proof. induction l as [|x l IH]; cbn [map Rsum fold_right]; [lra|]. unfold Rsum in *. lra. Qed.
Lemma entry_1_10 : (entry D 1 10 <= - (3 / 10))%R.
Proof. change (entry D 1 10) with (R_lit (-3467599613305369, -16)). unfold R_lit. cbn [fst snd]. unfold powerRZ. change (Pos.to_nat 16) with 16%nat. cbn [pow]. lra. Qed.
Example C48_case : set_b_alive ex_scf /\ exists r s q y, sns_quant R_ops R_eops ex_scf = Ok (r, s) /\ describes q r /\ sns_legal q /\ sns_vector q = Ok y /\ sns_factors R_ops q = Ok s.
Proof.
  assert (L : len ex_scf = 16) by reflexivity. assert (P : (10000 <= IZR (2 ^ 80))%R) by (apply IZR_le; vm_compute; congruence).
  assert (A : set_b_alive ex_scf).
  { intros lf hf st1 r1 E. destruct (stage1_R ex_scf 10000 L ltac:(lra) ex_bound) as (lf' & hf' & st1' & r1' & E' & _ & _ & _ & L1 & Ts & Tr & _). rewrite E in E'. apply ParseBase.Ok_inj in E'. assert (r1' = r1 /\ st1' = st1) by (split; congruence). destruct H; subst r1' st1'. clear E E'.
    exists 10. split; [lia|]. rewrite rotate_R by (assumption || lia).
    assert (X : Rsum (map (fun k => (getz 0 r1 k * entry D k 10)%R) (SnsIndex.zrange 0 16)) = (Rsum (map (fun k => 10000 * (entry D k 10 * entry D k 10)) (SnsIndex.zrange 0 16)) - Rsum (map (fun k => getz 0 st1 k * entry D k 10) (SnsIndex.zrange 0 16)))%R).
    { rewrite <- Rsum_minus. f_equal. apply map_zrange_ext. intros k Hk. rewrite Tr, ex_get by exact Hk. ring. }
    rewrite X. clear X. assert (U : (Rabs (Rsum (map (fun k => getz 0 st1 k * entry D k 10)%R (SnsIndex.zrange 0 16))) <= 160)%R).
    { pose proof (Rsum_bound (fun k => getz 0 st1 k * entry D k 10)%R 10 (SnsIndex.zrange 0 16)) as G. change (length (SnsIndex.zrange 0 16)) with 16%nat in G. replace (INR 16 * 10)%R with 160%R in G by (cbn; lra). apply G.
      intros k Hk. apply zrange_In in Hk. rewrite Rabs_mult, Ts by exact Hk. assert (E : (Rabs (if k <? 8 then entry LFCB lf' k else entry HFCB hf' (k - 8)) <= 10)%R) by (destruct (k <? 8); [apply LF_small|apply HF_small]).
      pose proof (D_small k 10). pose proof (Rabs_pos (entry D k 10)). pose proof (Rabs_pos (if k <? 8 then entry LFCB lf' k else entry HFCB hf' (k - 8))). nra. }
    assert (V : (900 <= Rsum (map (fun k => 10000 * (entry D k 10 * entry D k 10)) (SnsIndex.zrange 0 16)))%R).
    { apply Rle_trans with (10000 * (entry D 1 10 * entry D 1 10))%R; [pose proof entry_1_10; nra|]. apply Rsum_in.
      - apply Forall_forall. intros v Hv. apply in_map_iff in Hv. destruct Hv as (k & <- & _). pose proof (Rle_0_sqr (entry D k 10)) as G. unfold Rsqr in G. lra.
      - apply in_map_iff. exists 1. split; [reflexivity|]. apply zrange_In. lia. }
    apply Rabs_le_inv in U. lra. }
  split; [exact A|]. destruct (C48_quantiser ex_scf L ltac:(intros n; pose proof (ex_bound n); lra) A) as (r & s & q & y & E1 & E2 & E3 & E4 & _ & _ & E5). exists r, s, q, y. auto 6.
Qed.

Print Assumptions C48_decoder.
Print Assumptions C48_scale_factors_bounded.
Print Assumptions C48_encoder.
Print Assumptions C48_quantiser.
Print Assumptions C48_last_gain_never_sent.
