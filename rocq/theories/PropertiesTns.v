(* C62: when temporal noise shaping in the binary32 encoder fails. *)
From Coq Require Import ZArith List Bool Lia Reals Lra.
From Coquelicot Require Import Complex.
From Flocq Require Import Core BinarySingleNaN.
From Verif Require Import Base Config Loops Scalar EncScalar F32 F32Lines EncF32 DecSignal DecTotal DetectSpec ParseBase F32Size SnsSize LtpfSize EncTns EncFrame EstimateSpec QuantSpec FrameSpec TnsOk EncTnsSize TnsIndex TnsUnstable QuietF32 PropertiesRounding PropertiesFinite PropertiesEncF32 PropertiesQuiet.
From Coq Require Import List.
Import ListNotations.
Local Open Scope Z_scope.

(* half of pi in binary32, which a correctly rounded arcsine yields at one *)
Definition half_pi : f32 := f32_norm 13176795 (-23).
Definition asin_ends (el : elibm) : Prop := lm_asin el (f32_of_Z 1) = half_pi /\ lm_asin el (f32_of_Z (-1)) = f32_norm (-13176795) (-23).
Lemma one_unique (x : f32) : (B2R x = 1 -> x = f32_of_Z 1)%R /\ (B2R x = -1 -> x = f32_of_Z (-1))%R.
Proof.
  pose proof (proj1 (fz_val 1 ltac:(lia))) as V1. pose proof (proj1 (fz_val (-1) ltac:(lia))) as V2.
  assert (S : forall y : f32, (B2R y <> 0)%R -> is_finite_strict y = true) by (intros [s|s| |s m e H] N; try reflexivity; exfalso; apply N; reflexivity).
  split; intros H; apply B2R_inj; try (apply S; lra); lra.
Qed.
Lemma ends_index lm el : asin_ends el -> coef_index (f32_ops lm) (f32_eops el) (f32_of_Z 1) = 17 /\ coef_index (f32_ops lm) (f32_eops el) (f32_of_Z (-1)) = -1.
Proof. intros [A B]. unfold coef_index. cbn [f32_eops e_asin]. rewrite A, B. split; vm_compute; reflexivity. Qed.

Definition unit (v : f32) : Prop := (B2R v = 1 \/ B2R v = -1)%R.
(* the stage succeeds exactly when linear prediction gives no coefficient of exactly one or minus one; what it sends is then legal *)
Theorem C62_tns_fails_exactly : forall (lm : libm) (el : elibm) chk c x bw nbits nn,
  asin_near el -> asin_ends el -> legal_config c -> len x = ne c -> 0 <= bw <= fs_ind c ->
  exists rc, tns_coefs (f32_ops lm) (f32_eops el) c x bw nbits nn = Ok rc /\ len rc = 16 /\
    (Forall (fun v => ~ unit v) rc <-> exists r y, tns_encode (f32_ops lm) (f32_eops el) chk c x bw nbits nn = Ok (r, y)) /\
    (forall r y, tns_encode (f32_ops lm) (f32_eops el) chk c x bw nbits nn = Ok (r, y) -> tns_legal (f32_ops lm) (f32_eops el) c x bw nbits r y /\ Forall (fun i => 0 <= i <= 16) (tr_rc_i r)).
Proof.
  intros lm el chk c x bw nbits nn AN AE Hc Lx Hb. destruct (tns_coefs_ok (f32_ops lm) (f32_eops el) c x bw nbits nn Hc Lx Hb) as (rc & E & L). exists rc. split; [exact E|]. split; [exact L|].
  destruct (coded_ne c bw Hc Hb) as [Hb4 _]. destruct (enc_params (n_ms c) bw Hb4) as (params & EP & _ & LP & _). destruct (ends_index lm el AE) as [I1 I2].
  assert (IN : Forall (fun v => ~ unit v) rc -> coefs_in_range (f32_ops lm) (f32_eops el) c x bw nbits nn).
  { intros H rc' E'. rewrite E in E'. apply Ok_inj in E'. subst rc'. eapply Forall_impl; [|exact H]. intros v N. apply index_range; [exact AN| |]; intros C; apply N; [now left|now right]. }
  assert (OUT : forall r y, tns_encode (f32_ops lm) (f32_eops el) chk c x bw nbits nn = Ok (r, y) -> Forall (fun v => ~ unit v) rc).
  { intros r y ER. pose proof (encode_needs_tables (f32_ops lm) (f32_eops el) chk c x bw nbits nn r y rc Hc Lx Hb ER E) as T.
    pose proof (encode_num (f32_ops lm) (f32_eops el) chk c x bw nbits nn r y params EP ER) as NR.
    apply DecSize.Forall_of_getz. intros j Hj. rewrite L in Hj. destruct (Z_lt_le_dec j (len params * 8)) as [S|S].
    - specialize (T j ltac:(lia)). unfold in_tables in T. change (fz (f32_ops lm) 0) with (f32_of_Z 0) in T. intros [C|C]; apply one_unique in C; rewrite C in T; lia.
    - pose proof (coefs_rest (f32_ops lm) (f32_eops el) c x bw nbits nn params rc EP E j ltac:(lia)) as Z0. change (fz (f32_ops lm) 0) with (f32_of_Z 0) in Z0. rewrite Z0. change (f32_of_Z 0) with (B754_zero false : f32). unfold unit. cbn [B2R]. lra. }
  split; [split|].
  - intros H. destruct (tns_encode_full (f32_ops lm) (f32_eops el) chk c x bw nbits nn (f32_elaws lm el) Hc Lx Hb (IN H)) as ([r y] & ER & _). now exists r, y.
  - intros (r & y & ER). exact (OUT r y ER).
  - intros r y ER. destruct (tns_encode_full (f32_ops lm) (f32_eops el) chk c x bw nbits nn (f32_elaws lm el) Hc Lx Hb (IN (OUT r y ER))) as ([r' y'] & ER' & P). rewrite ER in ER'. apply Ok_inj in ER'. apply pair_equal_spec in ER'. destruct ER' as [<- <-]. destruct P as [P _]. split; [exact P|]. exact (proj2 (proj2 (proj2 (tl_params _ _ _ _ _ _ _ _ P)))).
Qed.
Print Assumptions C62_tns_fails_exactly.

(* finite spectra with no legal index exist: one bell per sub band *)
Theorem C62_tns_always_succeeds_refuted : exists c (x : list f32) bw, legal_config c /\ len x = ne c /\ 0 <= bw <= fs_ind c /\ Forall (fun v : f32 => is_finite v = true /\ (0 <= B2R v <= 150391)%R) x /\
  forall (lm : libm) (el : elibm) chk nbits, 360 <= nbits -> lm_asin el (f32_of_Z 1) = half_pi -> (forall k, 0 <= k < 9 -> lm_powi el (f32_of_Z 1) k = f32_of_Z 1) ->
    forall r y, tns_encode (f32_ops lm) (f32_eops el) chk c x bw nbits false <> Ok (r, y).
Proof.
  assert (Hc : legal_config c16k) by (exists Hz16000, SevenPointFiveMs; reflexivity).
  exists c16k, bells32, 1. split; [exact Hc|]. split; [reflexivity|]. split; [unfold c16k, config_new; cbn; lia|]. split.
  - apply Forall_map. assert (B : Forall (fun v => 0 <= v <= 150391) bells) by (apply Forall_forall; intros v Hv; assert (K : forallb (fun v => (0 <=? v) && (v <=? 150391)) bells = true) by reflexivity; rewrite forallb_forall in K; specialize (K v Hv); lia).
    eapply Forall_impl; [|exact B]. cbv beta. intros v Hv. destruct (fz_val v ltac:(lia)) as [V F]. split; [exact F|]. rewrite V. split; apply IZR_le; lia.
  - intros lm el chk nbits Hn A P r y E. assert (L : len bells32 = ne c16k) by reflexivity. assert (Hb : 0 <= 1 <= fs_ind c16k) by (unfold c16k, config_new; cbn; lia).
    destruct (tns_coefs_ok (f32_ops lm) (f32_eops el) c16k bells32 1 nbits false Hc L Hb) as (rc & Erc & Lrc).
    pose proof (encode_needs_tables (f32_ops lm) (f32_eops el) chk c16k bells32 1 nbits false r y rc Hc L Hb E Erc 6) as T.
    pose proof (encode_num (f32_ops lm) (f32_eops el) chk c16k bells32 1 nbits false r y _ eq_refl E) as NR. cbv [len length] in NR. change (Z.of_nat 1) with 1 in NR. specialize (T ltac:(rewrite NR; lia)). pose proof (bells_one lm el) as B.
    assert (W : tns_weighting (n_ms c16k) nbits = 0) by (change (n_ms c16k) with SevenPointFiveMs; unfold tns_weighting; destruct (Z.ltb_spec nbits 360); [lia|reflexivity]).
    pose proof (coefs_plain (f32_ops lm) (f32_eops el) (f32_eops (plain el)) c16k bells32 1 nbits 1000 false P W eq_refl) as S.
    rewrite <- S, Erc in B. set (v := getz (f32_of_Z 0) rc 6) in B. assert (V : v = f32_of_Z 1) by (apply (bits_eq _ _ 8388608 (-23)); [exact B|vm_compute; reflexivity]).
    change (getz (fz (f32_ops lm) 0) rc 6) with v in T. rewrite V in T. unfold in_tables, coef_index in T. cbn [f32_eops e_asin] in T. rewrite A in T. revert T. match goal with |- context [to_int ?o ?x] => assert (Q : to_int o x = 9) by (vm_compute; reflexivity); rewrite Q end. lia.
Qed.
Print Assumptions C62_tns_always_succeeds_refuted.

(* the exact functions, rounded, are such a library *)
Lemma half_pi_near : (Rabs (PI / 2 * bpow radix2 23 - IZR 13176795) < / 2)%R.
Proof.
  pose proof (PI_2_3_7_ineq 4) as H. unfold tg_alt, PI_2_3_7_tg, Ratan_seq in H. cbn in H. change (bpow radix2 23) with (IZR 8388608). apply Rabs_def1; lra.
Qed.
Example C62_library : asin_near exact_elibrary /\ asin_ends exact_elibrary /\ forall k, 0 <= k < 9 -> lm_powi exact_elibrary (f32_of_Z 1) k = f32_of_Z 1.
Proof.
  destruct (fz_val 1 ltac:(lia)) as [V1 F1]. destruct (fz_val (-1) ltac:(lia)) as [V2 F2]. pose proof half_pi_near as N. assert (B : (1 < PI / 2 < 2)%R) by (pose proof PI2_1; pose proof pi_3142; lra).
  split; [exact (proj1 (proj2 (proj2 (proj1 C61_library))))|]. split; [split|].
  - cbn [exact_elibrary lm_asin]. rewrite F1, V1, Rabs_R1. destruct (Rle_dec 1 1) as [D|D]; [|lra]. rewrite asin_1. apply of_R_at; [|lia|exact N]. rewrite Rabs_pos_eq by lra. change (bpow radix2 (-23 + 23)) with 1%R. change (bpow radix2 (-23 + 24)) with 2%R. lra.
  - cbn [exact_elibrary lm_asin]. rewrite F2, V2. assert (A1 : Rabs (-1) = 1%R) by (rewrite Rabs_left; lra). rewrite A1. destruct (Rle_dec 1 1) as [D|D]; [|lra]. change (-1)%R with (- (1))%R. rewrite asin_opp, asin_1. apply of_R_at; [|lia|].
    + rewrite Rabs_Ropp, Rabs_pos_eq by lra. change (bpow radix2 (-23 + 23)) with 1%R. change (bpow radix2 (-23 + 24)) with 2%R. lra.
    + change (- -23) with 23. replace (- (PI / 2) * bpow radix2 23 - IZR (-13176795))%R with (- (PI / 2 * bpow radix2 23 - IZR 13176795))%R by (change (IZR (-13176795)) with (- IZR 13176795)%R; ring). now rewrite Rabs_Ropp.
  - intros k Hk. cbn [exact_elibrary lm_powi]. rewrite V1. assert (P : powerRZ 1 k = 1%R) by (destruct k as [|p|p]; cbn [powerRZ]; [reflexivity|apply pow1|lia]). rewrite P. rewrite (of_R_at 1 8388608 (-23)); [apply (bits_eq _ _ 8388608 (-23)); vm_compute; reflexivity| |lia|].
    + rewrite Rabs_R1. change (bpow radix2 (-23 + 23)) with 1%R. change (bpow radix2 (-23 + 24)) with 2%R. lra.
    + change (bpow radix2 (- -23)) with (IZR 8388608). rewrite Rmult_1_l, Rminus_diag_eq, Rabs_R0 by reflexivity. lra.
Qed.
