(* From the error of the decoder's spectrum to the error of its samples, on the real numbers, while the post filter is off. *)
From Coq Require Import ZArith List Bool Lia Reals Lra.
From Flocq Require Import Core.
From Verif Require Import Base Config SideInfo ArithDec FrameDec FrameSpec FftFactor FactorProofs Buffers BuffersProofs Loops Scalar Fft DecSignal DecMdct DecLtpf Decoder DecTotal DecState DecRun ParseBase ParseTotal FftSpec RealOps Dft DctSpec MdctSpec LtpfSpec LineSpec DecHistory DecEquiv EncMdct TdacSpec Dct4Inv Tdac MdctFormula MdctStream EncReal.
From Coq Require Import List.
Import ListNotations.
Local Open Scope Z_scope.

(* ---- rounding ---- *)
Lemma trunc_half v : (Rabs (IZR (if Rlt_bool 0 v then Ztrunc (v + / 2) else Ztrunc (v - / 2)) - v) <= / 2)%R.
Proof.
  destruct (Rlt_bool_spec 0 v) as [H|H].
  - rewrite Ztrunc_floor by lra. pose proof (Zfloor_lb (v + / 2)). pose proof (Zfloor_ub (v + / 2)). apply Rabs_le. lra.
  - rewrite Ztrunc_ceil by lra. pose proof (Zceil_ub (v - / 2)). assert (IZR (Zceil (v - / 2)) < v - / 2 + 1)%R.
    { unfold Zceil. rewrite opp_IZR. pose proof (Zfloor_ub (- (v - / 2))). lra. }
    apply Rabs_le. lra.
Qed.
Lemma clamp_nearer r p : i16 p -> Z.abs (Z.max (Z.min (Z.max (-2147483648) (Z.min 2147483647 r)) 32767) (-32768) - p) <= Z.abs (r - p).
Proof. unfold i16. lia. Qed.
Lemma to_i16_near v p e : i16 p -> (Rabs (v - IZR p) <= e)%R -> (Rabs (IZR (to_i16 R_ops v) - IZR p) <= e + / 2)%R.
Proof.
  intros Hp He. unfold to_i16. cbv zeta. rewrite R_half. cbn [R_ops flt fadd fsub fz f_i32]. pose proof (trunc_half v) as T. set (r := if Rlt_bool 0 v then Ztrunc (v + / 2) else Ztrunc (v - / 2)) in T.
  assert (X : (if Rlt_bool 0 v then Z.max (-2147483648) (Z.min 2147483647 (Ztrunc (v + / 2))) else Z.max (-2147483648) (Z.min 2147483647 (Ztrunc (v - / 2)))) = Z.max (-2147483648) (Z.min 2147483647 r)) by (unfold r; now destruct (Rlt_bool 0 v)).
  rewrite X. pose proof (clamp_nearer r p Hp) as C. apply IZR_le in C. rewrite !abs_IZR, !minus_IZR in C. eapply Rle_trans; [exact C|].
  replace (IZR r - IZR p)%R with ((v - IZR p) + (IZR r - v))%R by ring. eapply Rle_trans; [apply Rabs_triang|]. lra.
Qed.

(* ---- the sender's side, written down from the samples alone ---- *)
(* the samples in order, silence before the first *)
Definition signal (frames : list (list Z)) (j : Z) : Z := if j <? 0 then 0 else getz 0 (concat frames) j.
(* the 2 nf samples under the window of frame n *)
Definition block (c : config) (frames : list (list Z)) (n m : Z) : Z := signal frames (n * nf c + m - (nf c - zlead c)).
Definition mdct_of (c : config) (w : list (Z * Z)) (frames : list (list Z)) (n k : Z) : R := mdct_formula (nf c) (win w) (fun m => IZR (block c frames n m)) k.
(* the samples, later by the delay of the pair of transforms *)
Definition late (c : config) (frames : list (list Z)) (j : Z) : Z := signal frames (j - (nf c - 2 * zlead c)).

Local Open Scope R_scope.
(* how far a spectrum of ne lines, zero above, is from the one of frame n *)
Definition spectrum_distance (c : config) (w : list (Z * Z)) (frames : list (list Z)) (n : Z) (lines : list R) : R :=
  rsum (Z.to_nat (nf c)) (fun k => Rabs ((if (k <? ne c)%Z then getz 0 lines k else 0) - mdct_of c w frames n k)).

Section Pcm.
Variable c : config.
Variable w : list (Z * Z).
Hypothesis L : legal_config c.
Hypothesis Ew : mdct_window c = Ok w.
Variable frames : list (list Z).

Lemma alias_win h T U n : nf c = (2 * h)%Z -> (forall j, IZR (T j) * win w j = IZR (U j) * win w j) -> alias c w T n = alias c w U n.
Proof. intros Hh E. unfold alias. destruct (n <? nf c)%Z; now rewrite !E. Qed.
Lemma block_next n j : (0 <= j < 2 * nf c)%Z -> IZR (block c frames n j) * win w j = IZR (next_time (nf c) (zlead c) (block c frames (n - 1)) (fun i => signal frames (n * nf c + i)) j) * win w j.
Proof.
  intros Hj. destruct (config_geom c L) as (G1 & G2 & G3 & _). unfold next_time. destruct (Z.ltb_spec j (nf c - zlead c)); [unfold block; do 3 f_equal; lia|].
  destruct (Z.ltb_spec j (2 * nf c - zlead c)); [unfold block; do 3 f_equal; lia|]. rewrite (win_zero c w L Ew j) by lia. ring.
Qed.
(* overlap of two frames *)
Lemma block_tdac n i : (0 <= i < nf c)%Z ->
  (if (i <? nf c - zlead c)%Z then alias c w (block c frames (n - 1)) (nf c + zlead c + i) else 0) + alias c w (block c frames n) (zlead c + i) = IZR (late c frames (n * nf c + i)) * compl c w ((zlead c + i) mod nf c).
Proof.
  intros Hi. destruct (config_geom c L) as (G1 & G2 & G3 & _). set (inp := fun i => signal frames (n * nf c + i)).
  pose proof (tdac c w L Ew (block c frames (n - 1)) inp i Hi) as C. cbv zeta in C.
  assert (Gz : (2 * zlead c <= nf c)%Z) by (clear - L; destruct L as (f' & d & ->); destruct f', d; vm_compute; intuition discriminate).
  assert (V : next_time (nf c) (zlead c) (block c frames (n - 1)) inp (zlead c + i) = late c frames (n * nf c + i)).
  { unfold next_time. destruct (Z.ltb_spec (zlead c + i) (nf c - zlead c)); [unfold block, late; f_equal; lia|]. destruct (Z.ltb_spec (zlead c + i) (2 * nf c - zlead c)); [|lia]. unfold inp, late. f_equal. lia. }
  rewrite V in C. rewrite <- C. f_equal. unfold alias.
  assert (B : forall j, (0 <= j < 2 * nf c)%Z -> IZR (block c frames n j) * win w j = IZR (next_time (nf c) (zlead c) (block c frames (n - 1)) inp j) * win w j) by (intros; now apply block_next).
  destruct (Z.ltb_spec (zlead c + i) (nf c)); rewrite !B by lia; reflexivity.
Qed.
Lemma before_silent i : (0 <= i < nf c - zlead c)%Z -> alias c w (block c frames (-1)) (nf c + zlead c + i) = 0.
Proof.
  intros Hi. destruct (config_geom c L) as (G1 & G2 & G3 & _).
  assert (B : forall j, (0 <= j < 2 * nf c)%Z -> IZR (block c frames (-1) j) * win w j = 0).
  { intros j Hj. destruct (Z_lt_le_dec j (2 * nf c - zlead c)) as [H|H]; [|rewrite (win_zero c w L Ew j) by lia; ring]. unfold block, signal. destruct (Z.ltb_spec (-1 * nf c + j - (nf c - zlead c)) 0); [ring|lia]. }
  unfold alias. destruct (Z.ltb_spec (nf c + zlead c + i) (nf c)); rewrite !B by lia; ring.
Qed.

(* the overlap memory against the second half of frame n - 1 *)
Definition tail_near (n : Z) (m : mdct R) (D : R) : Prop := forall i, (0 <= i < nf c - zlead c)%Z -> Rabs (getz 0 (m_ola m) i - alias c w (block c frames (n - 1)) (nf c + zlead c + i)) <= slack c * D.
Theorem synthesis_step n m lines freq D : mdct_ok c m -> all_zero (m_zeros m) -> len lines = ne c -> len freq = nf c -> 0 <= D -> tail_near n m D ->
  exists y m', mdct_run R_ops c m lines freq = Ok (y, m') /\ mdct_ok c m' /\ all_zero (m_zeros m') /\ len y = nf c /\ tail_near (n + 1) m' (spectrum_distance c w frames n lines) /\
    forall i, (0 <= i < nf c)%Z -> let p := IZR (late c frames (n * nf c + i)) in Rabs (getz 0 y i - p) <= 4 / IZR (10 ^ 14) * Rabs p + slack c * (D + spectrum_distance c w frames n lines).
Proof.
  intros M Z0 Ll Lf D0 Tn. destruct (config_geom c L) as (G1 & G2 & G3 & G4 & _). destruct (dct_factors_ok c L) as (fl & Ef & Ch & Sm & Ne).
  set (h := (nf c / 2)%Z) in *. assert (Hh : nf c = (2 * h)%Z) by (unfold h; Z.div_mod_to_equations; lia).
  destruct (mdct_run_spec R_ops c m lines freq h fl w L M ltac:(lia) Lf Hh Ef Ch Sm Ne Ew) as (y & m' & E & Ly & Mm & Zm & Ty & To). exists y, m'. split; [exact E|]. split; [exact Mm|]. split; [rewrite Zm; exact Z0|]. split; [exact Ly|].
  set (T := block c frames n). set (S := spectrum_distance c w frames n lines).
  assert (Dx : Tdac.dist c (padded R_ops (ne c) lines (m_zeros m)) (coef c w h T) = S).
  { unfold Tdac.dist, S, spectrum_distance. apply rsum_ext. intros k Hk. unfold padded. change (getz (fz R_ops 0%Z)) with (getz 0). rewrite (Z0 (k - ne c)%Z). unfold mdct_of. now rewrite (coef_is_mdct c w h T k L Hh). }
  assert (Near : forall j, (0 <= j < 2 * nf c)%Z -> Rabs (tda_win R_ops h fl (getz (0, 0)%Z w) (padded R_ops (ne c) lines (m_zeros m)) j - alias c w T j) <= slack c * S).
  { intros j Hj. rewrite <- (synth_full c w L h fl Hh Ch Sm Ne T j Hj). rewrite <- Dx. apply (synth_near c w L Ew h fl Hh Ch Sm Ne). exact Hj. }
  split.
  { intros i Hi. change (getz 0 (m_ola m') i) with (getz (fz R_ops 0%Z) (m_ola m') i). rewrite To by exact Hi. replace (n + 1 - 1)%Z with n by lia. apply Near. lia. }
  intros i Hi p. change (getz 0 y i) with (getz (fz R_ops 0%Z) y i). rewrite Ty by exact Hi. cbn [R_ops fadd]. change (getz (fz R_ops 0%Z)) with (getz 0).
  set (v := (if (i <? nf c - zlead c)%Z then getz 0 (m_ola m) i else _) + _) || match goal with |- Rabs (?a - p) <= _ => set (v := a) end.
  set (k := compl c w ((zlead c + i) mod nf c)).
  assert (V : Rabs (v - p * k) <= slack c * (D + S)).
  { pose proof (block_tdac n i Hi) as C. fold p k in C. rewrite <- C. pose proof (Near (zlead c + i)%Z ltac:(lia)) as N1. rewrite Rmult_plus_distr_l. pose proof (slack_pos c L) as Sp. unfold v. destruct (Z.ltb_spec i (nf c - zlead c)).
    - specialize (Tn i ltac:(lia)). eapply Rle_trans; [|apply Rplus_le_compat; [exact Tn|exact N1]].
      match goal with |- Rabs ?a <= Rabs ?b + Rabs ?d => replace a with (b + d) by (unfold T; ring) end. apply Rabs_triang.
    - assert (0 <= slack c * D) by (apply Rmult_le_pos; lra). rewrite Rplus_0_l. fold T. lra. }
  pose proof (compl_near c w L Ew ((zlead c + i) mod nf c) ltac:(apply Z.mod_pos_bound; lia)) as Cn. fold k in Cn.
  replace (v - p) with ((k - 1) * p + (v - p * k)) by ring. eapply Rle_trans; [apply Rabs_triang|]. apply Rplus_le_compat; [|exact V].
  rewrite Rabs_mult. apply Rmult_le_compat_r; [apply Rabs_pos|exact Cn].
Qed.
Lemma distance_pos n lines : 0 <= spectrum_distance c w frames n lines.
Proof. unfold spectrum_distance. induction (Z.to_nat (nf c)) as [|k IH]; cbn [rsum]; [lra|]. apply Rplus_le_le_0_compat; [exact IH|apply Rabs_pos]. Qed.
End Pcm.

(* ---- one call of the decoder while the post filter is off ---- *)
Lemma plain_call (t : target) c (ch : channel R) buf out : legal_config c -> channel_ok c ch -> bytes buf -> (ch_index ch < t_umax t)%Z -> t_active (ch_ltpf ch) = false ->
  plain_frame t c buf \/ (exists e, read_frame (t_chk t) c buf = Err e) ->
  exists ch' freq, decode_channel R_ops t c ch 16 buf out = Ok (None, ch', scale_and_round R_ops freq out) /\ channel_ok c ch' /\ ch_index ch' = (ch_index ch + 1)%Z /\ t_active (ch_ltpf ch') = false /\
    len (ch_lines ch') = ne c /\ mdct_run R_ops c (ch_mdct ch) (ch_lines ch') (ch_freq ch) = Ok (freq, ch_mdct ch').
Proof.
  intros L K Hb Hi Hs HP.
  assert (NP : read_frame (t_chk t) c buf <> Panic) by (intros X; destruct HP as [HP|(e & HP)]; [unfold plain_frame in HP; now rewrite X in HP|congruence]).
  destruct (decode_channel_ok R_ops t c ch buf out L K Hb NP Hi) as ([[r ch'] out'] & E & -> & K' & I' & Lo & PE). pose proof K as [K1 K2 K3 K4 K5 K6].
  destruct (decode_spectrum_ok R_ops t c ch buf L K Hb NP ltac:(lia)) as ([[p lines] info] & ES & D1 & D2 & D3 & D4 & D5).
  assert (HA : l_active info = false).
  { unfold plain_frame in HP. unfold decode_spectrum in ES. destruct (read_frame (t_chk t) c buf) as [fr|e|]; [| |congruence].
    - destruct (decode_lines R_ops t c fr (ch_lines ch)) as [l| |]; cbn [bind] in ES; try discriminate ES. destruct (plc_save R_ops (ch_plc ch) l); cbn [bind] in ES; try discriminate ES. injection ES as _ _ <-. destruct HP as [HP|(e & HP)]; [exact HP|discriminate HP].
    - destruct (plc_load R_ops t (ch_plc ch) (ch_lines ch)) as [[p0 l0]| |]; cbn [bind] in ES; try discriminate ES. injection ES as _ _ <-. reflexivity. }
  pose proof E as E0. unfold decode_channel in E. cbn [Z.eqb Pos.eqb negb] in E. destruct (uincr t (ch_index ch)) as [ix| |]; cbn [bind] in E; try discriminate E. rewrite ES in E. cbn [bind] in E.
  destruct (mdct_run_ok R_ops c (ch_mdct ch) lines (ch_freq ch) L K5 D1 K2) as ([fr m] & EM & M1 & M2). rewrite EM in E. cbn [bind] in E.
  destruct (ltpf_transparent R_ops c (ch_ltpf ch) info (len buf * 8) fr L K6 D4 M1 HA Hs) as (s' & EL & AS). rewrite EL in E. cbn [bind] in E.
  apply Ok_inj in E. assert (E2 : scale_and_round R_ops fr out = out') by congruence. assert (E1 : exists c', c' = ch' /\ ch_ltpf c' = s' /\ ch_lines c' = lines /\ ch_mdct c' = m) by (eexists; split; [exact (f_equal (fun q => snd (fst q)) E)|cbn; auto]).
  destruct E1 as (c' & -> & A1 & A2 & A3). exists ch', fr. split; [now rewrite E2|]. split; [exact K'|]. split; [exact I'|]. rewrite A1, A2, A3. auto.
Qed.

Record rested (c : config) (ch : channel R) : Prop := mkRested {
  re_ok : channel_ok c ch;
  re_zeros : all_zero (m_zeros (ch_mdct ch));
  re_ola : all_zero (m_ola (ch_mdct ch));
  re_off : t_active (ch_ltpf ch) = false
}.
Definition quiet_call (t : target) (c : config) (k : call) : Prop :=
  k_bits k = 16%Z /\ bytes (k_buf k) /\ len (k_out k) = nf c /\ (plain_frame t c (k_buf k) \/ exists e, read_frame (t_chk t) c (k_buf k) = Err e).
(* any number of calls *)
Theorem stream_pcm t c w frames : legal_config c -> mdct_window c = Ok w -> (forall j, i16 (signal frames j)) ->
  forall cs ch n0 D, channel_ok c ch -> all_zero (m_zeros (ch_mdct ch)) -> t_active (ch_ltpf ch) = false -> tail_near c w frames n0 (ch_mdct ch) D -> 0 <= D -> (ch_index ch + len cs <= t_umax t)%Z -> Forall (quiet_call t c) cs ->
  exists rs ch' ss, run_channel R_ops t c ch cs = Ok (rs, ch') /\ states R_ops t c ch cs = Ok ss /\ length rs = length cs /\ length ss = length cs /\
    forall n, (n < length cs)%nat -> len (snd (nth n rs (None, []))) = nf c /\ fst (nth n rs (None, [])) = None /\ forall i, (0 <= i < nf c)%Z ->
      let p := IZR (late c frames ((n0 + Z.of_nat n) * nf c + i)) in let dist k := spectrum_distance c w frames (n0 + Z.of_nat k) (nth k (map ch_lines ss) []) in
      Rabs (IZR (getz 0%Z (snd (nth n rs (None, []))) i) - p) <= / 2 + 4 / IZR (10 ^ 14) * Rabs p + slack c * (match n with O => D | S m => dist m end + dist n).
Proof.
  intros L Ew HS. induction cs as [|k cs IH]; intros ch n0 D K Z0 A0 Tn D0 Hi Hq; [exists [], ch, []; repeat split; intros; cbn in *; lia|].
  pose proof (Forall_inv Hq) as (Q1 & Q2 & Q3 & Q4). apply Forall_inv_tail in Hq. assert (Li : len (k :: cs) = (1 + len cs)%Z) by (unfold len; cbn [length]; lia). pose proof (len_nonneg cs).
  destruct (plain_call t c ch (k_buf k) (k_out k) L K Q2 ltac:(lia) A0 Q4) as (ch1 & fr & E1 & K1 & I1 & A1 & L1 & M1). pose proof K as [_ K2 _ _ K5 _].
  destruct (synthesis_step c w L Ew frames n0 (ch_mdct ch) (ch_lines ch1) (ch_freq ch) D K5 Z0 L1 K2 D0 Tn) as (y & m' & E2 & M2 & Z1 & Ly & T1 & Hy). rewrite M1 in E2. apply Ok_inj in E2. assert (y = fr /\ m' = ch_mdct ch1) as [-> ->] by (split; congruence). clear E2.
  destruct (IH ch1 (n0 + 1)%Z _ K1 Z1 A1 T1 (distance_pos c w frames n0 (ch_lines ch1)) ltac:(lia) Hq) as (rs & ch' & ss & R1 & R2 & R3 & R4 & R5).
  exists ((None, scale_and_round R_ops fr (k_out k)) :: rs), ch', (ch1 :: ss). cbn [run_channel states]. rewrite Q1, E1. cbn [bind]. rewrite R1, R2. cbn [bind]. split; [reflexivity|]. split; [reflexivity|]. cbn [length]. split; [lia|]. split; [lia|].
  intros n Hn. destruct n as [|n].
  - cbn [nth snd fst map]. split; [unfold scale_and_round; rewrite len_zipmod; exact Q3|]. split; [reflexivity|]. intros i Hi'. cbv zeta. change (Z.of_nat 0) with 0%Z. rewrite Z.add_0_r. specialize (Hy i Hi'). cbv zeta in Hy.
    unfold scale_and_round. rewrite (zipmod_get (fun _ v => to_i16 R_ops v) 0%Z 0) by lia. apply to_i16_near in Hy; [|apply HS]. lra.
  - cbn [nth map]. specialize (R5 n ltac:(lia)). destruct R5 as (P1 & P2 & P3). split; [exact P1|]. split; [exact P2|]. intros i Hi'. specialize (P3 i Hi'). cbv zeta in *.
    replace (n0 + Z.of_nat (S n))%Z with (n0 + 1 + Z.of_nat n)%Z by lia. destruct n as [|n]; [|replace (n0 + Z.of_nat (S n))%Z with (n0 + 1 + Z.of_nat n)%Z by lia; exact P3].
    change (Z.of_nat 0) with 0%Z in *. rewrite !Z.add_0_r in *. exact P3.
Qed.
