(* The encoder in exact arithmetic: sixteen bit audio never makes it fail as long as the noise shaping residual has something in set B and the autocorrelations
   of the temporal noise shaping are positive; silence is such audio. *)
From Coq Require Import ZArith Lia List Bool Reals Lra.
From Coquelicot Require Import Coquelicot.
From Flocq Require Import Core.
From Verif Require Import Base Config FrameSpec FftFactor FactorProofs Buffers Loops ParseBase Scalar EncScalar RealOps EncF32 DecSignal DecMdct DecTotal DecState Dft DctSpec MdctSpec EncMdct TdacSpec Dct4Inv Tdac MdctFormula.
From Verif Require Import SideInfo SnsIndex Mpvq TablesSnsF SnsShape EncSns EncSnsOk EncShape ScfBound SnsProofs EncTns EncPayload TnsOk TnsInverse EncDetect DetectSpec Decoder Encoder EncOk EncRun Lpc TnsCorr PropertiesShape PropertiesLpc ChainError EncKeep EncReal.
From Coq Require Import List.
Import ListNotations.
Local Open Scope Z_scope.

Theorem C44_encoder_total_real_partial : forall t num d f ni ns nx (i : list Z) (s : list R) (x : list (R * R)) cs,
  f <> Hz8000 -> 0 <= num -> enc_lens num d f = Ok (ni, ns, nx) -> ni <= len i -> ns <= len s -> nx <= len x -> t_chk t = false \/ len cs <= t_umax t -> Forall i16 i ->
  exists en, encoder_new R_ops num d f i s x = Ok en /\ e_config en = config_new f d /\ len (e_channels en) = num /\
    (Forall (call_ok en) cs -> Forall (fun k => Forall i16 (g_x k)) cs -> calls_alive t en cs ->
     exists rs en', run_ecalls R_ops R_eops t en cs = Ok (rs, en') /\ Forall2 (fun k buf => len buf = len (g_buf k)) cs rs).
Proof.
  intros t num d f ni ns nx i s x cs Hf Hn HL Hi Hs Hx Hb HQ.
  destruct (encoder_new_ok R_ops t num d f ni ns nx i s x (len cs) Hf Hn HL Hi Hs Hx Hb) as (en & E & K & Ec & El). exists en. split; [exact E|]. split; [exact Ec|]. split; [exact El|].
  intros HC HX HA. pose proof (new_buffers R_ops i16 num d f i s x en E HQ) as NB.
  assert (HB : Forall (buffers i16 (e_config en)) (e_channels en)).
  { pose proof K as [_ KC]. rewrite Forall_forall in *. intros ch Hch. specialize (NB ch Hch). destruct (KC ch Hch) as [[[W1 _ _] _ _ _ _ _ _] _]. intros j Hj. rewrite Forall_forall in NB. apply NB. unfold getz. apply nth_In. unfold len in W1. lia. }
  destruct (run_ecalls_ok R_ops R_eops t R_elaws cs en K HC (alive_calls t cs en K HC HX HB HA)) as ([rs en'] & R & _ & _ & _ & R2). exists rs, en'. auto.
Qed.
Print Assumptions C44_encoder_total_real_partial.

(* ---- silence ---- *)
Lemma all_zero_get l n : Forall (fun v => v = 0%R) l -> getz 0%R l n = 0%R.
Proof. intros H. unfold getz. destruct (nth_in_or_default (Z.to_nat n) l 0%R) as [Hi| ->]; [|reflexivity]. rewrite Forall_forall in H. now apply H. Qed.
Lemma quiet_factors c eb attack : legal_config c -> nb c = 64 -> len eb = 64 -> Forall (fun v => v = 0%R) eb ->
  exists scf, sns_scale_factors R_ops R_eops c eb attack = Ok scf /\ len scf = 16 /\ forall n, getz 0%R scf n = 0%R.
Proof.
  intros Lc Nb Le He. unfold sns_scale_factors. assert (T : exists t, idx G_TILT (fs_ind c) = Ok t) by (destruct Lc as (f & d & ->); destruct f, d; eexists; reflexivity). destruct T as (t & ->). cbn [bind].
  unfold sns_pad. rewrite Nb. unfold usub. change (64 <? 64) with false. cbn [bind]. change (0 <? 64 - 64) with false. cbv iota. rewrite len_repeat.
  destruct (blit_ok (repeat (fz R_ops 0) 64) 0 64 eb ltac:(lia) ltac:(rewrite len_repeat; lia) ltac:(lia)) as (p & Ep & Lp & Tp). change (Z.of_nat 64) with 64. rewrite Ep. cbn [bind]. rewrite len_repeat in Lp.
  assert (Np : forall n, 0 <= n -> getz 0%R p n = 0%R).
  { intros n Hn. rewrite (Tp 0%R n Hn). destruct (_ && _); [now apply all_zero_get|]. unfold getz. apply nth_repeat. }
  rewrite (smooth_at R_ops p) by lia. cbn [bind]. cbv zeta.
  set (s := map (fun '(b, v) => fmul R_ops v (e_pow10 R_eops (fmul R_ops (fz R_ops b) (fdiv R_ops (fz R_ops t) (fz R_ops 630))))) _).
  assert (Ls : len s = 64) by reflexivity.
  assert (Ns : Forall (fun v => v = 0%R) s).
  { apply Forall_forall. intros v Hv. unfold s in Hv. apply in_map_iff in Hv. destruct Hv as ([b u] & <- & Hu). apply in_combine_r in Hu. apply in_map_iff in Hu. destruct Hu as (n & <- & Hn). apply zrange_In in Hn.
    cbn [R_ops R_eops fmul e_pow10]. assert (Z0 : smoothed R_ops p n = 0%R); [|rewrite Z0; ring].
    unfold smoothed. change (fz R_ops 0) with 0%R. cbn [R_ops fadd fmul flit]. destruct (Z.eqb_spec n 0); [rewrite !Np by lia; ring|]. destruct (Z.eqb_spec n 63); [rewrite !Np by lia; ring|]. rewrite !Np by lia. ring. }
  match goal with |- context [map ?g s] => set (h := g) end. set (lo := h 0%R).
  assert (W : within lo lo (map h s)) by (apply within_map; intros v Hv; rewrite Forall_forall in Ns; rewrite (Ns v Hv); unfold lo; lra).
  assert (Ll : len (map h s) = 64) by now rewrite len_map. rewrite group_at by exact Ll. cbn [bind].
  assert (Wg : within lo lo (map (grouped R_ops (map h s)) (SnsIndex.zrange 0 16))) by (apply within_map; intros n Hn; apply zrange_In in Hn; now apply grouped_within).
  pose proof (mean_within _ _ _ Wg ltac:(rewrite len_map; reflexivity)) as Wm. replace (85 / 100 * (lo - lo))%R with 0%R in Wm by lra.
  destruct (attack_within 0 attack (n_ms c) (sns_mean R_ops (map (grouped R_ops (map h s)) (SnsIndex.zrange 0 16)))) as (scf & E & L & Wa); [unfold sns_mean; rewrite !len_map; reflexivity|exact Wm|].
  exists scf. split; [exact E|]. split; [exact L|]. intros n. apply all_zero_get. eapply Forall_impl; [|exact Wa]. cbv beta. intros v Hv. lra.
Qed.
Lemma Rsum_app (a b : list R) : Rsum (a ++ b) = (Rsum a + Rsum b)%R.
Proof. unfold Rsum. induction a as [|x a IH]; cbn [app fold_right]; [ring|]. rewrite IH. ring. Qed.
(* no pair of code vectors lies in the span of the first ten basis vectors *)
Definition dotZ (a : list (Z * Z)) (from n : Z) : Z := fold_right Z.add 0 (map (fun k => lz (getz (0, 0) a k) * lz (getz (0, 0) (getz [] D (from + k)) n)) (SnsIndex.zrange 0 8)).
Definition pairs_alive : bool := let l := map (fun a => dotZ a 0 10) LFCB in let h := map (fun a => dotZ a 8 10) HFCB in forallb (fun a => forallb (fun b => negb (a + b =? 0)) h) l.
Definition lits_ok : bool := forallb (forallb lit_ok) LFCB && forallb (forallb lit_ok) HFCB && forallb (forallb lit_ok) D.
Lemma pairs_alive_true : pairs_alive = true.
Proof. vm_compute. reflexivity. Qed.
Lemma lits_ok_true : lits_ok = true.
Proof. vm_compute. reflexivity. Qed.
Lemma entry_lz t n k : forallb (forallb lit_ok) t = true -> entry t n k = (IZR (lz (getz (0, 0)%Z (getz [] t n) k)) / IZR (10 ^ 20))%R.
Proof.
  intros H. unfold entry. apply R_lit_lz. unfold getz at 1. destruct (nth_in_or_default (Z.to_nat k) (getz [] t n) (0, 0)) as [Hi| ->]; [|reflexivity].
  unfold getz in *. destruct (nth_in_or_default (Z.to_nat n) t []) as [Hj|Hj]; [|rewrite Hj in Hi; contradiction]. rewrite forallb_forall in H. specialize (H _ Hj). rewrite forallb_forall in H. now apply H.
Qed.
Lemma dotZ_R t n from : (t = LFCB \/ t = HFCB) -> Rsum (map (fun k => (entry t n k * entry D (from + k) 10)%R) (SnsIndex.zrange 0 8)) = (IZR (dotZ (getz [] t n) from 10) / IZR (10 ^ 40))%R.
Proof.
  intros Ht. pose proof lits_ok_true as K. unfold lits_ok in K. apply andb_prop in K. destruct K as [K K3]. apply andb_prop in K. destruct K as [K1 K2]. assert (Kt : forallb (forallb lit_ok) t = true) by (destruct Ht; subst; assumption).
  unfold dotZ. generalize (SnsIndex.zrange 0 8). intros l. assert (P : (IZR (10 ^ 40) = IZR (10 ^ 20) * IZR (10 ^ 20))%R) by (rewrite <- mult_IZR; reflexivity). assert (P0 : (IZR (10 ^ 20) <> 0)%R) by (apply not_0_IZR; discriminate).
  induction l as [|a l IH]; cbn [map Rsum fold_right]; [unfold Rdiv; ring|]. unfold Rsum in *. rewrite IH, (entry_lz t _ _ Kt), (entry_lz D _ _ K3), plus_IZR, mult_IZR, P. field. exact P0.
Qed.
Lemma zero_alive scf : len scf = 16 -> (forall n, getz 0%R scf n = 0%R) -> set_b_alive scf.
Proof.
  intros L HZ lf hf st1 r1 E. assert (P : (0 <= 0 <= IZR (2 ^ 80))%R) by (split; [lra|apply IZR_le; vm_compute; congruence]).
  destruct (stage1_R scf 0 L P) as (lf' & hf' & st1' & r1' & E' & H1 & H2 & _ & L1 & Ts & Tr & _); [intros n; rewrite HZ, Rabs_R0; lra|]. rewrite E in E'. apply Ok_inj in E'. assert (X : lf' = lf /\ hf' = hf /\ st1' = st1 /\ r1' = r1) by (repeat split; congruence). destruct X as (-> & -> & -> & ->). clear E E'.
  exists 10. split; [lia|]. rewrite rotate_R by (assumption || lia).
  assert (Sp : SnsIndex.zrange 0 16 = SnsIndex.zrange 0 8 ++ map (fun k => 8 + k) (SnsIndex.zrange 0 8)) by reflexivity. rewrite Sp, map_app, Rsum_app, map_map.
  rewrite (map_ext_in _ (fun k => - (entry LFCB lf k * entry D (0 + k) 10))%R) by (intros k Hk; apply zrange_In in Hk; rewrite Tr, Ts, HZ by lia; destruct (Z.ltb_spec k 8); [|lia]; replace (0 + k) with k by lia; ring).
  rewrite (map_ext_in (fun k => (getz 0 r1 (8 + k) * entry D (8 + k) 10)%R) (fun k => - (entry HFCB hf k * entry D (8 + k) 10))%R) by (intros k Hk; apply zrange_In in Hk; rewrite Tr, Ts, HZ by lia; destruct (Z.ltb_spec (8 + k) 8); [lia|]; replace (8 + k - 8) with k by lia; ring).
  assert (Neg : forall (g : Z -> R) l, Rsum (map (fun k => - g k)%R l) = (- Rsum (map g l))%R) by (intros g l; induction l as [|a l IH]; cbn [map Rsum fold_right]; [ring|]; unfold Rsum in *; rewrite IH; ring).
  rewrite !Neg, (dotZ_R LFCB lf 0) by auto. rewrite (dotZ_R HFCB hf 8) by auto. intros H.
  assert (S : dotZ (getz [] LFCB lf) 0 10 + dotZ (getz [] HFCB hf) 8 10 = 0).
  { apply eq_IZR. rewrite plus_IZR. set (a := IZR (dotZ _ _ _)) in *. set (b := IZR (dotZ _ _ _)) in *. assert (P0 : (0 < IZR (10 ^ 40))%R) by (apply IZR_lt; reflexivity). apply (Rmult_eq_reg_r (/ IZR (10 ^ 40))); [|apply Rinv_neq_0_compat; lra]. unfold Rdiv in H. lra. }
  pose proof pairs_alive_true as K. unfold pairs_alive in K. rewrite forallb_forall in K. specialize (K (dotZ (getz [] LFCB lf) 0 10)). assert (I1 : In (getz [] LFCB lf) LFCB) by (unfold getz; apply nth_In; change (length LFCB) with 32%nat; lia).
  assert (I2 : In (getz [] HFCB hf) HFCB) by (unfold getz; apply nth_In; change (length HFCB) with 32%nat; lia). specialize (K (in_map (fun a => dotZ a 0 10) _ _ I1)). rewrite forallb_forall in K. specialize (K _ (in_map (fun a => dotZ a 8 10) _ _ I2)). rewrite S in K. discriminate K.
Qed.
Lemma mdct_zero c w T k : (forall n, 0 <= n < 2 * nf c -> T n = 0) -> mdct_formula (nf c) (win w) (fun n => IZR (T n)) k = 0%R.
Proof. intros H. unfold mdct_formula. rewrite rsum_zero; [ring|]. intros n Hn. rewrite H by lia. ring. Qed.
Lemma energies_zero edges lines bands last b : edges_ok edges (len bands) last -> last <= len lines -> (forall j, getz 0%R lines j = 0%R) -> energies R_ops edges lines bands = Ok b -> Forall (fun v => v = 0%R) b.
Proof.
  intros E Hl HZ Eb. pose proof (edges_mono _ _ _ E) as M. destruct E as (L & Z0 & ZL & S). unfold energies in Eb. assert (0 <= len bands) by (unfold len; lia).
  destruct (for_inv (fun n l => len l = len bands /\ forall j, 0 <= j < n -> getz 0%R l j = 0%R) 0 (len bands) (fun b bands => v <- band_energy R_ops edges lines b ;; put bands b v) bands) as (b' & E' & Lb & Hb).
  - lia.
  - split; [reflexivity|]. lia.
  - intros k l Hk [Ll Hp]. unfold band_energy. rewrite (idx_get 0 edges k), (idx_get 0 edges (k + 1)) by lia. cbn [bind]. pose proof (M 0 k ltac:(lia) ltac:(lia)). pose proof (M (k + 1) (len bands) ltac:(lia) ltac:(lia)). specialize (S k Hk).
    unfold usub. destruct (Z.ltb_spec (getz 0 edges (k + 1)) (getz 0 edges k)); [lia|]. cbn [bind].
    destruct (sub_ok lines (getz 0 edges k) (getz 0 edges (k + 1)) ltac:(lia) ltac:(lia)) as (v & Ev & Lv & Tv). rewrite Ev. cbn [bind].
    match goal with |- context [put l k ?u] => set (en := u) end. destruct (put_ok 0%R l k en ltac:(lia)) as (l' & Ep & Ll' & Tl). exists l'. split; [exact Ep|]. split; [lia|].
    intros j Hj. rewrite Tl by lia. destruct (Z.eqb_spec j k); [|apply Hp; lia]. unfold en. cbn [R_ops fadd fmul fdiv fz].
    assert (V : Forall (fun x => x = 0%R) v). { apply Forall_forall. intros x Hx. destruct (In_nth _ _ 0%R Hx) as (m & Hm & <-). assert (T0 : getz 0%R v (Z.of_nat m) = 0%R) by (rewrite Tv by (unfold len in Lv; lia); apply HZ). unfold getz in T0. rewrite Nat2Z.id in T0. exact T0. }
    generalize (IZR (getz 0 edges (k + 1) - getz 0 edges k)). intros w. assert (G : forall l a, Forall (fun x => x = 0%R) l -> fold_left (fun acc x => (acc + x * x / w)%R) l a = a) by (intros l0; induction l0 as [|x0 l0 IH]; intros a Hl0; [reflexivity|]; inversion Hl0; subst; cbn [fold_left]; rewrite IH by assumption; unfold Rdiv; ring).
    now rewrite G.
  - rewrite E' in Eb. apply Ok_inj in Eb. subst b'. apply Forall_forall. intros v Hv. destruct (In_nth _ _ 0%R Hv) as (n & Hn & <-).
    specialize (Hb (Z.of_nat n)). unfold getz in Hb. rewrite Nat2Z.id in Hb. apply Hb. unfold len in *. lia.
Qed.
Lemma zero_raw x ab : (forall j, getz 0%R x j = 0%R) -> raw x ab 0 = 0%R.
Proof. intros H. unfold raw. rewrite (sm_ext _ _ (fun _ => 0%R)); [apply sm_zero|]. intros n Hn. assert (Z0 : seg x ab n = 0%R) by (unfold seg; destruct (_ <? _); [apply H|reflexivity]). rewrite Z0. ring. Qed.
Lemma zeros_get (l : list R) : (forall j, 0 <= j < len l -> getz 0%R l j = 0%R) -> forall j, getz 0%R l j = 0%R.
Proof.
  intros H j. destruct (Z_lt_le_dec j (len l)) as [A|A]; [|unfold getz; apply nth_overflow; unfold len in A; lia]. destruct (Z_lt_le_dec j 0) as [B|B]; [|apply H; lia].
  unfold getz. replace (Z.to_nat j) with (Z.to_nat 0) by lia. destruct (Z_lt_le_dec 0 (len l)) as [P|P]; [apply (H 0); lia|apply nth_overflow; unfold len in P; lia].
Qed.
Lemma silent_spectrum c ch x nn out bands m : legal_config c -> ech_wf c ch -> len x = nf c -> buffers (fun v => v = 0) c ch -> Forall (fun v => v = 0) x ->
  emdct_run R_ops c (ec_mdct ch) x (ec_out ch) (ec_bands ch) = Ok (nn, out, bands, m) -> len out = nf c /\ len bands = nb c /\ (forall j, getz 0%R out j = 0%R) /\ Forall (fun v => v = 0%R) bands.
Proof.
  intros L W Lx HB HX E1. pose proof W as [W1 W2 W3 W4 W5 W6 W7]. destruct (config_geom c L) as (G1 & G2 & G3 & G4 & G5 & G6 & G7).
  assert (A1 : audio (getz 0 (em_time (ec_mdct ch))) (2 * nf c)) by (intros j Hj; rewrite (HB j Hj); unfold i16; lia).
  assert (A2 : audio (getz 0 x) (nf c)) by (intros j Hj; rewrite Forall_forall in HX; rewrite (HX (getz 0 x j)); [unfold i16; lia|]; unfold getz; apply nth_In; unfold len in Lx; lia).
  pose proof (emdct_keeps R_ops (fun v => v = 0) c _ x _ _ nn out bands m L W1 Lx W6 W5 HB HX E1) as KT.
  destruct (emdct_R c (ec_mdct ch) x (ec_out ch) (ec_bands ch) L W1 Lx W6 W5 A1 A2) as (nn' & out' & bands' & m' & w & E1' & Ew & Lo & Lb & Mm & Nn & _ & _ & Tx & _). rewrite E1 in E1'. apply Ok_inj in E1'.
  assert (X : out' = out /\ bands' = bands /\ m' = m) by (repeat split; congruence). destruct X as (-> & -> & ->). clear E1'.
  assert (O0 : forall j, getz 0%R out j = 0%R) by (apply zeros_get; intros j Hj; rewrite Tx by lia; apply mdct_zero; exact KT).
  split; [exact Lo|]. split; [lia|]. split; [exact O0|].
  clear Tx. unfold emdct_run in E1. rewrite Lx, W6, W5, !Z.eqb_refl in E1. cbn [assert bind] in E1. destruct (update_time _ _ _) as [t| |]; cbn [bind] in E1; try discriminate E1.
  destruct (apply_mdct _ _ _ _) as [[o1 s1]| |]; cbn [bind] in E1; try discriminate E1. pose proof L as (f & d & Ec). destruct (band_table_ok f d) as (edges & E4 & B). rewrite <- Ec in *. rewrite E4 in E1. cbn [bind] in E1.
  destruct (energies R_ops edges o1 (ec_bands ch)) as [bs| |] eqn:E5; cbn [bind] in E1; try discriminate E1. destruct (near_nyquist _ _ _) as [n1| |]; cbn [bind] in E1; try discriminate E1. apply Ok_inj in E1. assert (H : o1 = out /\ bs = bands) by (split; congruence). destruct H; subst o1 bs.
  rewrite <- W5 in B. exact (energies_zero edges out (ec_bands ch) _ bands B ltac:(lia) O0 E5).
Qed.
Lemma silent_shaped c out bands a s l1 : legal_config c -> nb c = 64 -> len out = nf c -> len bands = nb c -> (forall j, getz 0%R out j = 0%R) -> Forall (fun v => v = 0%R) bands ->
  sns_encode R_ops R_eops c (firstn (Z.to_nat (ne c)) out) bands a = Ok (s, l1) -> len l1 = ne c /\ forall j, getz 0%R l1 j = 0%R.
Proof.
  intros L Nb Lo Lb O0 B0 E4. destruct (config_geom c L) as (G1 & G2 & G3 & G4 & G5 & G6 & G7). assert (Le : len bands = 64) by lia. destruct (quiet_factors c bands a L Nb Le B0) as (scf & Es & Ls & S0). pose proof (zero_alive scf Ls S0) as A.
  assert (Nn : Forall (fun v => 0 <= v)%R bands) by (eapply Forall_impl; [|exact B0]; cbv beta; intros v ->; lra).
  set (lines := firstn (Z.to_nat (ne c)) out) in *. assert (Ll : len lines = ne c) by (unfold lines, len in *; rewrite firstn_length; lia).
  assert (Gl : forall j, 0 <= j < ne c -> (Rabs (getz 0 lines j) <= 0)%R).
  { intros j Hj. replace (getz 0%R lines j) with (getz 0%R out j); [rewrite O0, Rabs_R0; lra|]. unfold lines, getz. rewrite <- (firstn_skipn (Z.to_nat (ne c)) out) at 1. rewrite app_nth1; [reflexivity|]. rewrite firstn_length. unfold len in Lo. lia. }
  destruct (shaped_small c lines bands a scf s l1 0 L Nb Ll Le Nn Es A Gl E4) as [L1 B1]. split; [exact L1|].
  apply zeros_get. intros j Hj. specialize (B1 j ltac:(lia)). rewrite Rmult_0_l in B1. pose proof (Rabs_pos (getz 0%R l1 j)). destruct (Req_dec (getz 0%R l1 j) 0) as [|N0]; [assumption|]. pose proof (Rabs_pos_lt _ N0). lra.
Qed.
Lemma silent_bands c l1 bw : legal_config c -> 0 <= bw <= fs_ind c -> (forall j, getz 0%R l1 j = 0%R) -> forall params p, tns_enc_params (n_ms c) bw = Ok params -> In p params -> exists ab, In ab (snd p) /\ raw l1 ab 0 = 0%R.
Proof.
  intros L Hb Z1 params p EP Hp. destruct (coded_ne c bw L Hb) as [Hb4 _]. assert (NE : snd p <> []) by (unfold tns_enc_params in EP; destruct (n_ms c), (bw_cases bw Hb4) as [->|[->|[->|[->| ->]]]]; cbn in EP; apply Ok_inj in EP; subst params; repeat (destruct Hp as [<-|Hp]; [discriminate|]); contradiction).
  destruct (snd p) as [|ab subs]; [now elim NE|]. exists ab. split; [now left|]. apply zero_raw, Z1.
Qed.
Theorem silent_alive c ch x N : legal_config c -> nb c = 64 -> ech_wf c ch -> len x = nf c -> buffers (fun v => v = 0) c ch -> Forall (fun v => v = 0) x -> frame_alive c ch x N.
Proof.
  intros L Nb W Lx HB HX nn out bands m bw nbw a at' E1 E2 E3. pose proof W as [W1 W2 W3 W4 W5 W6 W7]. destruct (config_geom c L) as (G1 & G2 & G3 & G4 & G5 & G6 & G7).
  destruct (silent_spectrum c ch x nn out bands m L W Lx HB HX E1) as (Lo & Lb & O0 & B0).
  assert (Le : len bands = 64) by lia. destruct (quiet_factors c bands a L Nb Le B0) as (scf & Es & Ls & S0). pose proof (zero_alive scf Ls S0) as A. split.
  - intros scf' Es'. rewrite Es in Es'. apply Ok_inj in Es'. now subst scf'.
  - intros s l1 E4. destruct (silent_shaped c out bands a s l1 L Nb Lo Lb O0 B0 E4) as [L1 Z1]. pose proof (bw_in_range R_ops (ec_bw ch) bands bw nbw c Lb W3 W2 G6 E2) as Hb. apply empty_definite; [exact L|exact L1|exact Hb|]. now apply silent_bands.
Qed.
Theorem silent_calls t : forall cs en, encoder_ok t en (len cs) -> Forall (call_ok en) cs -> Forall (fun k => Forall (fun v => v = 0) (g_x k)) cs -> Forall (buffers (fun v => v = 0) (e_config en)) (e_channels en) -> calls_alive t en cs.
Proof.
  induction cs as [|k cs IH]; intros en HE HC HX HB; cbn [calls_alive]; [exact I|]. inversion HC as [|? ? C1 C2]; subst. inversion HX as [|? ? X1 X2]; subst.
  replace (len (k :: cs)) with (len cs + 1) in HE by (unfold len; cbn [length]; lia).
  assert (A : forall ch, idx (e_channels en) (g_ch k) = Ok ch -> frame_alive (e_config en) ch (g_x k) (len (g_buf k))).
  { intros ch Ech. pose proof HE as [Hc HC']. destruct (not_8k _ Hc) as [L Nb]. destruct (DecRun.Forall_getz _ _ _ _ HC' Ech) as [Kch _]. pose proof (DecRun.Forall_getz _ _ _ _ HB Ech) as Kb. destruct C1 as (Q1 & Q2 & Q3 & Q4). now apply silent_alive. }
  split; [exact A|]. intros en' buf E.
  assert (X16 : Forall i16 (g_x k)) by (eapply Forall_impl; [|exact X1]; cbv beta; intros v ->; unfold i16; lia).
  assert (B16 : Forall (buffers i16 (e_config en)) (e_channels en)) by (eapply Forall_impl; [|exact HB]; intros ch Hch j Hj; rewrite (Hch j Hj); unfold i16; lia).
  pose proof (alive_call t en k (len cs) HE C1 X16 B16 A) as R.
  destruct (call_step R_ops R_eops R_elaws (fun v => v = 0) t en k (len cs) en' buf HE ltac:(unfold len; lia) C1 R HB X1 E) as (HE' & Ec & El & HB'). apply IH; auto.
  eapply Forall_impl; [|exact C2]. intros k'. now apply call_ok_keeps.
Qed.
(* silence, on cleared buffers: the encoder in exact arithmetic never fails, whatever the number of channels and calls *)
Theorem C44_silence : forall t num d f ni ns nx (i : list Z) (s : list R) (x : list (R * R)) cs,
  f <> Hz8000 -> 0 <= num -> enc_lens num d f = Ok (ni, ns, nx) -> ni <= len i -> ns <= len s -> nx <= len x -> t_chk t = false \/ len cs <= t_umax t -> Forall (fun v => v = 0) i ->
  exists en, encoder_new R_ops num d f i s x = Ok en /\ e_config en = config_new f d /\ len (e_channels en) = num /\
    (Forall (call_ok en) cs -> Forall (fun k => Forall (fun v => v = 0) (g_x k)) cs ->
     exists rs en', run_ecalls R_ops R_eops t en cs = Ok (rs, en') /\ Forall2 (fun k buf => len buf = len (g_buf k)) cs rs).
Proof.
  intros t num d f ni ns nx i s x cs Hf Hn HL Hi Hs Hx Hb HQ. assert (Z16 : forall l, Forall (fun v => v = 0) l -> Forall i16 l) by (intros l Hl; eapply Forall_impl; [|exact Hl]; cbv beta; intros v ->; unfold i16; lia).
  destruct (C44_encoder_total_real_partial t num d f ni ns nx i s x cs Hf Hn HL Hi Hs Hx Hb (Z16 i HQ)) as (en & E & Ec & El & R). exists en. split; [exact E|]. split; [exact Ec|]. split; [exact El|]. intros HC HX.
  apply R; [exact HC|eapply Forall_impl; [|exact HX]; intros k; apply Z16|].
  destruct (encoder_new_ok R_ops t num d f ni ns nx i s x (len cs) Hf Hn HL Hi Hs Hx Hb) as (en' & E' & K & _). rewrite E in E'. apply Ok_inj in E'. subst en'. apply silent_calls; auto.
  pose proof (new_buffers R_ops (fun v => v = 0) num d f i s x en E HQ) as NB. pose proof K as [_ KC]. rewrite Forall_forall in *. intros ch Hch. specialize (NB ch Hch). destruct (KC ch Hch) as [[[W1 _ _] _ _ _ _ _ _] _]. intros j Hj. rewrite Forall_forall in NB. apply NB. unfold getz. apply nth_In. unfold len in W1. lia.
Qed.
Print Assumptions C44_silence.
(* two frames on the two channels of a 48 kHz encoder; the hypotheses of both theorems hold *)
Example C44_silence_case :
  let cs := [mkEcall 0 (repeat 0 480) (repeat 0 100); mkEcall 1 (repeat 0 480) (repeat 0 40)] in let t := mkTarget true 4294967295 in
  exists en rs en', encoder_new R_ops 2 TenMs Hz48000 (repeat 0 (Z.to_nat 3800)) (repeat 0%R (Z.to_nat 2212)) (repeat (0%R, 0%R) (Z.to_nat 1920)) = Ok en /\
    Forall (call_ok en) cs /\ Forall (fun k => Forall i16 (g_x k)) cs /\ calls_alive t en cs /\ run_ecalls R_ops R_eops t en cs = Ok (rs, en').
Proof.
  intros cs t. assert (HL : enc_lens 2 TenMs Hz48000 = Ok (3800, 2212, 1920)) by reflexivity.
  assert (Z0 : forall n, Forall (fun v => v = 0) (repeat 0 n)) by (intros n; apply Forall_forall; intros v Hv; now apply repeat_spec in Hv).
  assert (C0 : Forall (fun k => Forall (fun v => v = 0) (g_x k)) cs) by (unfold cs; repeat constructor; cbn [g_x]; apply Z0).
  assert (Z16 : forall l, Forall (fun v => v = 0) l -> Forall i16 l) by (intros l Hl; eapply Forall_impl; [|exact Hl]; cbv beta; intros v ->; unfold i16; lia).
  set (i := repeat 0 (Z.to_nat 3800)). set (s := repeat 0%R (Z.to_nat 2212)). set (x := repeat (0%R, 0%R) (Z.to_nat 1920)).
  assert (Li : 3800 <= len i) by (unfold i; rewrite len_repeat; lia). assert (Ls : 2212 <= len s) by (unfold s; rewrite len_repeat; lia). assert (Lx : 1920 <= len x) by (unfold x; rewrite len_repeat; lia).
  assert (Hb : t_chk t = false \/ len cs <= t_umax t) by (right; vm_compute; discriminate).
  destruct (C44_silence t 2 TenMs Hz48000 3800 2212 1920 i s x cs ltac:(discriminate) ltac:(lia) HL Li Ls Lx Hb (Z0 _)) as (en & E & Ec & El & R).
  assert (HC : Forall (call_ok en) cs).
  { unfold cs. repeat constructor; unfold call_ok; cbn [g_ch g_x g_buf]; rewrite ?El, ?Ec, ?len_repeat; try (vm_compute; intuition congruence); lia. }
  destruct (R HC C0) as (rs & en' & E2 & _). exists en, rs, en'. split; [exact E|]. split; [exact HC|]. split; [eapply Forall_impl; [|exact C0]; intros k; apply Z16|]. split; [|exact E2].
  destruct (encoder_new_ok R_ops t 2 TenMs Hz48000 3800 2212 1920 i s x (len cs) ltac:(discriminate) ltac:(lia) HL Li Ls Lx Hb) as (en1 & E' & K & _). rewrite E in E'. apply Ok_inj in E'. subst en1. apply silent_calls; auto.
  pose proof (new_buffers R_ops (fun v => v = 0) 2 TenMs Hz48000 i s x en E (Z0 _)) as NB. pose proof K as [_ KC]. rewrite Forall_forall in *. intros ch Hch. specialize (NB ch Hch). destruct (KC ch Hch) as [[[W1 _ _] _ _ _ _ _ _] _]. intros j Hj. rewrite Forall_forall in NB. apply NB. unfold getz. apply nth_In. unfold len in W1. lia.
Qed.
