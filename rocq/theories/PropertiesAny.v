(* C44 in binary32, in a build with overflow checks, after any history of successful calls: a call fails exactly when noise shaping chooses shape 0 with nothing in set B or a reflection coefficient is one or minus one. *)
From Coq Require Import ZArith List Bool Lia Reals Lra.
From Coquelicot Require Import Complex.
From Flocq Require Import Core BinarySingleNaN.
From Verif Require Import Base Config DecSignal DecState EncShape FrameSpec Loops Scalar EncScalar F32 F32Lines EncF32 DctErr EncSns EncSnsOk EncTns TnsOk DecTotal DetectSpec QuantSpec EncQuant EncMdct EncDetect Encoder EncOk EncRun EncKeep EncAny TdacSpec Buffers F32Err F32Size SnsSize TnsSize ProjF32 EncSnsSize EncTnsSize EncSize TnsIndex TnsUnstable SnsGrid PropertiesRounding PropertiesEncoder PropertiesFinite PropertiesEncF32 PropertiesTns.
From Coq Require Import List.
Import ListNotations.
Local Open Scope Z_scope.

(* set B of the rotated residual is not empty, or shape 0 is not chosen *)
Definition frame_shaped (lm : libm) (el : elibm) (c : config) (ch : echannel f32) (x : list Z) (nbytes : Z) : Prop :=
  let o := f32_ops lm in let e := f32_eops el in
  forall nn out bands m bw nbw a at' scf lf hf st1 r1,
    emdct_run o c (ec_mdct ch) x (ec_out ch) (ec_bands ch) = Ok (nn, out, bands, m) -> bw_run o (ec_bw ch) bands = Ok (bw, nbw) -> attack_run o c (ec_attack ch) x nbytes = Ok (a, at') ->
    sns_scale_factors o e c bands a = Ok scf -> sns_stage1 o e scf = Ok (lf, hf, st1, r1) -> set_b o e (sns_rotate o r1) \/ ~ shape_0 o e (sns_rotate o r1).
(* no reflection coefficient is exactly one or minus one *)
Definition frame_steady (lm : libm) (el : elibm) (c : config) (ch : echannel f32) (x : list Z) (nbytes : Z) : Prop :=
  let o := f32_ops lm in let e := f32_eops el in
  forall nn out bands m bw nbw a at' s l1 rc,
    emdct_run o c (ec_mdct ch) x (ec_out ch) (ec_bands ch) = Ok (nn, out, bands, m) -> bw_run o (ec_bw ch) bands = Ok (bw, nbw) -> attack_run o c (ec_attack ch) x nbytes = Ok (a, at') ->
    sns_encode o e c (firstn (Z.to_nat (ne c)) out) bands a = Ok (s, l1) -> tns_coefs o e c l1 bw (nbytes * 8) nn = Ok rc -> Forall (fun v => ~ unit v) rc.
Lemma live_iff lm el c ch x N : frame_live lm el c ch x N <-> frame_shaped lm el c ch x N /\ frame_steady lm el c ch x N.
Proof.
  split.
  - intros L. split.
    + unfold frame_shaped. intros nn out bands m bw nbw a at' scf lf hf st1 r1 E1 E2 E3 E4 E5. destruct (L nn out bands m bw nbw a at' E1 E2 E3) as [H _]. exact (H scf lf hf st1 r1 E4 E5).
    + unfold frame_steady. intros nn out bands m bw nbw a at' s l1 rc E1 E2 E3 E4 E5. destruct (L nn out bands m bw nbw a at' E1 E2 E3) as [_ S]. eapply Forall_impl; [|exact (S s l1 rc E4 E5)]. intros v [A B] [C|C]; auto.
  - intros [H S]. unfold frame_live. intros nn out bands m bw nbw a at' E1 E2 E3. split.
    + intros scf lf hf st1 r1 E4 E5. exact (H nn out bands m bw nbw a at' scf lf hf st1 r1 E1 E2 E3 E4 E5).
    + intros s l1 rc E4 E5. eapply Forall_impl; [|exact (S nn out bands m bw nbw a at' s l1 rc E1 E2 E3 E4 E5)]. intros v Hv. split; intros C; apply Hv; [now left|now right].
Qed.
(* the lengths a successful transform returns *)
Lemma emdct_lens {F} (o : ops F) c m0 x out0 bands0 nn out bands m : legal_config c -> emdct_ok c m0 -> len x = nf c -> len out0 = nf c -> len bands0 = nb c -> emdct_run o c m0 x out0 bands0 = Ok (nn, out, bands, m) -> len out = nf c /\ len bands = nb c.
Proof.
  intros L M Lx Lo Lb E. destruct (config_geom c L) as (G1 & G2 & _). destruct (dct_factors_ok c L) as (fl & Ef & Ch & Sm & Nf). destruct (mdct_window_ok c L) as (w & Ew & _).
  assert (H2h : nf c = 2 * (nf c / 2)) by (clear -G2; Z.div_mod_to_equations; lia).
  destruct (TdacSpec.emdct_run_spec o c m0 x out0 bands0 (nf c / 2) fl w L M Lx Lo Lb H2h Ef Ch Sm Nf Ew) as (nn' & out' & bands' & md & E1 & L1 & L2 & _). rewrite E in E1. apply ParseBase.Ok_inj in E1. assert (out = out' /\ bands = bands') as [-> ->] by (split; congruence). auto.
Qed.
Lemma success_steady lm el t c ch x buf r : asin_near el -> asin_ends el -> legal_config c -> ech_wf c ch -> len x = nf c -> encode (f32_ops lm) (f32_eops el) t c ch x buf = Ok r -> frame_steady lm el c ch x (len buf).
Proof.
  intros AN AE L W Lx E. pose proof W as [W1 W2 W3 W4 W5 W6 W7]. unfold frame_steady. intros nn out bands m bw nbw a at' s l1 rc E1 E2 E3 E4 E5. unfold encode in E. apply bind_Ok in E. destruct E as ([p ch'] & EA & _). unfold analyse in EA. apply bind_Ok in EA. destruct EA as (ix & _ & EA). cbv zeta in EA.
  rewrite E1 in EA. cbn [bind] in EA. unfold split_at in EA. destruct (_ || _); [discriminate EA|]. cbn [bind] in EA. rewrite E2 in EA. cbn [bind] in EA. rewrite E3 in EA. cbn [bind] in EA. rewrite E4 in EA. cbn [bind] in EA. apply bind_Ok in EA. destruct EA as ([tr l2] & ET & _).
  assert (Ll : len l1 = ne c) by (unfold tns_encode in ET; destruct (Z.eqb_spec (len l1) (ne c)); [assumption|discriminate ET]).
  destruct (config_geom c L) as (G1 & G2 & G3 & G4 & G5 & G6 & G7). destruct (emdct_lens (f32_ops lm) c (ec_mdct ch) x (ec_out ch) (ec_bands ch) nn out bands m L W1 Lx W6 W5 E1) as [_ Lb].
  pose proof (bw_in_range (f32_ops lm) (ec_bw ch) bands bw nbw c Lb W3 W2 G6 E2) as Hb.
  destruct (C62_tns_fails_exactly lm el (t_chk t) c l1 bw (len buf * 8) nn AN AE L Ll Hb) as (rc' & E6 & _ & I & _). rewrite E5 in E6. apply ParseBase.Ok_inj in E6. subst rc'. apply I. now exists tr, l2.
Qed.
Lemma success_shaped lm el t c ch x buf r : encode (f32_ops lm) (f32_eops el) t c ch x buf = Ok r -> frame_shaped lm el c ch x (len buf).
Proof.
  intros E. unfold frame_shaped. intros nn out bands m bw nbw a at' scf lf hf st1 r1 E1 E2 E3 E4 E5. unfold encode in E. apply bind_Ok in E. destruct E as ([p ch'] & EA & _). unfold analyse in EA. apply bind_Ok in EA. destruct EA as (ix & _ & EA). cbv zeta in EA.
  rewrite E1 in EA. cbn [bind] in EA. unfold split_at in EA. destruct (_ || _); [discriminate EA|]. cbn [bind] in EA. rewrite E2 in EA. cbn [bind] in EA. rewrite E3 in EA. cbn [bind] in EA. apply bind_Ok in EA. destruct EA as ([s l1] & ES & _).
  unfold sns_encode in ES. apply bind_Ok in ES. destruct ES as (u & _ & ES). rewrite E4 in ES. cbn [bind] in ES. apply bind_Ok in ES. destruct ES as ([s' q] & EQ & _).
  destruct (set_b_dec (f32_ops lm) (f32_eops el) (sns_rotate (f32_ops lm) r1)) as [SB|NB]; [now left|]. right. intros S0. destruct (SnsGrid.proj_always lm el (sns_rotate (f32_ops lm) r1) (rotate_len _ r1) (SnsGrid.rotated_grid lm r1 (SnsGrid.residual_grid lm el scf lf hf st1 r1 E5))) as [A1 A2].
  refine (quant_stuck (f32_ops lm) (f32_eops el) scf lf hf st1 r1 (s', q) E5 A1 A2 _ S0 EQ). intros (n & Hn & B). rewrite (NB n Hn) in B. discriminate B.
Qed.
(* With overflow checks only: an empty set B makes the product of 532 overflow, which the model takes for a panic (SnsIndex.joint_index). Without the checks the code goes on with a wrapped index (C64), which the model of the whole encoder does not follow. *)
Theorem C44_call_succeeds_exactly_f32 :
  forall (lm : libm) (el : elibm) t num d f ni ns nx (i : list Z) (s : list f32) (x : list (f32 * f32)) cs k,
    encoder_library lm el -> asin_ends el -> twiddles_near lm (nf (config_new f d) / 2) ->
    f <> Hz8000 -> 0 <= num -> enc_lens num d f = Ok (ni, ns, nx) -> ni <= len i -> ns <= len s -> nx <= len x -> t_chk t = true -> len cs + 1 <= t_umax t -> Forall i16 i ->
  exists en, encoder_new (f32_ops lm) num d f i s x = Ok en /\
    (Forall (call_ok en) (cs ++ [k]) -> Forall (fun k => Forall i16 (g_x k)) (cs ++ [k]) ->
     forall rs en1, run_ecalls (f32_ops lm) (f32_eops el) t en cs = Ok (rs, en1) ->
     exists ch, idx (e_channels en1) (g_ch k) = Ok ch /\
       ((exists en2 buf, encode_call (f32_ops lm) (f32_eops el) t en1 (g_ch k) (g_x k) (g_buf k) = Ok (en2, buf)) <-> frame_live lm el (config_new f d) ch (g_x k) (len (g_buf k)))).
Proof.
  intros lm el t num d f ni ns nx i s x cs k LB AE TW Hf Hn HL Hi Hs Hx _ Hu HQ. assert (Hb : t_chk t = false \/ len cs + 1 <= t_umax t) by now right.
  destruct (encoder_new_ok (f32_ops lm) t num d f ni ns nx i s x (len cs + 1) Hf Hn HL Hi Hs Hx Hb) as (en & E & K & Ec & El). exists en. split; [exact E|]. intros HC HX rs en1 R.
  pose proof (fresh_buffers (f32_ops lm) i16 t num d f i s x en (len cs + 1) E K HQ) as HB. apply Forall_app in HC. destruct HC as [HC HCk]. apply Forall_app in HX. destruct HX as [HX HXk]. inversion_clear HCk as [|? ? Ck _]. inversion_clear HXk as [|? ? Xk _].
  destruct (run_any (f32_ops lm) (f32_eops el) i16 t cs en rs en1 1 K ltac:(lia) HC HX HB R) as (K1 & Ec1 & El1 & HB1). destruct Ck as (Q1 & Q2 & Q3 & Q4).
  destruct (Loops.idx_ok (e_channels en1) (g_ch k)) as (ch & Ech); [lia|]. exists ch. split; [exact Ech|]. destruct K1 as [_ KC]. destruct (DecRun.Forall_getz _ _ _ _ KC Ech) as [W Ix]. pose proof (DecRun.Forall_getz _ _ _ _ HB1 Ech) as Kb. rewrite Ec1, Ec in *. set (c := config_new f d) in *.
  destruct (not_8k c ltac:(exists f, d; auto)) as [L Nb]. split.
  - intros (en2 & buf & EC). unfold encode_call in EC. rewrite Ech in EC. cbn [bind] in EC. apply bind_Ok in EC. destruct EC as (r & Er & _). rewrite Ec1 in Er. destruct LB as (_ & _ & AN & _). apply live_iff. split; [exact (success_shaped lm el t c ch (g_x k) (g_buf k) r Er)|exact (success_steady lm el t c ch (g_x k) (g_buf k) r AN AE L W Q2 Er)].
  - intros S. pose proof (live_regular lm el t c ch (g_x k) (len (g_buf k)) LB L TW Nb W Q2 Q3 Kb Xk S) as RG.
    destruct (encode_ok (f32_ops lm) (f32_eops el) t f d ch (g_x k) (g_buf k) (f32_elaws lm el) Hf W ltac:(destruct Ix; [now right|left; lia]) Q2 Q3 Q4 RG) as ([ch' buf'] & Er & _).
    unfold encode_call. rewrite Ech. cbn [bind]. rewrite Ec1. fold c. fold c in Er. rewrite Er. cbn [bind]. destruct (Loops.put_len (e_channels en1) (g_ch k) ch' ltac:(lia)) as (chs & Ep & _). rewrite Ep. cbn [bind]. eexists _, _. reflexivity.
Qed.
Print Assumptions C44_call_succeeds_exactly_f32.

(* the hypotheses are met: the second of two silent calls *)
From Verif Require PropertiesQuiet.
Example C44_exactly_case :
  let lm := exact_library in let el := exact_elibrary in let k := mkEcall 0 (repeat 0 480) (repeat 0 100) in let k0 := mkEcall 1 (repeat 0 480) (repeat 0 40) in let t := mkTarget true 4294967295 in
  exists en rs en1 ch, encoder_new (f32_ops lm) 2 TenMs Hz48000 (repeat 0 (Z.to_nat 3800)) (repeat (f32_of_Z 0) (Z.to_nat 2212)) (repeat (f32_of_Z 0, f32_of_Z 0) (Z.to_nat 1920)) = Ok en /\
    encoder_library lm el /\ asin_ends el /\ Forall (call_ok en) [k0; k] /\ run_ecalls (f32_ops lm) (f32_eops el) t en [k0] = Ok (rs, en1) /\ idx (e_channels en1) (g_ch k) = Ok ch /\
    frame_live lm el (e_config en1) ch (g_x k) (len (g_buf k)).
Proof.
  intros lm el k k0 t. destruct PropertiesQuiet.C61_case as (en & rs & en' & E & LB & _ & HC & _ & M & R). fold lm el k k0 t in E, LB, HC, M, R. cbn [app] in HC, M, R. cbn [run_ecalls] in R. apply bind_Ok in R. destruct R as ([en1 b1] & E1 & R). apply bind_Ok in R. destruct R as ([rs2 en2] & R & _). apply bind_Ok in R. destruct R as ([en3 b3] & E3 & _).
  cbn [calls_meet] in M. destruct M as [_ M]. destruct (M en1 b1 E1) as [M1 _]. pose proof E3 as E4. unfold encode_call in E4. apply bind_Ok in E4. destruct E4 as (ch & Ech & _). exists en, [b1], en1, ch. split; [exact E|]. split; [exact LB|]. split; [exact (proj1 (proj2 C62_library))|]. split; [exact HC|].
  split; [cbn [run_ecalls]; rewrite E1; reflexivity|]. split; [exact Ech|]. exact (M1 ch Ech).
Qed.
