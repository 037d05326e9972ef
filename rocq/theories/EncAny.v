(* Any successful call, whatever its numbers, leaves the encoder in a state the theorems about single frames apply to. *)
From Coq Require Import ZArith List Bool Lia.
From Verif Require Import Base Config FrameSpec FftFactor FactorProofs Buffers Loops ParseBase Scalar EncScalar EncF32 DecSignal DecMdct DecTotal DecState Dft DctSpec MdctSpec EncMdct TdacSpec F32Size SnsSize.
From Verif Require Import SideInfo SnsIndex EncSns EncSnsOk EncTns EncPayload TnsOk DetectSpec QuantSpec EncQuant EncDetect EncLtpf EncLtpfOk Decoder Encoder EncOk EncRun EncKeep.
From Coq Require Import List.
Import ListNotations.
Local Open Scope Z_scope.

Section Any.
Context {F : Type} (o : ops F) (e : eops F).
Lemma zipmod_len {A B} (f : A -> B -> A) : forall l src, len (zipmod f l src) = len l.
Proof. induction l as [|x l IH]; intros [|y src]; cbn [zipmod]; try reflexivity. specialize (IH src). unfold len in *. cbn [length]. lia. Qed.
Lemma put_keeps_len {A} (l : list A) k v l' : put l k v = Ok l' -> len l' = len l.
Proof.
  intros E. assert (K : 0 <= k < len l) by (unfold put in E; destruct (Z.ltb_spec k 0); [discriminate E|]; destruct (Z.leb_spec (len l) k); [discriminate E|lia]).
  destruct (Loops.put_len l k v K) as (l1 & E1 & L). rewrite E in E1. apply Ok_inj in E1. congruence.
Qed.
Lemma quantise_len ne fs nbits off gg spec x xq xq' lsb b g : quantise o e ne fs nbits off gg spec x xq = Ok (xq', lsb, b, g) -> len xq' = len xq.
Proof.
  intros E. unfold quantise in E. cbv zeta in E. apply bind_Ok in E. destruct E as (b1 & _ & E). apply bind_Ok in E. destruct E as (u & _ & E). apply bind_Ok in E. destruct E as (xq1 & E1 & E). apply Ok_inj in E. assert (xq1 = xq') by congruence. subst xq1.
  refine (for_keep (fun l => len l = len xq) _ _ _ _ _ E1 (zipmod_len _ _ _) _). intros k l l' _ Ek Hl. rewrite (put_keeps_len _ _ _ _ Ek). exact Hl.
Qed.
Lemma quant_len chk ne fs q x xq nbits nbw nt nl r xq' q' : quant_run o e chk ne fs q x xq nbits nbw nt nl = Ok (r, xq', q') -> len x = ne /\ len xq' = len xq.
Proof.
  intros E. unfold quant_run in E. destruct (Z.eqb_spec (len x) ne) as [Lx|]; [|discriminate E]. cbn [assert bind] in E. split; [exact Lx|]. destruct (len xq =? ne); [|discriminate E]. cbn [assert bind] in E. apply bind_Ok in E. destruct E as (sp & _ & E). destruct (gain_params o q sp) as [of adj]. cbv zeta in E.
  apply bind_Ok in E. destruct E as (en & _ & E). apply bind_Ok in E. destruct E as ([[rs gm] gg] & _ & E). apply bind_Ok in E. destruct E as ([[[xq1 l1] b1] g1] & E1 & E). apply bind_Ok in E. destruct E as ([gg' ad] & _ & E). apply bind_Ok in E. destruct E as ([[[xq2 l2] b2] g2] & E2 & E). apply Ok_inj in E. assert (xq2 = xq') by congruence. subst xq2.
  apply quantise_len in E1. destruct ad; [apply quantise_len in E2; lia|]. apply Ok_inj in E2. assert (xq1 = xq') by congruence. congruence.
Qed.
Theorem encode_any t c ch x buf ch' buf' : legal_config c -> ech_wf c ch -> len x = nf c -> encode o e t c ch x buf = Ok (ch', buf') -> ech_wf c ch' /\ ec_index ch' = (if t_umax t <=? ec_index ch then 0 else ec_index ch + 1).
Proof.
  intros L W Lx E. pose proof W as [W1 W2 W3 W4 W5 W6 W7]. unfold encode in E. apply bind_Ok in E. destruct E as ([p ch1] & EA & E). apply bind_Ok in E. destruct E as (b1 & _ & E). apply Ok_inj in E. assert (ch1 = ch') by congruence. subst ch1. clear E.
  unfold analyse in EA. apply bind_Ok in EA. destruct EA as (ix & EI & EA). cbv zeta in EA.
  destruct (config_geom c L) as (G1 & G2 & G3 & G4 & G5 & G6 & G7). destruct (dct_factors_ok c L) as (fl & Ef & Ch & Sm & Nf). destruct (mdct_window_ok c L) as (w & Ew & _).
  assert (H2h : nf c = 2 * (nf c / 2)) by (clear -G2; Z.div_mod_to_equations; lia).
  destruct (emdct_run_spec o c (ec_mdct ch) x (ec_out ch) (ec_bands ch) (nf c / 2) fl w L W1 Lx W6 W5 H2h Ef Ch Sm Nf Ew) as (nn & out & bands & md & E1 & L1 & L2 & M1 & _).
  rewrite E1 in EA. cbn [bind] in EA. unfold split_at in EA. destruct (Z.ltb_spec (ne c) 0); [discriminate EA|]. destruct (Z.ltb_spec (len out) (ne c)); [discriminate EA|]. cbn [orb bind] in EA.
  apply bind_Ok in EA. destruct EA as ([bw nbw] & _ & EA). apply bind_Ok in EA. destruct EA as ([a at'] & _ & EA). apply bind_Ok in EA. destruct EA as ([s l1] & _ & EA). apply bind_Ok in EA. destruct EA as ([tr l2] & _ & EA).
  destruct (eltpf_run_ok o e c (ec_ltpf ch) x nn (len buf * 8) L W4 Lx) as ([lp lt'] & E6 & P1 & _). rewrite E6 in EA. cbn [bind] in EA.
  apply bind_Ok in EA. destruct EA as ([[q xq] qst] & EQ & EA). apply bind_Ok in EA. destruct EA as (rb & _ & EA). apply bind_Ok in EA. destruct EA as (nf' & _ & EA). apply Ok_inj in EA. apply quant_len in EQ. destruct EQ as [Ll Lq].
  assert (X : mkEch md (ec_bw ch) at' lt' qst ix bands (l2 ++ skipn (Z.to_nat (ne c)) out) xq = ch') by congruence. clear EA. subst ch'. split.
  - constructor; cbn [ec_mdct ec_bw ec_ltpf ec_bands ec_out ec_xq]; try assumption; try lia. rewrite len_app. unfold len in *. rewrite skipn_length. lia.
  - cbn [ec_index]. unfold uincr in EI. destruct (t_umax t <=? ec_index ch); [destruct (t_chk t); [discriminate EI|]|]; apply Ok_inj in EI; congruence.
Qed.
(* the same for a whole encoder and any run that succeeds *)
Theorem run_any (Q : Z -> Prop) t : forall cs en rs en' n, encoder_ok t en (len cs + n) -> 0 <= n -> Forall (call_ok en) cs -> Forall (fun k => Forall Q (g_x k)) cs -> Forall (buffers Q (e_config en)) (e_channels en) -> run_ecalls o e t en cs = Ok (rs, en') ->
  encoder_ok t en' n /\ e_config en' = e_config en /\ len (e_channels en') = len (e_channels en) /\ Forall (buffers Q (e_config en')) (e_channels en').
Proof.
  induction cs as [|k cs IH]; intros en rs en' n HE Hn HC HX HB E; cbn [run_ecalls] in E.
  - apply Ok_inj in E. assert (en = en') by congruence. subst en'. change (len (@nil ecall)) with 0 in HE. rewrite Z.add_0_l in HE. auto.
  - inversion_clear HC as [|? ? C1 C2]. inversion_clear HX as [|? ? X1 X2]. apply bind_Ok in E. destruct E as ([en1 b1] & E1 & E). apply bind_Ok in E. destruct E as ([rs2 en2] & E2 & E). apply Ok_inj in E. assert (en2 = en') by congruence. subst en2. clear E.
    assert (LK : len (k :: cs) = len cs + 1) by (unfold len; cbn [length]; lia). rewrite LK in HE.
    destruct HE as [(f & d & Hf & Ec) KC]. destruct C1 as (Q1 & Q2 & Q3 & Q4). unfold encode_call in E1. apply bind_Ok in E1. destruct E1 as (ch & Ech & E1). apply bind_Ok in E1. destruct E1 as ([ch' buf'] & E0 & E1).
    destruct (DecRun.Forall_getz _ _ _ _ KC Ech) as [Kch Kix]. pose proof (DecRun.Forall_getz _ _ _ _ HB Ech) as Kb. assert (L : legal_config (e_config en)) by (rewrite Ec; eexists _, _; reflexivity).
    destruct (encode_any t _ ch (g_x k) (g_buf k) ch' buf' L Kch Q2 E0) as [W' I']. pose proof (encode_keeps o e Q t _ ch (g_x k) (g_buf k) ch' buf' L Kch Q2 Kb X1 E0) as Kb'.
    destruct (Loops.put_len (e_channels en) (g_ch k) ch' Q1) as (chs & Ep & Lp). rewrite Ep in E1. cbn [bind] in E1. apply Ok_inj in E1. assert (en1 = mkEncoder (e_config en) chs) by congruence. subst en1. clear E1.
    destruct (IH (mkEncoder (e_config en) chs) rs2 en' n) as (A1 & A2 & A3 & A4); auto.
    + split; [exists f, d; auto|]. cbn [e_config e_channels]. eapply DecRun.put_Forall; [| |exact Ep].
      * eapply Forall_impl; [|exact KC]. cbv beta. intros a [B1 B2]. split; [assumption|lia].
      * split; [exact W'|]. destruct Kix as [|Kix]; [now left|right]. rewrite I'. assert (0 <= len cs) by (unfold len; lia). destruct (Z.leb_spec (t_umax t) (ec_index ch)); lia.
    + eapply Forall_impl; [|exact C2]. intros k'. apply call_ok_keeps; cbn [e_config e_channels]; congruence.
    + cbn [e_config e_channels]. eapply DecRun.put_Forall; [exact HB|exact Kb'|exact Ep].
    + cbn [e_config e_channels] in *. split; [exact A1|]. split; [exact A2|]. split; [congruence|exact A4].
Qed.
End Any.
