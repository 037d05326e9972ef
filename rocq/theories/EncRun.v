(* Sequences of calls of the encoder: lc3_encoder.rs:117-191 *)
From Coq Require Import ZArith Lia List Bool.
From Verif Require Import Base Config SideInfo FftFactor Buffers BufLemmas BuffersProofs Loops Scalar EncScalar EncF32 DecSignal DecTotal DecState ParseBase DecRun MdctSpec EncMdct TdacSpec EncDetect DetectSpec
  EncSns EncTns EncLtpf EncLtpfOk EncQuant FrameEnc FrameSpec Decoder Encoder EncOk PayloadBound.
Import ListNotations.
Local Open Scope Z_scope.

Record ecall : Type := mkEcall { g_ch : Z; g_x : list Z; g_buf : list Z }.
Definition on_echannel (i : Z) (k : ecall) : bool := g_ch k =? i.
Fixpoint epick {A} (i : Z) (cs : list ecall) (rs : list A) : list A :=
  match cs, rs with
  | k :: cs, r :: rs => if on_echannel i k then r :: epick i cs rs else epick i cs rs
  | _, _ => []
  end.

Section Run.
Context {F : Type} (o : ops F) (e : eops F) (t : target).

(* any sequence of calls, and the encoded frames *)
Fixpoint run_ecalls (en : encoder F) (cs : list ecall) : res (list (list Z) * encoder F) :=
  match cs with
  | [] => Ok ([], en)
  | k :: cs => '(en, buf) <- encode_call o e t en (g_ch k) (g_x k) (g_buf k) ;; '(rs, en) <- run_ecalls en cs ;; Ok (buf :: rs, en)
  end.
Fixpoint run_echannel (c : config) (ch : echannel F) (cs : list ecall) : res (list (list Z) * echannel F) :=
  match cs with
  | [] => Ok ([], ch)
  | k :: cs => '(ch, buf) <- encode o e t c ch (g_x k) (g_buf k) ;; '(rs, ch) <- run_echannel c ch cs ;; Ok (buf :: rs, ch)
  end.

Theorem echannel_independent i : forall cs en rs en', run_ecalls en cs = Ok (rs, en') -> 0 <= i ->
  (forall ch, idx (e_channels en) i = Ok ch -> exists ch', idx (e_channels en') i = Ok ch' /\
     run_echannel (e_config en) ch (filter (on_echannel i) cs) = Ok (epick i cs rs, ch')).
Proof.
  induction cs as [|k cs IH]; intros d rs d' H Hi ch Hch; cbn [run_ecalls] in H.
  - injection H as <- <-. exists ch. split; [assumption|reflexivity].
  - destruct (encode_call o e t d (g_ch k) (g_x k) (g_buf k)) as [[d1 out]| |] eqn:E; cbn [bind] in H; try discriminate H.
    destruct (run_ecalls d1 cs) as [[rs1 d2]| |] eqn:E2; cbn [bind] in H; try discriminate H. injection H as <- <-.
    unfold encode_call in E. destruct (idx (e_channels d) (g_ch k)) as [c| |] eqn:Ec; cbn [bind] in E; try discriminate E.
    destruct (encode o e t (e_config d) c (g_x k) (g_buf k)) as [[c0 out0]| |] eqn:Ed; cbn [bind] in E; try discriminate E.
    destruct (put (e_channels d) (g_ch k) c0) as [chs| |] eqn:Ep; cbn [bind] in E; try discriminate E. injection E as <- <-.
    assert (Hk : 0 <= g_ch k < len (e_channels d)).
    { unfold put in Ep. destruct (Z.ltb_spec (g_ch k) 0); [discriminate Ep|]. destruct (Z.leb_spec (len (e_channels d)) (g_ch k)); [discriminate Ep|]. lia. }
    destruct (put_ok ch (e_channels d) (g_ch k) c0 Hk) as (chs' & Ep' & Lp & Gp). rewrite Ep in Ep'. injection Ep' as <-.
    assert (Hi2 : 0 <= i < len (e_channels d)).
    { unfold idx in Hch. destruct (Z.ltb_spec i 0); [discriminate Hch|]. destruct (nth_error (e_channels d) (Z.to_nat i)) eqn:En; [|discriminate Hch].
      assert (nth_error (e_channels d) (Z.to_nat i) <> None) as Hn by congruence. apply nth_error_Some in Hn. unfold len. lia. }
    assert (Hch' : idx chs i = Ok (if i =? g_ch k then c0 else ch)).
    { rewrite (idx_get ch) by lia. rewrite Gp by lia. f_equal. destruct (i =? g_ch k); [reflexivity|]. rewrite (idx_get ch) in Hch by lia. congruence. }
    destruct (IH _ _ _ E2 Hi _ Hch') as (ch' & F1 & F2). cbn [e_config e_channels] in F1, F2.
    exists ch'. split; [assumption|]. cbn [filter epick]. replace (on_echannel i k) with (i =? g_ch k) by apply Z.eqb_sym.
    destruct (Z.eqb_spec i (g_ch k)) as [->|]; [|exact F2]. cbn [run_echannel]. rewrite Hch in Ec. injection Ec as <-. rewrite Ed. cbn [bind]. rewrite F2. reflexivity.
Qed.

(* ---- construction ---- *)
Lemma enc_channel_inv f d (i : list Z) (s : list F) (x : list (F * F)) ips sps cps i' s' x' : let c := config_new f d in
  enc_channel_new c i s x = Ok (ips, sps, cps, i', s', x') ->
  map len ips = [2 * nf c; ext c + nf c; ne c] /\ map len sps = [(let '(l12, _, delay) := eltpf_lens (n_ms c) in l12 + delay + NMEM); 64 + K_MAX; nf c; nb c] /\
  map len cps = [nf c / 2; nf c / 2; nf c / 2; nf c / 2].
Proof.
  intros c H. assert (Lc : legal_config c) by (eexists _, _; reflexivity). destruct (config_geom c Lc) as (G1 & G2 & G3 & G4 & G5 & G6 & G7).
  assert (Hh : 0 <= nf c / 2) by (apply Z.div_pos; lia). unfold enc_channel_new in H.
  destruct (enc_mdct_new c i x) as [[[[[frq cps0] bands] i1] x1]| |] eqn:E1; cbn [bind] in H; try discriminate H.
  destruct (Buffers.bw_new (n_ms c) (fs_ind c)); cbn [bind] in H; try discriminate H. destruct (idx Buffers.G_TILT (fs_ind c)); cbn [bind] in H; try discriminate H.
  destruct (enc_ltpf_new c s i1) as [[[[xs sps1] s1] i2]| |] eqn:E2; cbn [bind] in H; try discriminate H.
  destruct (splits [nf c; nb c] s1) as [[ops s2]| |] eqn:E3; cbn [bind] in H; try discriminate H.
  destruct (split_at (ne c) i2) as [[xq i3]| |] eqn:E4; cbn [bind] in H; try discriminate H. injection H as <- <- <- <- <- <-.
  apply splits_inv in E3; [|repeat constructor; lia]. apply split_at_inv in E4; [|lia].
  unfold enc_mdct_new in E1. destruct (split_at (nf c * 2) i) as [[fr ii]| |] eqn:E5; cbn [bind] in E1; try discriminate E1.
  destruct (dct_new (nf c) x) as [[dp dx]| |] eqn:ED; cbn [bind] in E1; try discriminate E1. destruct (band_table c); cbn [bind] in E1; try discriminate E1. injection E1 as -> -> <- <- <-.
  apply split_at_inv in E5; [|lia].
  unfold dct_new in ED. destruct (split_at (nf c / 2) x) as [[tw xx]| |] eqn:ET; cbn [bind] in ED; try discriminate ED.
  destruct (kf_factor _ _ _); cbn [bind] in ED; try discriminate ED.
  destruct (splits [nf c / 2; nf c / 2; nf c / 2] xx) as [[ps6 s6]| |] eqn:ES6; cbn [bind] in ED; try discriminate ED. injection ED as <- <-.
  apply splits_inv in ES6; [|repeat constructor; lia]. apply split_at_inv in ET; [|lia].
  unfold enc_ltpf_new in E2. assert (EL : enc_ltpf_lengths c = Ok (ext c + nf c, (let '(l12, _, delay) := eltpf_lens (n_ms c) in l12 + delay + NMEM), 64 + K_MAX)) by (unfold c; destruct f, d; reflexivity).
  rewrite EL in E2. cbn [bind] in E2. assert (HX : 0 <= ext c) by (unfold c; destruct f, d; vm_compute; discriminate). 
  assert (HM : 0 <= (let '(l12, _, delay) := eltpf_lens (n_ms c) in l12 + delay + NMEM)) by (unfold c; destruct f, d; vm_compute; discriminate).
  set (n12 := let '(l12, _, delay) := eltpf_lens (n_ms c) in l12 + delay + NMEM) in *.
  destruct (split_at (ext c + nf c) ii) as [[ys yi]| |] eqn:E6; cbn [bind] in E2; try discriminate E2.
  destruct (splits [n12; 64 + K_MAX] s) as [[ps7 s7]| |] eqn:E7; cbn [bind] in E2; try discriminate E2. injection E2 as <- <- <- <-.
  apply split_at_inv in E6; [|lia]. apply splits_inv in E7; [|unfold K_MAX; repeat constructor; lia].
  cbn [map]. rewrite map_app, E7, E3, E4, E5, E6, ET, ES6. split; [|split; reflexivity]. f_equal. lia.
Qed.
Lemma echannel_of_parts_ok f d ips sps cps : f <> Hz8000 -> let c := config_new f d in
  map len ips = [2 * nf c; ext c + nf c; ne c] -> map len sps = [(let '(l12, _, delay) := eltpf_lens (n_ms c) in l12 + delay + NMEM); 64 + K_MAX; nf c; nb c] ->
  map len cps = [nf c / 2; nf c / 2; nf c / 2; nf c / 2] ->
  okp (echannel_of_parts o c ips sps cps) (fun ch => ech_wf c ch /\ ec_index ch = 0).
Proof.
  intros Hf c H1 H2 H3. do 3 (destruct ips as [|? ips]; [discriminate H1|]). destruct ips; [|discriminate H1].
  do 4 (destruct sps as [|? sps]; [discriminate H2|]). destruct sps; [|discriminate H2]. do 4 (destruct cps as [|? cps]; [discriminate H3|]). destruct cps; [|discriminate H3].
  cbn [map] in H1, H2, H3. injection H1 as I1 I2 I3. injection H2 as S1 S2 S3 S4. injection H3 as C1 C2 C3 C4.
  cbn [echannel_of_parts]. destruct (bwdet_new_spec f d Hf) as (b & E & Bi & Bg).
  assert (E' : bwdet_new (n_ms c) (fs_ind c) = Ok b) by (unfold c; clear -E; destruct f, d; exact E). rewrite E'. cbn [bind]. apply okp_ok. split; [|reflexivity].
  constructor; cbn [ec_mdct ec_bw ec_ltpf ec_bands ec_out ec_xq]; try assumption.
  - constructor; cbn [em_time em_in em_out]; assumption.
  - rewrite Bi. unfold c. clear. now destruct f, d.
  - apply eltpf_new_wf; assumption.
Qed.
Lemma echannels_ok f d : f <> Hz8000 -> let c := config_new f d in forall k (i : list Z) (s : list F) (x : list (F * F)) parts i' s' x', enc_channels k c i s x = Ok (parts, i', s', x') ->
  okp (map_res (fun '(i, s, x) => echannel_of_parts o c i s x) parts) (fun chs => length chs = k /\ Forall (fun ch => ech_wf c ch /\ ec_index ch = 0) chs).
Proof.
  intros Hf c. induction k as [|k IH]; intros i s x parts i' s' x' H; cbn [enc_channels] in H.
  - injection H as <- _ _ _. apply okp_ok. auto.
  - destruct (enc_channel_new c i s x) as [[[[[[ips sps] cps] i1] s1] x1]| |] eqn:E; cbn [bind] in H; try discriminate H.
    destruct (enc_channels k c i1 s1 x1) as [[[[chs i2] s2] x2]| |] eqn:E2; cbn [bind] in H; try discriminate H. injection H as <- _ _ _. cbn [map_res].
    destruct (enc_channel_inv f d i s x _ _ _ _ _ _ E) as (A1 & A2 & A3).
    eapply okp_bind; [apply (echannel_of_parts_ok f d); eassumption|]. intros ch Hch.
    eapply okp_bind; [eapply IH; eassumption|]. intros chs' [L1 L2]. apply okp_ok. cbn [length]. auto.
Qed.

(* ---- runs ---- *)
(* the caller's side of a call: an existing channel, a frame of samples, a frame length the format allows. From 31 bytes at 32 kHz and
   above, see C24_budget_refuted *)
Definition call_ok (en : encoder F) (k : ecall) : Prop :=
  0 <= g_ch k < len (e_channels en) /\ len (g_x k) = nf (e_config en) /\ 20 <= len (g_buf k) <= 400 /\ (fs_ind (e_config en) < 3 \/ 31 <= len (g_buf k)).
(* the numbers of every frame are regular at the time it is encoded *)
Fixpoint calls_regular (en : encoder F) (cs : list ecall) : Prop :=
  match cs with
  | [] => True
  | k :: cs => (forall ch, idx (e_channels en) (g_ch k) = Ok ch -> frame_regular o e t (e_config en) ch (g_x k) (len (g_buf k))) /\
               (forall en' buf, encode_call o e t en (g_ch k) (g_x k) (g_buf k) = Ok (en', buf) -> calls_regular en' cs)
  end.
Definition encoder_ok (en : encoder F) (budget : Z) : Prop :=
  (exists f d, f <> Hz8000 /\ e_config en = config_new f d) /\ Forall (fun ch => ech_wf (e_config en) ch /\ (t_chk t = false \/ ec_index ch + budget <= t_umax t)) (e_channels en).
Theorem encoder_new_ok num d f ni ns nx (i : list Z) (s : list F) (x : list (F * F)) budget : f <> Hz8000 -> 0 <= num -> enc_lens num d f = Ok (ni, ns, nx) ->
  ni <= len i -> ns <= len s -> nx <= len x -> t_chk t = false \/ budget <= t_umax t ->
  okp (encoder_new o num d f i s x) (fun en => encoder_ok en budget /\ e_config en = config_new f d /\ len (e_channels en) = num).
Proof.
  intros Hf Hn HL Hi Hs Hx Hb. destruct (enc_new_ok f d num i s x ni ns nx Hf Hn HL Hi Hs Hx) as (chs & i' & s' & x' & E & K & _). unfold encoder_new. rewrite E. cbn [bind].
  unfold enc_new in E. eapply okp_bind; [eapply (echannels_ok f d Hf); exact E|]. intros l [L1 L2]. apply okp_ok. cbn [e_config e_channels]. split; [split; [exists f, d; auto|]|split; [reflexivity|unfold len; lia]].
  eapply Forall_impl; [|exact L2]. cbv beta. intros ch [A1 A2]. split; [assumption|]. rewrite A2. exact Hb.
Qed.
Lemma encode_ok f d ch x buf : elaws o e -> f <> Hz8000 -> let c := config_new f d in ech_wf c ch -> ec_index ch < t_umax t \/ t_chk t = false -> len x = nf c ->
  20 <= len buf <= 400 -> fs_ind c < 3 \/ 31 <= len buf -> frame_regular o e t c ch x (len buf) ->
  okp (encode o e t c ch x buf) (fun '(ch', buf') => ech_wf c ch' /\ len buf' = len buf /\ ec_index ch' = (if t_umax t <=? ec_index ch then 0 else ec_index ch + 1)).
Proof.
  intros EL Hf c W Hi Lx HN H2 R. assert (Lc : legal_config c) by (eexists _, _; reflexivity). assert (Nb : nb c = 64 /\ 1 <= fs_ind c) by (unfold c; destruct f, d; try (exfalso; now apply Hf); split; (reflexivity || (vm_compute; discriminate))).
  destruct (analyse_ok o e t c ch x (len buf) EL Lc (proj1 Nb) (proj2 Nb) W Hi Lx HN H2 R) as ([p ch'] & E & W' & bw & nbw & s & tr & lp & q & xq & rb & nfv & l1 & l2 & h & n & m & b & B & -> & ST & HX).
  unfold encode. rewrite E. cbn [bind]. destruct (stages_written o e EL c (len buf) bw nbw s tr lp q xq rb nfv l1 l2 h n m b B buf Lc HN H2 ST eq_refl) as (buf' & E2 & L2). rewrite E2. cbn [bind]. apply okp_ok. auto.
Qed.
Theorem run_ecalls_ok : elaws o e -> forall cs en, encoder_ok en (len cs) -> Forall (call_ok en) cs -> calls_regular en cs ->
  okp (run_ecalls en cs) (fun '(rs, en') => encoder_ok en' 0 /\ e_config en' = e_config en /\ len (e_channels en') = len (e_channels en) /\ Forall2 (fun k buf => len buf = len (g_buf k)) cs rs).
Proof.
  intros EL. induction cs as [|k cs IH]; intros en [(f & d & Hf & Ec) HC] HG HR; cbn [run_ecalls].
  - apply okp_ok. split; [split; [exists f, d; auto|assumption]|]. auto.
  - inversion HG as [|? ? (Q1 & Q2 & Q3 & Q4) HG']; subst. replace (len (k :: cs)) with (len cs + 1) in HC by (unfold len; cbn [length]; lia). destruct HR as [R1 R2].
    unfold encode_call in *. destruct (idx_ok (e_channels en) (g_ch k) Q1) as (ch & Ech). specialize (R1 _ Ech). rewrite Ech in *. cbn [bind] in *.
    destruct (Forall_getz _ _ _ _ HC Ech) as [Kch Kix]. pose proof (len_nonneg cs) as Hn. rewrite Ec in *.
    destruct (encode_ok f d ch (g_x k) (g_buf k) EL Hf Kch ltac:(lia) Q2 Q3 Q4 R1) as ([ch' buf'] & E & W' & L' & I'). rewrite E in *. cbn [bind] in *.
    destruct (put_len (e_channels en) (g_ch k) ch' Q1) as (chs & Ep & Lp). rewrite Ep in *. cbn [bind] in *. specialize (R2 _ _ eq_refl).
    assert (HD' : encoder_ok (mkEncoder (config_new f d) chs) (len cs)).
    { split; [exists f, d; auto|]. cbn [e_config e_channels]. eapply put_Forall; [| |exact Ep].
      - eapply Forall_impl; [|exact HC]. cbv beta. intros a [A1 A2]. split; [assumption|lia].
      - split; [exact W'|]. destruct Kix as [|Kix]; [now left|right]. rewrite I'. destruct (Z.leb_spec (t_umax t) (ec_index ch)); lia. }
    assert (HG2 : Forall (call_ok (mkEncoder (config_new f d) chs)) cs).
    { eapply Forall_impl; [|exact HG']. unfold call_ok. cbn [e_config e_channels]. rewrite Lp, Ec. auto. }
    eapply okp_bind; [apply (IH _ HD' HG2 R2)|]. intros [rs d'] (S1 & S2 & S3 & S4). apply okp_ok. cbn [e_config e_channels] in *.
    split; [assumption|]. split; [assumption|]. split; [lia|]. constructor; [auto|assumption].
Qed.
End Run.
