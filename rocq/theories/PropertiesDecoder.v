(* Final theorems: the decoder as a state machine over any history of calls (C10, C11, C12, C40, C41). *)
From Coq Require Import ZArith List Bool Lia Reals Lra.
From Coquelicot Require Import Rbar Hierarchy Lim_seq.
From Flocq Require Import Core BinarySingleNaN.
From Verif Require Import Base Config SideInfo ArithDec FrameDec FrameSpec Buffers BuffersProofs Loops Scalar DecSignal DecMdct DecLtpf DecRelease Decoder DecTotal DecState DecRun ParseBase ParseTotal MdctSpec LtpfSpec LineSpec DecHistory DecEquiv F32 F32Round F32Lines RealOps.
Import ListNotations.
Local Open Scope Z_scope.

(* ---- material for the examples: a scalar type that computes quickly ---- *)
Definition Z_ops : ops Z :=
  mkOps Z (fun v => v) (fun _ => 1) Z.add Z.sub Z.mul (fun a _ => a) Z.opp Z.ltb Z.eqb (fun v => v) (fun _ => 1) (fun _ => 1) (fun _ => 1) (fun _ => 1) (fun _ _ => (1, 0)) (fun _ _ => (1, 0)).
Definition t32 : target := mkTarget true 4294967295.
Definition x_dec : res (decoder Z) := decoder_new Z_ops 2 SevenPointFiveMs Hz8000 (repeat 0 2000) (repeat (0, 0) 500).
Definition x_good : list Z := repeat 0 20.
Definition x_bad : list Z := repeat 255 8.
Definition x_calls : list call :=
  [mkCall 16 0 x_good (repeat 5 60); mkCall 16 1 x_bad (repeat 5 60); mkCall 24 0 x_good (repeat 5 60); mkCall 16 0 x_bad (repeat 5 70); mkCall 16 1 x_good (repeat 5 60)].
Lemma bytes_repeat v n : 0 <= v < 256 -> bytes (repeat v n).
Proof. intros H. induction n as [|n IH]; cbn [repeat]; constructor; assumption. Qed.

(* ---- C10 ---- *)
(* A decoder built from buffers of the advertised lengths, in any initial state of those buffers, then any calls with frames on which
   the parser does not panic: every call with 16 bits returns Ok, any other bit depth the unsupported error.
   Missing from the full claim: histories longer than the largest usize. That restriction is needed, see the refutation. *)
Theorem C10_decode_never_fails_partial :
  forall (F : Type) (o : ops F) t num d f (s : list F) (x : list (F * F)) ns nx cs,
    0 <= num -> dec_lens num d f = Ok (ns, nx) -> ns <= len s -> nx <= len x -> len cs <= t_umax t ->
    Forall (fun k => 0 <= k_ch k < num /\ bytes (k_buf k) /\ read_frame (t_chk t) (config_new f d) (k_buf k) <> Panic) cs ->
    exists dec rs dec', decoder_new o num d f s x = Ok dec /\ run_calls o t dec cs = Ok (rs, dec') /\
      Forall2 (fun k '(r, out) => len out = len (k_out k) /\ r = if k_bits k =? 16 then None else Some Only16BitsPerAudioSampleSupported) cs rs.
Proof.
  intros F o t num d f s x ns nx cs Hn HL Hs Hx Hc HF.
  destruct (decoder_new_ok o t num d f ns nx s x (len cs) Hn HL Hs Hx Hc) as (dec & E & D1 & D2 & D3).
  destruct (run_calls_ok o t cs dec D1) as ([rs dec'] & E2 & _ & _ & _ & R).
  - eapply Forall_impl; [|exact HF]. unfold good_call. rewrite D2, D3. auto.
  - exists dec, rs, dec'. auto.
Qed.
Print Assumptions C10_decode_never_fails_partial.

(* Without overflow checks (a release build) both counters wrap around and the claim holds over histories of any length. *)
Theorem C10_release_any_history :
  forall (F : Type) (o : ops F) t num d f (s : list F) (x : list (F * F)) ns nx cs,
    t_chk t = false -> 0 <= num -> dec_lens num d f = Ok (ns, nx) -> ns <= len s -> nx <= len x ->
    Forall (fun k => 0 <= k_ch k < num /\ bytes (k_buf k) /\ read_frame false (config_new f d) (k_buf k) <> Panic) cs ->
    exists dec rs dec', decoder_new o num d f s x = Ok dec /\ run_calls o t dec cs = Ok (rs, dec') /\
      Forall2 (fun k '(r, out) => len out = len (k_out k) /\ r = if k_bits k =? 16 then None else Some Only16BitsPerAudioSampleSupported) cs rs.
Proof.
  intros F o t num d f s x ns nx cs Hc Hn HL Hs Hx HF. destruct (new_lens o t num d f ns nx s x Hn HL Hs Hx) as (dec & E & D1 & D2 & D3).
  destruct (run_calls_release o t Hc cs dec D1) as (rs & dec' & E2 & _ & _ & _ & R); [rewrite D2, D3; exact HF|]. exists dec, rs, dec'. auto.
Qed.
Print Assumptions C10_release_any_history.

(* other bit depths change nothing at all *)
Theorem C10_other_depths_leave_the_decoder_unchanged :
  forall (F : Type) (o : ops F) t (d : decoder F) bits i buf out, bits <> 16 -> 0 <= i < len (d_channels d) ->
    decode_frame o t d bits i buf out = Ok (Some Only16BitsPerAudioSampleSupported, d, out).
Proof. intros. now apply decode_frame_other. Qed.
Print Assumptions C10_other_depths_leave_the_decoder_unchanged.

(* Concealment: the states a channel of a new decoder goes through. A rejected frame is replaced by the lines of the last good one,
   faded (C11) and with signs from the generator, and switches the postfilter off; a good frame resets the count. *)
Theorem C10_corrupt_frames_are_concealed :
  forall (F : Type) (o : ops F) t num d f (s : list F) (x : list (F * F)) ns nx cs,
    0 <= num -> dec_lens num d f = Ok (ns, nx) -> ns <= len s -> nx <= len x -> len cs <= t_umax t ->
    Forall (fun k => bytes (k_buf k) /\ read_frame (t_chk t) (config_new f d) (k_buf k) <> Panic) cs ->
    exists dec, decoder_new o num d f s x = Ok dec /\ forall ch, In ch (d_channels dec) ->
      exists ss, states o t (config_new f d) ch cs = Ok ss /\
        conceal_trace o t (config_new f d) 24607 (pl_last (ch_plc ch)) 0 0 cs ss /\
        pl_lost (ch_plc (List.last ss ch)) = lost_after t (config_new f d) 0 cs.
Proof.
  intros F o t num d f s x ns nx cs Hn HL Hs Hx Hc HF.
  destruct (decoder_new_ok o t num d f ns nx s x (len cs) Hn HL Hs Hx Hc) as (dec & E & [D1 D1'] & D2 & D3).
  exists dec. split; [exact E|]. intros ch Hch. destruct (decoder_new_plc o num d f s x dec ch E Hch) as [P _].
  rewrite Forall_forall in D1'. destruct (D1' ch Hch) as [K I]. rewrite D2 in *.
  destruct (concealment_history o t (config_new f d) D1 cs ch 24607 (pl_last (ch_plc ch)) 0 0 K P ltac:(lia) I HF) as (ss & S1 & S2 & _ & S3). exists ss. auto.
Qed.
Print Assumptions C10_corrupt_frames_are_concealed.

(* two channels, good and corrupt frames, a wrong bit depth, output buffers of two lengths *)
Example C10_case :
  exists dec rs dec', x_dec = Ok dec /\ run_calls Z_ops t32 dec x_calls = Ok (rs, dec') /\
    map fst rs = [None; None; Some Only16BitsPerAudioSampleSupported; None; None] /\ map (fun ch => pl_lost (ch_plc ch)) (d_channels dec') = [1; 0] /\
    map (fun ch => ch_index ch) (d_channels dec') = [2; 2].
Proof. eexists _, _, _. split; [vm_compute; reflexivity|]. split; [vm_compute; reflexivity|]. split; [vm_compute; reflexivity|]. split; vm_compute; reflexivity. Qed.
(* both channels pass the wrap of a counter that holds 1 at most, so do the losses *)
Example C10_release_case :
  exists dec rs dec', x_dec = Ok dec /\ run_calls Z_ops (mkTarget false 1) dec (x_calls ++ [mkCall 16 0 x_bad (repeat 5 60)]) = Ok (rs, dec') /\
    map fst rs = [None; None; Some Only16BitsPerAudioSampleSupported; None; None; None] /\ map (fun ch => pl_lost (ch_plc ch)) (d_channels dec') = [0; 0] /\ map (fun ch => ch_index ch) (d_channels dec') = [1; 0].
Proof. eexists _, _, _. split; [vm_compute; reflexivity|]. split; [vm_compute; reflexivity|]. split; [vm_compute; reflexivity|]. split; vm_compute; reflexivity. Qed.
Example C10_case_hypotheses :
  (exists ns nx, dec_lens 2 SevenPointFiveMs Hz8000 = Ok (ns, nx) /\ ns <= 2000 /\ nx <= 500) /\
  Forall (fun k => 0 <= k_ch k < 2 /\ bytes (k_buf k) /\ read_frame true (config_new Hz8000 SevenPointFiveMs) (k_buf k) <> Panic) x_calls /\
  map (fun k => corrupt t32 (config_new Hz8000 SevenPointFiveMs) (k_buf k)) x_calls = [false; true; false; true; false].
Proof.
  split; [|split; [|vm_compute; reflexivity]].
  - eexists _, _. split; [vm_compute; reflexivity|]. split; vm_compute; discriminate.
  - assert (G : read_frame true (config_new Hz8000 SevenPointFiveMs) x_good <> Panic) by (vm_compute; discriminate).
    assert (B : read_frame true (config_new Hz8000 SevenPointFiveMs) x_bad <> Panic) by (vm_compute; discriminate).
    unfold x_calls. repeat (apply Forall_cons; [cbn [k_ch k_buf]; split; [lia|split; [apply bytes_repeat; lia|assumption]]|]). constructor.
Qed.

(* With overflow checks every decoder stops after as many frames on one channel as a usize can count (lc3_decoder.rs:89):
   after 497 days of 10 ms frames where usize has 32 bits, after 11 minutes where it has 16. *)
Theorem C10_unbounded_history_refuted :
  forall (F : Type) (o : ops F) t num d f (s : list F) (x : list (F * F)) ns nx k,
    0 < num -> dec_lens num d f = Ok (ns, nx) -> ns <= len s -> nx <= len x -> t_chk t = true -> 0 <= t_umax t ->
    k_ch k = 0 -> k_bits k = 16 -> bytes (k_buf k) -> read_frame (t_chk t) (config_new f d) (k_buf k) <> Panic ->
    exists dec, decoder_new o num d f s x = Ok dec /\ run_calls o t dec (repeat k (Z.to_nat (t_umax t) + 1)) = Panic.
Proof.
  intros F o t num d f s x ns nx k Hn HL Hs Hx Hc Hu K1 K2 K3 K4.
  assert (Lc : legal_config (config_new f d)) by (eexists _, _; reflexivity).
  assert (HN : exists dec, decoder_new o num d f s x = Ok dec /\ d_config dec = config_new f d /\ exists ch chs, d_channels dec = ch :: chs /\ channel_ok (config_new f d) ch /\ ch_index ch = 0).
  { destruct (dec_new_ok f d num s x ns nx ltac:(lia) HL Hs Hx) as (parts & s' & x' & E & _ & _). unfold decoder_new. rewrite E. cbn [bind]. unfold dec_new in E.
    destruct (channels_ok o (config_new f d) Lc _ _ _ _ _ _ E) as (chs & E2 & L2 & HF). rewrite E2. cbn [bind]. eexists. split; [reflexivity|]. split; [reflexivity|]. cbn [d_channels].
    destruct chs as [|ch chs]; [cbn [length] in L2; lia|]. inversion HF as [|? ? [Q1 Q2] _]; subst. exists ch, chs. auto. }
  destruct HN as (dec & E & D & ch & chs & EC & KC & IC). exists dec. split; [exact E|]. clear E.
  assert (G : forall n dec ch chs, d_config dec = config_new f d -> d_channels dec = ch :: chs -> channel_ok (config_new f d) ch -> ch_index ch + Z.of_nat n = t_umax t -> run_calls o t dec (repeat k (n + 1)) = Panic).
  { induction n as [|n IH]; intros dc c0 cs0 D0 C0 KK HI; cbn [repeat Nat.add run_calls]; unfold decode_frame; rewrite K1, K2, C0, D0; cbn [idx]; change (idx (c0 :: cs0) 0) with (Ok c0); cbn [bind].
    - unfold decode_channel. cbn [Z.eqb Pos.eqb negb]. unfold uincr. destruct (Z.leb_spec (t_umax t) (ch_index c0)); [|lia]. rewrite Hc. reflexivity.
    - destruct (decode_channel_ok o t (config_new f d) c0 (k_buf k) (k_out k) Lc KK K3 K4 ltac:(lia)) as ([[r c1] o1] & E1 & _ & R2 & R3 & _). rewrite E1. cbn [bind].
      assert (EP : put (c0 :: cs0) 0 c1 = Ok (c1 :: cs0)). { unfold put. change (0 <? 0) with false. destruct (Z.leb_spec (len (c0 :: cs0)) 0) as [Q|Q]; [unfold len in Q; cbn [length] in Q; lia|]. reflexivity. }
      rewrite EP. cbn [bind]. rewrite (IH (mkDecoder (config_new f d) (c1 :: cs0)) c1 cs0); auto. lia. }
  apply (G _ dec ch chs); auto. rewrite Z2Nat.id by lia. lia.
Qed.
Print Assumptions C10_unbounded_history_refuted.

(* ---- C11 ---- *)
(* The concealed lines over any history: the trace of C10_corrupt_frames_are_concealed says that after k losses line n is the last good line times
   plus or minus `fade k`, and that a good frame starts again from k = 0. What remains is the factor itself. In exact arithmetic: *)
Theorem C11_fade_exact :
  (forall k, (k <= 4)%nat -> fade R_ops k = 1%R) /\ (forall k, (0 < fade R_ops (S k) <= fade R_ops k)%R) /\ is_lim_seq (fade R_ops) 0%R.
Proof.
  split; [|split; [|exact fade_R_lim]].
  - intros k Hk. rewrite fade_R. destruct (Nat.leb_spec k 4); [reflexivity|lia].
  - intros k. split; [apply fade_R_pos|apply fade_R_mono].
Qed.
Print Assumptions C11_fade_exact.
(* In binary32, for the magnitude of the concealed line itself: unchanged for four frames and never growing.
   Missing: that it tends to 0, which is false (next theorem). *)
Theorem C11_concealed_magnitude_f32_partial :
  forall lm (x : f32), is_finite x = true ->
    (forall neg k, (k <= 4)%nat -> Rabs (B2R (concealed lm neg k x)) = Rabs (B2R x)) /\
    (forall n1 n2 k, (Rabs (B2R (concealed lm n1 (S k) x)) <= Rabs (B2R (concealed lm n2 k x)) <= Rabs (B2R x))%R) /\
    (forall neg k, (700 <= k)%nat -> Rabs (B2R (concealed lm neg k x)) = rnd32 (Rabs (B2R x) * (3 * bpow radix2 (-149)))).
Proof.
  intros lm x Hx. split; [|split].
  - intros. now apply concealed_first.
  - intros. now apply concealed_mono.
  - intros neg k Hk. destruct (concealed_val lm neg k x Hx) as [-> _]. now rewrite fade32_stuck.
Qed.
Print Assumptions C11_concealed_magnitude_f32_partial.
(* 0.85 * 3 ulp rounds back to 3 ulp among the denormals *)
Theorem C11_fade_tends_to_zero_f32_refuted : forall lm, ~ is_lim_seq (fun k => B2R (fade (f32_ops lm) k)) 0%R.
Proof.
  intros lm H. apply is_lim_seq_spec in H. destruct (H (mkposreal _ (bpow_gt_0 radix2 (-149)))) as [N HN]. specialize (HN (Nat.max N 700) ltac:(apply Nat.le_max_l)).
  rewrite fade32_stuck in HN by apply Nat.le_max_r. cbn [pos] in HN. rewrite Rminus_0_r in HN. pose proof (bpow_gt_0 radix2 (-149)) as P. rewrite Rabs_pos_eq in HN; lra.
Qed.
Print Assumptions C11_fade_tends_to_zero_f32_refuted.
Example C11_case : is_finite (f32_of_Z 100) = true /\ B2SF (concealed (mkLibm (fun _ => f32_of_Z 0) (fun x => x) (fun _ => f32_of_Z 0) (fun _ _ => (f32_of_Z 0, f32_of_Z 0)) (fun _ _ => (f32_of_Z 0, f32_of_Z 0))) true 5 (f32_of_Z 100)) = SpecFloat.S754_finite true 11796480 (-17).
Proof. split; vm_compute; reflexivity. Qed.

(* ---- C12 ---- *)
(* The decoder half: samples, results and final state of channel i are those of running the calls for channel i on that channel alone. *)
Theorem C12_decoder_channels_independent :
  forall (F : Type) (o : ops F) t i cs (d : decoder F) rs d' ch, run_calls o t d cs = Ok (rs, d') -> idx (d_channels d) i = Ok ch ->
    exists ch', idx (d_channels d') i = Ok ch' /\ run_channel o t (d_config d) ch (filter (on_channel i) cs) = Ok (pick i cs rs, ch').
Proof.
  intros F o t i cs d rs d' ch H Hi. eapply channel_independent; try eassumption. unfold idx in Hi. destruct (Z.ltb_spec i 0); [discriminate Hi|assumption].
Qed.
Print Assumptions C12_decoder_channels_independent.
(* so two interleavings with the same calls for a channel are the same to it, whatever happens on the others *)
Theorem C12_decoder_interleavings :
  forall (F : Type) (o : ops F) t i cs1 cs2 (d1 d2 : decoder F) rs1 rs2 d1' d2' ch, run_calls o t d1 cs1 = Ok (rs1, d1') -> run_calls o t d2 cs2 = Ok (rs2, d2') ->
    d_config d1 = d_config d2 -> idx (d_channels d1) i = Ok ch -> idx (d_channels d2) i = Ok ch -> filter (on_channel i) cs1 = filter (on_channel i) cs2 ->
    pick i cs1 rs1 = pick i cs2 rs2 /\ idx (d_channels d1') i = idx (d_channels d2') i.
Proof.
  intros F o t i cs1 cs2 d1 d2 rs1 rs2 d1' d2' ch H1 H2 HC I1 I2 HF.
  destruct (C12_decoder_channels_independent F o t i cs1 d1 rs1 d1' ch H1 I1) as (c1 & A1 & A2). destruct (C12_decoder_channels_independent F o t i cs2 d2 rs2 d2' ch H2 I2) as (c2 & B1 & B2).
  rewrite HC, HF, B2 in A2. injection A2 as A3 A4. split; [now symmetry|]. now rewrite A1, B1, A4.
Qed.
Print Assumptions C12_decoder_interleavings.
Example C12_case : map k_bits (filter (on_channel 0) x_calls) = [16; 24; 16] /\ map k_bits (filter (on_channel 1) x_calls) = [16; 16].
Proof. split; reflexivity. Qed.

(* ---- C40 ---- *)
(* The postfilter, in any state reached by the decoder: while off before and off now it copies its input. *)
Theorem C40_inactive_postfilter_is_transparent :
  forall (F : Type) (o : ops F) t f d h (ch : channel F) i nbits freq, let c := config_new f d in
    h <= t_umax t -> reachable o t f d h ch -> 0 <= l_pitch i < 512 -> len freq = nf c -> l_active i = false -> t_active (ch_ltpf ch) = false ->
    exists s', ltpf_run o c (ch_ltpf ch) i nbits freq = Ok (freq, s') /\ t_active s' = false.
Proof.
  intros F o t f d h ch i nbits freq c Hh HR Hp Hf Ha Hs. destruct (reachable_ok o t f d h ch Hh HR) as ([_ _ _ _ _ K6] & _). apply ltpf_transparent; auto. eexists _, _; reflexivity.
Qed.
Print Assumptions C40_inactive_postfilter_is_transparent.
(* A whole call on which the filter is and was off delivers the rounded output of the transform *)
Theorem C40_plain_call_outputs_the_transform :
  forall (F : Type) (o : ops F) t f d h (ch : channel F) buf out r ch' out', let c := config_new f d in
    h < t_umax t -> reachable o t f d h ch -> bytes buf -> t_active (ch_ltpf ch) = false -> plain_frame t c buf \/ corrupt t c buf = true ->
    decode_channel o t c ch 16 buf out = Ok (r, ch', out') ->
    t_active (ch_ltpf ch') = false /\ exists freq m, mdct_run o c (ch_mdct ch) (ch_lines ch') (ch_freq ch) = Ok (freq, m) /\ out' = scale_and_round o freq out.
Proof.
  intros F o t f d h ch buf out r ch' out' c Hh HR Hb Hs HP H. destruct (reachable_ok o t f d h ch ltac:(lia) HR) as (K & I & _). fold c in K. pose proof K as [K1 K2 K3 K4 K5 K6].
  assert (L : legal_config c) by (eexists _, _; reflexivity). unfold plain_frame, corrupt in HP.
  assert (NP : read_frame (t_chk t) c buf <> Panic).
  { intros X. unfold decode_channel, decode_spectrum in H. cbn [Z.eqb Pos.eqb negb] in H. rewrite X in H. destruct (uincr t (ch_index ch)); discriminate H. }
  destruct (decode_spectrum_ok o t c ch buf L K Hb NP ltac:(lia)) as ([[p lines] info] & E & D1 & D2 & D3 & D4 & D5).
  assert (HA : l_active info = false).
  { unfold decode_spectrum in E. destruct (read_frame (t_chk t) c buf) as [fr|e|]; [| |congruence].
    - destruct (decode_lines o t c fr (ch_lines ch)) as [l| |]; cbn [bind] in E; try discriminate E. destruct (plc_save o (ch_plc ch) l); cbn [bind] in E; try discriminate E. injection E as _ _ <-. destruct HP as [HP|HP]; [exact HP|discriminate HP].
    - destruct (plc_load o t (ch_plc ch) (ch_lines ch)) as [[p0 l0]| |]; cbn [bind] in E; try discriminate E. injection E as _ _ <-. reflexivity. }
  unfold decode_channel in H. cbn [Z.eqb Pos.eqb negb] in H. destruct (uincr t (ch_index ch)) as [ix| |]; cbn [bind] in H; try discriminate H. rewrite E in H. cbn [bind] in H.
  destruct (mdct_run_ok o c (ch_mdct ch) lines (ch_freq ch) L K5 D1 K2) as ([fr m] & EM & M1 & M2). rewrite EM in H. cbn [bind] in H.
  destruct (ltpf_transparent o c (ch_ltpf ch) info (len buf * 8) fr L K6 D4 M1 HA Hs) as (s' & ES & AS). rewrite ES in H. cbn [bind] in H. injection H as _ <- <-.
  cbn [ch_ltpf ch_lines]. split; [exact AS|]. exists fr, m. auto.
Qed.
Print Assumptions C40_plain_call_outputs_the_transform.
(* concealed frames switch it off: the conjunct `t_active = false` of C10_corrupt_frames_are_concealed, for one call *)
Theorem C40_concealed_frames_switch_it_off :
  forall (F : Type) (o : ops F) t f d h (ch : channel F) buf out e, let c := config_new f d in
    h < t_umax t -> reachable o t f d h ch -> bytes buf -> read_frame (t_chk t) c buf = Err e ->
    exists ch' out', decode_channel o t c ch 16 buf out = Ok (None, ch', out') /\ t_active (ch_ltpf ch') = false.
Proof.
  intros F o t f d h ch buf out e c Hh HR Hb HE. destruct (reachable_ok o t f d h ch ltac:(lia) HR) as (K & I & _). fold c in K. assert (L : legal_config c) by (eexists _, _; reflexivity).
  destruct (decode_channel_ok o t c ch buf out L K Hb ltac:(congruence) ltac:(lia)) as ([[r ch'] out'] & E & -> & _ & _ & _ & P). unfold plc_effect in P. rewrite HE in P. exists ch', out'. tauto.
Qed.
Print Assumptions C40_concealed_frames_switch_it_off.
Example C40_case : exists dec ch, x_dec = Ok dec /\ idx (d_channels dec) 0 = Ok ch /\ reachable Z_ops t32 Hz8000 SevenPointFiveMs 0 ch /\ t_active (ch_ltpf ch) = false /\
  plain_frame t32 (config_new Hz8000 SevenPointFiveMs) x_good /\ read_frame true (config_new Hz8000 SevenPointFiveMs) x_bad = Err LastNonZeroTupleGreaterThanYLen.
Proof.
  assert (E : exists dec, x_dec = Ok dec) by (eexists; vm_compute; reflexivity). destruct E as [dec E]. exists dec.
  assert (EC : exists ch, idx (d_channels dec) 0 = Ok ch /\ t_active (ch_ltpf ch) = false). { vm_compute in E. injection E as <-. eexists. split; [reflexivity|reflexivity]. }
  destruct EC as (ch & EC & EA). exists ch. split; [exact E|]. split; [exact EC|]. split; [|split; [exact EA|split; [vm_compute; reflexivity|vm_compute; reflexivity]]].
  destruct (proj1 C10_case_hypotheses) as (ns & nx & Q1 & Q2 & Q3).
  exists 2, (repeat 0 2000), (repeat (0, 0) 500), ns, nx, dec, 0, ch, [], []. unfold len. rewrite !repeat_length. split; [lia|]. split; [exact Q1|]. split; [exact Q2|]. split; [exact Q3|]. split; [exact E|]. split; [exact EC|].
  split; [cbn; lia|]. split; [constructor|reflexivity].
Qed.

(* ---- C41 ---- *)
(* The model is a function, so equal states and equal calls give equal states; what says more is which part of the state counts.
   Two channels that agree on the live part (last lines, loss count, factor, generator, overlap memory, the postfilter rings and, while
   active, its parameters) return the same samples for ever, whatever the rest of their buffers holds. *)
Theorem C41_live_state_determines_the_future :
  forall (F : Type) (o : ops F) t f d h (a b : channel F) cs, let c := config_new f d in
    reachable o t f d h a -> reachable o t f d h b -> h + len cs <= t_umax t -> ch_eqv o true c a b ->
    Forall (fun k => bytes (k_buf k) /\ read_frame (t_chk t) c (k_buf k) <> Panic) cs ->
    exists rs a' b', run_channel o t c a cs = Ok (rs, a') /\ run_channel o t c b cs = Ok (rs, b') /\ ch_eqv o true c a' b'.
Proof.
  intros F o t f d h a b cs c Ra Rb Hh HE HF. pose proof (len_nonneg cs). destruct (reachable_ok o t f d h a ltac:(lia) Ra) as (A1 & A2 & _). destruct (reachable_ok o t f d h b ltac:(lia) Rb) as (B1 & B2 & _).
  apply run_channel_eqv; auto; try lia; [eexists _, _; reflexivity|]. eapply Forall_impl; [|exact HF]. cbv beta. tauto.
Qed.
Print Assumptions C41_live_state_determines_the_future.
(* History is limited: whatever two decoders of a configuration were fed before and whatever their buffers held, one good frame without
   postfilter brings the samples together, and after two more (three with 7.5 ms) only the generator of the concealment signs can differ. *)
Theorem C41_resynchronisation :
  forall (F : Type) (o : ops F) t f d h (a b : channel F) k cs, let c := config_new f d in
    reachable o t f d h a -> reachable o t f d h b -> len cs = l_blocks (cfg_lens c) -> h + len cs + 1 <= t_umax t ->
    Forall (fun k => k_bits k = 16 /\ bytes (k_buf k) /\ plain_frame t c (k_buf k)) (k :: cs) ->
    exists ra rb rs a' b', run_channel o t c a (k :: cs) = Ok (ra :: rs, a') /\ run_channel o t c b (k :: cs) = Ok (rb :: rs, b') /\ ch_eqv o false c a' b'.
Proof. intros. now apply resync_reachable with (h := h). Qed.
Print Assumptions C41_resynchronisation.
(* and from there on good frames, with any use of the postfilter, give the same samples *)
Theorem C41_good_frames_after_resynchronisation :
  forall (F : Type) (o : ops F) t c (a b : channel F) cs, legal_config c -> channel_ok c a -> channel_ok c b -> ch_index a + len cs <= t_umax t -> ch_index b + len cs <= t_umax t -> ch_eqv o false c a b ->
    Forall (fun k => bytes (k_buf k) /\ exists fr, read_frame (t_chk t) c (k_buf k) = Ok fr) cs ->
    exists rs a' b', run_channel o t c a cs = Ok (rs, a') /\ run_channel o t c b cs = Ok (rs, b') /\ ch_eqv o false c a' b'.
Proof.
  intros F o t c a b cs L Ka Kb Ia Ib HE HF. apply run_channel_eqv; auto. eapply Forall_impl; [|exact HF]. cbv beta. intros k (H1 & fr & H2). split; [exact H1|]. unfold corrupt. rewrite H2. split; [discriminate|now right].
Qed.
Print Assumptions C41_good_frames_after_resynchronisation.
Example C41_case : l_blocks (cfg_lens (config_new Hz8000 SevenPointFiveMs)) = 3 /\ l_blocks (cfg_lens (config_new Hz48000 TenMs)) = 2 /\
  Forall (fun k => k_bits k = 16 /\ bytes (k_buf k) /\ plain_frame t32 (config_new Hz8000 SevenPointFiveMs) (k_buf k)) (repeat (mkCall 16 0 x_good (repeat 0 60)) 4).
Proof.
  split; [reflexivity|]. split; [reflexivity|]. cbn [repeat]. repeat (constructor; [split; [reflexivity|split; [apply bytes_repeat; lia|vm_compute; reflexivity]]|]). constructor.
Qed.
