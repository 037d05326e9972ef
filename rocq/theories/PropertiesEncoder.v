(* The encoder as a whole: channels, totality, size of the coded frame, and what the decoder's parser reads. *)
From Coq Require Import ZArith Lia List Bool.
From Verif Require Import Base Config SideInfo Reader Buffers AcSpec Loops Scalar EncScalar F32 EncF32 Fixed DecSignal DecTotal FrameDec ArithDec FrameEnc EncPayload EncFrame TailSpec PayloadSpec DecSide FrameSpec EncQuant Decoder Encoder EncOk PayloadBound EncRun EncCheck EncTrip.
Import ListNotations.
Local Open Scope Z_scope.

(* ---- C12, encoder ---- *)
Theorem C12_encoder_channels_independent :
  forall (F : Type) (o : ops F) e t i cs (en : encoder F) rs en' ch, run_ecalls o e t en cs = Ok (rs, en') -> idx (e_channels en) i = Ok ch ->
    exists ch', idx (e_channels en') i = Ok ch' /\ run_echannel o e t (e_config en) ch (filter (on_echannel i) cs) = Ok (epick i cs rs, ch').
Proof.
  intros F o e t i cs en rs en' ch H Hi. eapply echannel_independent; try eassumption. unfold idx in Hi. destruct (Z.ltb_spec i 0); [discriminate Hi|assumption].
Qed.
Print Assumptions C12_encoder_channels_independent.
Theorem C12_encoder_interleavings :
  forall (F : Type) (o : ops F) e t i cs1 cs2 (d1 d2 : encoder F) rs1 rs2 d1' d2' ch, run_ecalls o e t d1 cs1 = Ok (rs1, d1') -> run_ecalls o e t d2 cs2 = Ok (rs2, d2') ->
    e_config d1 = e_config d2 -> idx (e_channels d1) i = Ok ch -> idx (e_channels d2) i = Ok ch -> filter (on_echannel i) cs1 = filter (on_echannel i) cs2 ->
    epick i cs1 rs1 = epick i cs2 rs2 /\ idx (e_channels d1') i = idx (e_channels d2') i.
Proof.
  intros F o e t i cs1 cs2 d1 d2 rs1 rs2 d1' d2' ch H1 H2 HC I1 I2 HF.
  destruct (C12_encoder_channels_independent F o e t i cs1 d1 rs1 d1' ch H1 I1) as (c1 & A1 & A2). destruct (C12_encoder_channels_independent F o e t i cs2 d2 rs2 d2' ch H2 I2) as (c2 & B1 & B2).
  rewrite HC, HF, B2 in A2. injection A2 as A3 A4. split; [now symmetry|]. now rewrite A1, B1, A4.
Qed.
Print Assumptions C12_encoder_interleavings.

(* ---- C44 ---- *)
(* Missing for the full claim: the frames have to be regular at the time they are encoded (EncOk.frame_regular). Without it the pulse search of the noise shaping
   indexes out of range or runs on NaN (C23), an index of a reflection coefficient leaves its table, or the gain overflows 16 bits. *)
Theorem C44_encoder_total_partial :
  forall (F : Type) (o : ops F) e t, elaws o e ->
  forall num d f ni ns nx (i : list Z) (s : list F) (x : list (F * F)) cs,
    f <> Hz8000 -> 0 <= num -> enc_lens num d f = Ok (ni, ns, nx) -> ni <= len i -> ns <= len s -> nx <= len x -> t_chk t = false \/ len cs <= t_umax t ->
  exists en, encoder_new o num d f i s x = Ok en /\ e_config en = config_new f d /\ len (e_channels en) = num /\
    (Forall (call_ok en) cs -> calls_regular o e t en cs ->
     exists rs en', run_ecalls o e t en cs = Ok (rs, en') /\ Forall2 (fun k buf => len buf = len (g_buf k)) cs rs).
Proof.
  intros F o e t EL num d f ni ns nx i s x cs Hf Hn HL Hi Hs Hx Hb.
  destruct (encoder_new_ok o t num d f ni ns nx i s x (len cs) Hf Hn HL Hi Hs Hx Hb) as (en & E & K & Ec & El). exists en. split; [exact E|]. split; [exact Ec|]. split; [exact El|].
  intros HC HR. destruct (run_ecalls_ok o e t EL cs en K HC HR) as ([rs en'] & R & _ & _ & _ & R2). exists rs, en'. auto.
Qed.
Print Assumptions C44_encoder_total_partial.
(* binary32 with any libm *)
Corollary C44_encoder_total_f32_partial :
  forall (lm : libm) (el : elibm) t num d f ni ns nx (i : list Z) (s : list f32) (x : list (f32 * f32)) cs,
    f <> Hz8000 -> 0 <= num -> enc_lens num d f = Ok (ni, ns, nx) -> ni <= len i -> ns <= len s -> nx <= len x -> t_chk t = false \/ len cs <= t_umax t ->
  exists en, encoder_new (f32_ops lm) num d f i s x = Ok en /\ e_config en = config_new f d /\ len (e_channels en) = num /\
    (Forall (call_ok en) cs -> calls_regular (f32_ops lm) (f32_eops el) t en cs ->
     exists rs en', run_ecalls (f32_ops lm) (f32_eops el) t en cs = Ok (rs, en') /\ Forall2 (fun k buf => len buf = len (g_buf k)) cs rs).
Proof. intros lm el t. exact (C44_encoder_total_partial f32 (f32_ops lm) (f32_eops el) t (f32_elaws lm el)). Qed.
Print Assumptions C44_encoder_total_f32_partial.

(* two frames of noise in a row, 16 kHz, 7.5 ms, in fixed point *)
Fixpoint noise (n : nat) (s amp : Z) : list Z := match n with O => [] | S n => let s := (s * 1103515245 + 12345) mod 2147483648 in (s / 65536 mod (2 * amp + 1) - amp) :: noise n s amp end.
Definition ex_target : target := mkTarget true (2 ^ 64 - 1).
Definition ex_encoder (num : Z) : res (encoder Z) :=
  '(ni, ns, nx) <- enc_lens num SevenPointFiveMs Hz16000 ;;
  encoder_new fx_ops num SevenPointFiveMs Hz16000 (repeat 0 (Z.to_nat ni)) (repeat 0 (Z.to_nat ns)) (repeat (0, 0) (Z.to_nat nx)).
Definition ex_calls : list ecall := [mkEcall 1 (noise 120 1 3000) (repeat 0 40); mkEcall 1 (noise 120 7 200) (repeat 0 33)].
(* ---- C43 ---- *)
(* What holds: the arithmetic code and the side information overlap by less than one bit per 44 symbols *)
Theorem C43_payload_fits_partial :
  forall (F : Type) (o : ops F) e t f d ch x N, elaws o e -> f <> Hz8000 -> let c := config_new f d in ech_wf c ch -> ec_index ch < t_umax t \/ t_chk t = false -> len x = nf c ->
  20 <= N <= 400 -> fs_ind c < 3 \/ 31 <= N -> frame_regular o e t c ch x N ->
  exists p ch', analyse o e t c ch x N = Ok (p, ch') /\ let l := payload (ne c) p in let r := if N <=? 160 then 3 else if N <=? 320 then 4 else 5 in
    tbits l < 8 * N /\ iN (fin l) + 3 <= N /\
    (2 < p_lastnz p -> 2048 * payload_bits l <= 2048 * (8 * N + 3 - r) + 46 * len (ev_syms l)).
Proof.
  intros F o e t f d ch x N EL Hf c W Hi Lx HN H2 R. assert (Lc : legal_config c) by (eexists _, _; reflexivity). assert (Nb : nb c = 64 /\ 1 <= fs_ind c) by (unfold c; destruct f, d; try (exfalso; now apply Hf); split; (reflexivity || (vm_compute; discriminate))).
  destruct (analyse_ok o e t c ch x N EL Lc (proj1 Nb) (proj2 Nb) W Hi Lx HN H2 R) as ([p ch'] & E & W' & bw & nbw & s & tr & lp & q & xq & rb & nfv & l1 & l2 & h & n & m & b & B & Ep & ST & HX).
  exists p, ch'. split; [exact E|]. destruct (stages_fit o e EL c N bw nbw s tr lp q xq rb nfv l1 l2 h n m b B Lc HN H2 ST) as (_ & A & B1 & C1). rewrite <- Ep in A, B1, C1. cbv zeta. split; [exact A|]. split; [exact B1|]. intros H3.
  assert (Pl : qr_last q = p_lastnz p) by (rewrite Ep; reflexivity). destruct C1 as [[C1 _]|[_ C1]]; [lia|]. replace (if N <=? 160 then 3 else if N <=? 320 then 4 else 5) with (slack (8 * N)); [exact C1|].
  unfold slack. destruct (Z.leb_spec (8 * N) 1280), (Z.leb_spec N 160), (Z.leb_spec (8 * N) 2560), (Z.leb_spec N 320); lia.
Qed.
Print Assumptions C43_payload_fits_partial.

(* ---- C49 ---- *)
(* Missing for the full claim: payloads that do not fit (C43), the termination window (C05), least significant bits (C06), a gain index above 255, a line of -32768. *)
Theorem C49_encoded_frame_is_read_back_partial :
  forall (F : Type) (o : ops F) e t f d ch x buf, elaws o e -> f <> Hz8000 -> let c := config_new f d in ech_wf c ch -> ec_index ch < t_umax t \/ t_chk t = false -> len x = nf c ->
  20 <= len buf <= 400 -> fs_ind c < 3 \/ 31 <= len buf -> frame_regular o e t c ch x (len buf) ->
  exists ch' buf' p, analyse o e t c ch x (len buf) = Ok (p, ch') /\ encode o e t c ch x buf = Ok (ch', buf') /\ len buf' = len buf /\
    (p_gg p < 256 -> Forall (fun v => v <> -32768) (p_xq p) -> let l := payload (ne c) p in
     (2 < p_lastnz p -> 46 * len (ev_syms l) < 2048 * (slack (8 * len buf) - 2) -> payload_bits l <= 8 * len buf) /\
     (payload_bits l <= 8 * len buf -> exists q, frame_legal c (len buf) p q /\ bytes buf' /\
        read_side_info buf' reader_new (fs_ind c) (ne c) = Ok (spec_side p q, mkReader 0 (spec_side_len (ne c) p)) /\
        (~ term_window (fin l) \/ tbits l + Z.min (8 * len buf - payload_bits l) (len (res_source p)) + 8 * iN (fin l) + 24 <= 8 * len buf ->
         exists a xs, read_frame true c buf' = Ok (mkFrame (spec_side p q) a xs) /\ a_rc_order a = spec_orders p /\ a_rc_i a = spec_tns_idx p /\ len xs = 400 /\
           (p_lsb_mode p = false -> xs = spec_lines p) /\
           (forall i, 0 <= i < p_lastnz p -> Z.abs (getz 0 (p_xq p) i - getz 0 xs i) <= 2) /\ (forall i, p_lastnz p <= i -> getz 0 xs i = 0)))).
Proof. intros. now apply encode_trip. Qed.
Print Assumptions C49_encoded_frame_is_read_back_partial.

(* ---- a case for C44, C43 and C49: the two frames above on the second of two channels ---- *)
Definition window_b (s : ival) : bool := let j := Z.log2 (iR s) in (2 ^ 24 <=? iF s mod 2 ^ 24 + (2 ^ j - 1)) && (iF s + iR s <? round_up (iF s) j + 2 ^ j).
Definition trip_b (c : config) (p : enc_params) (N : Z) : bool :=
  let l := payload (ne c) p in (p_gg p <? 256) && forallb (fun v => negb (v =? -32768)) (p_xq p) && (payload_bits l <=? 8 * N) && negb (window_b (fin l)) && negb (p_lsb_mode p) && (100 <? p_lastnz p).
Definition ex_check (r : res (encoder Z)) : bool :=
  match r with
  | Ok en => forallb (call_ok_b en) ex_calls && calls_regular_b fx_ops fx_eops ex_target en ex_calls &&
             match idx (e_channels en) 1 with
             | Ok ch => match analyse fx_ops fx_eops ex_target (e_config en) ch (noise 120 1 3000) 40 with Ok (p, _) => trip_b (e_config en) p 40 | _ => false end
             | _ => false
             end
  | _ => false
  end.
Lemma ex_check_true : ex_check (ex_encoder 2) = true.
Proof. vm_compute. reflexivity. Qed.
Lemma ex_check_44 r : ex_check r = true -> exists en, r = Ok en /\ Forall (call_ok en) ex_calls /\ calls_regular fx_ops fx_eops ex_target en ex_calls.
Proof.
  intros H. destruct r as [en| |]; try discriminate H. exists en. unfold ex_check in H.
  apply andb_true_iff in H. destruct H as [H _]. apply andb_true_iff in H. destruct H as [H1 H2]. split; [reflexivity|]. split; [now apply call_ok_b_ok|now apply calls_regular_b_ok].
Qed.
Lemma ex_check_49 r : ex_check r = true -> exists en ch p ch', r = Ok en /\ idx (e_channels en) 1 = Ok ch /\ frame_regular fx_ops fx_eops ex_target (e_config en) ch (noise 120 1 3000) 40 /\
  analyse fx_ops fx_eops ex_target (e_config en) ch (noise 120 1 3000) 40 = Ok (p, ch') /\ p_gg p < 256 /\ Forall (fun v => v <> -32768) (p_xq p) /\
  payload_bits (payload (ne (e_config en)) p) <= 320 /\ ~ term_window (fin (payload (ne (e_config en)) p)) /\ p_lsb_mode p = false /\ 100 < p_lastnz p.
Proof.
  intros H. destruct r as [en| |]; try discriminate H. exists en. unfold ex_check in H. apply andb_true_iff in H. destruct H as [H H2]. apply andb_true_iff in H. destruct H as [_ H1].
  apply calls_regular_b_ok in H1. unfold ex_calls in H1. cbn [calls_regular g_ch g_x g_buf] in H1. destruct H1 as [H1 _]. change (len (repeat 0 40)) with 40 in H1.
  destruct (idx (e_channels en) 1) as [ch| |]; try discriminate H2. exists ch. specialize (H1 ch eq_refl).
  destruct (analyse fx_ops fx_eops ex_target (e_config en) ch (noise 120 1 3000) 40) as [[p ch']| |]; try discriminate H2. exists p, ch'. unfold trip_b in H2. cbv zeta in H2.
  repeat (apply andb_true_iff in H2; let H := fresh in destruct H2 as [H2 H]). split; [reflexivity|]. split; [reflexivity|]. split; [exact H1|]. split; [reflexivity|]. split; [lia|]. split.
  { apply Forall_forall. intros v Hv. match goal with A : forallb _ _ = true |- _ => rewrite forallb_forall in A; specialize (A v Hv) end. lia. }
  split; [lia|]. split; [|split; [now destruct (p_lsb_mode p)|lia]]. intros [A B]. match goal with A : negb (window_b _) = true |- _ => apply negb_true_iff in A; unfold window_b in A; apply andb_false_iff in A; destruct A as [A|A]; lia end.
Qed.
Example C44_case : elaws fx_ops fx_eops /\ exists en, ex_encoder 2 = Ok en /\ Forall (call_ok en) ex_calls /\ calls_regular fx_ops fx_eops ex_target en ex_calls.
Proof. split; [exact fx_elaws|]. exact (ex_check_44 _ ex_check_true). Qed.
Example C49_case : exists en ch p ch', ex_encoder 2 = Ok en /\ idx (e_channels en) 1 = Ok ch /\ frame_regular fx_ops fx_eops ex_target (e_config en) ch (noise 120 1 3000) 40 /\
  analyse fx_ops fx_eops ex_target (e_config en) ch (noise 120 1 3000) 40 = Ok (p, ch') /\ p_gg p < 256 /\ Forall (fun v => v <> -32768) (p_xq p) /\
  payload_bits (payload (ne (e_config en)) p) <= 320 /\ ~ term_window (fin (payload (ne (e_config en)) p)) /\ p_lsb_mode p = false /\ 100 < p_lastnz p.
Proof. exact (ex_check_49 _ ex_check_true). Qed.
