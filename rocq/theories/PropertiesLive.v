(* C49 in binary32: 16 bit audio and a live frame are enough. *)
From Coq Require Import ZArith List Bool Lia Reals Lra.
From Coquelicot Require Import Complex.
From Flocq Require Import Core BinarySingleNaN.
From Verif Require Import Base Config DecSignal DecState EncShape SideInfo Reader Buffers AcSpec FrameSpec Loops Scalar EncScalar RealOps F32 F32Round F32Lines EncF32 FrameDec ArithDec FrameEnc EncPayload EncFrame TailSpec PayloadSpec DecSide DctErr EncSns EncSnsOk EncTns TnsOk DecTotal DetectSpec QuantSpec EncQuant EncMdct EncDetect Decoder Encoder EncOk PayloadBound EncRun EncTrip EncKeep F32Err F32Size TnsSize ProjF32 EncSnsSize EncTnsSize EncSize PropertiesRounding PropertiesEncoder PropertiesFinite PropertiesEncF32.
From Coq Require Import List.
Import ListNotations.
Local Open Scope Z_scope.
(* as C49_encoded_frame_is_read_back_partial, with the same restrictions, but for the state any history of live calls leaves *)
Theorem C49_read_back_f32_live_partial :
  forall (lm : libm) (el : elibm) t f d ch x buf, encoder_library lm el -> f <> Hz8000 -> let c := config_new f d in twiddles_near lm (nf c / 2) -> ech_wf c ch -> buffers i16 c ch ->
  ec_index ch < t_umax t \/ t_chk t = false -> len x = nf c -> Forall i16 x ->
  20 <= len buf <= 400 -> fs_ind c < 3 \/ 31 <= len buf -> frame_live lm el c ch x (len buf) ->
  exists ch' buf' p, analyse (f32_ops lm) (f32_eops el) t c ch x (len buf) = Ok (p, ch') /\ encode (f32_ops lm) (f32_eops el) t c ch x buf = Ok (ch', buf') /\ len buf' = len buf /\ ech_wf c ch' /\ buffers i16 c ch' /\
    (p_gg p < 256 -> Forall (fun v => v <> -32768) (p_xq p) -> let l := payload (ne c) p in
     (2 < p_lastnz p -> 46 * len (ev_syms l) < 2048 * (slack (8 * len buf) - 2) -> payload_bits l <= 8 * len buf) /\
     (payload_bits l <= 8 * len buf -> exists q, frame_legal c (len buf) p q /\ bytes buf' /\
        read_side_info buf' reader_new (fs_ind c) (ne c) = Ok (spec_side p q, mkReader 0 (spec_side_len (ne c) p)) /\
        (~ term_window (fin l) \/ tbits l + Z.min (8 * len buf - payload_bits l) (len (res_source p)) + 8 * iN (fin l) + 24 <= 8 * len buf ->
         exists a xs, read_frame true c buf' = Ok (mkFrame (spec_side p q) a xs) /\ a_rc_order a = spec_orders p /\ a_rc_i a = spec_tns_idx p /\ len xs = 400 /\
           (p_lsb_mode p = false -> xs = spec_lines p) /\
           (forall i, 0 <= i < p_lastnz p -> Z.abs (getz 0 (p_xq p) i - getz 0 xs i) <= 2) /\ (forall i, p_lastnz p <= i -> getz 0 xs i = 0)))).
Proof.
  intros lm el t f d ch x buf LB Hf c TW W HB Hi Lx HX HN H2 FL. assert (L : legal_config c) by (eexists _, _; reflexivity). assert (Nb : nb c = 64) by (unfold c; destruct f, d; try (exfalso; now apply Hf); reflexivity).
  pose proof (live_regular lm el t c ch x (len buf) LB L TW Nb W Lx HN HB HX FL) as R.
  destruct (C49_encoded_frame_is_read_back_partial f32 (f32_ops lm) (f32_eops el) t f d ch x buf (f32_elaws lm el) Hf W Hi Lx HN H2 R) as (ch' & buf' & p & E1 & E2 & L2 & H). exists ch', buf', p. split; [exact E1|]. split; [exact E2|]. split; [exact L2|].
  destruct (encode_ok (f32_ops lm) (f32_eops el) t f d ch x buf (f32_elaws lm el) Hf W Hi Lx HN H2 R) as ([ch1 buf1] & E3 & W' & _). fold c in E2, E3. rewrite E2 in E3. apply ParseBase.Ok_inj in E3. apply pair_equal_spec in E3. destruct E3 as [<- <-]. split; [exact W'|]. split; [|exact H].
  exact (encode_keeps (f32_ops lm) (f32_eops el) i16 t c ch x buf ch' buf' L W Lx HB HX E2).
Qed.
Print Assumptions C49_read_back_f32_live_partial.

(* the hypotheses are met: a silent frame on a new channel with cleared buffers *)
From Verif Require QuietF32 PropertiesQuiet.
Example C49_live_case : exists ch : echannel f32, let c := config_new Hz48000 TenMs in
  encoder_library exact_library exact_elibrary /\ twiddles_near exact_library (nf c / 2) /\ ech_wf c ch /\ buffers i16 c ch /\ len (repeat 0 480) = nf c /\ Forall i16 (repeat 0 480) /\ frame_live exact_library exact_elibrary c ch (repeat 0 480) 100.
Proof.
  destruct C61_library as [LB TW]. assert (HL : enc_lens 1 TenMs Hz48000 = Ok (1900, 1106, 960)) by reflexivity. assert (Z0 : forall n, Forall (fun v => v = 0) (repeat 0 n)) by (intros n; apply Forall_forall; intros v Hv; now apply repeat_spec in Hv).
  set (i := repeat 0 (Z.to_nat 1900)). set (s := repeat (f32_of_Z 0) (Z.to_nat 1106)). set (x := repeat (f32_of_Z 0, f32_of_Z 0) (Z.to_nat 960)).
  destruct (encoder_new_ok (f32_ops exact_library) (mkTarget false 1) 1 TenMs Hz48000 1900 1106 960 i s x 1 ltac:(discriminate) ltac:(lia) HL ltac:(unfold i; rewrite len_repeat; lia) ltac:(unfold s; rewrite len_repeat; lia) ltac:(unfold x; rewrite len_repeat; lia) ltac:(now left)) as (en & E & K & Ec & El).
  pose proof (fresh_buffers (f32_ops exact_library) (fun v => v = 0) (mkTarget false 1) 1 TenMs Hz48000 i s x en 1 E K (Z0 _)) as HB. destruct K as [_ KC]. rewrite Ec in HB, KC.
  destruct (e_channels en) as [|ch l]; [discriminate El|]. inversion_clear KC as [|? ? [W _] _]. inversion_clear HB as [|? ? B _]. exists ch. intros c. split; [exact LB|]. split; [apply TW|]. split; [exact W|].
  split; [intros j Hj; rewrite (B j Hj); unfold i16; lia|]. split; [reflexivity|]. split; [apply PropertiesQuiet.quiet_i16, Z0|]. apply QuietF32.quiet_live; try apply TW; auto; [apply PropertiesQuiet.C44_quiet_library|now exists Hz48000, TenMs].
Qed.
