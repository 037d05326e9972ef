(* Final theorems: the decoder's line and sample processing (C18, C19, C21, C27, C34, C35). *)
From Coq Require Import ZArith List Bool Lia Reals Lra.
From Flocq Require Import Core BinarySingleNaN.
From Verif Require Import Base Config SideInfo ArithDec FrameDec FrameSpec Buffers BuffersProofs FftFactor FactorProofs Loops Scalar DecSignal Fft DecMdct DecLtpf Decoder DecTotal DecState DecRun ParseBase ParseTotal RealOps FftSpec Dft DctSpec MdctSpec LtpfSpec LtpfExact LineSpec F32 F32Round F32Lines PropertiesDecoder.
Import ListNotations.
Local Open Scope Z_scope.

(* ---- C18 ---- *)
(* sample_spec: NaN gives 0, infinities the extremes, a finite x clamp16 (round_away x), see C18_round_away_is_nearest.
   Missing from the full claim: the two values plus and minus (1/2 - 2^-25), for which it is false. *)
Theorem C18_output_rounding_partial :
  forall lm (x : list f32) (out : list Z), Forall (fun v => B2R v <> pred_half /\ B2R v <> (- pred_half)%R) x ->
    len (scale_and_round (f32_ops lm) x out) = len out /\
    (forall j, 0 <= j < len out -> j < len x -> getz 0 (scale_and_round (f32_ops lm) x out) j = sample_spec (getz B754_nan x j)) /\
    (forall j, len x <= j -> getz 0 (scale_and_round (f32_ops lm) x out) j = getz 0 out j).
Proof.
  intros lm x out H. unfold scale_and_round. split; [apply len_zipmod|]. split.
  - intros j H1 H2. rewrite (zipmod_get (fun _ v => to_i16 (f32_ops lm) v) 0 (B754_nan : f32)) by assumption. rewrite Forall_forall in H. destruct (H (getz B754_nan x j)) as [A B]; [|now apply to_i16_correct].
    unfold getz. apply nth_In. unfold len, f32 in *. lia.
  - intros j Hj. now apply zipmod_get_over.
Qed.
Print Assumptions C18_output_rounding_partial.
Theorem C18_round_away_is_nearest :
  forall x, (Rabs (IZR (round_away x) - x) <= / 2)%R /\ (Rabs (IZR (round_away x) - x) = / 2 -> Rabs x < Rabs (IZR (round_away x)))%R.
Proof. exact round_away_nearest. Qed.
Print Assumptions C18_round_away_is_nearest.
(* the largest float below 1/2: adding 1/2 rounds up to 1 (output_scaling.rs:17-21) *)
Theorem C18_output_rounding_refuted : ~ (forall lm x, to_i16 (f32_ops lm) x = sample_spec x).
Proof.
  intros H. set (z := f32_of_Z 0). specialize (H (mkLibm (fun _ => z) (fun x => x) (fun _ => z) (fun _ _ => (z, z)) (fun _ _ => (z, z))) (f32_norm 16777215 (-25))).
  assert (E : to_i16 (f32_ops (mkLibm (fun _ => z) (fun x => x) (fun _ => z) (fun _ _ => (z, z)) (fun _ _ => (z, z)))) (f32_norm 16777215 (-25)) = 1) by (vm_compute; reflexivity). rewrite E in H.
  destruct (norm_val 16777215 (-25) ltac:(lia) ltac:(lia)) as [V VF]. set (x := f32_norm 16777215 (-25)) in *.
  assert (ES : sample_spec x = clamp16 (round_away (B2R x))) by (destruct x; try discriminate VF; reflexivity). rewrite ES, V in H.
  assert (Q : F2R (Float radix2 16777215 (-25)) = (16777215 / 33554432)%R). { unfold F2R. cbn [Fnum Fexp]. change (bpow radix2 (-25)) with (/ IZR 33554432)%R. unfold Rdiv. reflexivity. }
  rewrite Q in H. unfold round_away in H. rewrite Rlt_bool_true in H by lra. rewrite (Zfloor_imp 0) in H; [vm_compute in H; discriminate H|]. cbn [Z.add]. split; lra.
Qed.
Print Assumptions C18_output_rounding_refuted.
Example C18_case :
  let z := f32_of_Z 0 in
  scale_and_round (f32_ops (mkLibm (fun _ => z) (fun x => x) (fun _ => z) (fun _ _ => (z, z)) (fun _ _ => (z, z))))
    [f32_of_Z 40000; f32_of_Z (-40000); f32_norm 5 (-1); f32_norm (-5) (-1); f32_norm 9 (-2); B754_nan; B754_infinity true; B754_infinity false] (repeat 7 10)
  = [32767; -32768; 3; -3; 2; 0; -32768; 32767; 7; 7].
Proof. vm_compute. reflexivity. Qed.

(* ---- C19 ---- *)
(* `filled`: inside the bandwidth, above the start line, and every quantised line within `nf_width` (and below the bandwidth) is zero.
   The generator gives the sign; its state never leaves 16 bits and the i32 computation does not overflow, with checks on or off. *)
Theorem C19_noise_filling :
  forall (F : Type) (o : ops F) chk seed bw d factor spec (lines : list F), 0 <= seed < 65536 -> 0 <= bw <= 4 -> len spec = 400 ->
    exists l, noise_fill o chk false seed bw d factor spec lines = Ok l /\ len l = len lines /\
      (forall k, 0 <= k < len lines -> filled d bw (len lines) spec k = false -> getz (fz o 0) l k = getz (fz o 0) lines k) /\
      (forall k, 0 <= k < len lines -> filled d bw (len lines) spec k = true -> getz (fz o 0) l k = nf_level o factor \/ getz (fz o 0) l k = fneg o (nf_level o factor)).
Proof.
  intros F o chk seed bw d factor spec lines Hs Hb Hl. destruct (noise_fill_spec o chk seed bw d factor spec lines Hs Hb Hl) as (l & E & L & T). exists l. split; [exact E|]. split; [exact L|]. split.
  - intros k Hk HF. rewrite T by exact Hk. unfold nf_value. now rewrite HF.
  - intros k Hk HF. rewrite T by exact Hk. unfold nf_value. rewrite HF. destruct (_ <? 32768); auto.
Qed.
Print Assumptions C19_noise_filling.
(* what `filled` means *)
Theorem C19_filled_lines_are_silent :
  forall d bw n spec k, filled d bw n spec k = true <->
    (nf_start d <= k < Z.min (nf_stop d bw) n /\ forall j, k - nf_width d <= j <= k + nf_width d -> j < nf_stop d bw -> getz 0 spec j = 0).
Proof.
  intros d bw n spec k. unfold filled. rewrite !andb_true_iff, Z.leb_le, Z.ltb_lt, silentb_ok. unfold silent. tauto.
Qed.
Print Assumptions C19_filled_lines_are_silent.
Corollary C19_nonzero_lines_are_kept :
  forall d bw n spec k, 0 <= k -> getz 0 spec k <> 0 -> filled d bw n spec k = false.
Proof.
  intros d bw n spec k Hk H. destruct (filled d bw n spec k) eqn:E; [|reflexivity]. apply C19_filled_lines_are_silent in E as [E1 E2]. exfalso. apply H, E2; [unfold nf_width; destruct d; lia|lia].
Qed.
Theorem C19_zero_frame_is_left_alone :
  forall (F : Type) (o : ops F) chk seed bw d factor spec (lines : list F), noise_fill o chk true seed bw d factor spec lines = Ok lines.
Proof. reflexivity. Qed.
Example C19_case : exists l, noise_fill Z_ops true false 56909 4 TenMs 3 (3 :: repeat 0 39 ++ [2] ++ repeat 0 359) (repeat 9 50) = Ok l /\
  firstn 24 l = repeat 9 24 /\ map (fun k => filled TenMs 4 50 (3 :: repeat 0 39 ++ [2] ++ repeat 0 359) k) [23; 24; 36; 37; 43; 44; 49; 50] = [false; true; true; false; false; true; true; false].
Proof. eexists. split; [vm_compute; reflexivity|]. split; vm_compute; reflexivity. Qed.

(* ---- C21 ---- *)
(* The decoder half. Line k takes the bit whose number is the count of non-zero lines before it, if there is one. The encoder half is C21_encoder_residual (PropertiesDetect.v). *)
Theorem C21_residual_decoding :
  forall (F : Type) (o : ops F) lines bits k, 0 <= k < len lines -> getz (fz o 0) (residual_lines o bits lines) k = refined o bits lines k.
Proof. intros. now apply residual_lines_spec. Qed.
Print Assumptions C21_residual_decoding.
Theorem C21_refinement_bounds :
  forall bit x, (1 <= Rabs x)%R ->
    (Rabs (refine R_ops bit x - x) = 3 / 16 \/ Rabs (refine R_ops bit x - x) = 5 / 16)%R /\ (11 / 16 <= Rabs (refine R_ops bit x))%R /\ (0 < refine R_ops bit x * x)%R.
Proof.
  intros bit x Hx. destruct (refine_R_bounds bit x Hx) as (_ & B & S). split; [|split; assumption].
  rewrite refine_R. replace (x + offset bit (Rlt_bool 0 x) - x)%R with (offset bit (Rlt_bool 0 x)) by ring.
  destruct bit, (Rlt_bool 0 x); cbn [offset]; [right|left|left|right]; unfold Rabs; destruct (Rcase_abs _); lra.
Qed.
Print Assumptions C21_refinement_bounds.
(* in binary32 the refinement of a parsed line is exact: parsed lines are below 2^17 (C09) *)
Theorem C21_refinement_is_exact_f32 :
  forall lm bit v, v <> 0 -> Z.abs v < 2 ^ 20 - 1 ->
    B2R (refine (f32_ops lm) bit (f32_of_Z v)) = (IZR v + offset bit (0 <? v))%R /\ is_finite (refine (f32_ops lm) bit (f32_of_Z v)) = true.
Proof. intros. now apply refine_f32. Qed.
Print Assumptions C21_refinement_is_exact_f32.
Example C21_case : map (fun k => rank (fun i => negb (is_zero Z_ops (getz 0 [5; 0; -3; 0; 2] i))) k) [0; 2; 4] = [0; 1; 2] /\ residual_lines Z_ops [true; false] [5; 0; -3; 0; 2] = [6; 0; -4; 0; 2].
Proof. split; vm_compute; reflexivity. Qed.

(* ---- C27 ---- *)
(* Every access is inside the buffers (the run is Ok, and every out of range access of the model is a panic), and each output sample satisfies the
   filter equation over the whole past of the stream: taps of the input around n and taps of the output around n - lag.
   Missing: with 10 ms frames, while the pitch changes, the second filter reads `read5` instead of its own output; it is the true past except
   for lags so long that lag + half the filter exceeds the ring less 2.5 ms (C27_exact_lag_refuted). *)
Theorem C27_postfilter_history_partial :
  forall (F : Type) (o : ops F) c n, legal_config c -> ltpf_lengths c = Ok n -> forall frames s prev hx hy,
    ltpf_ok c n s -> Forall (in_ok c) frames -> prev_is o c n prev s ->
    l_blocks n * nf c <= len hx -> l_blocks n * nf c <= len hy ->
    (forall t, - (l_blocks n * nf c) <= t < 0 -> past o (l_blocks n * nf c) (t_x s) (t_blk s) t = getz (fz o 0) hx (len hx + t)) ->
    (forall t, - (l_blocks n * nf c) <= t < 0 -> past o (l_blocks n * nf c) (t_xl s) (t_blk s) t = getz (fz o 0) hy (len hy + t)) ->
    exists bs s', ltpf_frames o c s frames = Ok (bs, s') /\ ltpf_ok c n s' /\ ltpf_trace o c n prev hx hy frames bs /\
      (changes_fit c n prev frames -> ltpf_exact o c n prev hx hy frames bs).
Proof.
  intros F o c n L E frames s prev hx hy S HF HP Hx Hy Kx Ky. destruct (ltpf_history o c n L E frames s prev hx hy S HF HP Hx Hy Kx Ky) as (bs & s' & E1 & S1 & T1).
  exists bs, s'. split; [exact E1|]. split; [exact S1|]. split; [exact T1|]. intros HC. eapply trace_exact; eassumption.
Qed.
Print Assumptions C27_postfilter_history_partial.
(* with 7.5 ms frames always exact *)
Theorem C27_exact_lag_7_5_ms :
  forall (F : Type) f n, ltpf_lengths (config_new f SevenPointFiveMs) = Ok n -> forall (frames : list (lt_in (F := F))) prev, Forall (in_ok (config_new f SevenPointFiveMs)) frames ->
    changes_fit (config_new f SevenPointFiveMs) n prev frames.
Proof. intros F f n E frames prev HF. exact (changes_75 f n E frames prev HF). Qed.
Print Assumptions C27_exact_lag_7_5_ms.
(* 8 kHz, 10 ms, pitch index 500 then 511, an impulse at sample 17 of the second frame: the output at sample 1 is not zero *)
Theorem C27_exact_lag_refuted :
  forall lm, let o := f32_ops lm in exists s frames, legal_config c8 /\ ltpf_lengths c8 = Ok n8 /\ ltpf_ok c8 n8 s /\ Forall (in_ok c8) frames /\ prev_is o c8 n8 None s /\
    forall bs s', ltpf_frames o c8 s frames = Ok (bs, s') -> ~ ltpf_exact o c8 n8 None h8 h8 frames bs.
Proof.
  intros lm o. exists st8, [fr1; fr2]. destruct (st8_ok lm) as (A1 & A2 & A3 & A4 & A5 & _). split; [exact A1|]. split; [exact A2|]. split; [exact A3|]. split; [exact A4|]. split; [exact A5|]. exact (exact_lag_false lm).
Qed.
Print Assumptions C27_exact_lag_refuted.

(* ---- C34 ---- *)
(* The table of every configuration: from 0, strictly increasing, nb bands, ending at ne. *)
Theorem C34_band_tables :
  forall f d, let c := config_new f d in exists e, band_table c = Ok e /\ len e = nb c + 1 /\ getz 0 e 0 = 0 /\ getz 0 e (nb c) = ne c /\ (forall b, 0 <= b < nb c -> getz 0 e b < getz 0 e (b + 1)) /\
    forall j, 0 <= j < ne c -> exists! b, 0 <= b < nb c /\ getz 0 e b <= j < getz 0 e (b + 1).
Proof.
  intros f d c. destruct (band_table_ok f d) as (e & E & K). fold c in E, K. exists e. split; [exact E|]. pose proof K as (K1 & K2 & K3 & K4). repeat (split; [assumption|]). now apply band_of.
Qed.
Print Assumptions C34_band_tables.
(* so the decoder multiplies each coded line exactly once, by the gain of its band *)
Theorem C34_each_line_shaped_once :
  forall (F : Type) (o : ops F) f d e gains lines, let c := config_new f d in band_table c = Ok e -> len gains = nb c -> len lines = ne c ->
    exists l, sns_shape o e gains lines = Ok l /\ len l = ne c /\
      forall j, 0 <= j < ne c -> exists! b, (0 <= b < nb c /\ getz 0 e b <= j < getz 0 e (b + 1)) /\ getz (fz o 0) l j = fmul o (getz (fz o 0) lines j) (getz (fz o 0) gains b).
Proof.
  intros F o f d e gains lines c E Hg Hl. destruct (band_table_ok f d) as (e' & E' & K). fold c in E', K. rewrite E in E'. injection E' as <-. rewrite <- Hg in K.
  destruct (sns_shape_spec o e gains lines (ne c) K ltac:(lia)) as (l & El & Ll & T1 & T2). exists l. split; [exact El|]. split; [lia|]. intros j Hj.
  destruct (band_of e (len gains) (ne c) K j Hj) as (b & [B1 B2] & U). exists b. split; [split; [rewrite <- Hg; split; assumption|now apply T1]|]. intros b' [[C1 C2] _]. apply U. rewrite Hg. split; assumption.
Qed.
Print Assumptions C34_each_line_shaped_once.
Example C34_case : exists e, band_table (config_new Hz8000 SevenPointFiveMs) = Ok e /\ getz 0 e 59 = 59 /\ nb (config_new Hz8000 SevenPointFiveMs) = 60.
Proof. eexists. split; [reflexivity|]. split; reflexivity. Qed.

(* ---- C35 ---- *)
(* `dft n x j` is the sum over t < n of x t exp (-2 pi i j t / n), over the complex numbers with the exact twiddle factors;
   lengths: half the frame length of each configuration, factored by the model of kf_factor. *)
Theorem C35_fft_is_the_dft :
  forall f d, let c := config_new f d in let n := nf c / 2 in
    exists fl, dct_factors (nf c) = Ok fl /\ forall (fin fout : list (R * R)), len fin = n -> n <= len fout ->
      exists l, fft_transform R_ops n fl fin fout = Ok l /\ len l = len fout /\
        (forall j, 0 <= j < n -> getz (d0 R_ops) l j = dft n (fun t => getz (d0 R_ops) fin t) j) /\
        (forall j, n <= j -> getz (d0 R_ops) l j = getz (d0 R_ops) fout j).
Proof.
  intros f d c n. assert (L : legal_config c) by (eexists _, _; reflexivity). destruct (dct_factors_ok c L) as (fl & E & Ch & Sm & Ne). exists fl. split; [exact E|]. intros fin fout Li Lo.
  apply fft_is_dft; auto. unfold n. destruct (config_geom c L) as (G & _). apply Z.div_le_lower_bound; lia.
Qed.
Print Assumptions C35_fft_is_the_dft.
(* any length whose factors lie in 2..5 *)
Theorem C35_fft_is_the_dft_any_length :
  forall n fl (fin fout : list (R * R)), 1 <= n -> chain n fl -> small_factors fl -> fl <> [] -> len fin = n -> n <= len fout ->
    exists l, fft_transform R_ops n fl fin fout = Ok l /\ forall j, 0 <= j < n -> getz (d0 R_ops) l j = dft n (fun t => getz (d0 R_ops) fin t) j.
Proof. intros n fl fin fout H1 H2 H3 H4 H5 H6. destruct (fft_is_dft n fl fin fout H1 H2 H3 H4 H5 H6) as (l & A & _ & B & _). exists l. auto. Qed.
Print Assumptions C35_fft_is_the_dft_any_length.
Example C35_case : dct_factors 480 = Ok [4; 60; 4; 15; 3; 5; 5; 1] /\ chain 240 [4; 60; 4; 15; 3; 5; 5; 1] /\ small_factors [4; 60; 4; 15; 3; 5; 5; 1].
Proof. split; [vm_compute; reflexivity|]. apply (chainb_ok 4); [cbn; lia|reflexivity]. Qed.
