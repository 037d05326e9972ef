(* The pitch detector of the encoder never panics, keeps its buffers and selects a lag in range, in any arithmetic *)
From Coq Require Import ZArith Lia List Bool.
From Verif Require Import Base Config Loops Scalar EncScalar DecSignal DecLtpf DecTotal TablesLtpf EncLtpf FrameSpec.
Import ListNotations.
Local Open Scope Z_scope.

Ltac lenz := repeat match goal with |- context [len ?l] => match l with TAB_RESAMP_FILTER => change (len l) with 239 | TAB_LTPF_INTERP_R => change (len l) with 31
  | TAB_LTPF_INTERP_X12K8 => change (len l) with 15 end end.

Lemma shift_front_ok {A} (l : list A) from : 0 <= from <= len l -> okp (shift_front l from) (fun l' => len l' = len l).
Proof.
  intros H. unfold shift_front. eapply okp_bind; [apply okp_sub; liab|]. intros s Hs. cbv beta in Hs. apply okp_blit; liab.
Qed.

(* (upsampling factor, length of the extension) a sampling rate has *)
Definition up_ok (up : Z) : Prop := up = 24 \/ up = 12 \/ up = 8 \/ up = 6 \/ up = 4.

Section Ok.
Context {F : Type} (o : ops F) (e : eops F).

Lemma resample_one_ok xs up rf n : up_ok up -> 0 <= n -> 240 / up + 15 * n / up < len xs -> okp (resample_one o xs up rf n) (fun _ => True).
Proof.
  intros Hu Hn Hl. unfold resample_one. eapply okp_bind with (P := fun _ => True); [|intros s _; now apply okp_ok].
  apply (okp_for (fun _ => True)); [exact I|]. intros k s Hk _.
  destruct (Z.ltb_spec (-120) (up * k - (15 * n) mod up)); [|now apply okp_ok].
  destruct (Z.ltb_spec (up * k - (15 * n) mod up) 120); [|now apply okp_ok]. cbn [andb].
  assert (Q : 240 / up = 2 * (120 / up) /\ up * (120 / up) = 120) by (destruct Hu as [->|[->|[->|[->| ->]]]]; split; reflexivity).
  assert (M : 0 <= (15 * n) mod up < up) by (apply Z.mod_pos_bound; destruct Hu as [->|[->|[->|[->| ->]]]]; liab).
  assert (D : 0 <= 15 * n / up) by (apply Z.div_pos; destruct Hu as [->|[->|[->|[->| ->]]]]; liab).
  eapply okp_bind; [apply okp_idx|]. { liab. } intros x _.
  eapply okp_bind; [apply okp_idx; lenz; liab|]. intros h _. now apply okp_ok.
Qed.
Lemma resample_ok xs up rf base l12 x12 : up_ok up -> 0 <= base -> 0 <= l12 -> base + l12 <= len x12 -> 240 / up + 15 * (l12 - 1) / up < len xs ->
  okp (resample o xs up rf base l12 x12) (fun x => len x = len x12).
Proof.
  intros Hu Hb Hl H1 H2. unfold resample. eapply okp_bind; [apply okp_sub; liab|]. intros _ _.
  apply (okp_for (fun x => len x = len x12)); [reflexivity|]. intros n x Hn Hx.
  eapply okp_bind; [apply resample_one_ok; [assumption|liab|]|].
  - eapply Z.le_lt_trans; [|exact H2]. apply Z.add_le_mono_l. apply Z.div_le_mono; [destruct Hu as [->|[->|[->|[->| ->]]]]; liab|liab].
  - intros v _. eapply okp_weaken; [apply okp_put; liab|]. cbn. intros; liab.
Qed.
Lemma highpass50_ok base l12 x12 h1 h2 : 0 <= base -> 0 <= l12 -> base + l12 <= len x12 -> okp (highpass50 o base l12 (x12, h1, h2)) (fun '(x, _, _) => len x = len x12).
Proof.
  intros Hb Hl H. unfold highpass50. apply (okp_for (fun '(x, _, _) => len x = len x12)); [reflexivity|]. intros n [[x a] b] Hn Hx.
  eapply okp_bind; [apply okp_idx; liab|]. intros v _. eapply okp_bind; [apply okp_put; liab|]. intros y Hy. apply okp_ok. liab.
Qed.
Lemma downsample2_ok x12 l6 x6 : 0 <= l6 -> K_MAX + l6 <= len x6 -> NMEM + 2 <= len x12 -> okp (downsample2 o x12 l6 x6) (fun x => len x = len x6).
Proof.
  unfold K_MAX, NMEM. intros H0 H1 H2. unfold downsample2, K_MAX, NMEM. eapply okp_bind; [apply okp_sub; liab|]. intros _ _.
  eapply okp_bind; [apply okp_sub; liab|]. intros w Hw.
  apply (okp_for (fun x => len x = len x6)); [reflexivity|]. intros n x Hn Hx.
  assert (2 * n + 4 < len w).
  { assert (n <= (len w - 5) / 2) by liab. pose proof (Z.mul_div_le (len w - 5) 2 ltac:(liab)). liab. }
  do 5 (eapply okp_bind; [apply okp_idx; liab|]; intros ? _). eapply okp_weaken; [apply okp_put; liab|]. cbn. intros; liab.
Qed.
Lemma autocorr6_ok x6 l6 : 0 <= l6 -> K_MAX + l6 <= len x6 -> okp (autocorr6 o x6 l6) (fun '(r, rw) => len r = 98 /\ len rw = 98).
Proof.
  unfold K_MAX. intros H0 H1. unfold autocorr6, K_MAX, K_MIN. apply (okp_for (fun '(r, rw) => len r = 98 /\ len rw = 98)); [split; reflexivity|].
  intros k [r rw] Hk [L1 L2]. eapply okp_bind; [apply okp_sub; liab|]. intros u _. eapply okp_bind; [apply okp_sub; liab|]. intros v _. cbv zeta.
  eapply okp_bind; [apply okp_put; liab|]. intros r' Hr. eapply okp_bind; [apply okp_put; liab|]. intros rw' Hrw. apply okp_ok. liab.
Qed.
Lemma max_from_range : forall (l : list F) n best mx, 0 <= best <= n -> best < n \/ l <> [] -> (best <= max_from o l n best mx \/ n <= max_from o l n best mx) /\ max_from o l n best mx < n + len l \/ max_from o l n best mx = best.
Proof.
  induction l as [|v l IH]; intros n best mx H K; cbn [max_from]; [right; reflexivity|].
  assert (len (v :: l) = len l + 1) by (unfold len; cbn [length]; liab). assert (0 <= len l) by (unfold len; liab).
  destruct (flt o mx v).
  - destruct (IH (n + 1) n v ltac:(liab) ltac:(liab)) as [[A B]|A]; left; liab.
  - destruct (IH (n + 1) best mx ltac:(liab) ltac:(liab)) as [[A B]|A]; [left; liab|right; assumption].
Qed.
Lemma index_of_max_range (l : list F) : 0 < len l -> 0 <= index_of_max o l < len l.
Proof.
  intros H. destruct l as [|v l]; [cbn in H; liab|]. unfold index_of_max. destruct (max_from_range (v :: l) 0 0 v ltac:(liab)) as [A|A]; [right; discriminate| |]; liab.
Qed.
Lemma norm_value_ok x6 l6 lag : 0 <= l6 -> 0 <= lag <= K_MAX -> K_MAX + l6 <= len x6 -> okp (norm_value o x6 l6 lag) (fun _ => True).
Proof.
  unfold K_MAX. intros H0 H1 H2. unfold norm_value, K_MAX. eapply okp_bind; [apply okp_usub; liab|]. intros from ->. eapply okp_bind; [apply okp_sub; liab|]. intros w _. now apply okp_ok.
Qed.
Lemma pitch_detect_ok l6 t_prev x12 x6 : 0 <= l6 -> K_MIN <= t_prev <= K_MAX -> K_MAX + l6 <= len x6 -> NMEM + 2 <= len x12 ->
  okp (pitch_detect o l6 t_prev x12 x6) (fun '(t, _, x) => K_MIN <= t <= K_MAX /\ len x = len x6).
Proof.
  intros H0 Ht H1 H2. unfold pitch_detect. eapply okp_bind; [now apply downsample2_ok|]. intros y6 Hy. cbv beta in Hy.
  eapply okp_bind; [apply autocorr6_ok; liab|]. intros [r rw] [Lr Lrw]. cbv zeta.
  pose proof (index_of_max_range rw ltac:(liab)) as I1. set (i1 := index_of_max o rw) in *. clearbody i1.
  unfold K_MIN, K_MAX in *. eapply okp_bind; [apply okp_usub; liab|]. intros m ->.
  eapply okp_bind; [apply okp_usub; liab|]. intros k ->.
  eapply okp_bind; [apply okp_sub; liab|]. intros w Hw. cbv beta in Hw.
  pose proof (index_of_max_range w ltac:(liab)) as I2. set (i2 := index_of_max o w) in *. clearbody i2.
  eapply okp_bind; [apply norm_value_ok; unfold K_MAX; liab|]. intros n0 _.
  eapply okp_bind; [apply norm_value_ok; unfold K_MAX; liab|]. intros n1 _.
  eapply okp_bind; [apply okp_idx; liab|]. intros r1 _.
  eapply okp_bind with (P := fun _ => True).
  - destruct (Z.eqb _ _); [now apply okp_ok|]. eapply okp_bind; [apply norm_value_ok; unfold K_MAX; liab|]. intros n2 _.
    eapply okp_bind; [apply okp_idx; liab|]. intros r2 _. now apply okp_ok.
  - intros c2 _. apply okp_ok. destruct (flt o _ c2); liab.
Qed.

Lemma interpolate_ok r rel d : 4 <= rel -> rel + 4 < len r -> okp (interpolate o r rel d) (fun _ => True).
Proof.
  intros H1 H2. unfold interpolate. apply (okp_for (fun _ => True)); [exact I|]. intros m s Hm _. cbv zeta.
  destruct (Z.ltb_spec (-16) (4 * m - d)); [|now apply okp_ok]. destruct (Z.ltb_spec (4 * m - d) 16); [|now apply okp_ok]. cbn [andb].
  eapply okp_bind; [apply okp_idx; lenz; liab|]. intros h _. eapply okp_bind; [apply okp_idx; liab|]. intros x _. now apply okp_ok.
Qed.
Lemma best_fraction_ok (step : Z) (r : list F) rel (P : Z -> Prop) : 4 <= rel -> rel + 4 < len r ->
  forall n d s, (forall i, 0 <= i < Z.of_nat n -> P (d + i * step)) -> P (snd s) -> okp (best_fraction o n d step r rel s) P.
Proof.
  intros H1 H2. induction n as [|n IH]; intros d [m f] K Hs; cbn [best_fraction]; [now apply okp_ok|].
  eapply okp_bind; [now apply interpolate_ok|]. intros v _. apply IH.
  - intros i Hi. replace (d + step + i * step) with (d + (i + 1) * step) by liab. apply K. liab.
  - cbn [fst snd] in *. destruct (flt o m v); cbn [snd]; [|assumption]. replace d with (d + 0 * step) by liab. apply K. liab.
Qed.

(* the lags the encoder can select: whole samples and quarters, with the resolution LC3 gives to each range *)
Definition selectable (p fr : Z) : Prop :=
  32 <= p <= 126 /\ 0 <= fr <= 3 \/ 127 <= p <= 156 /\ (fr = 0 \/ fr = 2) \/ 157 <= p <= 228 /\ fr = 0.
Definition lag_index (p fr : Z) : Z := if p <? 127 then 4 * p + fr - 128 else if p <? 157 then 2 * p + fr / 2 - 126 else p + 283.

Lemma pitch_lag_ok l12 t x12 : K_MIN <= t <= K_MAX -> 0 <= l12 -> NMEM + l12 <= len x12 ->
  okp (pitch_lag o l12 t x12) (fun '(index, p, fr) => selectable p fr /\ index = lag_index p fr).
Proof.
  unfold K_MIN, K_MAX, NMEM. intros Ht H0 H1. unfold pitch_lag, NMEM.
  eapply okp_bind; [apply okp_usub; liab|]. intros m ->. cbv zeta.
  set (k_min := Z.max 32 (2 * t - 4)) in *. set (k_max := Z.min 228 (2 * t + 4)) in *.
  assert (Hk : 32 <= k_min <= k_max /\ k_max <= 228 /\ k_max - k_min <= 8) by liab. clearbody k_min k_max.
  eapply okp_bind; [apply okp_usub; liab|]. intros lo ->.
  eapply okp_bind; [apply okp_usub; liab|]. intros n ->.
  eapply okp_bind; [apply okp_sub; [liab|change (len (repeat (fz o 0) 233)) with 233; liab]|]. intros r Lr. cbv beta in Lr.
  eapply okp_bind with (P := fun '(r', _, p) => len r' = len r /\ k_min <= p <= k_max).
  { apply (okp_for (fun '(r', _, p) => len r' = len r /\ k_min <= p <= k_max)); [split; [reflexivity|liab]|]. intros k [[r' mx] p] Hkk [L P].
    eapply okp_bind; [apply okp_sub; liab|]. intros u _. eapply okp_bind; [apply okp_usub; liab|]. intros b ->. eapply okp_bind; [apply okp_usub; liab|]. intros b' ->.
    eapply okp_bind; [apply okp_sub; liab|]. intros v _. cbv zeta. eapply okp_bind; [apply okp_put; liab|]. intros r2 L2. cbv beta in L2.
    destruct (flt o mx _); cbn [andb]; [|apply okp_ok; liab].
    destruct (Z.leb_spec k_min k); cbn [andb]; [|apply okp_ok; liab]. destruct (Z.leb_spec k k_max); apply okp_ok; liab. }
  intros [[r' mx] p] [L P]. eapply okp_bind; [apply okp_usub; liab|]. intros rel ->.
  eapply okp_bind with (P := fun fr => p = 32 /\ 0 <= fr <= 3 \/ 33 <= p <= 126 /\ -3 <= fr <= 3 \/ 127 <= p <= 156 /\ (fr = -2 \/ fr = 0 \/ fr = 2) \/ 157 <= p /\ fr = 0).
  { destruct (Z.eqb_spec p 32).
    { apply best_fraction_ok; [liab|liab| |cbn; liab]. intros i Hi. change (Z.of_nat 4) with 4 in Hi. liab. }
    destruct (Z.ltb_spec p 127); cbn [andb].
    { destruct (Z.ltb_spec 32 p); [|liab]. apply best_fraction_ok; [liab|liab| |cbn; liab]. intros i Hi. change (Z.of_nat 7) with 7 in Hi. liab. }
    destruct (Z.leb_spec 127 p); [|liab]. cbn [andb]. destruct (Z.ltb_spec p 157).
    { apply best_fraction_ok; [liab|liab| |cbn; liab]. intros i Hi. change (Z.of_nat 3) with 3 in Hi. liab. }
    apply okp_ok. liab. }
  intros fr Hf.
  eapply okp_bind with (P := fun '(p', fr') => selectable p' fr').
  { unfold selectable. destruct (Z.ltb_spec fr 0); [|apply okp_ok; liab]. eapply okp_bind; [apply okp_usub; liab|]. intros p' ->. apply okp_ok. liab. }
  intros [p' fr'] Hs. apply okp_ok. split; [assumption|]. unfold lag_index. clear -Hs. unfold selectable in Hs.
  destruct (Z.ltb_spec p' 127); [apply Z.mod_small; liab|]. destruct (Z.ltb_spec p' 157); [|reflexivity].
  rewrite Z.quot_div_nonneg by liab. apply Z.mod_small. assert (0 <= fr' / 2 <= 1) by (split; [apply Z.div_pos|apply Z.lt_succ_r; apply Z.div_lt_upper_bound]; liab). liab.
Qed.

Lemma interp12_ok x12 n d : 0 <= d <= 3 -> -230 <= n -> NMEM + n + 2 <= len x12 -> okp (interp12 o x12 n d) (fun _ => True).
Proof.
  unfold NMEM. intros Hd H1 H2. unfold interp12, NMEM. apply (okp_for (fun _ => True)); [exact I|]. intros k s Hk _. cbv zeta.
  destruct (Z.ltb_spec (-8) (4 * k - d)); [|now apply okp_ok]. destruct (Z.ltb_spec (4 * k - d) 8); [|now apply okp_ok]. cbn [andb].
  eapply okp_bind; [apply okp_idx; liab|]. intros x _. eapply okp_bind; [apply okp_idx; lenz; liab|]. intros w _. now apply okp_ok.
Qed.
Lemma activation_ok c st l12 x12 p fr nn g : selectable p fr -> 0 <= l12 -> NMEM + l12 + 1 <= len x12 -> okp (activation o e c st l12 x12 p fr nn g) (fun '(_, _, pitch) => pitch = fadd o (fz o p) (fdiv o (fz o fr) (fz o 4))).
Proof.
  intros Hs H0 H1. unfold activation. eapply okp_bind with (P := fun _ => True).
  - apply (okp_for (fun _ => True)); [exact I|]. intros n [[a b] d] Hn _.
    eapply okp_bind; [apply interp12_ok; liab|]. intros v _. eapply okp_bind; [apply interp12_ok; unfold selectable in Hs; liab|]. intros w _. now apply okp_ok.
  - intros [[a b] d] _. apply okp_ok. reflexivity.
Qed.

(* what the encoder keeps between frames: the buffer lengths fixed by its constructor and the previous lag *)
Definition ext (c : config) : Z := match eltpf_factors (fs c) with Ok (_, _, x) => x | _ => 0 end.
Record eltpf_wf (c : config) (st : eltpf F) : Prop := mkEltpfWf {
  ew_t : K_MIN <= el_t st <= K_MAX;
  ew_xs : len (el_xs st) = ext c + nf c;
  ew_x12 : len (el_x12 st) = (let '(l12, _, delay) := eltpf_lens (n_ms c) in l12 + delay + NMEM);
  ew_x6 : len (el_x6 st) = 64 + K_MAX
}.
(* what is known about the result of a frame and the lag remembered for the next one *)
Definition lr_legal (r : ltpf_result) (pitch : F) : Prop :=
  if lr_present r then lr_nbits r = 11 /\ exists p fr, selectable p fr /\ lr_index r = lag_index p fr /\ pitch = fadd o (fz o p) (fdiv o (fz o fr) (fz o 4))
  else lr_nbits r = 1 /\ lr_index r = 0.

Lemma eltpf_new_wf c xs (x12 x6 : list F) : len xs = ext c + nf c -> len x12 = (let '(l12, _, delay) := eltpf_lens (n_ms c) in l12 + delay + NMEM) -> len x6 = 64 + K_MAX ->
  eltpf_wf c (eltpf_new o xs x12 x6).
Proof. intros H1 H2 H3. constructor; cbn [eltpf_new el_t el_xs el_x12 el_x6]; try assumption. unfold K_MIN, K_MAX. liab. Qed.

Lemma factors_ok c : legal_config c -> exists up rf, eltpf_factors (fs c) = Ok (up, rf, ext c) /\ up_ok up /\ 240 / up = ext c /\
  (let '(l12, _, _) := eltpf_lens (n_ms c) in 240 / up + 15 * (l12 - 1) / up < ext c + nf c).
Proof.
  intros (f & d & ->). unfold up_ok. destruct f, d; eexists _, _; (split; [reflexivity|]); (split; [tauto|]); split; reflexivity.
Qed.
Theorem eltpf_run_ok c st x nn nbits : legal_config c -> eltpf_wf c st -> len x = nf c ->
  okp (eltpf_run o e c st x nn nbits) (fun '(r, st') => eltpf_wf c st' /\ lr_legal r (el_pitch st')).
Proof.
  intros Hc [W1 W2 W3 W4] Hx. unfold eltpf_run. rewrite Hx, Z.eqb_refl. cbn [assert bind].
  destruct (factors_ok c Hc) as (up & rf & E & Hu & X & HX). rewrite E. cbn [bind].
  assert (Hd : let '(l12, l6, delay) := eltpf_lens (n_ms c) in 96 <= l12 <= 128 /\ 48 <= l6 <= 64 /\ 24 <= delay <= 44) by (destruct (n_ms c); cbn; liab).
  destruct (eltpf_lens (n_ms c)) as [[l12 l6] delay] eqn:EL. cbv zeta.
  assert (X0 : 0 <= ext c) by (rewrite <- X; apply Z.div_pos; unfold up_ok in Hu; liab).
  assert (N0 : 0 <= nf c) by (rewrite <- Hx; unfold len; liab).
  unfold shift_samples. rewrite X. unfold NMEM, K_MAX, K_MIN in *.
  eapply okp_bind with (P := fun '(xs, x12, x6) => len xs = ext c + nf c /\ len x12 = l12 + delay + 232 /\ len x6 = 178).
  { eapply okp_bind; [apply okp_usub; liab|]. intros k ->. eapply okp_bind; [apply shift_front_ok; liab|]. intros xs Lx. cbv beta in Lx.
    eapply okp_bind; [apply okp_blit; liab|]. intros xs' Lx'. cbv beta in Lx'. eapply okp_bind; [apply shift_front_ok; liab|]. intros x12 L12. cbv beta in L12.
    eapply okp_bind; [apply shift_front_ok; liab|]. intros x6 L6. cbv beta in L6. apply okp_ok. liab. }
  intros [[xs x12] x6] (Lx & L12 & L6).
  eapply okp_bind; [apply resample_ok; [assumption|liab|liab|liab|rewrite Lx; exact HX]|]. intros y12 M12. cbv beta in M12.
  eapply okp_bind; [apply highpass50_ok; liab|]. intros [[z12 h1] h2] N12.
  eapply okp_bind; [apply pitch_detect_ok; unfold K_MIN, K_MAX, NMEM; liab|]. intros [[t present] y6] [T M6].
  eapply okp_bind; [apply pitch_lag_ok; [assumption|liab|unfold NMEM; liab]|]. intros [[index p] fr] [S1 S2].
  eapply okp_bind; [apply activation_ok; [eassumption|liab|unfold NMEM; liab]|]. intros [[active nc] pitch] HP.
  apply okp_ok. split.
  - constructor; cbn [el_t el_xs el_x12 el_x6]; [assumption|assumption| |unfold K_MAX; liab]. rewrite EL. unfold NMEM. liab.
  - unfold lr_legal. cbn [lr_present lr_nbits lr_index el_pitch]. destruct present; [|split; reflexivity]. split; [reflexivity|]. exists p, fr. auto.
Qed.

(* the detector over any number of frames; the results with the lag the encoder remembers after each *)
Fixpoint eltpf_frames (c : config) (st : eltpf F) (frames : list (list Z * bool * Z)) : res (list (ltpf_result * F)) :=
  match frames with
  | [] => Ok []
  | (x, nn, nbits) :: frames =>
      '(r, st) <- eltpf_run o e c st x nn nbits ;;
      rs <- eltpf_frames c st frames ;;
      Ok ((r, el_pitch st) :: rs)
  end.
Lemma eltpf_frames_ok c : legal_config c -> forall frames st, eltpf_wf c st -> Forall (fun '(x, _, _) => len x = nf c) frames ->
  okp (eltpf_frames c st frames) (fun rs => length rs = length frames /\ Forall (fun '(r, p) => lr_legal r p) rs).
Proof.
  intros Hc. induction frames as [|[[x nn] nbits] frames IH]; intros st W H; cbn [eltpf_frames]; [apply okp_ok; split; [reflexivity|constructor]|].
  inversion H as [|? ? H1 H2]; subst. eapply okp_bind; [now apply eltpf_run_ok|]. intros [r st'] [W' L]. eapply okp_bind; [now apply IH|].
  intros rs [A B]. apply okp_ok. split; [cbn [length]; now rewrite A|]. constructor; assumption.
Qed.
End Ok.
