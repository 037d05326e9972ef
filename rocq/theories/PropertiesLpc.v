(* C51: the linear prediction in the encoder's temporal noise shaping, on the real numbers.

   Specification: `raw` is the autocorrelation of the lines of a sub band, `flat` the sum of the normalised ones over the sub bands
   of a filter (TnsCorr), `energy r m b` the quadratic form sum b_i b_j r_|i-j|, which is the error of the predictor 1, b_1, b_2, ...
   on a signal with autocorrelation r (Lpc), and `lattice rc p` the polynomial of a lattice filter (TnsLpc). *)
From Coq Require Import ZArith Lia List Bool Reals Lra.
From Coquelicot Require Import Coquelicot.
From Flocq Require Import Core.
From Verif Require Import Base Config FrameSpec Loops ParseBase Scalar EncScalar RealOps EncF32 DecSignal DecTotal EncTns TnsOk TnsInverse DetectSpec MdctSpec Lpc LpcDamp TnsLpc TnsCorr TnsFir PropertiesShaping.
From Coq Require Import List.
Import ListNotations.
Local Open Scope Z_scope.

(* ---- the autocorrelation ---- *)
(* lags 0 to 8 of the sub bands, each normalised to 1 at lag zero, summed and multiplied by the lag window; a frame with an empty
   sub band counts as white *)
Theorem C51_autocorrelation : forall x bs, Forall (fun ab => 0 <= fst ab <= snd ab /\ snd ab <= len x) bs ->
  exists r, autocorr R_ops x bs = Ok r /\ len r = 9 /\
    ((exists ab, In ab bs /\ raw x ab 0 = 0%R) -> forall k, (k < 9)%nat -> fn r k = if Nat.eqb k 0 then 3%R else 0%R) /\
    ((forall ab, In ab bs -> raw x ab 0 <> 0%R) -> forall k, (k < 9)%nat -> fn r k = (flat x bs k * lag k)%R).
Proof. exact autocorr_R. Qed.
(* the form of the autocorrelation of a sub band is the energy of what the predictor v leaves of its lines, taken as zero outside *)
Definition left_over (x : list R) (ab : Z * Z) (m : nat) (v : nat -> R) (n : nat) : R := sm m (fun j => v j * if Nat.leb j n then seg x ab (n - j) else 0)%R.
Lemma shifted_raw x ab m i j : (i <= j < m)%nat ->
  sm (width ab + m) (fun n => (if Nat.leb i n then seg x ab (n - i) else 0) * (if Nat.leb j n then seg x ab (n - j) else 0))%R = raw x ab (j - i).
Proof.
  intros H. replace (width ab + m)%nat with (j + (width ab + (m - j)))%nat by lia. rewrite sm_app. rewrite (sm_ext j _ (fun _ => 0%R)), sm_zero, Rplus_0_l by (intros n Hn; destruct (Nat.leb_spec j n); [lia|ring]).
  rewrite (sm_none (width ab)) by first [lia | intros n Hn; replace (j + n - j)%nat with n by lia; rewrite (seg_end x ab n) by lia; destruct (Nat.leb j (j + n)); ring].
  unfold raw. apply sm_ext. intros n Hn. rewrite (proj2 (Nat.leb_le i (j + n))), (proj2 (Nat.leb_le j (j + n))) by lia. replace (j + n - j)%nat with n by lia. replace (j + n - i)%nat with (n + (j - i))%nat by lia. ring.
Qed.
Theorem C51_error_energy : forall x ab m v, energy (raw x ab) m v = sm (width ab + m) (fun n => left_over x ab m v n * left_over x ab m v n)%R.
Proof.
  intros x ab m v. set (s := fun i n : nat => if Nat.leb i n then seg x ab (n - i) else 0%R).
  rewrite (sm_ext (width ab + m) _ (fun n => sm m (fun i => sm m (fun j => v i * v j * (s i n * s j n))))%R).
  - rewrite sm_swap. unfold energy. apply sm_ext. intros i Hi. rewrite sm_swap. apply sm_ext. intros j Hj. rewrite sm_scal. f_equal. unfold toep.
    destruct (Nat.le_ge_cases i j) as [H|H].
    + replace (apart i j) with (j - i)%nat by (unfold apart; lia). symmetry. apply shifted_raw. lia.
    + replace (apart i j) with (i - j)%nat by (unfold apart; lia). rewrite (sm_ext _ (fun n => s i n * s j n)%R (fun n => s j n * s i n)%R) by (intros; ring). symmetry. apply shifted_raw. lia.
  - intros n Hn. unfold left_over. change (fun j => v j * (if Nat.leb j n then seg x ab (n - j) else 0))%R with (fun j => v j * s j n)%R. rewrite <- sm_scal. rewrite (sm_ext m (fun i => sm m (fun j => v i * v j * (s i n * s j n))%R) (fun i => v i * s i n * sm m (fun j => v j * s j n))%R) by (intros i Hi; rewrite <- sm_scal; apply sm_ext; intros; ring).
    apply sm_ext. intros i Hi. ring.
Qed.
(* summed over the sub bands it is positive: without the lag window the best predictor exists and is unique *)
Theorem C51_positive_without_window : forall x bs m, bs <> [] -> (forall ab, In ab bs -> raw x ab 0 <> 0%R) ->
  forall v, (exists i, (i < m)%nat /\ v i <> 0%R) -> (0 < energy (flat x bs) m v)%R.
Proof. exact flat_definite. Qed.
Example C51_autocorrelation_case : let x := repeat 2%R 400 in let bs := [(12, 74); (74, 137); (137, 200)] in
  Forall (fun ab => 0 <= fst ab <= snd ab /\ snd ab <= len x) bs /\ bs <> [] /\ forall ab, In ab bs -> raw x ab 0 <> 0%R.
Proof.
  intros x bs. split; [repeat constructor; cbn [fst snd]; try lia; unfold x, len; rewrite repeat_length; lia|]. split; [discriminate|].
  assert (G : forall a b, 0 <= a < b -> b <= 400 -> raw x (a, b) 0 <> 0%R).
  { intros a b Hab Hb. unfold raw. set (f := fun n => (seg x (a, b) n * seg x (a, b) (n + 0))%R).
    assert (S0 : (f 0%nat <= sm (width (a, b)) f)%R).
    { apply sm_ge; [|unfold width; cbn [fst snd]; lia]. intros i Hi. unfold f. rewrite Nat.add_0_r. apply Rle_0_sqr. }
    assert (F0 : f 0%nat = 4%R).
    { unfold f, seg. cbn [fst snd]. rewrite Nat.add_0_l. destruct (Z.ltb_spec (a + Z.of_nat 0) b); [|lia]. replace (getz 0%R x (a + Z.of_nat 0)) with 2%R; [lra|]. unfold x, getz. symmetry. apply nth_error_nth. rewrite nth_error_repeat by lia. reflexivity. }
    lra. }
  intros ab [<-|[<-|[<-|[]]]]; apply G; lia.
Qed.

(* the lag window as it stands in the code is not the autocorrelation of any signal: eight lags of its form have a negative direction.
   So nothing positive follows for windowed spectra in general, and the theorems below ask for a positive form. *)
Definition lagZ (k : nat) : Z := nth k [10000000000000000; 9980280260203829; 9921354055113971; 9823915844707989; 9689107911912967; 9518498073692735; 9314049334023056; 9078082299969592; 8813231366694713] 0.
Lemma lag_lagZ k : (k < 9)%nat -> lag k = (IZR (lagZ k) / 10 ^ 16)%R.
Proof.
  intros H. unfold lag, R_lit, lagZ. do 9 (destruct k as [|k]; [cbn [nth LAG_WINDOW fst snd]; unfold powerRZ; try change (Pos.to_nat 1) with 1%nat; try change (Pos.to_nat 16) with 16%nat; cbn [pow]; lra|]). lia.
Qed.
Definition dipZ (i : nat) : Z := nth i [100000000; -694113636; 2072920387; -3452713369; 3464081869; -2093464447; 705617267; -102328073] 0.
Theorem C51_lag_window_refuted : exists v, (exists i, (i < 8)%nat /\ v i <> 0%R) /\ (energy lag 8 v < 0)%R.
Proof.
  exists (fun i => IZR (dipZ i)). unfold energy.
  split; [exists 0%nat; split; [lia|cbn [dipZ nth]; lra]|].
  rewrite (sm_ext 8 _ (fun i => sm 8 (fun j => / 10 ^ 16 * IZR (dipZ i * dipZ j * lagZ (apart i j))%Z)%R)).
  - apply Rmult_lt_reg_l with (10 ^ 16)%R; [apply pow_lt; lra|]. rewrite Rmult_0_r, <- sm_scal.
    rewrite (sm_ext 8 _ (fun i => sm 8 (fun j => IZR (dipZ i * dipZ j * lagZ (apart i j))))).
    + cbn [sm nth]. unfold apart. cbn [Nat.sub Nat.add Nat.max]. unfold lagZ, dipZ. cbn [nth]. rewrite <- !plus_IZR. apply IZR_lt. reflexivity.
    + intros i Hi. rewrite <- sm_scal. apply sm_ext. intros j Hj. rewrite <- Rmult_assoc, Rinv_r, Rmult_1_l by (apply pow_nonzero; lra). reflexivity.
  - intros i Hi. apply sm_ext. intros j Hj. unfold toep. rewrite lag_lagZ by (unfold apart; lia). rewrite !mult_IZR. unfold Rdiv. ring.
Qed.

(* ---- the predictor ---- *)
(* no predictor of the order of the filter has a smaller error, and any other has a larger one *)
Definition best (r : nat -> R) (m : nat) (a : nat -> R) : Prop :=
  a 0%nat = 1%R /\ forall b, b 0%nat = 1%R -> (energy r m a <= energy r m b)%R /\ (energy r m b = energy r m a -> forall i, (i < m)%nat -> b i = a i).
Lemma normal_is_best r m a e : (0 < m)%nat -> definite r m -> normal r m a e -> best r m a.
Proof.
  intros Hm D N. split; [exact (proj1 N)|]. intros b B0. pose proof (normal_best r m a e b Hm N B0) as E. pose proof (energy_nonneg r m (fun i => b i - a i)%R D) as P. rewrite (normal_energy r m a e Hm N). split; [lra|].
  intros Eq i Hi. destruct (Req_dec (b i) (a i)) as [H|H]; [exact H|]. exfalso. assert (0 < energy r m (fun i => b i - a i)%R)%R by (apply D; exists i; split; [exact Hi|lra]). lra.
Qed.
(* the reflection coefficients found are those of the best predictor of order 8, damped by powers of a factor in (0.85, 1], if the
   prediction gain is above 1.5 and the frame has no energy next to the Nyquist frequency; otherwise they are zero.  All of them lie
   strictly between -1 and 1 *)
Theorem C51_best_predictor : forall r f nn w rc_q, len r = 9 -> definite (fn r) 9 -> 0 <= f < 2 -> len rc_q = 16 ->
  exists a rc, tns_analysis R_ops R_eops r f nn w rc_q = Ok rc /\ len rc = 16 /\ best (fn r) 9 a /\ (0 < energy (fn r) 9 a)%R /\
    (forall j, 0 <= j < f * 8 \/ f * 8 + 8 <= j -> getz 0%R rc j = getz 0%R rc_q j) /\
    (forall k, (k < 8)%nat -> (Rabs (coef rc f k) < 1)%R) /\
    let gain := (fn r 0 / energy (fn r) 9 a)%R in
    ((3 / 2 < gain)%R -> nn = false -> exists g, (17 / 20 < g <= 1)%R /\ (g = if (0 <? w) && Rlt_bool gain 2 then 1 - 3 / 10 * (2 - gain) else 1)%R /\ forall n, (n <= 8)%nat -> lattice (coef rc f) 8 n = (a n * g ^ n)%R) /\
    ((gain <= 3 / 2)%R \/ nn = true -> forall k, (k < 8)%nat -> coef rc f k = 0%R).
Proof.
  intros r f nn w rc_q Lr D Hf Lq. destruct (analysis_R r f nn w rc_q Lr D Hf Lq) as (a & e & rc & E & L & K & N & P & C).
  pose proof (normal_energy (fn r) 9 a e ltac:(lia) N) as En. exists a, rc. split; [exact E|]. split; [exact L|]. split; [exact (normal_is_best (fn r) 9 a e ltac:(lia) D N)|]. split; [rewrite En; exact P|]. split; [exact K|].
  rewrite En. cbv zeta. destruct (Rlt_bool (3 / 2) (fn r 0 / e)) eqn:Eg; [destruct nn|]; cbn [andb negb] in C.
  - split; [intros k Hk; unfold coef; rewrite C, Rabs_R0 by exact Hk; lra|]. split; [intros _ H; discriminate|]. intros _. exact C.
  - destruct C as [C1 C2]. split; [exact C1|]. revert Eg. case Rlt_bool_spec; intros Hg Eg; [|discriminate]. split.
    + intros _ _. exists (damping w (fn r 0 / e)). split; [apply damping_range; exact Hg|]. split; [reflexivity|exact C2].
    + intros [H|H]; [lra|discriminate].
  - split; [intros k Hk; unfold coef; rewrite C, Rabs_R0 by exact Hk; lra|]. revert Eg. case Rlt_bool_spec; intros Hg Eg; [discriminate|]. split; [intros; lra|]. intros _. exact C.
Qed.
(* a form that is positive and has a prediction gain above 1.5: r = 3, 2, 1, 0, ... *)
Definition ramp : list R := [3; 2; 1; 0; 0; 0; 0; 0; 0]%R.
Lemma fn_ramp n : fn ramp n = match n with 0%nat => 3 | 1%nat => 2 | 2%nat => 1 | _ => 0 end%R.
Proof. unfold fn, getz. rewrite Nat2Z.id. unfold ramp. do 9 (destruct n as [|n]; [reflexivity|]). now destruct n. Qed.
Lemma ramp_definite : definite (fn ramp) 9.
Proof.
  intros v (i & Hi & Hv). set (w := fun n : nat => match n with O => 0%R | S O => 0%R | S (S n) => if Nat.ltb n 9 then v n else 0%R end).
  (* the energy of the response of the three taps 1, 1, 1 *)
  set (s := fun n => (w (S (S n)) + w (S n) + w n)%R).
  assert (E : energy (fn ramp) 9 v = sm 11 (fun n => s n * s n)%R).
  { unfold energy, toep, s, w, apart. cbn [sm Nat.ltb Nat.leb Nat.sub Nat.add Nat.max]. rewrite !fn_ramp. ring. }
  rewrite E. destruct (Req_dec (sm 11 (fun n => s n * s n)%R) 0) as [Z0|NZ].
  - exfalso. assert (S0 : forall n, (n < 11)%nat -> s n = 0%R).
    { intros n Hn. assert (s n * s n <= sm 11 (fun n => s n * s n))%R by (apply (sm_ge 11 (fun n => s n * s n)%R n); [intros; apply Rle_0_sqr|exact Hn]). assert (s n * s n = 0)%R by (pose proof (Rle_0_sqr (s n)) as Q; unfold Rsqr in Q; lra). apply Rmult_integral in H0. tauto. }
    apply Hv. assert (W : forall n, (n < 11)%nat -> w n = 0%R /\ w (S n) = 0%R).
    { induction n as [|n IH]; intros Hn; [split; reflexivity|]. destruct (IH ltac:(lia)) as [H1 H2]. split; [exact H2|]. specialize (S0 n ltac:(lia)). unfold s in S0. lra. }
    specialize (W (S i) ltac:(lia)). destruct W as [_ W]. unfold w in W. rewrite (proj2 (Nat.ltb_lt i 9) Hi) in W. exact W.
  - assert (0 <= sm 11 (fun n => s n * s n))%R by (apply sm_nonneg; intros; apply Rle_0_sqr). lra.
Qed.
Example C51_best_predictor_case : len ramp = 9 /\ definite (fn ramp) 9 /\ exists a, best (fn ramp) 9 a /\ (3 / 2 < fn ramp 0 / energy (fn ramp) 9 a)%R.
Proof.
  split; [reflexivity|]. split; [exact ramp_definite|].
  destruct (analysis_R ramp 0 false 0 (repeat 0%R 16) eq_refl ramp_definite ltac:(lia) eq_refl) as (a & e & rc & _ & _ & _ & N & P & _).
  exists a. split; [exact (normal_is_best (fn ramp) 9 a e ltac:(lia) ramp_definite N)|]. destruct (normal_is_best (fn ramp) 9 a e ltac:(lia) ramp_definite N) as [_ B].
  set (b := fun n : nat => match n with O => 1%R | S O => (-2 / 3)%R | _ => 0%R end). destruct (B b eq_refl) as [Hb _]. rewrite (normal_energy _ 9 a e ltac:(lia) N) in *.
  assert (Eb : (energy (fn ramp) 9 b = 5 / 3)%R).
  { unfold energy, toep, b, apart. cbn [sm Nat.sub Nat.add Nat.max]. rewrite !fn_ramp. field. }
  rewrite Eb in Hb. change (fn ramp 0) with 3%R. apply Rmult_lt_reg_r with e; [exact P|]. unfold Rdiv at 2. rewrite Rmult_assoc, Rinv_l, Rmult_1_r by lra. lra.
Qed.

(* ---- the indices ---- *)
(* the windowed autocorrelation of every filter of the frame is a positive form *)
Definition bands_definite (c : config) (x : list R) (bw : Z) : Prop :=
  forall params p r, tns_enc_params (n_ms c) bw = Ok params -> In p params -> autocorr R_ops x (snd p) = Ok r -> definite (fn r) 9.
Lemma white_definite : forall r, (forall k, (k < 9)%nat -> fn r k = if Nat.eqb k 0 then 3%R else 0%R) -> definite (fn r) 9.
Proof.
  intros r H v (i & Hi & Hv). assert (E : energy (fn r) 9 v = sm 9 (fun i => 3 * (v i * v i))%R).
  { rewrite energy_rows. apply sm_ext. intros j Hj. rewrite (sm_delta 9 _ j Hj).
    - unfold toep. rewrite H by (unfold apart; lia). replace (apart j j) with 0%nat by (unfold apart; lia). cbn [Nat.eqb]. ring.
    - intros n Hn Hne. unfold toep. rewrite H by (unfold apart; lia). destruct (Nat.eqb_spec (apart j n) 0) as [E0|]; [unfold apart in E0; lia|ring]. }
  rewrite E. assert (P : forall j, (0 <= v j * v j)%R) by (intros; apply Rle_0_sqr). apply Rlt_le_trans with (3 * (v i * v i))%R.
  - assert (0 < v i * v i)%R by (apply Rsqr_pos_lt; exact Hv). lra.
  - apply (sm_ge 9 (fun i => 3 * (v i * v i))%R i); [intros j Hj; specialize (P j); lra|exact Hi].
Qed.
(* a frame with an empty sub band in each filter, silence for one, needs no further condition *)
Lemma empty_definite c x bw : legal_config c -> len x = ne c -> 0 <= bw <= fs_ind c ->
  (forall params p, tns_enc_params (n_ms c) bw = Ok params -> In p params -> exists ab, In ab (snd p) /\ raw x ab 0 = 0%R) -> bands_definite c x bw.
Proof.
  intros Hc Lx Hb H params p r EP Hp Er. destruct (coded_ne c bw Hc Hb) as [Hb4 Hn]. destruct (enc_params (n_ms c) bw Hb4) as (params' & EP' & _ & _ & Fit & _). rewrite EP in EP'. apply Ok_inj in EP'. subst params'.
  rewrite Forall_forall in Fit. specialize (Fit p Hp). pose proof (H params p EP Hp) as He. destruct p as [[a b] subs]. cbn [snd] in *. destruct Fit as (_ & _ & Fs).
  destruct (autocorr_R x subs) as (r' & E' & _ & W & _); [eapply Forall_impl; [|exact Fs]; intros [u v] Huv; unfold fits; cbn [fst snd]; lia|]. rewrite Er in E'. apply Ok_inj in E'. subst r'. apply white_definite. exact (W He).
Qed.
Lemma coefs_below_one c x bw nbits nn rc : legal_config c -> len x = ne c -> 0 <= bw <= fs_ind c -> bands_definite c x bw -> tns_coefs R_ops R_eops c x bw nbits nn = Ok rc -> Forall (fun v => (Rabs v < 1)%R) rc.
Proof.
  intros Hc Lx Hb BD E. destruct (coded_ne c bw Hc Hb) as [Hb4 Hn]. destruct (enc_params (n_ms c) bw Hb4) as (params & EP & _ & LP & Fit & _). unfold tns_coefs in E. rewrite EP in E. cbn [bind] in E.
  match type of E with for_range _ _ ?b _ = _ => set (body := b) in E end.
  destruct (for_inv (fun _ rc => len rc = 16 /\ forall j, 0 <= j < 16 -> (Rabs (getz 0%R rc j) < 1)%R) 0 (len params) body (repeat (fz R_ops 0) 16)) as (rc' & E' & L' & P); [lia| | |].
  - split; [reflexivity|]. intros j Hj. unfold getz. change (fz R_ops 0) with 0%R. rewrite nth_repeat, Rabs_R0. lra.
  - intros f r0 Hf [Lr Fr]. unfold body. destruct (Loops.idx_ok params f Hf) as (p & Ep). rewrite Ep. cbn [bind].
    assert (Hp : In p params). { unfold idx in Ep. destruct (f <? 0); [discriminate|]. destruct (nth_error params (Z.to_nat f)) eqn:En; [|discriminate]. apply nth_error_In in En. congruence. }
    rewrite Forall_forall in Fit. specialize (Fit p Hp). pose proof (fun r => BD params p r EP Hp) as D. destruct p as [[a b] subs]. destruct Fit as (_ & _ & Fs). cbn [snd] in *. destruct (autocorr_ok R_ops x subs) as (r & Er & L9).
    { eapply Forall_impl; [|exact Fs]. intros [u v] H. lia. }
    rewrite Er. cbn [bind]. destruct (C51_best_predictor r f nn (tns_weighting (n_ms c) nbits) r0 L9 (D r Er) ltac:(lia) Lr) as (a1 & r1 & E1 & L1 & _ & _ & K1 & K2 & _). exists r1. split; [exact E1|]. split; [exact L1|].
    intros j Hj. assert (0 <= j < f * 8 \/ f * 8 + 8 <= j \/ f * 8 <= j < f * 8 + 8) as [H|[H|H]] by lia; [rewrite K1 by lia; apply Fr; lia|rewrite K1 by lia; apply Fr; lia|].
    specialize (K2 (Z.to_nat (j - f * 8)) ltac:(lia)). unfold coef in K2. replace (f * 8 + Z.of_nat (Z.to_nat (j - f * 8))) with j in K2 by lia. exact K2.
  - rewrite E in E'. apply Ok_inj in E'. subst rc'. apply Forall_forall. intros v Hv. apply (In_nth _ _ 0%R) in Hv. destruct Hv as (n & Hn' & <-). specialize (P (Z.of_nat n) ltac:(unfold len in *; lia)). unfold getz in P. rewrite Nat2Z.id in P. exact P.
Qed.
(* every coefficient found has an index between 0 and 16: the hypothesis of C28 and C44 holds *)
Theorem C51_indices : forall c x bw nbits nn, legal_config c -> len x = ne c -> 0 <= bw <= fs_ind c -> bands_definite c x bw -> coefs_in_range R_ops R_eops c x bw nbits nn.
Proof.
  intros c x bw nbits nn Hc Lx Hb BD rc E. eapply Forall_impl; [|exact (coefs_below_one c x bw nbits nn rc Hc Lx Hb BD E)]. exact index_R.
Qed.
(* the index is 8 plus the nearest step of pi / 17 to the arc sine *)
Lemma index_nearest v : (Rabs v < 1)%R -> (Rabs (IZR (coef_index R_ops R_eops v - 8) - asin v / (PI / 17)) <= / 2)%R.
Proof.
  intros H. apply Rabs_def2 in H. unfold coef_index, to_int. cbn [R_ops R_eops fdiv e_asin e_step17]. pose proof PI_RGT_0 as Pi.
  assert (B : (- (17 / 2) < asin v / (PI / 17) < 17 / 2)%R).
  { assert (A : (- (PI / 2) < asin v < PI / 2)%R) by (apply asin_bound_lt; lra). split; [apply Rmult_lt_reg_r with (PI / 17)%R; [lra|]|apply Rmult_lt_reg_r with (PI / 17)%R; [lra|]]; replace (asin v / (PI / 17) * (PI / 17))%R with (asin v) by (field; lra); lra. }
  set (y := (asin v / (PI / 17))%R) in *. clearbody y. unfold as_i8, fge. cbn [R_ops flt feq fadd fneg fz f_i32]. rewrite R_half.
  assert (T : forall z, (0 <= z < 9)%R -> 0 <= Ztrunc z <= 8 /\ (IZR (Ztrunc z) <= z < IZR (Ztrunc z) + 1)%R).
  { intros z Hz. rewrite Ztrunc_floor by lra. assert (0 <= Zfloor z) by (apply Zfloor_lub; cbn; lra). assert (Zfloor z < 9) by (apply lt_IZR; apply Rle_lt_trans with z; [apply Zfloor_lb|lra]). split; [lia|]. split; [apply Zfloor_lb|apply Zfloor_ub]. }
  destruct (Rlt_bool 0 y || Req_bool 0 y) eqn:E.
  - assert (0 <= y)%R by (apply orb_prop in E; destruct E as [E|E]; revert E; [case Rlt_bool_spec|case Req_bool_spec]; intros; try discriminate; lra). destruct (T (y + / 2)%R ltac:(lra)) as [T1 T2].
    match goal with |- (Rabs (IZR ?t - _) <= _)%R => replace t with (Ztrunc (y + / 2)) by lia end. apply Rabs_le. lra.
  - assert (y < 0)%R by (apply orb_false_elim in E; destruct E as [E1 E2]; revert E1 E2; case Rlt_bool_spec; case Req_bool_spec; intros; try discriminate; lra). destruct (T (- y + / 2)%R ltac:(lra)) as [T1 T2]. rewrite Ztrunc_opp.
    match goal with |- (Rabs (IZR ?t - _) <= _)%R => replace t with (- Ztrunc (- y + / 2)) by lia end. rewrite opp_IZR. apply Rabs_le. lra.
Qed.
(* what is sent: for every filter the nearest step to each coefficient that the analysis of its sub bands found *)
Theorem C51_sent : forall chk c x bw nbits nn, legal_config c -> len x = ne c -> 0 <= bw <= fs_ind c -> bands_definite c x bw ->
  exists params r y, tns_enc_params (n_ms c) bw = Ok params /\ tns_encode R_ops R_eops chk c x bw nbits nn = Ok (r, y) /\ tr_num r = len params /\
    (* the weighting is announced, and used, below 48 bits per millisecond *)
    (tr_weighting r = if 10 * nbits <? 48 * match n_ms c with TenMs => 100 | SevenPointFiveMs => 75 end then 1 else 0) /\
    (forall f p, idx params f = Ok p -> exists ac rc0 rc, autocorr R_ops x (snd p) = Ok ac /\ len ac = 9 /\ definite (fn ac) 9 /\ len rc0 = 16 /\ tns_analysis R_ops R_eops ac f nn (tr_weighting r) rc0 = Ok rc /\
      forall k, (k < 8)%nat -> (Rabs (IZR (getz 0%Z (tr_rc_i r) (f * 8 + Z.of_nat k) - 8) - asin (coef rc f k) / (PI / 17)) <= / 2)%R) /\
    (* and of each filter the coefficients up to the last whose index is not 8, the index of zero *)
    forall f, 0 <= f < len params -> 0 <= getz 0 (tr_order r) f <= 8 /\ (forall k, getz 0 (tr_order r) f <= k < 8 -> getz 0 (tr_rc_i r) (f * 8 + k) = 8) /\ (0 < getz 0 (tr_order r) f -> getz 0 (tr_rc_i r) (f * 8 + getz 0 (tr_order r) f - 1) <> 8).
Proof.
  intros chk c x bw nbits nn Hc Lx Hb BD. destruct (tns_encode_full R_ops R_eops chk c x bw nbits nn R_elaws Hc Lx Hb (C51_indices c x bw nbits nn Hc Lx Hb BD)) as ([r y] & E & TL & TI).
  destruct (tns_coefs_ok R_ops R_eops c x bw nbits nn Hc Lx Hb) as (rc & Erc & Lrc). specialize (TI rc Erc). pose proof (coefs_below_one c x bw nbits nn rc Hc Lx Hb BD Erc) as B1.
  destruct (coded_ne c bw Hc Hb) as [Hb4 Hn]. destruct (enc_params (n_ms c) bw Hb4) as (params & EP & LS & LP & Fit & _). exists params, r, y. split; [exact EP|]. split; [exact E|].
  pose proof (tl_num _ _ _ _ _ _ _ _ TL) as TN. assert (TN' : tr_num r = len params) by congruence. split; [exact TN'|]. pose proof (tl_w _ _ _ _ _ _ _ _ TL) as TW. rewrite TW. split.
  { unfold tns_weighting. destruct (n_ms c); repeat match goal with |- context [?u <? ?v] => destruct (Z.ltb_spec u v) end; lia. }
  split.
  - unfold tns_coefs in Erc. rewrite EP in Erc. cbn [bind] in Erc. match type of Erc with for_range _ _ ?b _ = _ => set (body := b) in Erc end.
    destruct (for_inv (fun n rc => len rc = 16 /\ forall f p, f < n -> idx params f = Ok p -> exists ac rc0 rc1, autocorr R_ops x (snd p) = Ok ac /\ len ac = 9 /\ definite (fn ac) 9 /\ len rc0 = 16 /\ tns_analysis R_ops R_eops ac f nn (tns_weighting (n_ms c) nbits) rc0 = Ok rc1 /\
      forall k, (k < 8)%nat -> coef rc f k = coef rc1 f k) 0 (len params) body (repeat (fz R_ops 0) 16)) as (rc' & E' & L' & P); [lia| | |].
    + split; [reflexivity|]. intros f p Hf Hp. exfalso. unfold idx in Hp. destruct (Z.ltb_spec f 0); [discriminate|lia].
    + intros f r0 Hf [Lr IH]. unfold body. destruct (Loops.idx_ok params f Hf) as (p & Ep). rewrite Ep. cbn [bind].
      assert (Hp : In p params). { unfold idx in Ep. destruct (f <? 0); [discriminate|]. destruct (nth_error params (Z.to_nat f)) eqn:En; [|discriminate]. apply nth_error_In in En. congruence. }
      rewrite Forall_forall in Fit. specialize (Fit p Hp). pose proof (fun r => BD params p r EP Hp) as D. destruct p as [[a b] subs]. destruct Fit as (_ & _ & Fs). cbn [snd] in *. destruct (autocorr_ok R_ops x subs) as (ac & Er & L9).
      { eapply Forall_impl; [|exact Fs]. intros [u v] H. lia. }
      rewrite Er. cbn [bind]. destruct (C51_best_predictor ac f nn (tns_weighting (n_ms c) nbits) r0 L9 (D ac Er) ltac:(lia) Lr) as (a1 & r1 & E1 & L1 & _ & _ & K1 & _). exists r1. split; [exact E1|]. split; [exact L1|].
      intros f' p' Hf' Hp'. destruct (Z.eq_dec f' f) as [->|Ne].
      * rewrite Ep in Hp'. apply Ok_inj in Hp'. subst p'. exists ac, r0, r1. cbn [snd]. split; [exact Er|]. split; [exact L9|]. split; [exact (D ac Er)|]. split; [exact Lr|]. split; [exact E1|]. reflexivity.
      * destruct (IH f' p' ltac:(lia) Hp') as (ac' & rc0' & rc1' & A1 & A2 & A3 & A4 & A5 & A6). exists ac', rc0', rc1'. repeat (split; [assumption|]). intros k Hk. rewrite <- A6 by exact Hk. unfold coef. apply K1.
        assert (0 <= f') by (unfold idx in Hp'; destruct (Z.ltb_spec f' 0); [discriminate|lia]). lia.
    + rewrite Erc in E'. apply Ok_inj in E'. subst rc'. intros f p Hp. assert (Hf : 0 <= f < len params).
      { unfold idx in Hp. destruct (Z.ltb_spec f 0); [discriminate|]. destruct (nth_error params (Z.to_nat f)) eqn:En; [|discriminate]. assert (nth_error params (Z.to_nat f) <> None) by congruence. apply nth_error_Some in H0. unfold len. lia. }
      destruct (P f p ltac:(lia) Hp) as (ac & rc0 & rc1 & A1 & A2 & A3 & A4 & A5 & A6). exists ac, rc0, rc1. repeat (split; [assumption|]). intros k Hk. rewrite TI by lia. rewrite <- A6 by exact Hk. unfold coef. apply index_nearest.
      rewrite Forall_forall in B1. apply B1. unfold getz. apply nth_In. unfold len in L'. lia.
  - intros f Hf. destruct TL as [(P1 & P2 & P3 & P4) _ _ _ T1 T2 _ _ _ _]. split; [rewrite Forall_forall in P3; apply P3; unfold getz; apply nth_In; unfold len in P1; lia|]. split; [intros k Hk; apply T1; lia|apply T2; lia].
Qed.
(* so the encoder's noise shaping does not fail and the decoder undoes it *)
Theorem C51_decoder_undoes_filter :
  forall chk c x bw nbits nn, legal_config c -> len x = ne c -> 0 <= bw <= fs_ind c -> bands_definite c x bw -> ~ (n_ms c = TenMs /\ bw = 2) ->
    exists r y, tns_encode R_ops R_eops chk c x bw nbits nn = Ok (r, y) /\
      forall di, len di = 16 ->
        (forall f k, 0 <= f < tr_num r -> 0 <= k < getz 0 (tr_order r) f -> getz 0 di (f * 8 + k) = getz 0 (tr_rc_i r) (f * 8 + k) /\ getz 0 di (f * 8 + k) <> 0) ->
        tns_decode R_ops (n_ms c) bw (tr_num r) (tr_order r) di y = Ok x.
Proof.
  intros chk c x bw nbits nn Hc Lx Hb BD NB. destruct (C28_transmitted_filter_partial chk c x bw nbits nn Hc Lx Hb (C51_indices c x bw nbits nn Hc Lx Hb BD) NB) as (r & y & E & _ & H). exists r, y. split; [exact E|exact H].
Qed.

(* ---- the filter ---- *)
(* inside band f the line n of the result is  sum_{j <= order} P_j x(n - j), P the polynomial of the transmitted coefficients
   sin((index - 8) pi / 17) and x taken as zero below the band; in the second band from the line on that the state of the first band
   no longer reaches.  Lines outside the bands are left alone. *)
Theorem C51_filter : forall chk c x bw nbits nn, legal_config c -> len x = ne c -> 0 <= bw <= fs_ind c -> bands_definite c x bw ->
  exists params r y, tns_enc_params (n_ms c) bw = Ok params /\ tns_encode R_ops R_eops chk c x bw nbits nn = Ok (r, y) /\ len y = len x /\ tr_num r = len params /\
    (forall n, 0 <= n < len x -> (forall ab, In ab (bands_of params) -> n < fst ab \/ snd ab <= n) -> getz 0%R y n = getz 0%R x n) /\
    forall f, 0 <= f < len params -> let '(a, b) := getz (0, 0) (bands_of params) f in let p := Z.to_nat (getz 0 (tr_order r) f) in
      (p <= 8)%nat /\
      (forall k, (k < p)%nat -> 0 <= getz 0 (tr_rc_i r) (f * 8 + Z.of_nat k) <= 16) /\
      forall n, a <= n < b -> f = 0 \/ a + Z.of_nat p <= n ->
        getz 0%R y n = sm (S p) (fun j => lattice (fun k => sin (IZR (getz 0%Z (tr_rc_i r) (f * 8 + Z.of_nat k) - 8) * (PI / 17))) p j * (if (a <=? n - Z.of_nat j)%Z then getz 0 x (n - Z.of_nat j) else 0))%R.
Proof.
  intros chk c x bw nbits nn Hc Lx Hb BD. destruct (tns_encode_ok R_ops R_eops chk c x bw nbits nn R_elaws Hc Lx Hb (C51_indices c x bw nbits nn Hc Lx Hb BD)) as ([r y] & E & TL).
  destruct TL as [TP TN TW TLn _ _ TRl TC _ (params & EP & EY)]. exists params, r, y. split; [exact EP|]. split; [exact E|]. split; [exact TLn|].
  destruct (coded_ne c bw Hc Hb) as [Hb4 Hn]. destruct (enc_params (n_ms c) bw Hb4) as (params' & EP' & LS & LP & _ & Ord & _). rewrite EP in EP'. apply Ok_inj in EP'. subst params'.
  split; [lia|]. destruct TP as (P1 & P2 & P3 & P4).
  assert (PO : forall i, 0 <= i < 2 -> 0 <= getz 0 (tr_order r) i <= 8). { intros i Hi. rewrite Forall_forall in P3. apply P3. unfold getz. apply nth_In. unfold len in P1. lia. }
  destruct (filters_R (tr_rc_q r) (tr_order r) params 0 (repeat 0%R 8) x 0 true) as (y' & E' & L' & Out & In'); try lia.
  - eapply ordered_weaken; [exact Ord|]. lia.
  - reflexivity.
  - intros i Hi. apply PO. lia.
  - intros _ k Hk. unfold getz. now rewrite nth_repeat.
  - change (repeat 0%R 8) with (repeat (fz R_ops 0) 8) in E'. rewrite E' in EY. apply Ok_inj in EY. subst y'. split; [exact Out|]. intros f Hf. specialize (In' f Hf). destruct (getz (0, 0) (bands_of params) f) as [a b]. cbv zeta. specialize (PO f ltac:(lia)).
    split; [lia|]. assert (IR : forall j, 0 <= j < 16 -> 0 <= getz 0 (tr_rc_i r) j <= 16). { intros j Hj. rewrite Forall_forall in P4. apply P4. unfold getz. apply nth_In. unfold len in P2. lia. }
    split; [intros k Hk; apply IR; lia|]. intros n Hn' Hs. rewrite Z.add_0_l in In'. rewrite (In' n Hn'); [|destruct Hs as [->|Hs]; [left; reflexivity|right; lia]].
    apply sm_ext. intros j Hj. unfold below. f_equal. apply lattice_ext. intros k Hk. unfold coef. rewrite TC by lia. cbn [R_ops fsin17]. f_equal. ring.
Qed.

(* a frame whose filters are in use: two equal lines at the lower end of each sub band *)
Definition pair_line (i : Z) : bool := existsb (fun a => (i =? a) || (i =? a + 1)) [12; 74; 137; 200; 266; 333].
Definition pairs : list R := map (fun i => if pair_line (Z.of_nat i) then 1%R else 0%R) (seq 0 400).
Lemma pairs_get i : 0 <= i < 400 -> getz 0%R pairs i = if pair_line i then 1%R else 0%R.
Proof.
  intros H. unfold getz, pairs. rewrite (nth_indep _ 0%R ((fun i => if pair_line (Z.of_nat i) then 1%R else 0%R) 0%nat)) by (rewrite map_length, seq_length; lia).
  rewrite (map_nth (fun i => if pair_line (Z.of_nat i) then 1%R else 0%R)), seq_nth by lia. rewrite Nat.add_0_l, Z2Nat.id by lia. reflexivity.
Qed.
Lemma pairs_raw a b : In (a, b) [(12, 74); (74, 137); (137, 200); (200, 266); (266, 333); (333, 400)] -> forall k, raw pairs (a, b) k = match k with 0%nat => 2 | 1%nat => 1 | _ => 0 end%R.
Proof.
  intros Hin k. assert (S0 : forall n, seg pairs (a, b) n = if Nat.ltb n 2 then 1%R else 0%R).
  { intros n. unfold seg. cbn [fst snd]. destruct (Z.ltb_spec (a + Z.of_nat n) b) as [H|H].
    - rewrite pairs_get by (repeat (destruct Hin as [Hin|Hin]; [injection Hin; intros; subst; lia|]); contradiction). unfold pair_line. cbn [existsb].
      repeat (destruct Hin as [Hin|Hin]; [injection Hin; intros; subst; destruct (Nat.ltb_spec n 2); repeat match goal with |- context [?u =? ?v] => destruct (Z.eqb_spec u v); try lia end; reflexivity|]); contradiction.
    - destruct (Nat.ltb_spec n 2); [|reflexivity]. exfalso. repeat (destruct Hin as [Hin|Hin]; [injection Hin; intros; subst; lia|]); contradiction. }
  unfold raw. assert (W : exists w, width (a, b) = S (S w)) by (unfold width; cbn [fst snd]; repeat (destruct Hin as [Hin|Hin]; [injection Hin; intros; subst; eexists; reflexivity|]); contradiction). destruct W as (w & ->).
  rewrite !sm_first. rewrite (sm_ext w _ (fun _ => 0%R)) by (intros i Hi; rewrite S0; cbn [Nat.ltb Nat.leb]; ring). rewrite sm_zero, !S0. destruct k as [|[|k]]; cbn [Nat.ltb Nat.leb Nat.add]; ring.
Qed.
Lemma pairs_autocorr bs r : (exists b1 b2 b3, bs = [b1; b2; b3] /\ forall ab, In ab bs -> In ab [(12, 74); (74, 137); (137, 200); (200, 266); (266, 333); (333, 400)]) -> autocorr R_ops pairs bs = Ok r ->
  forall k, (k < 9)%nat -> fn r k = match k with 0%nat => 3 | 1%nat => 3 / 2 * (9980280260203829 / 10 ^ 16) | _ => 0 end%R.
Proof.
  intros (b1 & b2 & b3 & -> & H) E k Hk. destruct (autocorr_R pairs [b1; b2; b3]) as (r' & E' & _ & _ & K).
  { apply Forall_forall. intros ab Hab. specialize (H ab Hab). unfold fits. change (len pairs) with 400. cbn [In] in H. decompose [or] H; subst; cbn [fst snd]; try lia; contradiction. }
  rewrite E in E'. apply Ok_inj in E'. subst r'.
  assert (RW : forall ab, In ab [b1; b2; b3] -> forall k, raw pairs ab k = match k with 0%nat => 2 | 1%nat => 1 | _ => 0 end%R) by (intros [u v] Hab; apply pairs_raw; exact (H _ Hab)).
  rewrite K; [|intros ab Hab; rewrite (RW ab Hab); lra|exact Hk]. unfold flat. cbn [fold_left]. rewrite !(RW b1), !(RW b2), !(RW b3) by (cbn; tauto). rewrite lag_lagZ by exact Hk.
  destruct k as [|[|k]]; [unfold lagZ; cbn [nth]; lra|unfold lagZ; cbn [nth]; lra|unfold Rdiv; ring].
Qed.
Lemma pair_form_definite r t : (0 <= t < 3 / 2)%R -> (forall k, (k < 9)%nat -> r k = match k with 0%nat => 3 | 1%nat => t | _ => 0 end%R) -> definite r 9.
Proof.
  intros Ht H v (i & Hi & Hv).
  assert (E : energy r 9 v = ((3 - 2 * t) * sm 9 (fun i => v i * v i) + t * (v 0%nat * v 0%nat + v 8%nat * v 8%nat + sm 8 (fun i => (v i + v (S i)) * (v i + v (S i)))))%R).
  { unfold energy, toep, apart. cbn [sm Nat.sub Nat.add]. rewrite !H by lia. ring. }
  rewrite E. assert (P : forall j, (0 <= v j * v j)%R) by (intros; apply Rle_0_sqr). assert (0 < v i * v i)%R by (apply Rsqr_pos_lt; exact Hv).
  assert (v i * v i <= sm 9 (fun i => v i * v i))%R by (apply (sm_ge 9 (fun i => v i * v i)%R i); [intros; apply P|exact Hi]).
  assert (0 <= sm 8 (fun i => (v i + v (S i)) * (v i + v (S i))))%R by (apply sm_nonneg; intros; apply Rle_0_sqr).
  pose proof (P 0%nat). pose proof (P 8%nat). assert (0 <= t * (v 0%nat * v 0%nat + v 8%nat * v 8%nat + sm 8 (fun i => (v i + v (S i)) * (v i + v (S i)))))%R by (apply Rmult_le_pos; lra).
  assert (0 < (3 - 2 * t) * sm 9 (fun i => v i * v i))%R by (apply Rmult_lt_0_compat; lra). lra.
Qed.
Lemma pairs_definite : bands_definite (config_new Hz48000 TenMs) pairs 4 /\
  forall params p r a, tns_enc_params TenMs 4 = Ok params -> In p params -> autocorr R_ops pairs (snd p) = Ok r -> best (fn r) 9 a -> (0 < energy (fn r) 9 a)%R -> (3 / 2 < fn r 0 / energy (fn r) 9 a)%R.
Proof.
  assert (G : forall params p r, tns_enc_params TenMs 4 = Ok params -> In p params -> autocorr R_ops pairs (snd p) = Ok r -> forall k, (k < 9)%nat -> fn r k = match k with 0%nat => 3 | 1%nat => 3 / 2 * (9980280260203829 / 10 ^ 16) | _ => 0 end%R).
  { intros params p r EP Hp Er. apply (pairs_autocorr (snd p) r); [|exact Er]. cbv in EP. apply Ok_inj in EP. subst params. destruct Hp as [<-|[<-|[]]]; cbn [snd]; do 3 eexists; (split; [reflexivity|]); intros ab Hab; cbn [In] in *; tauto. }
  split.
  - intros params p r EP Hp Er. apply (pair_form_definite (fn r) (3 / 2 * (9980280260203829 / 10 ^ 16))); [lra|]. exact (G params p r EP Hp Er).
  - intros params p r a EP Hp Er [_ B] Ha. pose proof (G params p r EP Hp Er) as K. set (b := fun n : nat => match n with 0%nat => 1 | 1%nat => - (3 / 4) | 2%nat => / 2 | 3%nat => - / 4 | _ => 0 end%R).
    destruct (B b eq_refl) as [Hb _]. assert (Eb : (energy (fn r) 9 b < 2)%R) by (unfold energy, toep, b, apart; cbn [sm Nat.sub Nat.add]; rewrite !K by lia; lra).
    rewrite (K 0%nat) by lia. set (e := energy (fn r) 9 a) in *. apply Rmult_lt_reg_r with e; [exact Ha|]. unfold Rdiv at 2. rewrite Rmult_assoc, Rinv_l, Rmult_1_r by lra. lra.
Qed.
Example C51_filter_case : let c := config_new Hz48000 TenMs in legal_config c /\ len pairs = ne c /\ 0 <= 4 <= fs_ind c /\ bands_definite c pairs 4 /\ ~ (n_ms c = TenMs /\ 4 = 2) /\
  (* and the first filter is in use: the prediction gain is above 1.5 *)
  exists params p r a, tns_enc_params (n_ms c) 4 = Ok params /\ In p params /\ autocorr R_ops pairs (snd p) = Ok r /\ best (fn r) 9 a /\ (3 / 2 < fn r 0 / energy (fn r) 9 a)%R.
Proof.
  intros c. split; [exists Hz48000, TenMs; reflexivity|]. split; [reflexivity|]. split; [cbn; lia|]. destruct pairs_definite as [D G]. split; [exact D|]. split; [intros [_ H]; discriminate|].
  destruct (autocorr_ok R_ops pairs [(12, 74); (74, 137); (137, 200)]) as (r & Er & L); [repeat constructor; cbn; lia|].
  assert (Hin : In (12, 200, [(12, 74); (74, 137); (137, 200)]) [(12, 200, [(12, 74); (74, 137); (137, 200)]); (200, 400, [(200, 266); (266, 333); (333, 400)])]) by (left; reflexivity).
  pose proof (D _ _ r eq_refl Hin Er) as Dr. destruct (C51_best_predictor r 0 false 0 (repeat 0%R 16) L Dr ltac:(lia) eq_refl) as (a & _ & _ & _ & B & P & _).
  do 2 eexists. exists r, a. split; [reflexivity|]. split; [exact Hin|]. split; [exact Er|]. split; [exact B|]. exact (G _ _ r a eq_refl Hin Er B P).
Qed.
Print Assumptions C51_autocorrelation.
Print Assumptions C51_error_energy.
Print Assumptions C51_positive_without_window.
Print Assumptions C51_lag_window_refuted.
Print Assumptions C51_best_predictor.
Print Assumptions C51_indices.
Print Assumptions C51_decoder_undoes_filter.
Print Assumptions C51_filter.
Print Assumptions C51_sent.
