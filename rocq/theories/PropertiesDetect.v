(* C38, C39, C21 (encoder half), C45, C46: the encoder stages that look at a frame and decide something. *)
From Coq Require Import ZArith List Bool Lia Reals Lra.
From Flocq Require Import Core.
From Verif Require Import Base Config SideInfo FrameSpec Loops Scalar EncScalar DecTotal EncDetect DetectSpec EncQuant F32 RealOps EncF32.
Import ListNotations.
Local Open Scope Z_scope.

(* ---- C38 ---- *)
(* a history of calls (samples, frame length in bytes) *)
Fixpoint attack_runs {F} (o : ops F) (c : config) (st : attack F) (calls : list (list Z * Z)) : res (list bool * attack F) :=
  match calls with
  | [] => Ok ([], st)
  | (x, n) :: calls => '(a, st) <- attack_run o c st x n ;; '(l, st) <- attack_runs o c st calls ;; Ok (a :: l, st)
  end.
Definition calls_ok (c : config) (calls : list (list Z * Z)) : Prop := Forall (fun p => len (fst p) = nf c) calls.

Lemma attack_step {F} (o : ops F) c st x n : legal_config c -> len x = nf c -> exists a st', attack_run o c st x n = Ok (a, st') /\
  -1 <= at_pos st' < nd_of (n_ms c) / 40 /\ (attack_active c n = false -> a = false /\ at_d1 st' = at_d1 st /\ at_d2 st' = at_d2 st) /\
  (attack_active c n = true -> at_d1 st' = block_sum c (nd_of (n_ms c)) st x (nd_of (n_ms c) - 1) /\ at_d2 st' = block_sum c (nd_of (n_ms c)) st x (nd_of (n_ms c) - 2)).
Proof.
  intros L Lx. destruct (attack_active c n) eqn:A.
  - destruct (attack_run_active o c st x n L Lx A) as (st' & E & P & D1 & D2 & _). eexists _, st'. split; [exact E|]. rewrite P.
    split; [|split; [discriminate|auto]]. pose proof (last_where_range (is_attack o c (nd_of (n_ms c)) st x) (Z.to_nat (nd_of (n_ms c) / 40))) as R. unfold attack_position. destruct (n_ms c); cbn [nd_of] in *; change (120 / 40) with 3 in *; change (160 / 40) with 4 in *; lia.
  - rewrite (attack_run_inactive o c st x n Lx A). eexists _, _. split; [reflexivity|]. cbn [at_pos at_d1 at_d2]. split; [destruct (n_ms c); cbn; lia|]. split; [auto|discriminate].
Qed.
(* Every history runs without a panic, in any arithmetic; frames handled inactive report no attack; positions name a subblock. *)
Theorem C38_total :
  forall (F : Type) (o : ops F) c st calls, legal_config c -> calls_ok c calls ->
    exists flags st', attack_runs o c st calls = Ok (flags, st') /\ length flags = length calls /\
      (forall i, (i < length calls)%nat -> attack_active c (snd (nth i calls ([], 0))) = false -> nth i flags false = false) /\
      (calls <> [] -> -1 <= at_pos st' < match n_ms c with TenMs => 4 | SevenPointFiveMs => 3 end).
Proof.
  intros F o c st calls L. revert st. induction calls as [|[x n] calls IH]; intros st C; cbn [attack_runs].
  - exists [], st. split; [reflexivity|]. split; [reflexivity|]. split; [intros i Hi; cbn in Hi; lia|contradiction].
  - apply Forall_cons_iff in C. destruct C as [C1 C2]. destruct (attack_step o c st x n L C1) as (a & s1 & E1 & P & Q & _). rewrite E1. cbn [bind].
    destruct (IH s1 C2) as (l & s2 & E2 & L2 & F2 & P2). rewrite E2. cbn [bind]. exists (a :: l), s2. split; [reflexivity|]. split; [cbn; lia|]. split.
    + intros [|i] Hi Ha; cbn [nth] in *; [now apply Q|]. apply F2; [cbn in Hi; lia|exact Ha].
    + intros _. destruct calls as [|p calls].
      * cbn [attack_runs] in E2. injection E2 as _ <-. destruct (n_ms c); exact P.
      * apply P2. discriminate.
Qed.
Print Assumptions C38_total.
(* The two sums remembered across frames depend only on the calls made while active. *)
Theorem C38_memory_of_active_calls :
  forall (F : Type) (o : ops F) c st calls, legal_config c -> calls_ok c calls ->
    exists f1 s1 f2 s2, attack_runs o c st calls = Ok (f1, s1) /\ attack_runs o c st (filter (fun p => attack_active c (snd p)) calls) = Ok (f2, s2) /\
      at_d1 s1 = at_d1 s2 /\ at_d2 s1 = at_d2 s2.
Proof.
  intros F o c st calls L. assert (G : forall calls s t, calls_ok c calls -> at_d1 s = at_d1 t -> at_d2 s = at_d2 t ->
    exists f1 s1 f2 s2, attack_runs o c s calls = Ok (f1, s1) /\ attack_runs o c t (filter (fun p => attack_active c (snd p)) calls) = Ok (f2, s2) /\ at_d1 s1 = at_d1 s2 /\ at_d2 s1 = at_d2 s2).
  { clear st calls. induction calls as [|[x n] calls IH]; intros s t C H1 H2; [exists [], s, [], t; auto|]. apply Forall_cons_iff in C. destruct C as [C1 C2].
    cbn [attack_runs filter snd]. destruct (attack_step o c s x n L C1) as (a & s1 & E1 & _ & Q & R). rewrite E1. cbn [bind]. destruct (attack_active c n) eqn:A.
    - cbn [attack_runs]. destruct (attack_step o c t x n L C1) as (b & t1 & E2 & _ & _ & R2). rewrite E2. cbn [bind]. destruct (R eq_refl) as [R3 R4]. destruct (R2 A) as [R5 R6].
      destruct (IH s1 t1 C2) as (f1 & u1 & f2 & u2 & -> & -> & I1 & I2); [rewrite R3, R5; unfold block_sum; destruct (n_ms c); reflexivity|rewrite R4, R6; unfold block_sum; destruct (n_ms c); reflexivity|].
      cbn [bind]. exists (a :: f1), u1, (b :: f2), u2. auto.
    - destruct (Q eq_refl) as (_ & Q1 & Q2). destruct (IH s1 t C2) as (f1 & u1 & f2 & u2 & -> & -> & I1 & I2); [congruence|congruence|]. cbn [bind]. exists (a :: f1), u1, f2, u2. auto. }
  intros C. now apply G.
Qed.
Print Assumptions C38_memory_of_active_calls.
(* An inactive frame forgets the energies and the attack position. *)
Theorem C38_inactive_frame_resets :
  forall (F : Type) (o : ops F) c st x n, len x = nf c -> attack_active c n = false ->
    attack_run o c st x n = Ok (false, mkAttack (fz o 0) (fz o 0) (-1) (at_d1 st) (at_d2 st)).
Proof. intros. now apply attack_run_inactive. Qed.
Print Assumptions C38_inactive_frame_resets.
(* An active frame: the attack position is the last subblock whose energy exceeds 8.5 times the decaying maximum, and an
   attack is reported for it or for a late attack in the frame before. *)
Theorem C38_detection :
  forall (F : Type) (o : ops F) c st x n, legal_config c -> len x = nf c -> attack_active c n = true ->
    exists flag st', attack_run o c st x n = Ok (flag, st') /\ at_pos st' = attack_position o c st x /\
      (flag = true <-> 0 <= at_pos st' \/ match n_ms c with TenMs => 2 | SevenPointFiveMs => 1 end <= at_pos st) /\
      (0 <= at_pos st' -> is_attack o c (nd_of (n_ms c)) st x (at_pos st') = true) /\
      (forall b, at_pos st' < b < nd_of (n_ms c) / 40 -> 0 <= b -> is_attack o c (nd_of (n_ms c)) st x b = false).
Proof.
  intros F o c st x n L Lx A. destruct (attack_run_active o c st x n L Lx A) as (st' & E & P & _). eexists _, st'. split; [exact E|]. split; [exact P|]. rewrite P. split; [|split].
  - destruct (n_ms c); cbn [nd_of]; [change (120 / 80) with 1|change (160 / 80) with 2]; lia.
  - intros H. now apply last_where_true.
  - intros b Hb H0. destruct (is_attack o c (nd_of (n_ms c)) st x b) eqn:Q; [|reflexivity]. exfalso.
    pose proof (last_where_max (is_attack o c (nd_of (n_ms c)) st x) (Z.to_nat (nd_of (n_ms c) / 40)) b ltac:(lia) Q) as K. fold (attack_position o c st x) in K. lia.
Qed.
Print Assumptions C38_detection.
Example C38_case : let c := config_new Hz48000 TenMs in legal_config c /\ attack_active c 100 = true /\ attack_active c 99 = false /\ attack_active (config_new Hz24000 TenMs) 400 = false /\
  attack_active (config_new Hz32000 SevenPointFiveMs) 61 = true /\ attack_active (config_new Hz48000 SevenPointFiveMs) 150 = false.
Proof. split; [eexists _, _; reflexivity|]. repeat split. Qed.

(* ---- C39 ---- *)
(* The detector exists for every rate but 8 kHz; whatever the energies (any arithmetic), it decides on an index the decoder
   accepts for that rate, with as many bits as the decoder reads, and the index fits in them. *)
Theorem C39_bandwidth_decodable :
  forall (F : Type) (o : ops F) f d (eb : list F), f <> Hz8000 -> len eb = nb (config_new f d) ->
    exists b bw n, bwdet_new d (cfg_fs_ind f) = Ok b /\ bw_run o b eb = Ok (bw, n) /\
      0 <= bw <= cfg_fs_ind f /\ idx NBITS_BW_TABLE (cfg_fs_ind f) = Ok n /\ bw < 2 ^ n.
Proof.
  intros F o f d eb Hf Le. destruct (bwdet_new_spec f d Hf) as (b & E & I & G). rewrite <- Le in G.
  assert (Hn : exists n, idx NBITS_BW (bd_ind b) = Ok n /\ idx NBITS_BW_TABLE (cfg_fs_ind f) = Ok n /\ cfg_fs_ind f < 2 ^ n) by (rewrite I; destruct f; try contradiction; eexists; repeat split; reflexivity).
  destruct Hn as (n & N1 & N2 & N3). eexists b, _, n. split; [exact E|]. split; [apply (bw_run_spec o b eb n G N1)|].
  pose proof (last_where_range (loud o b eb) (Z.to_nat (bd_ind b))) as R. pose proof G as (G1 & _). assert (C : 0 <= candidate o b eb <= cfg_fs_ind f) by (unfold candidate; lia).
  destruct (_ || _); rewrite ?I; split; try lia; split; auto; lia.
Qed.
Print Assumptions C39_bandwidth_decodable.
(* The decision: one more than the highest region whose mean energy reaches its threshold, if that is the full band or the
   energy drops below it; the full band otherwise. *)
Theorem C39_decision :
  forall (F : Type) (o : ops F) f d b (eb : list F), f <> Hz8000 -> bwdet_new d (cfg_fs_ind f) = Ok b -> len eb = nb (config_new f d) ->
    exists bw n k, bw_run o b eb = Ok (bw, n) /\ 0 <= k <= cfg_fs_ind f /\ (k = 0 \/ loud o b eb (k - 1) = true) /\ (forall j, k <= j < cfg_fs_ind f -> loud o b eb j = false) /\
      ((bw = k /\ (k = cfg_fs_ind f \/ dropped o b eb k = true)) \/ (bw = cfg_fs_ind f /\ dropped o b eb k = false)).
Proof.
  intros F o f d b eb Hf E Le. destruct (bwdet_new_spec f d Hf) as (b' & E' & I & G). rewrite E in E'. injection E' as <-. rewrite <- Le in G.
  assert (Hn : exists n, idx NBITS_BW (bd_ind b) = Ok n) by (rewrite I; destruct f; eexists; reflexivity). destruct Hn as (n & N1).
  eexists _, n, (candidate o b eb). split; [apply (bw_run_spec o b eb n G N1)|]. pose proof (last_where_range (loud o b eb) (Z.to_nat (bd_ind b))) as R. pose proof G as (G1 & _).
  split; [unfold candidate; lia|]. split; [|split].
  - unfold candidate. destruct (Z.eq_dec (last_where (loud o b eb) (Z.to_nat (bd_ind b))) (-1)) as [->|N]; [left; lia|right]. rewrite Z.add_simpl_r. apply last_where_true. lia.
  - intros j Hj. destruct (loud o b eb j) eqn:Q; [|reflexivity]. exfalso. unfold candidate in Hj. pose proof (last_where_max (loud o b eb) (Z.to_nat (bd_ind b)) j ltac:(lia) Q). lia.
  - rewrite I in *. destruct (Z.eqb_spec (candidate o b eb) (cfg_fs_ind f)); cbn [orb]; [left; auto|]. destruct (dropped o b eb (candidate o b eb)) eqn:D; [left; auto|right; auto].
Qed.
Print Assumptions C39_decision.
Example C39_case : exists b, bwdet_new TenMs (cfg_fs_ind Hz48000) = Ok b /\ getz 0 (bd_start b) 3 = 61 /\ getz 0 (bd_stop b) 3 = 63 /\
  bw_run R_ops b (repeat 100%R 64) = Ok (4, 3).
Proof.
  destruct (bwdet_new_spec Hz48000 TenMs) as (b & E & I & G); [discriminate|]. exists b. split; [exact E|]. rewrite (bw_run_spec R_ops b (repeat 100%R 64) 3 G) by (rewrite I; reflexivity).
  injection E as <-. split; [reflexivity|]. split; [reflexivity|]. unfold candidate. cbn [bd_ind]. change (Z.to_nat 4) with 4%nat. cbn [last_where].
  assert (L : loud R_ops (mkBwdet 4 [41; 51; 57; 61] [49; 55; 60; 63] L_10) (repeat 100%R 64) (Z.of_nat 3) = true).
  { unfold loud, mean_energy, fge. cbn [bd_start bd_stop]. change (getz 0 [41; 51; 57; 61] (Z.of_nat 3)) with 61. change (getz 0 [49; 55; 60; 63] (Z.of_nat 3)) with 63. change (getz 0 [20; 10; 10; 10] (Z.of_nat 3)) with 10.
    change (63 + 1 - 61) with 3. change (iota 3) with [0; 1; 2]. cbn [fold_left]. change (getz (fz R_ops 0) (repeat 100%R 64) (61 + 0)) with 100%R. change (getz (fz R_ops 0) (repeat 100%R 64) (61 + 1)) with 100%R. change (getz (fz R_ops 0) (repeat 100%R 64) (61 + 2)) with 100%R.
    cbn [R_ops flt feq fz fadd fdiv]. rewrite Rlt_bool_true by lra. reflexivity. }
  rewrite L. reflexivity.
Qed.
(* C45: super wide band (index 3) is never chosen for 10 ms frames at 44.1 and 48 kHz: the range searched for an energy drop
   below that region is empty (bandwidth_detector.rs:103-106 excludes the end of the range, and l = 1). *)
Theorem C45_every_bandwidth_reachable_refuted :
  forall f b (eb : list R) bw n, cfg_fs_ind f = 4 -> bwdet_new TenMs (cfg_fs_ind f) = Ok b -> len eb = 64 -> bw_run R_ops b eb = Ok (bw, n) -> bw <> 3.
Proof.
  intros f b eb bw n Hf E Le R. assert (N8 : f <> Hz8000) by (intros ->; discriminate). destruct (bwdet_new_spec f TenMs N8) as (b' & E' & I & G). rewrite E in E'. injection E' as <-.
  assert (L64 : nb (config_new f TenMs) = 64) by (destruct f; reflexivity). rewrite L64, <- Le in G.
  assert (Hn : idx NBITS_BW (bd_ind b) = Ok 3) by (rewrite I, Hf; reflexivity). rewrite (bw_run_spec R_ops b eb 3 G Hn) in R. apply (f_equal (fun r => match r with Ok p => fst p | _ => 0 end)) in R. cbv beta iota delta [fst] in R. rewrite <- R. clear R.
  assert (D3 : dropped R_ops b eb 3 = false).
  { unfold dropped, energy_drop. rewrite Hf in E. injection E as <-. cbn [bd_l bd_start]. change (getz 0 L_10 3) with 1. cbv zeta. change (iota (1 - 1)) with (@nil Z). cbn [fold_left R_ops flt fz]. apply Rlt_bool_false. change (getz 0 [15; 23; 20; 20] 3) with 20. lra. }
  rewrite I, Hf. destruct (Z.eqb_spec (candidate R_ops b eb) 4) as [->|N]; cbn [orb]; [lia|]. destruct (Z.eq_dec (candidate R_ops b eb) 3) as [->|N3]; [rewrite D3; discriminate|]. clear D3. destruct (dropped _ _ _ _); [exact N3|discriminate].
Qed.
Print Assumptions C45_every_bandwidth_reachable_refuted.
(* the same in binary32 *)
Theorem C45_every_bandwidth_reachable_f32_refuted :
  forall lm f b (eb : list f32) bw n, cfg_fs_ind f = 4 -> bwdet_new TenMs (cfg_fs_ind f) = Ok b -> len eb = 64 -> bw_run (f32_ops lm) b eb = Ok (bw, n) -> bw <> 3.
Proof.
  intros lm f b eb bw n Hf E Le R. assert (N8 : f <> Hz8000) by (intros ->; discriminate). destruct (bwdet_new_spec f TenMs N8) as (b' & E' & I & G). rewrite E in E'. injection E' as <-.
  assert (L64 : nb (config_new f TenMs) = 64) by (destruct f; reflexivity). rewrite L64, <- Le in G.
  assert (Hn : idx NBITS_BW (bd_ind b) = Ok 3) by (rewrite I, Hf; reflexivity). rewrite (bw_run_spec (f32_ops lm) b eb 3 G Hn) in R. apply (f_equal (fun r => match r with Ok p => fst p | _ => 0 end)) in R. cbv beta iota delta [fst] in R. rewrite <- R. clear R.
  assert (D3 : dropped (f32_ops lm) b eb 3 = false).
  { unfold dropped, energy_drop. rewrite Hf in E. injection E as <-. cbn [bd_l bd_start]. change (getz 0 L_10 3) with 1. cbv zeta. change (iota (1 - 1)) with (@nil Z). cbn [fold_left]. reflexivity. }
  rewrite I, Hf. destruct (Z.eqb_spec (candidate (f32_ops lm) b eb) 4) as [->|N]; cbn [orb]; [lia|]. destruct (Z.eq_dec (candidate (f32_ops lm) b eb) 3) as [->|N3]; [rewrite D3; discriminate|]. clear D3. destruct (dropped _ _ _ _); [exact N3|discriminate].
Qed.
Print Assumptions C45_every_bandwidth_reachable_f32_refuted.

(* ---- C21, encoder half ---- *)
(* The residual bits: for the first nbits_spec - nbits_trunc + 4 non-zero lines, in order, whether the line is at or above
   its quantised value times the gain. Any arithmetic; the 400 entries of the bit array always suffice. *)
Theorem C21_encoder_residual :
  forall (F : Type) (o : ops F) c spec trunc gg lines xq, legal_config c -> len lines = ne c -> len xq = ne c ->
    residual_encode o spec trunc (ne c) gg lines xq =
      Ok (firstn (Z.to_nat (spec - trunc + 4)) (map (fun '(x, q) => fge o x (fmul o (fz o q) gg)) (filter (fun '(x, q) => negb (q =? 0)) (combine lines xq)))).
Proof. intros F o c spec trunc gg lines xq L L1 L2. apply residual_encode_spec; auto. destruct L as (f & d & ->). destruct f, d; vm_compute; intuition discriminate. Qed.
Print Assumptions C21_encoder_residual.
Example C21_encoder_case : residual_encode R_ops 5 5 80 1%R (repeat 1%R 80) (1 :: 0 :: 2 :: repeat 0 77) = Ok [true; false].
Proof.
  rewrite residual_encode_spec; [|lia|reflexivity|reflexivity]. unfold directions. cbn -[fge R_ops]. unfold fge. cbn [R_ops flt feq fz fmul].
  rewrite Rlt_bool_false by lra. rewrite Req_bool_true by lra. rewrite Rlt_bool_false by lra. rewrite Req_bool_false by lra. reflexivity.
Qed.

(* ---- C46: the noise factor ---- *)
(* for every spectrum, in binary32 and on the reals, the noise factor is computed without a panic and fits its 3 bits; it
   quantises the mean of |x| / gain over the lines whose quantised neighbourhood is zero *)
Theorem C46_noise_factor :
  forall (F : Type) (o : ops F) (e : eops F) c xf xq bw gg, elaws o e -> legal_config c -> len xf = ne c -> len xq = ne c -> 0 <= bw <= fs_ind c ->
    exists nf, noise_factor o e (n_ms c) (ne c) xf xq bw gg = Ok nf /\ 0 <= nf <= 7 /\
      let diff := fsub o (fz o 8) (fmul o (fz o 16) (noise_level o e (n_ms c) (ne c) bw xf xq gg)) in
      nf = if fge o diff (fz o 0) then Z.min 7 (f_i32 o (fadd o diff (flit o (5, -1)))) else 0.
Proof.
  intros F o e c xf xq bw gg EL L L1 L2 Hb.
  assert (G : 0 <= fs_ind c <= 4 /\ match n_ms c with TenMs => 80 * (fs_ind c + 1) | SevenPointFiveMs => 60 * (fs_ind c + 1) end <= ne c) by (destruct L as (f & d & ->); destruct f, d; vm_compute; intuition discriminate).
  destruct G as [G1 G2]. rewrite (noise_factor_spec o e (n_ms c) (ne c) xf xq bw gg); [|lia|auto|auto|destruct (n_ms c); lia].
  eexists. split; [reflexivity|]. cbv zeta. destruct (fge o _ (fz o 0)) eqn:Q; [|lia]. pose proof (el_half o e EL _ Q). set (v := f_i32 o _) in *. rewrite Z.mod_small; [lia|]. assert (7 < 2 ^ 64) by reflexivity. lia.
Qed.
Print Assumptions C46_noise_factor.
Theorem C46_noise_factor_f32 :
  forall lm el c xf xq bw gg, legal_config c -> len xf = ne c -> len xq = ne c -> 0 <= bw <= fs_ind c ->
    exists nf, noise_factor (f32_ops lm) (f32_eops el) (n_ms c) (ne c) xf xq bw gg = Ok nf /\ 0 <= nf <= 7.
Proof. intros lm el c xf xq bw gg L L1 L2 Hb. destruct (C46_noise_factor f32 (f32_ops lm) (f32_eops el) c xf xq bw gg (f32_elaws lm el) L L1 L2 Hb) as (nf & A & B & _). exists nf. auto. Qed.
Print Assumptions C46_noise_factor_f32.
Example C46_case : quiet_lines TenMs 80 0 (1 :: repeat 0 79) = map (fun i => 24 + i) (iota 56) /\ quiet_lines TenMs 80 0 (repeat 0 30 ++ [5] ++ repeat 0 49) = [24; 25; 26] ++ map (fun i => 34 + i) (iota 46).
Proof. split; reflexivity. Qed.
