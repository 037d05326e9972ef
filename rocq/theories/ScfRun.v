(* The noise shaping analysis of the encoder computes what ScfSpec says, in exact arithmetic. *)
From Coq Require Import ZArith Lia List Bool Reals Lra.
From Flocq Require Import Core.
From Verif Require Import Base Config SideInfo FrameSpec EncPayload Mpvq SnsIndex Buffers BufLemmas TablesSnsF Loops Scalar EncScalar RealOps EncF32 DecSignal DecTotal SnsProofs LineSpec DecState EncSns EncSnsOk SnsShape EncShape DctSpec Dct4Inv PitchSpec DetectSpec PitchRun ScfBound FrameProofs ScfSpec.
From Coq Require Import List.
Import ListNotations.
Local Open Scope Z_scope.
Notation zrange := SnsIndex.zrange.

(* ---- the sixteen factors ---- *)
Lemma Rsum_app a b : Rsum (a ++ b) = (Rsum a + Rsum b)%R.
Proof. unfold Rsum. induction a as [|x a IH]; cbn [app fold_right]; [lra|rewrite IH; lra]. Qed.
Lemma Rsum_range (f : Z -> R) a n : Rsum (map f (zrange a (a + Z.of_nat n))) = rsum n (fun i => f (a + i)%Z).
Proof.
  induction n as [|n IH]; [unfold SnsIndex.zrange; replace (a + Z.of_nat 0 - a) with 0 by lia; reflexivity|].
  replace (a + Z.of_nat (S n)) with (a + Z.of_nat n + 1) by lia. rewrite zrange_S, map_app, Rsum_app, IH by lia. cbn [map Rsum fold_right rsum]. lra.
Qed.
Lemma Rsum_zrange (f : Z -> R) n : Rsum (map f (zrange 0 (Z.of_nat n))) = rsum n f.
Proof. change (Z.of_nat n) with (0 + Z.of_nat n). rewrite Rsum_range. apply rsum_ext. intros t _. f_equal. Qed.
Lemma lit75 : R_lit (75, -2) = (3 / 4)%R.
Proof. unfold R_lit. cbn [fst snd]. unfold powerRZ. change (Pos.to_nat 2) with 2%nat. cbn [pow]. lra. Qed.
Lemma lit25 : R_lit (25, -2) = (1 / 4)%R.
Proof. unfold R_lit. cbn [fst snd]. unfold powerRZ. change (Pos.to_nat 2) with 2%nat. cbn [pow]. lra. Qed.
Lemma lit5 : R_lit (5, -1) = (5 / 10)%R.
Proof. unfold R_lit. cbn [fst snd]. unfold powerRZ. change (Pos.to_nat 1) with 1%nat. cbn [pow]. lra. Qed.
Lemma lit3 : R_lit (3, -1) = (3 / 10)%R.
Proof. unfold R_lit. cbn [fst snd]. unfold powerRZ. change (Pos.to_nat 1) with 1%nat. cbn [pow]. lra. Qed.
Lemma lit_eps : R_lit (11920928955078125, -23) = (/ 2 ^ 23)%R.
Proof. unfold R_lit. cbn [fst snd]. unfold powerRZ. change (Pos.to_nat 23) with 23%nat. cbn [pow]. lra. Qed.
Lemma smoothed_blurred x b : 0 <= b < 64 -> smoothed R_ops x b = blurred (getz 0%R x) b.
Proof.
  intros Hb. unfold smoothed, blurred, inside. cbn [R_ops fadd fmul flit fz]. rewrite lit75, lit25, lit5. destruct (Z.eqb_spec b 0); [subst|destruct (Z.eqb_spec b 63)]; [|subst|].
  - change (Z.max 0 (Z.min (64 - 1) (0 - 1))) with 0. change (Z.max 0 (Z.min (64 - 1) (0 + 1))) with 1. lra.
  - change (Z.max 0 (Z.min (64 - 1) (63 - 1))) with 62. change (Z.max 0 (Z.min (64 - 1) (63 + 1))) with 63. lra.
  - replace (Z.max 0 (Z.min (64 - 1) (b - 1))) with (b - 1) by lia. replace (Z.max 0 (Z.min (64 - 1) (b + 1))) with (b + 1) by lia. lra.
Qed.
Lemma map_range_get {A} (d : A) (f : Z -> A) n b : 0 <= b < n -> getz d (map f (zrange 0 n)) b = f b.
Proof. intros H. rewrite (getz_map f 0 d) by (rewrite zrange_len; lia). f_equal. unfold getz, SnsIndex.zrange. rewrite (nth_indep _ 0 ((fun i => 0 + Z.of_nat i) O)) by (rewrite map_length, seq_length; lia). rewrite (map_nth (fun i => 0 + Z.of_nat i)), seq_nth by lia. lia. Qed.
Lemma combine_range {A} (f : Z -> A) l : combine l (map f l) = map (fun b => (b, f b)) l.
Proof. induction l as [|x l IH]; cbn [combine map]; [reflexivity|now rewrite IH]. Qed.
Lemma weight6_list : map weight6 (zrange 0 6) = map (fun k => (IZR k / 12)%R) [1; 2; 3; 3; 2; 1].
Proof. reflexivity. Qed.
Lemma grouped_level x (f : Z -> R) n : (forall b, 0 <= b < 64 -> getz 0%R x b = f b) -> 0 <= n < 16 ->
  grouped R_ops x n = rsum 6 (fun i => (weight6 i * f (inside 64 (4 * n - 1 + i)))%R).
Proof.
  intros H Hn. rewrite <- Rsum_zrange. change (zrange 0 (Z.of_nat 6)) with [0; 1; 2; 3; 4; 5]. cbn [map]. unfold Rsum. cbn [fold_right].
  unfold weight6. change (Z.min (0 + 1) (6 - 0)) with 1. change (Z.min (1 + 1) (6 - 1)) with 2. change (Z.min (2 + 1) (6 - 2)) with 3. change (Z.min (3 + 1) (6 - 3)) with 3. change (Z.min (4 + 1) (6 - 4)) with 2. change (Z.min (5 + 1) (6 - 5)) with 1.
  unfold grouped, sum6, w, inside. cbn [R_ops fadd fmul fdiv fz]. destruct (Z.eqb_spec n 0); [|destruct (Z.eqb_spec n 15)].
  - subst. change (Z.max 0 (Z.min (64 - 1) (4 * 0 - 1 + 0))) with 0. change (Z.max 0 (Z.min (64 - 1) (4 * 0 - 1 + 1))) with 0. change (Z.max 0 (Z.min (64 - 1) (4 * 0 - 1 + 2))) with 1. change (Z.max 0 (Z.min (64 - 1) (4 * 0 - 1 + 3))) with 2. change (Z.max 0 (Z.min (64 - 1) (4 * 0 - 1 + 4))) with 3. change (Z.max 0 (Z.min (64 - 1) (4 * 0 - 1 + 5))) with 4.
    rewrite !H by lia. lra.
  - subst. change (Z.max 0 (Z.min (64 - 1) (4 * 15 - 1 + 0))) with 59. change (Z.max 0 (Z.min (64 - 1) (4 * 15 - 1 + 1))) with 60. change (Z.max 0 (Z.min (64 - 1) (4 * 15 - 1 + 2))) with 61. change (Z.max 0 (Z.min (64 - 1) (4 * 15 - 1 + 3))) with 62. change (Z.max 0 (Z.min (64 - 1) (4 * 15 - 1 + 4))) with 63. change (Z.max 0 (Z.min (64 - 1) (4 * 15 - 1 + 5))) with 63.
    rewrite !H by lia. lra.
  - replace (Z.max 0 (Z.min (64 - 1) (4 * n - 1 + 0))) with (4 * n - 1) by lia. replace (Z.max 0 (Z.min (64 - 1) (4 * n - 1 + 1))) with (4 * n) by lia. replace (Z.max 0 (Z.min (64 - 1) (4 * n - 1 + 2))) with (4 * n + 1) by lia.
    replace (Z.max 0 (Z.min (64 - 1) (4 * n - 1 + 3))) with (4 * n + 2) by lia. replace (Z.max 0 (Z.min (64 - 1) (4 * n - 1 + 4))) with (4 * n + 3) by lia. replace (Z.max 0 (Z.min (64 - 1) (4 * n - 1 + 5))) with (4 * n + 4) by lia.
    rewrite !H by lia. lra.
Qed.
Lemma attacked_spread x (f : Z -> R) n : (forall b, 0 <= b < 16 -> getz 0%R x b = f b) -> 0 <= n < 16 -> attacked R_ops x n = spread f n.
Proof.
  intros H Hn. unfold attacked, spread, mean. cbv zeta. cbn [R_ops fadd fdiv fz].
  destruct (Z.eqb_spec n 0); [subst; rewrite !H by lia; change (Z.to_nat (Z.min 15 (0 + 2) - Z.max 0 (0 - 2) + 1)) with 3%nat; cbn [rsum INR]; change (Z.max 0 (0 - 2)) with 0; cbn [Z.of_nat Z.add Pos.of_succ_nat Pos.succ Pos.add]; lra|].
  destruct (Z.eqb_spec n 1); [subst; rewrite !H by lia; change (Z.to_nat (Z.min 15 (1 + 2) - Z.max 0 (1 - 2) + 1)) with 4%nat; cbn [rsum INR]; change (Z.max 0 (1 - 2)) with 0; cbn [Z.of_nat Z.add Pos.of_succ_nat Pos.succ Pos.add]; lra|].
  destruct (Z.eqb_spec n 14); [subst; rewrite !H by lia; change (Z.to_nat (Z.min 15 (14 + 2) - Z.max 0 (14 - 2) + 1)) with 4%nat; cbn [rsum INR]; change (Z.max 0 (14 - 2)) with 12; cbn [Z.of_nat Z.add Pos.of_succ_nat Pos.succ Pos.add]; lra|].
  destruct (Z.eqb_spec n 15); [subst; rewrite !H by lia; change (Z.to_nat (Z.min 15 (15 + 2) - Z.max 0 (15 - 2) + 1)) with 3%nat; cbn [rsum INR]; change (Z.max 0 (15 - 2)) with 13; cbn [Z.of_nat Z.add Pos.of_succ_nat Pos.succ Pos.add]; lra|].
  rewrite !H by lia. replace (Z.min 15 (n + 2) - Z.max 0 (n - 2) + 1) with 5 by lia. change (Z.to_nat 5) with 5%nat. cbn [rsum INR]. replace (Z.max 0 (n - 2)) with (n - 2) by lia.
  replace (n - 2 + Z.of_nat 0) with (n - 2) by lia. replace (n - 2 + Z.of_nat 1) with (n - 1) by lia. replace (n - 2 + Z.of_nat 2) with n by lia. replace (n - 2 + Z.of_nat 3) with (n + 1) by lia. replace (n - 2 + Z.of_nat 4) with (n + 2) by lia. lra.
Qed.
Lemma mean_ext n f g : (forall t, 0 <= t < Z.of_nat n -> f t = g t) -> mean n f = mean n g.
Proof. intros H. unfold mean. f_equal. now apply rsum_ext. Qed.
Lemma avg16 (f : Z -> R) : (fsum R_ops (map f (zrange 0 16)) / IZR 16)%R = mean 16 f.
Proof. rewrite fsum_R. change 16 with (Z.of_nat 16) at 1. rewrite Rsum_zrange. unfold mean. f_equal. cbn. lra. Qed.
(* fluctuations about the mean cancel *)
Lemma about_mean n k f : (0 < n)%nat -> rsum n (fun t => (k * (f t - mean n f))%R) = 0%R.
Proof.
  intros H. rewrite rsum_mul. unfold Rminus. rewrite rsum_add. assert (E : rsum n (fun _ => (- mean n f)%R) = (INR n * - mean n f)%R) by (generalize (- mean n f)%R; intros M; clear; induction n as [|n IH]; [cbn; lra|]; rewrite S_INR; cbn [rsum]; lra).
  rewrite E. unfold mean. assert (0 < INR n)%R by (apply lt_0_INR; exact H). field. lra.
Qed.
Theorem scale_factors_real c eb attack : legal_config c -> nb c = 64 -> len eb = 64 ->
  exists scf, sns_scale_factors R_ops R_eops c eb attack = Ok scf /\ len scf = 16 /\ forall n, 0 <= n < 16 -> getz 0%R scf n = scale_factors c attack (getz 0%R eb) n.
Proof.
  intros Lc Nb Le. unfold sns_scale_factors. assert (T : idx G_TILT (fs_ind c) = Ok (14 + 4 * fs_ind c)) by (destruct Lc as (f & d & ->); destruct f, d; reflexivity). rewrite T. cbn [bind]. clear T.
  unfold sns_pad. rewrite Nb. unfold usub. change (64 <? 64) with false. cbn [bind]. change (0 <? 64 - 64) with false. cbv iota. rewrite len_repeat.
  destruct (blit_ok (repeat (fz R_ops 0) 64) 0 64 eb ltac:(lia) ltac:(rewrite len_repeat; lia) ltac:(lia)) as (p & Ep & Lp & Tp). change (Z.of_nat 64) with 64. rewrite Ep. cbn [bind]. rewrite len_repeat in Lp.
  assert (p = eb) as ->. { apply (list_eq_getz 0%R); [lia|]. intros i Hi. rewrite Tp by lia. destruct (Z.leb_spec 0 i), (Z.ltb_spec i 64); cbn [andb]; try lia. f_equal. lia. }
  clear Ep Tp Lp. rewrite (smooth_at R_ops eb) by lia. cbn [bind]. cbv zeta.
  set (e := getz 0%R eb). set (fs := fs_ind c).
  match goal with |- context [map ?f (combine ?a ?b)] => assert (Es : map f (combine a b) = map (tilted fs e) (zrange 0 64)) end.
  { replace (len (map (smoothed R_ops eb) (zrange 0 64))) with 64 by reflexivity. rewrite combine_range, map_map. apply map_zrange_ext. intros b Hb. cbv beta iota. rewrite smoothed_blurred by exact Hb. unfold tilted. cbn [R_ops R_eops fmul fdiv fz e_pow10]. fold e. do 2 f_equal. unfold fs. lra. }
  rewrite Es. clear Es. set (s := map (tilted fs e) (zrange 0 64)).
  match goal with |- context [sns_group R_ops ?x] => assert (El : x = map (band_level fs e) (zrange 0 64)) end.
  { unfold s. rewrite map_map. apply map_ext. intros b. cbv beta. rewrite !fmax_R, fsum_R. cbn [R_ops R_eops fmul fdiv fz fadd flit e_powi e_log2]. rewrite lit_eps. unfold band_level, log2. do 4 f_equal. unfold noise_floor, mean. change 64 with (Z.of_nat 64) at 1. rewrite Rsum_zrange.
    assert (P : powerRZ 10 (-4) = (1 / 10000)%R) by (pose proof lit_small as Q; unfold R_lit in Q; cbn [fst snd] in Q; lra). rewrite P. replace (INR 64) with 64%R by (cbn; lra). f_equal.
    apply f_equal2; [reflexivity|lra]. }
  rewrite El. clear El s. assert (Ll : len (map (band_level fs e) (zrange 0 64)) = 64) by reflexivity. rewrite group_at by exact Ll. cbn [bind].
  assert (Eg : map (grouped R_ops (map (band_level fs e) (zrange 0 64))) (zrange 0 16) = map (group_level fs e) (zrange 0 16)).
  { apply map_zrange_ext. intros n Hn. unfold group_level. apply grouped_level; [|exact Hn]. intros b Hb. now rewrite map_range_get. }
  rewrite Eg. clear Eg Ll.
  assert (Em : sns_mean R_ops (map (group_level fs e) (zrange 0 16)) = map (centred fs e) (zrange 0 16)).
  { unfold sns_mean. cbv zeta. replace (len (map (group_level fs e) (zrange 0 16))) with 16 by reflexivity. cbn [R_ops fmul fdiv fz fsub flit]. rewrite avg16, lit_85, map_map. reflexivity. }
  rewrite Em. clear Em. assert (Lm : len (map (centred fs e) (zrange 0 16)) = 16) by reflexivity. change (repeat 0%R 16) with (repeat (fz R_ops 0) 16).
  unfold scale_factors. fold fs. cbv zeta. destruct attack.
  - rewrite attack_at by exact Lm. eexists. split; [reflexivity|]. cbv zeta.
    assert (Ea : map (attacked R_ops (map (centred fs e) (zrange 0 16))) (zrange 0 16) = map (spread (centred fs e)) (zrange 0 16)).
    { apply map_zrange_ext. intros n Hn. apply attacked_spread; [|exact Hn]. intros b Hb. now rewrite map_range_get. }
    rewrite Ea. clear Ea. split; [reflexivity|]. intros n Hn. replace (len (map (spread (centred fs e)) (zrange 0 16))) with 16 by reflexivity. cbn [R_ops fmul fdiv fz fsub flit]. rewrite avg16, map_map, map_range_get by exact Hn.
    unfold softened. destruct (n_ms c); [rewrite lit3|rewrite lit5]; reflexivity.
  - rewrite no_attack_at by exact Lm. eexists. split; [reflexivity|]. split; [reflexivity|]. intros n Hn. now rewrite map_range_get.
Qed.
Lemma scale_factors_sum c attack e : rsum 16 (scale_factors c attack e) = 0%R.
Proof. unfold scale_factors. cbv zeta. destruct attack; [unfold softened|unfold centred]; apply about_mean; lia. Qed.

(* ---- pulses ---- *)
Lemma zrange_0 n : 0 < n -> zrange 0 n = 0 :: zrange 1 n.
Proof. intros H. unfold SnsIndex.zrange. replace (Z.to_nat (n - 0)) with (S (Z.to_nat (n - 1))) by lia. cbn [seq map]. f_equal. rewrite <- seq_shift, map_map. apply map_ext. intros; lia. Qed.
Lemma scan_snoc bt b l r k : scan bt b l r -> (bt r k -> scan bt b (l ++ [k]) k) /\ (~ bt r k -> scan bt b (l ++ [k]) r).
Proof. induction 1 as [b|b j l r Hb S IH|b j l r Hb S IH]; cbn [app]; split; intros Hk; [apply scan_take; [exact Hk|constructor]|apply scan_keep; [exact Hk|constructor]|apply scan_take; tauto|apply scan_take; tauto|apply scan_keep; tauto|apply scan_keep; tauto]. Qed.
Lemma scan_range bt n r : scan bt 0 (zrange 1 n) r -> 1 <= n -> 0 <= r < n.
Proof. intros S Hn. assert (G : forall b l r, scan bt b l r -> r = b \/ In r l) by (induction 1 as [b|b k l r' _ _ IH|b k l r' _ _ IH]; cbn [In]; [now left|right; destruct IH; auto|destruct IH; auto]). destruct (G _ _ _ S) as [->|H]; [lia|]. apply in_zrange in H. lia. Qed.
Lemma pulse_best_R ax a cand y c e n : 1 <= n -> n <= len ax -> n <= len cand -> (forall k, 0 <= k < n -> getz 0%R ax k = a k) -> (forall k, 0 <= k < n -> getz 0 cand k = y k) ->
  exists b, pulse_best R_ops ax c e cand n = Ok b /\ scan (better a c e y) 0 (zrange 1 n) b.
Proof.
  intros H1 H2 H3 Ha Hy. unfold pulse_best. rewrite (idx_get 0%R ax 0), (idx_get 0 cand 0) by lia. cbn [bind]. cbv zeta. rewrite Ha, Hy by lia.
  match goal with |- context [for_range 1 n ?f ?s] => destruct (for_inv (fun i st => scan (better a c e y) 0 (zrange 1 i) (fst (fst st)) /\ snd (fst st) = ((c + a (fst (fst st))) * (c + a (fst (fst st))))%R /\ snd st = (e + 2 * IZR (y (fst (fst st))) + 1)%R /\ 0 <= fst (fst st) < n) 1 n f s H1) as (st & E & B1 & _) end.
  - cbn [fst snd]. split; [rewrite zrange_nil by lia; constructor|]. split; [reflexivity|]. split; [reflexivity|lia].
  - intros j [[b bc] be] Hj (S & E1 & E2 & Hb). cbn [fst snd] in *. rewrite (idx_get 0%R ax j), (idx_get 0 cand j) by lia. cbn [bind]. rewrite Ha, Hy by lia. cbn [R_ops flt fmul fadd fz]. eexists. split; [reflexivity|].
    rewrite zrange_S by lia. destruct (scan_snoc _ _ _ _ j S) as [S1 S2]. subst bc be. unfold better in S1, S2.
    destruct (Rlt_bool_spec ((c + a b) * (c + a b) * (e + 2 * IZR (y j) + 1)) ((c + a j) * (c + a j) * (e + 2 * IZR (y b) + 1))) as [P|P]; cbn [fst snd].
    + split; [now apply S1|]. split; [reflexivity|]. split; [reflexivity|lia].
    + split; [apply S2; lra|]. split; [reflexivity|]. split; [reflexivity|lia].
  - destruct st as [[b bc] be]. cbn [fst] in *. rewrite E. cbn [bind]. eauto.
Qed.
Lemma pulses_R ax a n : 1 <= n -> n <= len ax -> (forall k, 0 <= k < n -> getz 0%R ax k = a k) -> forall m cand y c e ret, n <= len cand -> (forall k, 0 <= k < n -> getz 0 cand k = y k) ->
  exists y' r', EncSns.pulses R_ops m ax n cand c e ret = Ok (y', r') /\ len y' = len cand /\ grown a n m y c e ret (getz 0 y') r'.
Proof.
  intros H1 H2 Ha. induction m as [|m IH]; intros cand y c e ret H3 Hy; cbn [EncSns.pulses grown].
  - exists cand, ret. auto.
  - destruct (pulse_best_R ax a cand y c e n H1 H2 H3 Ha Hy) as (b & -> & S). cbn [bind]. pose proof (scan_range _ _ _ S H1) as Hb.
    rewrite (idx_get 0%R ax (n - 1)), (idx_get 0 cand (n - 1)), (idx_get 0%R ax b), (idx_get 0 cand b) by lia. cbn [bind]. cbv zeta. rewrite !Ha, !Hy by lia.
    destruct (put_ok 0 cand b (y b + 1) ltac:(lia)) as (cand' & -> & Lc & Tc). cbn [bind R_ops fadd fmul fz].
    destruct (IH cand' (one_more y b) (c + a b)%R (e + 2 * IZR (y b) + 1)%R (c + a (n - 1)%Z, e + 2 * IZR (y (n - 1)%Z) + 1)%R ltac:(lia)) as (y' & r' & E & L & G).
    { intros k Hk. rewrite Tc by lia. unfold one_more. destruct (Z.eqb_spec k b); [now subst|now apply Hy]. }
    exists y', r'. split; [exact E|]. split; [lia|]. exists b. auto.
Qed.
Lemma map_getz {A B} (d : A) (f : A -> B) l : map f l = map (fun k => f (getz d l k)) (zrange 0 (len l)).
Proof.
  pose proof (len_nonneg l). destruct l as [|x l]; [reflexivity|]. set (l' := x :: l) in *. apply (list_eq_getz (f d)); [rewrite !len_map, zrange_len by lia; reflexivity|]. intros j Hj. rewrite len_map in Hj. rewrite map_range_get by exact Hj. now rewrite (getz_map f d) by exact Hj.
Qed.
Lemma project_R ax : project R_ops R_eops ax = (map (proj R_ops R_eops ax) ax, zsum (map (proj R_ops R_eops ax) ax),
  (Rsum (map (fun v => IZR (proj R_ops R_eops ax v) * v)%R ax), Rsum (map (fun v => IZR (proj R_ops R_eops ax v) * IZR (proj R_ops R_eops ax v))%R ax))).
Proof.
  destruct (project_spec R_ops R_eops ax) as (s & E). rewrite E. f_equal. apply (f_equal snd) in E. cbn [snd] in E. rewrite <- E. clear E s. unfold project. fold (proj_factor R_ops ax). cbv zeta.
  assert (G : forall l y k cr en, snd (fold_left (fun '(y, k, (cr, en)) a =>
    (y ++ [f_i32 R_ops (e_floor R_eops (fmul R_ops a (proj_factor R_ops ax)))], k + f_i32 R_ops (e_floor R_eops (fmul R_ops a (proj_factor R_ops ax))),
     if f_i32 R_ops (e_floor R_eops (fmul R_ops a (proj_factor R_ops ax))) =? 0 then (cr, en) else
     (fadd R_ops cr (fmul R_ops (fz R_ops (f_i32 R_ops (e_floor R_eops (fmul R_ops a (proj_factor R_ops ax))))) a),
      fadd R_ops en (fmul R_ops (fz R_ops (f_i32 R_ops (e_floor R_eops (fmul R_ops a (proj_factor R_ops ax))))) (fz R_ops (f_i32 R_ops (e_floor R_eops (fmul R_ops a (proj_factor R_ops ax))))))))) l (y, k, (cr, en))) =
    (cr + Rsum (map (fun v => IZR (proj R_ops R_eops ax v) * v)%R l), en + Rsum (map (fun v => IZR (proj R_ops R_eops ax v) * IZR (proj R_ops R_eops ax v))%R l))%R).
  { induction l as [|v l IH]; intros y k cr en; cbn [fold_left map]; unfold Rsum; cbn [fold_right snd].
    - f_equal; lra.
    - change (f_i32 R_ops (e_floor R_eops (fmul R_ops v (proj_factor R_ops ax)))) with (proj R_ops R_eops ax v). destruct (Z.eqb_spec (proj R_ops R_eops ax v) 0) as [Q|Q]; rewrite IH.
      + rewrite Q. unfold Rsum. f_equal; lra.
      + cbn [R_ops fadd fmul fz]. fold R_ops. unfold Rsum. f_equal; lra. }
  rewrite G. cbn [R_ops fz]. fold R_ops. f_equal; lra.
Qed.
Lemma minus_R t at_ : forall cr en, len t = len at_ ->
  fold_left (fun '(cr, en) '(v, a) => if v =? 0 then (cr, en) else (fsub R_ops cr (fmul R_ops (fz R_ops v) a), fsub R_ops en (fmul R_ops (fz R_ops v) (fz R_ops v)))) (combine t at_) (cr, en) =
  (cr - rsum (length t) (fun i => IZR (getz 0%Z t i) * getz 0 at_ i), en - rsum (length t) (fun i => IZR (getz 0%Z t i) * IZR (getz 0%Z t i)))%R.
Proof.
  revert at_. induction t as [|v t IH]; intros [|x at_] cr en H; rewrite ?len_cons in H; try (unfold len in H; cbn [length] in H; lia).
  - cbn [combine fold_left length rsum]. f_equal; lra.
  - cbn [combine fold_left length]. rewrite !rsum_front, !getz_cons_0.
    assert (X1 : rsum (length t) (fun i => (IZR (getz 0%Z (v :: t) (i + 1)) * getz 0 (x :: at_) (i + 1))%R) = rsum (length t) (fun i => (IZR (getz 0%Z t i) * getz 0 at_ i)%R)) by (apply rsum_ext; intros i Hi; now rewrite !getz_cons_S by lia).
    assert (X2 : rsum (length t) (fun i => (IZR (getz 0%Z (v :: t) (i + 1)) * IZR (getz 0%Z (v :: t) (i + 1)))%R) = rsum (length t) (fun i => (IZR (getz 0%Z t i) * IZR (getz 0%Z t i))%R)) by (apply rsum_ext; intros i Hi; now rewrite !getz_cons_S by lia).
    rewrite X1, X2. destruct (Z.eqb_spec v 0) as [->|N]; rewrite IH by lia; [f_equal; lra|]. cbn [R_ops fsub fmul fz]. fold R_ops. f_equal; lra.
Qed.
Lemma largest_R (f : Z -> R) a e : forall l n best mx, a <= n -> (forall j, 0 <= j < len l -> getz 0%R l j = f (n + j)) -> best_so_far f (zrange a n) e (mx, best) -> exists mx', best_so_far f (zrange a (n + len l)) e (mx', largest R_ops l n best mx).
Proof.
  induction l as [|v l IH]; intros n best mx Hn H B; cbn [largest].
  - exists mx. unfold len. cbn [length]. now rewrite Z.add_0_r.
  - rewrite len_cons in *. pose proof (len_nonneg l) as Hl. pose proof (H 0 ltac:(lia)) as H0. rewrite getz_cons_0, Z.add_0_r in H0. pose proof (best_snoc _ _ _ _ n B) as B'. rewrite <- zrange_S in B' by lia. cbn [fst] in B'. rewrite <- H0 in B'.
    replace (n + (len l + 1)) with (n + 1 + len l) by lia. cbn [R_ops flt]. fold R_ops.
    assert (H' : forall j, 0 <= j < len l -> getz 0%R l j = f (n + 1 + j)) by (intros j Hj; specialize (H (j + 1) ltac:(lia)); rewrite getz_cons_S in H by lia; rewrite H; f_equal; lia).
    destruct (Rlt_bool mx v); apply IH; auto; lia.
Qed.
Lemma signed_get t y k : len y <= len t -> 0 <= k < len y -> getz 0 (EncSns.signed R_ops t y) k = sgn_of (getz 0%R t k) (getz 0 y k).
Proof.
  intros L Hk. rewrite (signed_short R_ops t y (length y)) by (unfold len in *; lia). unfold EncSns.signed. set (t' := firstn (length y) t). assert (L' : len t' = len y) by (unfold t', len in *; rewrite firstn_length; lia).
  rewrite (getz_map _ (0%R, 0%Z)) by (rewrite len_combine; lia). rewrite getz_combine by exact L'. cbv beta iota. assert (getz 0%R t' k = getz 0%R t k) as ->.
  { unfold t', getz. rewrite FrameProofs.nth_firstn_lt_gen; [reflexivity|]. unfold len in Hk. lia. }
  unfold sgn_of. cbn [R_ops flt fz]. destruct (Rlt_bool_spec (getz 0%R t k) 0), (Rlt_dec (getz 0%R t k) 0); try lra; reflexivity.
Qed.
Lemma zsum_range (l : list Z) a b : 0 <= a <= b -> b <= len l -> zsum (map (getz 0 l) (zrange a b)) = zsum (firstn (Z.to_nat (b - a)) (skipn (Z.to_nat a) l)).
Proof.
  intros H1 H2. f_equal. apply (list_eq_getz 0).
  - rewrite len_map. unfold len in *. rewrite firstn_length, skipn_length. unfold SnsIndex.zrange. rewrite map_length, seq_length. lia.
  - intros j Hj. rewrite len_map in Hj. unfold len, SnsIndex.zrange in Hj. rewrite map_length, seq_length in Hj. rewrite (getz_map _ 0) by (unfold len, SnsIndex.zrange; rewrite map_length, seq_length; exact Hj).
    unfold getz at 3. rewrite nth_firstn_lt_gen, nth_skipn by lia. unfold getz. f_equal. rewrite <- Z2Nat.inj_add by lia. f_equal.
    unfold SnsIndex.zrange. rewrite (nth_indep _ 0 ((fun i => a + Z.of_nat i) O)) by (rewrite map_length, seq_length; lia). rewrite (map_nth (fun i => a + Z.of_nat i)), seq_nth by lia. lia.
Qed.
Theorem candidates_real t2 n : len t2 = 16 -> 10 <= n < 16 -> getz 0%R t2 n <> 0%R ->
  exists y0 y1 y2 y3, sns_candidates R_ops R_eops t2 = Ok (y0, y1, y2, y3) /\ len y0 = 16 /\ len y1 = 10 /\ len y2 = 16 /\ len y3 = 16 /\ candidates (getz 0%R t2) (getz 0 y0) (getz 0 y1) (getz 0 y2) (getz 0 y3).
Proof.
  intros L Hn Nz. pose proof (R_regular t2 n L Hn Nz) as Rg. destruct (candidates_ok R_ops R_eops t2 L Rg (R_set_b t2 n Hn Nz)) as ([[[z0 z1] z2] z3] & Eok & L0 & _ & _ & L1 & _ & L2 & _ & L3 & _). exists z0, z1, z2, z3. split; [exact Eok|]. do 4 (split; [assumption|]). revert Eok.
  destruct Rg as [R1 R2 _]. set (t := getz 0%R t2). set (a := fun k => Rabs (t k)). unfold sns_candidates. set (ax := map (e_abs R_eops) t2) in *. assert (La : len ax = 16) by (unfold ax; now rewrite len_map).
  assert (Ta : forall k, getz 0%R ax k = a k). { intros k. unfold ax, a, t, getz. cbn [R_eops e_abs]. rewrite <- (Rabs_R0) at 1. apply map_nth. }
  rewrite project_R. set (pf := proj R_ops R_eops ax) in *. set (p3 := map pf ax) in *. assert (N3 : nonneg p3) by (unfold p3, nonneg; rewrite Forall_map; exact R1). assert (L3' : len p3 = 16) by (unfold p3; now rewrite len_map).
  pose proof (zsum_nonneg p3 N3) as S3. destruct (Z.ltb_spec (zsum p3) 0); [lia|]. unfold add_pulses. cbn [fst snd].
  assert (Sx : Rsum ax = rsum 16 a). { rewrite <- (map_id ax), (map_getz 0%R), La. change 16 with (Z.of_nat 16) at 1. rewrite Rsum_zrange. apply rsum_ext. intros k _. apply Ta. }
  assert (Tp : forall k, 0 <= k < 16 -> getz 0 p3 k = Zfloor (5 * a k / rsum 16 a)).
  { intros k Hk. unfold p3. rewrite (getz_map pf 0%R) by lia. rewrite Ta. unfold pf, proj, proj_factor. cbn [R_ops R_eops f_i32 e_floor fmul fdiv fsub fz]. fold R_ops. rewrite fsum_R, Sx. rewrite Ztrunc_IZR.
    assert (P : (0 < rsum 16 a)%R).
    { rewrite <- Sx. pose proof (abs_nonneg t2) as N. fold ax in N. assert (Hin : In (a n) ax). { rewrite <- Ta. unfold getz. apply nth_In. unfold len in La. lia. } pose proof (Rsum_in ax _ N Hin). assert (0 < a n)%R by (unfold a, t; now apply Rabs_pos_lt). lra. }
    replace (a k * ((6 - 1) / rsum 16 a))%R with (5 * a k / rsum 16 a)%R by (field; lra). assert (B : (0 <= 5 * a k / rsum 16 a <= 5)%R).
    { assert (0 <= a k)%R by (unfold a; apply Rabs_pos). assert (a k <= rsum 16 a)%R by (rewrite <- (Ta k), <- Sx; apply Rsum_in; [apply abs_nonneg|unfold getz; apply nth_In; unfold len in La; lia]). split; [apply Rmult_le_pos; [lra|left; apply Rinv_0_lt_compat; lra]|]. apply (Rmult_le_reg_r (rsum 16 a)); [lra|]. unfold Rdiv. rewrite Rmult_assoc, Rinv_l by lra. lra. }
    assert (0 <= Zfloor (5 * a k / rsum 16 a)) by (apply Zfloor_lub; lra). assert (Zfloor (5 * a k / rsum 16 a) <= 5) by (apply le_IZR; pose proof (Zfloor_lb (5 * a k / rsum 16 a)); lra). lia. }
  assert (Sp : (Rsum (map (fun v => IZR (pf v) * v)%R ax), Rsum (map (fun v => IZR (pf v) * IZR (pf v))%R ax)) = (corr16 a (getz 0 p3), energy16 (getz 0 p3))).
  { assert (Pk : forall k, 0 <= k < 16 -> pf (getz 0%R ax k) = getz 0 p3 k) by (intros k Hk; unfold p3; now rewrite (getz_map pf 0%R) by lia).
    unfold corr16, energy16. rewrite !(map_getz 0%R _ ax), La. change 16 with (Z.of_nat 16) at 1 2. rewrite !Rsum_zrange. f_equal; apply rsum_ext; intros k Hk; rewrite Pk by lia; [now rewrite Ta|reflexivity]. }
  apply pair_equal_spec in Sp. destruct Sp as [-> ->].
  destruct (pulses_R ax a 16 ltac:(lia) ltac:(lia) (fun k _ => Ta k) (Z.to_nat (6 - zsum p3)) p3 (getz 0 p3) (corr16 a (getz 0 p3)) (energy16 (getz 0 p3)) (corr16 a (getz 0 p3), energy16 (getz 0 p3)) ltac:(lia) (fun k _ => eq_refl)) as (y3 & s3 & E3 & M3 & G3).
  destruct (EncSnsOk.pulses_ok R_ops (Z.to_nat (6 - zsum p3)) ax 16 p3 (corr16 a (getz 0 p3)) (energy16 (getz 0 p3)) (corr16 a (getz 0 p3), energy16 (getz 0 p3)) ltac:(lia) ltac:(lia) ltac:(lia) N3) as ([y3' s3'] & E3' & _ & N3y & Z3). rewrite E3 in E3'. apply ParseBase.Ok_inj in E3'. apply pair_equal_spec in E3'. destruct E3' as [<- _].
  rewrite E3. cbn [bind]. clear E3 s3'.
  destruct (pulses_R ax a 16 ltac:(lia) ltac:(lia) (fun k _ => Ta k) 2 y3 (getz 0 y3) (fst s3) (snd s3) s3 ltac:(lia) (fun k _ => eq_refl)) as (y2 & [cr en] & E2 & M2 & G2).
  destruct (EncSnsOk.pulses_ok R_ops 2 ax 16 y3 (fst s3) (snd s3) s3 ltac:(lia) ltac:(lia) ltac:(lia) N3y) as ([y2' s2'] & E2' & _ & N2y & Z2). rewrite E2 in E2'. apply ParseBase.Ok_inj in E2'. apply pair_equal_spec in E2'. destruct E2' as [<- _].
  rewrite E2. cbn [bind]. clear E2 s2'.
  destruct (sub_ok y2 0 10 ltac:(lia) ltac:(lia)) as (ya & -> & Lya & Tya). destruct (sub_ok y2 10 16 ltac:(lia) ltac:(lia)) as (yb & Eyb & Lyb & Tyb). destruct (sub_ok ax 10 16 ltac:(lia) ltac:(lia)) as (xb & -> & Lxb & Txb). rewrite Eyb. cbn [bind]. cbv zeta.
  rewrite minus_R by lia. assert (Hlb : length yb = 6%nat) by (unfold len in Lyb; lia). rewrite Hlb.
  assert (Zb : zsum yb = zsum (map (getz 0 y2) (zrange 10 16))). { rewrite zsum_range by lia. unfold sub in Eyb. cbn [Z.ltb Z.compare Pos.compare Pos.compare_cont CompOpp] in Eyb. destruct (len y2 <? 16); [discriminate|]. apply ParseBase.Ok_inj in Eyb. now rewrite <- Eyb. }
  assert (Q1 : rsum 6 (fun i => (IZR (getz 0%Z yb i) * getz 0 xb i)%R) = rsum 6 (fun i => (IZR (getz 0%Z y2 (10 + i)) * a (10 + i)%Z)%R)) by (apply rsum_ext; intros i Hi; rewrite Tyb, Txb, Ta by lia; reflexivity).
  assert (Q2 : rsum 6 (fun i => (IZR (getz 0%Z yb i) * IZR (getz 0%Z yb i))%R) = rsum 6 (fun i => (IZR (getz 0%Z y2 (10 + i)) * IZR (getz 0%Z y2 (10 + i)))%R)) by (apply rsum_ext; intros i Hi; rewrite Tyb by lia; reflexivity).
  rewrite Q1, Q2. clear Q1 Q2. cbn [fst snd].
  assert (Zk : 0 <= zsum yb <= 8).
  { rewrite Zb, zsum_range by lia. change (Z.to_nat (16 - 10)) with 6%nat. change (Z.to_nat 10) with 10%nat. rewrite firstn_all2 by (rewrite skipn_length; unfold len in M2, M3, L3'; lia). pose proof (zsum_app (firstn 10 y2) (skipn 10 y2)) as Z. rewrite firstn_skipn in Z.
    pose proof (zsum_nonneg _ (nonneg_firstn 10 y2 N2y)). pose proof (zsum_nonneg _ (nonneg_skipn 10 y2 N2y)). lia. }
  destruct (Z.ltb_spec (8 - zsum yb) 0); [lia|].
  match goal with |- context [EncSns.pulses R_ops _ ax 10 ya ?c ?e ?r] => destruct (pulses_R ax a 10 ltac:(lia) ltac:(lia) (fun k _ => Ta k) (Z.to_nat (10 - (8 - zsum yb))) ya (getz 0 y2) c e r ltac:(lia)) as (y1 & s1 & E1 & M1 & G1) end.
  { intros k Hk. rewrite Tya by lia. reflexivity. }
  rewrite E1. cbn [bind]. clear E1. change (repeat 0 6) with [0; 0; 0; 0; 0; 0]. set (b := largest R_ops xb 10 0 (fz R_ops 0)).
  assert (FB : first_best a (zrange 10 16) b).
  { destruct (largest_R a 10 0 xb 10 0 (fz R_ops 0) ltac:(lia)) as (mx & B); [intros j Hj; rewrite Txb by lia; apply Ta|left; split; [reflexivity|]; intros k Hk; apply in_zrange in Hk; lia|]. apply best_done in B. cbn [snd] in B. fold b in B. rewrite Lxb in B. change (10 + (16 - 10)) with 16 in B.
    destruct B as [[_ B]|[_ B]]; [|exact B]. exfalso. specialize (B n ltac:(apply in_zrange; lia)). assert (0 < a n)%R by (unfold a, t; now apply Rabs_pos_lt). lra. }
  pose proof (first_best_in _ _ _ FB) as Hb. apply in_zrange in Hb.
  assert (Ly : len (y1 ++ [0; 0; 0; 0; 0; 0]) = 16) by (rewrite len_app; change (len [0; 0; 0; 0; 0; 0]) with 6; lia).
  destruct (put_ok 0 (y1 ++ [0; 0; 0; 0; 0; 0]) b 1 ltac:(lia)) as (y0 & -> & Ly0 & Ty0). cbn [bind]. intros Eok. apply ParseBase.Ok_inj in Eok. apply pair_equal_spec in Eok. destruct Eok as [Eok <-]. apply pair_equal_spec in Eok. destruct Eok as [Eok <-]. apply pair_equal_spec in Eok. destruct Eok as [<- <-].
  unfold candidates. cbv zeta. fold a. exists (getz 0 p3), (getz 0 y3), (getz 0 y2), (getz 0 y1), s3, (cr, en), s1, b.
  split; [exact Tp|]. split; [|split; [exact G2|split; [|split; [exact FB|split; [|split]]]]].
  - replace (zsum (map (getz 0 p3) (zrange 0 16))) with (zsum p3); [exact G3|]. rewrite zsum_range by lia. change (Z.to_nat 0) with O. cbn [skipn]. f_equal. symmetry. apply firstn_all2. unfold len in L3'. lia.
  - cbn [fst snd]. rewrite <- Zb. replace (2 + zsum yb) with (10 - (8 - zsum yb)) by lia. exact G1.
  - intros k Hk. rewrite !signed_get by lia. auto.
  - intros k Hk. rewrite !signed_get by lia. split; [reflexivity|]. f_equal. rewrite Ty0 by lia. destruct (Z.eqb_spec k b); [lia|]. rewrite SnsShape.getz_app by lia. destruct (Z.ltb_spec k (len y1)); [reflexivity|lia].
  - intros k Hk. split; [unfold getz; apply nth_overflow; unfold len in L1; lia|]. rewrite signed_get by lia. f_equal. rewrite Ty0 by lia. destruct (Z.eqb_spec k b); [reflexivity|]. rewrite SnsShape.getz_app by lia. destruct (Z.ltb_spec k (len y1)); [lia|].
    unfold getz. assert (C : k - len y1 = 0 \/ k - len y1 = 1 \/ k - len y1 = 2 \/ k - len y1 = 3 \/ k - len y1 = 4 \/ k - len y1 = 5) by lia. destruct C as [->|[->|[->|[->|[->| ->]]]]]; reflexivity.
Qed.
