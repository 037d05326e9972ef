(* The autocorrelation of the encoder's temporal noise shaping on the reals, when it is positive definite, and the indices of
   the reflection coefficients. *)
From Coq Require Import ZArith Lia List Bool Reals Lra.
From Coquelicot Require Import Coquelicot.
From Flocq Require Import Core.
From Verif Require Import Base Config FrameSpec Loops Scalar EncScalar RealOps EncF32 DecSignal DecTotal EncTns TnsOk DetectSpec Lpc LpcDamp TnsLpc.
From Coq Require Import List.
Import ListNotations.
Local Open Scope Z_scope.

(* lines a..b-1 of the spectrum, nothing after them *)
Definition seg (x : list R) (ab : Z * Z) (n : nat) : R := if fst ab + Z.of_nat n <? snd ab then getz 0%R x (fst ab + Z.of_nat n) else 0%R.
Definition width (ab : Z * Z) : nat := Z.to_nat (snd ab - fst ab).
(* sum of the products of lines k apart *)
Definition raw (x : list R) (ab : Z * Z) (k : nat) : R := sm (width ab) (fun n => seg x ab n * seg x ab (n + k))%R.
Definition fits (x : list R) (ab : Z * Z) : Prop := 0 <= fst ab <= snd ab /\ snd ab <= len x.

Lemma sm_app n m f : sm (n + m) f = (sm n f + sm m (fun i => f (n + i)%nat))%R.
Proof. induction m as [|m IH]; [rewrite Nat.add_0_r; cbn [sm]; lra|]. replace (n + S m)%nat with (S (n + m)) by lia. cbn [sm]. rewrite IH. ring. Qed.
Lemma sm_none n m f : (n <= m)%nat -> (forall i, (n <= i < m)%nat -> f i = 0%R) -> sm m f = sm n f.
Proof. intros H Z0. replace m with (n + (m - n))%nat by lia. rewrite sm_app. rewrite (sm_ext (m - n) _ (fun _ => 0%R)) by (intros; apply Z0; lia). rewrite sm_zero. lra. Qed.
Lemma fold_add l : forall s, fold_left Rplus l s = (s + sm (length l) (fn l))%R.
Proof.
  induction l as [|x l IH] using rev_ind; intros s; [cbn; lra|]. rewrite fold_left_app. cbn [fold_left]. rewrite IH, app_length. cbn [length]. rewrite Nat.add_1_r. cbn [sm].
  rewrite (sm_ext (length l) (fn (l ++ [x])) (fn l)).
  - replace (fn (l ++ [x]) (length l)) with x; [ring|]. unfold fn, getz. rewrite Nat2Z.id, app_nth2, Nat.sub_diag by lia. reflexivity.
  - intros i Hi. unfold fn, getz. rewrite Nat2Z.id, app_nth1 by lia. reflexivity.
Qed.
Lemma fsum_sm l : fsum R_ops l = sm (length l) (fn l).
Proof. unfold fsum. cbn [R_ops fadd fz]. change (fun x y : R => (x + y)%R) with Rplus. rewrite fold_add. lra. Qed.
Lemma fn_map {A} (d : A) (g : A -> R) l n : (n < length l)%nat -> fn (map g l) n = g (getz d l (Z.of_nat n)).
Proof. intros H. unfold fn, getz. rewrite Nat2Z.id. rewrite (nth_indep (map g l) 0%R (g d)) by (rewrite map_length; exact H). apply map_nth. Qed.

Lemma corr_sub_R x k s ab : 0 <= k -> fits x ab -> autocorr_sub R_ops x k s ab = Ok ((fst s + raw x ab (Z.to_nat k) / raw x ab 0)%R, (snd s * raw x ab 0)%R).
Proof.
  intros Hk [H1 H2]. destruct ab as [a b]. cbn [fst snd] in *. unfold autocorr_sub. destruct (sub_ok x a b H1 H2) as (w & -> & Lw & Tw). cbn [bind]. cbv zeta.
  assert (Ln : length w = width (a, b)) by (unfold width, len in *; cbn [fst snd]; lia).
  assert (Tf : forall n, (n < length w)%nat -> getz 0%R w (Z.of_nat n) = seg x (a, b) n).
  { intros n Hn. unfold seg. cbn [fst snd]. rewrite Tw by (unfold len in *; lia). destruct (Z.ltb_spec (a + Z.of_nat n) b); [reflexivity|unfold len in *; lia]. }
  assert (E0 : fsum R_ops (map (fun v => fmul R_ops v v) w) = raw x (a, b) 0).
  { rewrite fsum_sm, map_length, Ln. unfold raw. apply sm_ext. intros n Hn. rewrite (fn_map 0%R) by lia. rewrite Tf by lia. cbn [R_ops fmul]. now rewrite Nat.add_0_r. }
  rewrite E0. assert (E : (if (a + k <? len x) && (a + k <? b) then wk <- sub x (a + k) b ;; Ok (fsum R_ops (map (fun '(kx, v) => fmul R_ops v kx) (combine wk w))) else Ok (fz R_ops 0)) = Ok (raw x (a, b) (Z.to_nat k))).
  { destruct (Z.ltb_spec (a + k) b) as [Hb|Hb].
    - destruct (Z.ltb_spec (a + k) (len x)); [|lia]. cbn [andb]. destruct (sub_ok x (a + k) b ltac:(lia) H2) as (wk & -> & Lk & Tk). cbn [bind]. f_equal. rewrite fsum_sm, map_length, combine_length. unfold raw.
      assert (Lk' : length wk = (width (a, b) - Z.to_nat k)%nat) by (unfold width, len in *; cbn [fst snd]; lia). rewrite Ln, Lk', Nat.min_l by lia.
      rewrite (sm_none (width (a, b) - Z.to_nat k) (width (a, b))).
      + apply sm_ext. intros n Hn. rewrite (fn_map (0%R, 0%R)) by (rewrite combine_length; lia). unfold getz. rewrite Nat2Z.id.
        replace (nth n (combine wk w) (0%R, 0%R)) with (nth n wk 0%R, nth n w 0%R) by (symmetry; revert n Hn; rewrite <- Lk'; assert (Lw' : (length wk <= length w)%nat) by lia; clear - Lw'; revert w Lw'; induction wk as [|u wk IH]; intros [|v w] H [|n] Hn; cbn in *; try lia; auto; apply IH; lia).
        cbn [R_ops fmul]. f_equal.
        * rewrite <- Tf by lia. unfold getz. now rewrite Nat2Z.id.
        * assert (G : getz 0%R wk (Z.of_nat n) = nth n wk 0%R) by (unfold getz; now rewrite Nat2Z.id). rewrite <- G, Tk by (unfold len in *; lia). unfold seg. cbn [fst snd]. destruct (Z.ltb_spec (a + Z.of_nat (n + Z.to_nat k)) b); [f_equal; lia|unfold width in *; cbn [fst snd] in *; lia].
      + lia.
      + intros n Hn. unfold seg at 2. cbn [fst snd]. unfold width in Hn. cbn [fst snd] in Hn. destruct (Z.ltb_spec (a + Z.of_nat (n + Z.to_nat k)) b); [lia|ring].
    - rewrite andb_false_r. f_equal. cbn [R_ops fz]. unfold raw. symmetry. rewrite (sm_none 0); [reflexivity|lia|]. intros n Hn. unfold seg at 2. cbn [fst snd]. destruct (Z.ltb_spec (a + Z.of_nat (n + Z.to_nat k)) b); [lia|ring]. }
  rewrite E. cbn [bind R_ops fadd fdiv fmul]. reflexivity.
Qed.
Lemma corr_subs_R x k bs : 0 <= k -> Forall (fits x) bs -> forall s,
  autocorr_subs R_ops x k s bs = Ok (fold_left (fun t ab => t + raw x ab (Z.to_nat k) / raw x ab 0)%R bs (fst s), fold_left (fun t ab => t * raw x ab 0)%R bs (snd s)).
Proof.
  intros Hk. induction 1 as [|ab bs H F IH]; intros s; cbn [autocorr_subs fold_left]; [now destruct s|]. rewrite corr_sub_R by assumption. cbn [bind]. rewrite IH. reflexivity.
Qed.
Lemma raw_nonneg x ab : (0 <= raw x ab 0)%R.
Proof. unfold raw. apply sm_nonneg. intros i Hi. rewrite Nat.add_0_r. apply Rle_0_sqr. Qed.
Lemma product_zero x bs : forall t, fold_left (fun t ab => t * raw x ab 0)%R bs t = 0%R <-> t = 0%R \/ Exists (fun ab => raw x ab 0 = 0%R) bs.
Proof.
  induction bs as [|ab bs IH]; intros t; cbn [fold_left].
  - split; [auto|]. intros [H|H]; [exact H|inversion H].
  - rewrite IH. split.
    + intros [H|H]; [|right; now apply Exists_cons_tl]. apply Rmult_integral in H. destruct H as [H|H]; [auto|right; now apply Exists_cons_hd].
    + intros [H|H]; [left; rewrite H; ring|]. inversion H; subst; [left; rewrite H1; ring|auto].
Qed.
(* the spectrum's autocorrelation before the lag window: the sub bands, each divided by its energy *)
Definition flat (x : list R) (bs : list (Z * Z)) (k : nat) : R := fold_left (fun t ab => t + raw x ab k / raw x ab 0)%R bs 0%R.
Definition lag (k : nat) : R := R_lit (nth k LAG_WINDOW (0, 0)).
Theorem autocorr_R x bs : Forall (fits x) bs ->
  exists r, autocorr R_ops x bs = Ok r /\ len r = 9 /\
    ((exists ab, In ab bs /\ raw x ab 0 = 0%R) -> forall k, (k < 9)%nat -> fn r k = if Nat.eqb k 0 then 3%R else 0%R) /\
    ((forall ab, In ab bs -> raw x ab 0 <> 0%R) -> forall k, (k < 9)%nat -> fn r k = (flat x bs k * lag k)%R).
Proof.
  intros F. unfold autocorr. set (P := fold_left (fun t ab => t * raw x ab 0)%R bs 1%R).
  set (val := fun k : Z => ((if Req_bool P 0 then (if k =? 0 then 3 else 0) else flat x bs (Z.to_nat k)) * lag (Z.to_nat k))%R).
  match goal with |- context [for_range 0 9 ?b _] => destruct (for_put 0%R 0 9 b val (repeat (fz R_ops 0) 9)) as (r & E & L & T) end; [lia|cbn; lia| |].
  { intros k l Hk Hl. assert (El : idx LAG_WINDOW k = Ok (nth (Z.to_nat k) LAG_WINDOW (0, 0))) by (rewrite (idx_get (0, 0)) by (change (len LAG_WINDOW) with 9; lia); reflexivity). rewrite El. cbn [bind].
    rewrite corr_subs_R by (assumption || lia). cbn [bind fst snd]. change (fz R_ops 1) with 1%R. fold P. unfold val, lag, flat. cbn [R_ops fmul feq fz flit]. destruct (Req_bool P 0); [|reflexivity]. destruct (k =? 0); reflexivity. }
  exists r. split; [exact E|]. split; [exact L|].
  assert (T' : forall k, (k < 9)%nat -> fn r k = val (Z.of_nat k)) by (intros k Hk; unfold fn; rewrite T by lia; destruct (Z.leb_spec 0 (Z.of_nat k)), (Z.ltb_spec (Z.of_nat k) 9); cbn [andb]; reflexivity || lia). split.
  - intros (ab & Hin & H0) k Hk. rewrite T' by exact Hk. unfold val. rewrite Req_bool_true.
    + destruct k; [|destruct (Z.eqb_spec (Z.of_nat (S k)) 0); [lia|cbn [Nat.eqb]; ring]]. cbn [Nat.eqb Z.of_nat Z.eqb Z.to_nat]. unfold lag. cbn [nth LAG_WINDOW]. unfold R_lit. cbn [fst snd]. unfold powerRZ. change (Pos.to_nat 1) with 1%nat. cbn [pow]. lra.
    + unfold P. apply product_zero. right. apply Exists_exists. eauto.
  - intros H k Hk. rewrite T' by exact Hk. unfold val. rewrite Req_bool_false; [now rewrite Nat2Z.id|]. unfold P. intros H0. apply product_zero in H0. destruct H0 as [H0|H0]; [lra|]. apply Exists_exists in H0. destruct H0 as (ab & Hin & H0). exact (H ab Hin H0).
Qed.

(* ---- without the lag window it is positive definite whenever there is something in every sub band ---- *)
Lemma finite_bounded (g : nat -> R) L : (forall n, (L <= n)%nat -> g n = 0%R) -> exists M, forall n, (sm n (fun i => g i * g i) <= M)%R.
Proof.
  intros H. exists (sm L (fun i => g i * g i))%R. intros n. destruct (Nat.le_ge_cases n L).
  - replace L with (n + (L - n))%nat by lia. rewrite sm_app. assert (0 <= sm (L - n) (fun i => g (n + i)%nat * g (n + i)%nat))%R by (apply sm_nonneg; intros; apply Rle_0_sqr). lra.
  - rewrite (sm_none L n) by (try lia; intros i Hi; rewrite H by lia; ring). lra.
Qed.
Lemma series_finite (f : nat -> R) L : (forall n, (L <= n)%nat -> f n = 0%R) -> Series f = sm L f.
Proof.
  intros H. apply is_series_unique. destruct L as [|L].
  - apply is_series_ext with (fun _ => 0%R); [intros; symmetry; apply H; lia|]. cbn [sm]. apply zero_series.
  - apply (filterlim_ext_loc (fun _ : nat => sm (S L) f)); [|apply filterlim_const]. exists L. intros n Hn. rewrite sum_n_sm. symmetry. apply sm_none; [lia|]. intros i Hi. apply H. lia.
Qed.
Lemma seg_end x ab n : (width ab <= n)%nat -> seg x ab n = 0%R.
Proof. intros H. unfold seg, width in *. destruct (Z.ltb_spec (fst ab + Z.of_nat n) (snd ab)); [lia|reflexivity]. Qed.
Lemma raw_corr x ab k : raw x ab k = corr (seg x ab) k.
Proof.
  unfold corr, gram. rewrite (series_finite _ (k + width ab)).
  - rewrite sm_app. rewrite (sm_ext k _ (fun _ => 0%R)) by (intros i Hi; unfold later at 2; rewrite (proj2 (Nat.ltb_lt i k)) by lia; ring). rewrite sm_zero, Rplus_0_l. apply sm_ext. intros n Hn. unfold later.
    replace (k + n <? 0)%nat with false by reflexivity. rewrite Nat.sub_0_r. destruct (Nat.ltb_spec (k + n) k); [lia|]. replace (k + n - k)%nat with n by lia. rewrite (Nat.add_comm n k). ring.
  - intros n Hn. unfold later. replace (n <? 0)%nat with false by reflexivity. rewrite Nat.sub_0_r. rewrite seg_end by lia. ring.
Qed.
Lemma gram_definite_any g m n0 : (exists M, forall n, (sm n (fun i => g i * g i) <= M)%R) -> g n0 <> 0%R -> definite (corr g) m.
Proof.
  intros B H0 v (i & Hi & Hv). destruct (gram_energy g B m v) as [E ->].
  assert (L : forall (u : nat -> R) i, u i <> 0%R -> exists k, (k <= i)%nat /\ u k <> 0%R /\ forall j, (j < k)%nat -> u j = 0%R).
  { clear. intros u i Hu. revert Hu. induction i as [i IH] using (well_founded_induction Wf_nat.lt_wf). intros Hv. destruct (some_nonzero i u) as [(j & Hj & Hn)|Z0]; [destruct (IH j Hj Hn) as (k & K1 & K2); exists k; split; [lia|exact K2]|]. exists i. auto. }
  destruct (L v i Hv) as (k & Hk & Nk & Zk). destruct (L g n0 H0) as (p & Hp & Np & Zp). apply (series_pos _ (k + p) E); [intros n; apply Rle_0_sqr|].
  assert (X : sm m (fun i => v i * later g i (k + p))%R = (v k * g p)%R).
  { rewrite (sm_delta m _ k ltac:(lia)).
    - unfold later. destruct (Nat.ltb_spec (k + p) k); [lia|]. do 2 f_equal. lia.
    - intros j Hj Hn. destruct (Nat.lt_ge_cases j k); [rewrite Zk by assumption; ring|]. unfold later. destruct (Nat.ltb_spec (k + p) j); [ring|]. rewrite (Zp (k + p - j)%nat) by lia. ring. }
  rewrite X. assert (Hx : (v k * g p)%R <> 0%R) by (now apply Rmult_integral_contrapositive_currified). exact (Rlt_0_sqr _ Hx).
Qed.
Lemma raw_definite x ab m : raw x ab 0 <> 0%R -> definite (raw x ab) m.
Proof.
  intros H. assert (E : exists n, seg x ab n <> 0%R).
  { destruct (some_nonzero (width ab) (seg x ab)) as [(n & _ & Hn)|Z0]; [eauto|]. exfalso. apply H. unfold raw. rewrite (sm_ext _ _ (fun _ => 0%R)); [apply sm_zero|]. intros i Hi. rewrite Z0 by exact Hi. ring. }
  destruct E as (n & Hn). intros v Hv. unfold energy. rewrite (sm_ext m _ (fun i => sm m (fun j => v i * v j * toep (corr (seg x ab)) i j)))%R by (intros i Hi; apply sm_ext; intros j Hj; unfold toep; now rewrite raw_corr).
  apply (gram_definite_any (seg x ab) m n); [apply (finite_bounded _ (width ab)); apply seg_end|exact Hn|exact Hv].
Qed.
Lemma energy_lin r1 r2 c m v : energy (fun k => r1 k + c * r2 k)%R m v = (energy r1 m v + c * energy r2 m v)%R.
Proof.
  unfold energy. rewrite (sm_ext m _ (fun i => sm m (fun j => v i * v j * toep r1 i j) + c * sm m (fun j => v i * v j * toep r2 i j)))%R; [now rewrite sm_plus, sm_scal|].
  intros i Hi. rewrite <- sm_scal, <- sm_plus. apply sm_ext. intros j Hj. unfold toep. ring.
Qed.
Theorem flat_definite x bs m : bs <> [] -> (forall ab, In ab bs -> raw x ab 0 <> 0%R) -> definite (flat x bs) m.
Proof.
  intros Hn H v Hv. assert (G : forall bs r0, (forall ab, In ab bs -> raw x ab 0 <> 0%R) -> (energy r0 m v <= energy (fun k => fold_left (fun t ab => t + raw x ab k / raw x ab 0)%R bs (r0 k)) m v)%R /\ (bs <> [] -> energy r0 m v < energy (fun k => fold_left (fun t ab => t + raw x ab k / raw x ab 0)%R bs (r0 k)) m v)%R).
  { clear H Hn bs. induction bs as [|ab bs IH]; intros r0 H; cbn [fold_left]; [split; [right; reflexivity|congruence]|].
    destruct (IH (fun k => r0 k + raw x ab k / raw x ab 0)%R ltac:(intros; apply H; now right)) as [I1 _].
    assert (Eq : energy (fun k => r0 k + raw x ab k / raw x ab 0)%R m v = (energy r0 m v + / raw x ab 0 * energy (raw x ab) m v)%R) by (rewrite <- energy_lin; unfold energy, toep; apply sm_ext; intros; apply sm_ext; intros; unfold Rdiv; ring).
    rewrite Eq in I1. assert (0 < / raw x ab 0 * energy (raw x ab) m v)%R.
    { pose proof (raw_nonneg x ab). pose proof (H ab (or_introl eq_refl)). apply Rmult_lt_0_compat; [apply Rinv_0_lt_compat; lra|]. apply raw_definite; [now apply H; left|exact Hv]. }
    split; intros; lra. }
  destruct (G bs (fun _ => 0%R) H) as [_ G2]. specialize (G2 Hn). assert (E0 : energy (fun _ => 0%R) m v = 0%R) by (unfold energy, toep; rewrite (sm_ext m _ (fun _ => 0%R)); [apply sm_zero|]; intros; rewrite (sm_ext m _ (fun _ => 0%R)); [apply sm_zero|]; intros; ring).
  rewrite E0 in G2. exact G2.
Qed.

(* ---- the index of a coefficient ---- *)
Lemma index_R v : (Rabs v < 1)%R -> 0 <= coef_index R_ops R_eops v <= 16.
Proof.
  intros H. apply Rabs_def2 in H. unfold coef_index, to_int. cbn [R_ops R_eops fdiv e_asin e_step17]. pose proof PI_RGT_0 as Pi.
  assert (B : (- (17 / 2) < asin v / (PI / 17) < 17 / 2)%R).
  { assert (A : (- (PI / 2) < asin v < PI / 2)%R) by (apply asin_bound_lt; lra). split; [apply Rmult_lt_reg_r with (PI / 17)%R; [lra|]|apply Rmult_lt_reg_r with (PI / 17)%R; [lra|]]; replace (asin v / (PI / 17) * (PI / 17))%R with (asin v) by (field; lra); lra. }
  set (y := (asin v / (PI / 17))%R) in *. clearbody y. unfold as_i8. unfold fge. cbn [R_ops flt feq fadd fneg fz f_i32]. rewrite R_half.
  assert (T : forall z, (0 <= z < 9)%R -> 0 <= Ztrunc z <= 8).
  { intros z Hz. rewrite Ztrunc_floor by lra. assert (0 <= Zfloor z) by (apply Zfloor_lub; cbn; lra). assert (Zfloor z < 9) by (apply lt_IZR; apply Rle_lt_trans with z; [apply Zfloor_lb|lra]). lia. }
  destruct (Rlt_bool 0 y || Req_bool 0 y) eqn:E.
  - assert (0 <= y)%R by (apply orb_prop in E; destruct E as [E|E]; revert E; [case Rlt_bool_spec|case Req_bool_spec]; intros; try discriminate; lra). specialize (T (y + / 2)%R ltac:(lra)). lia.
  - assert (y < 0)%R by (apply orb_false_elim in E; destruct E as [E1 E2]; revert E1 E2; case Rlt_bool_spec; case Req_bool_spec; intros; try discriminate; lra). specialize (T (- y + / 2)%R ltac:(lra)). rewrite Ztrunc_opp. lia.
Qed.
