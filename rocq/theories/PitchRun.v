(* The pitch analysis of the encoder (EncLtpf) computes what PitchSpec says, on streams of any length *)
From Coq Require Import ZArith Lia List Bool Reals Lra.
From Flocq Require Import Core.
From Verif Require Import Base Config Buffers BufLemmas Loops Scalar EncScalar RealOps EncF32 DecSignal DecLtpf DecTotal ParseBase FrameSpec SnsIndex DctSpec MdctSpec Dct4Inv MdctFormula TablesLtpf DetectSpec EncLtpf EncLtpfOk PitchSpec.
From Coq Require Import List.
Import ListNotations.
Local Open Scope Z_scope.

(* ---- sums ---- *)
Lemma fold_rsum (f : Z -> R) n : 0 <= n -> forall s, fold_left (fun a i => (a + f i)%R) (iota n) s = (s + rsum (Z.to_nat n) f)%R.
Proof.
  intros Hn. rewrite <- (Z2Nat.id n) by exact Hn. induction (Z.to_nat n) as [|k IH]; intros s; [cbn; lra|]. replace (Z.of_nat (S k)) with (Z.of_nat k + 1) by lia. rewrite iota_S by lia. rewrite fold_left_app, IH. cbn [fold_left].
  rewrite !Nat2Z.id. replace (Z.to_nat (Z.of_nat k + 1)) with (S k) by lia. cbn [rsum]. ring.
Qed.
Lemma for_sum (body : Z -> R -> res R) (f : Z -> R) lo hi s : lo <= hi -> (forall n s, lo <= n < hi -> body n s = Ok (s + f n)%R) -> for_range lo hi body s = Ok (s + rsum (Z.to_nat (hi - lo)) (fun i => f (lo + i)%Z))%R.
Proof. intros H K. rewrite (for_fold body (fun s n => (s + f n)%R)) by exact K. rewrite (fold_rsum (fun i => f (lo + i)%Z)) by lia. reflexivity. Qed.
Lemma rsum_blocks a (f : Z -> R) : forall b, rsum (a * b) f = rsum b (fun k => rsum a (fun i => f (Z.of_nat a * k + i)%Z)).
Proof.
  induction b as [|b IH]; [rewrite Nat.mul_0_r; reflexivity|]. replace (a * S b)%nat with (a * b + a)%nat by lia. rewrite rsum_split, IH. cbn [rsum]. f_equal. apply rsum_ext. intros t Ht. f_equal. lia.
Qed.
(* sums over slices *)
Lemma combine_map {A B C} (f : A -> B) (g : A -> C) l : combine (map f l) (map g l) = map (fun i => (f i, g i)) l.
Proof. induction l as [|x l IH]; cbn; [reflexivity|now rewrite IH]. Qed.
Lemma slices_sum (x : list R) a b n (K : R -> R -> R) : 0 <= n -> 0 <= a -> 0 <= b -> a + n <= len x -> b + n <= len x -> exists u v, sub x a (a + n) = Ok u /\ sub x b (b + n) = Ok v /\ length u = length v /\
  forall s, fold_left (fun t '(p, q) => (t + K p q)%R) (combine u v) s = (s + rsum (Z.to_nat n) (fun j => K (getz 0%R x (a + j)) (getz 0%R x (b + j))))%R.
Proof.
  intros Hn Ha Hb H1 H2. rewrite (sub_map 0%R x a (a + n)), (sub_map 0%R x b (b + n)) by lia. eexists _, _. split; [reflexivity|]. split; [reflexivity|]. replace (a + n - a) with n by lia. replace (b + n - b) with n by lia. split; [now rewrite !map_length|].
  intros s. rewrite combine_map, fold_map. apply fold_rsum. exact Hn.
Qed.
Lemma dotp_R (u v : list R) : dotp R_ops u v = fold_left (fun t '(p, q) => (t + p * q)%R) (combine u v) 0%R.
Proof. unfold dotp, fsum. cbn [R_ops fadd fz fmul]. rewrite fold_map. generalize (IZR 0). induction (combine u v) as [|[p q] l IH]; intros s; cbn [fold_left]; [reflexivity|apply IH]. Qed.
Lemma for_put_at {A} (d : A) base n (body : Z -> list A -> res (list A)) (g : Z -> A) l : 0 <= base -> 0 <= n -> base + n <= len l ->
  (forall i l', 0 <= i < n -> len l' = len l -> body i l' = put l' (base + i) (g i)) ->
  exists l', for_range 0 n body l = Ok l' /\ len l' = len l /\ forall j, 0 <= j -> getz d l' j = if (base <=? j) && (j <? base + n) then g (j - base) else getz d l j.
Proof.
  intros H1 H2 H3 K. destruct (for_inv (fun m l' => len l' = len l /\ forall j, 0 <= j -> getz d l' j = if (base <=? j) && (j <? base + m) then g (j - base) else getz d l j) 0 n body l) as (l' & E & L & G); [lia| | |exists l'; auto].
  - split; [reflexivity|]. intros j Hj. destruct (Z.leb_spec base j), (Z.ltb_spec j (base + 0)); cbn [andb]; try reflexivity; lia.
  - intros m l' Hm [L G]. destruct (put_ok d l' (base + m) (g m)) as (l2 & E2 & L2 & G2); [lia|]. exists l2. split; [rewrite K by (auto; lia); exact E2|]. split; [lia|]. intros j Hj. rewrite G2 by exact Hj. destruct (Z.eqb_spec j (base + m)) as [->|N].
    + destruct (Z.leb_spec base (base + m)), (Z.ltb_spec (base + m) (base + (m + 1))); cbn [andb]; try lia. f_equal. lia.
    + rewrite G by exact Hj. destruct (Z.leb_spec base j), (Z.ltb_spec j (base + m)), (Z.ltb_spec j (base + (m + 1))); cbn [andb]; try reflexivity; lia.
Qed.

(* ---- resampling ---- *)
Lemma polyphase (T : Z -> R) up q r : 0 < up -> up * q = 120 -> 0 <= r < up -> (forall i, 119 < Z.abs i -> T i = 0%R) ->
  rsum (Z.to_nat (2 * q + 1)) (fun i => T (up * (i - q) - r)%Z) = rsum 239 (fun i => if (i - 119 + r) mod up =? 0 then T (i - 119)%Z else 0%R).
Proof.
  intros Hu Hq Hr HT. set (g := fun i => if (i + r) mod up =? 0 then T i else 0%R). assert (Hg : forall i, 119 < Z.abs i -> g i = 0%R) by (intros i Hi; unfold g; rewrite (HT i Hi); now destruct (_ =? _)).
  transitivity (rsum (Z.to_nat up * Z.to_nat (2 * q + 1)) (fun i => g (i - 120 - r)%Z)).
  - rewrite rsum_blocks. apply rsum_ext. intros k Hk. rewrite Z2Nat.id by lia. rewrite (rsum_single (Z.to_nat up) _ 0); [|lia|].
    + unfold g. replace (up * k + 0 - 120 - r + r) with ((k - q) * up) by lia. rewrite Z.mod_mul by lia. cbn [Z.eqb]. f_equal. lia.
    + intros i Hi N. unfold g. replace (up * k + i - 120 - r + r) with (i + (k - q) * up) by lia. rewrite Z.mod_add, Z.mod_small by lia. destruct (Z.eqb_spec i 0); [lia|reflexivity].
  - assert (0 <= q) by nia. replace (Z.to_nat up * Z.to_nat (2 * q + 1))%nat with (Nat.add (Z.to_nat (1 + r)) (Nat.add 239 (Z.to_nat (up - r)))) by (rewrite <- Z2Nat.inj_mul by lia; replace (up * (2 * q + 1)) with (240 + up) by lia; lia).
    rewrite rsum_split, (rsum_zero (Z.to_nat (1 + r))), Rplus_0_l by (intros; apply Hg; lia). rewrite rsum_split. rewrite (rsum_zero (Z.to_nat (up - r))), Rplus_0_r by (intros; apply Hg; lia).
    apply rsum_ext. intros i Hi. unfold g. rewrite Z2Nat.id by lia. replace (1 + r + i - 120 - r) with (i - 119) by lia. reflexivity.
Qed.
Lemma resample_one_R (xs : list Z) (s : Z -> Z) up rf n m k : up_ok up -> 0 <= n -> 240 / up + 15 * n / up < len xs -> 15 * n + up * k = 15 * m -> (forall j, 0 <= j < len xs -> getz 0 xs j = s (k - 240 / up + j)) ->
  resample_one R_ops xs up rf n = Ok (resampled up (R_lit rf) s m).
Proof.
  intros Hu Hn Hl Hm HX. assert (Q : exists q, 120 / up = q /\ 240 / up = 2 * q /\ up * q = 120 /\ 0 < up) by (destruct Hu as [->|[->|[->|[->| ->]]]]; eexists; repeat split; reflexivity). destruct Q as (q & Q1 & Q2 & Q3 & Hu0).
  unfold resample_one. rewrite Q1, Q2 in *. set (r := (15 * n) mod up). set (b := 15 * n / up) in *. assert (Hr : 0 <= r < up) by (apply Z.mod_pos_bound; lia). assert (Hb : 15 * n = up * b + r) by (apply Z.div_mod; lia). assert (0 <= b) by (apply Z.div_pos; lia).
  set (T := fun i => (tap TAB_RESAMP_FILTER 119 i * IZR (s ((15 * m - 120 + i) / up)%Z))%R).
  rewrite (for_sum _ (fun i => T (up * i - r)) (- q) (q + 1) (fz R_ops 0)); [|lia|].
  - cbn [bind R_ops fmul fz flit]. f_equal. unfold resampled. replace (q + 1 - - q) with (2 * q + 1) by lia. rewrite (rsum_ext _ (fun i => T (up * (- q + i) - r)%Z) (fun i => T (up * (i - q) - r)%Z)) by (intros; f_equal; lia).
    rewrite (polyphase T up q r Hu0 Q3 Hr) by (intros i Hi; unfold T, tap; destruct (Z.leb_spec (Z.abs i) 119); [lia|ring]). rewrite Rplus_0_l, Rmult_comm. f_equal. apply rsum_ext. intros i Hi. unfold stuffed.
    assert (E : (15 * m - 120 + (i - 119)) mod up = (i - 119 + r) mod up). { replace (15 * m - 120 + (i - 119)) with (i - 119 + r + (b + k - q) * up) by lia. apply Z.mod_add. lia. }
    rewrite E. destruct (_ =? 0); [reflexivity|ring].
  - intros i s0 Hi. cbv zeta. unfold T, tap. destruct (Z.leb_spec (Z.abs (up * i - r)) 119) as [A|A].
    + destruct (Z.ltb_spec (-120) (up * i - r)); [|lia]. destruct (Z.ltb_spec (up * i - r) 120); [|lia]. cbn [andb]. assert (Hq : - q < i <= q) by nia.
      rewrite (idx_get 0) by nia. cbn [bind]. rewrite (idx_get (0, 0)) by (change (len TAB_RESAMP_FILTER) with 239; lia). cbn [bind R_ops fadd fmul fz flit]. f_equal. f_equal. rewrite HX by nia. rewrite Rmult_comm. f_equal. f_equal. f_equal.
      replace (15 * m - 120 + (up * i - r)) with ((b + k - q + i) * up) by lia. rewrite Z.div_mul by lia. lia.
    + replace (_ && _) with false; [f_equal; ring|]. destruct (Z.ltb_spec (-120) (up * i - r)), (Z.ltb_spec (up * i - r) 120); cbn [andb]; reflexivity || lia.
Qed.
Lemma resample_R (xs : list Z) (s : Z -> Z) up rf base l12 (x12 : list R) k m0 : up_ok up -> 0 <= base -> 0 <= l12 -> base + l12 <= len x12 -> 240 / up + 15 * (l12 - 1) / up < len xs -> up * k = 15 * m0 -> (forall j, 0 <= j < len xs -> getz 0 xs j = s (k - 240 / up + j)) ->
  exists x', resample R_ops xs up rf base l12 x12 = Ok x' /\ len x' = len x12 /\ forall j, 0 <= j -> getz 0%R x' j = if (base <=? j) && (j <? base + l12) then resampled up (R_lit rf) s (m0 + (j - base)) else getz 0%R x12 j.
Proof.
  intros Hu Hb Hl H1 H2 Hk HX. unfold resample. destruct (sub_ok x12 base (base + l12) ltac:(lia) H1) as (u & -> & _). cbn [bind]. apply (for_put_at 0%R base l12 _ (fun j => resampled up (R_lit rf) s (m0 + j))); try lia.
  intros i l' Hi Ll. rewrite (resample_one_R xs s up rf i (m0 + i) k Hu); [reflexivity|lia| |lia|exact HX]. eapply Z.le_lt_trans; [|exact H2]. apply Z.add_le_mono_l. apply Z.div_le_mono; [destruct Hu as [->|[->|[->|[->| ->]]]]; lia|lia].
Qed.

(* ---- the high-pass ---- *)
Local Open Scope R_scope.
Definition A1 : R := - 19652933726226904 / 10 ^ 16.
Definition A2 : R := 9658854605688177 / 10 ^ 16.
Definition B0 : R := 9827947082978771 / 10 ^ 16.
Definition B1 : R := - 1965589416595754 / 10 ^ 15.
Lemma lit16 k : R_lit (k, -16)%Z = IZR k / 10 ^ 16.
Proof. unfold R_lit. cbn [fst snd powerRZ]. change (Pos.to_nat 16) with 16%nat. reflexivity. Qed.
Lemma lit15 k : R_lit (k, -15)%Z = IZR k / 10 ^ 15.
Proof. unfold R_lit. cbn [fst snd powerRZ]. change (Pos.to_nat 15) with 15%nat. reflexivity. Qed.
Lemma lit2 k : R_lit (k, -2)%Z = IZR k / 100.
Proof. unfold R_lit. cbn [fst snd powerRZ]. change (Pos.to_nat 2) with 2%nat. cbn [pow]. lra. Qed.
Lemma lit1 k : R_lit (k, -1)%Z = IZR k / 10.
Proof. unfold R_lit. cbn [fst snd powerRZ]. change (Pos.to_nat 1) with 1%nat. cbn [pow]. lra. Qed.
(* the two values which the filter keeps, after n samples *)
Fixpoint kept (y : Z -> R) (n : nat) : R * R := match n with O => (0, 0) | S k => (y (Z.of_nat k) - A1 * fst (kept y k) - A2 * snd (kept y k), fst (kept y k)) end.
Definition passed (y : Z -> R) (m : Z) : R := if (m <? 0)%Z then 0 else B0 * fst (kept y (S (Z.to_nat m))) + B1 * fst (kept y (Z.to_nat m)) + B0 * snd (kept y (Z.to_nat m)).
Lemma passed_ok y : (forall m, (m < 0)%Z -> y m = 0) -> highpassed y (passed y).
Proof.
  intros Hy. split; [intros m Hm; unfold passed; destruct (Z.ltb_spec m 0); [reflexivity|lia]|]. intros m Hm. change (passed y m = B0 * y m + B1 * y (m - 1)%Z + B0 * y (m - 2)%Z - A1 * passed y (m - 1) - A2 * passed y (m - 2)).
  rewrite <- (Z2Nat.id m Hm). destruct (Z.to_nat m) as [|[|k]]; clear m Hm.
  - change (Z.of_nat 0) with 0%Z. cbn [Z.sub Z.add Z.opp]. rewrite (Hy (-1)%Z), (Hy (-2)%Z) by lia. unfold passed. cbn [Z.ltb Z.compare Z.to_nat kept fst snd]. change (Z.of_nat 0) with 0%Z. ring.
  - change (Z.of_nat 1) with 1%Z. change (1 - 1)%Z with 0%Z. change (1 - 2)%Z with (-1)%Z. rewrite (Hy (-1)%Z) by lia. unfold passed. cbn [Z.ltb Z.compare]. change (Z.to_nat 1) with 1%nat. change (Z.to_nat 0) with 0%nat. cbn [kept fst snd]. change (Z.of_nat 0) with 0%Z. change (Z.of_nat 1) with 1%Z. ring.
  - replace (Z.of_nat (S (S k)) - 1)%Z with (Z.of_nat (S k)) by lia. replace (Z.of_nat (S (S k)) - 2)%Z with (Z.of_nat k) by lia. unfold passed. destruct (Z.ltb_spec (Z.of_nat (S (S k))) 0); [lia|]. destruct (Z.ltb_spec (Z.of_nat (S k)) 0); [lia|]. destruct (Z.ltb_spec (Z.of_nat k) 0); [lia|]. rewrite !Nat2Z.id. cbn [kept fst snd]. ring.
Qed.
Lemma highpassed_unique y z z' : highpassed y z -> highpassed y z' -> forall m, z m = z' m.
Proof.
  intros [Z1 Z2] [Z3 Z4]. assert (H : forall n : nat, z (Z.of_nat n) = z' (Z.of_nat n) /\ z (Z.of_nat n - 1)%Z = z' (Z.of_nat n - 1)%Z).
  { induction n as [|n [I1 I2]]; [change (Z.of_nat 0) with 0%Z|].
    - split; [|now rewrite Z1, Z3 by lia]. rewrite Z2, Z4 by lia. rewrite !Z1, !Z3 by lia. reflexivity.
    - replace (Z.of_nat (S n) - 1)%Z with (Z.of_nat n) by lia. split; [|exact I1]. rewrite Z2, Z4 by lia. replace (Z.of_nat (S n) - 1)%Z with (Z.of_nat n) by lia. replace (Z.of_nat (S n) - 2)%Z with (Z.of_nat n - 1)%Z by lia. now rewrite I1, I2. }
  intros m. destruct (Z_lt_le_dec m 0); [now rewrite Z1, Z3 by lia|]. specialize (H (Z.to_nat m)). rewrite Z2Nat.id in H by lia. apply H.
Qed.
Local Close Scope R_scope.
Lemma highpass_R base l12 (x : list R) (y : Z -> R) m0 : 0 <= base -> 0 <= l12 -> base + l12 <= len x -> 0 <= m0 -> (forall j, base <= j < base + l12 -> getz 0%R x j = y (m0 + (j - base))) ->
  exists x', highpass50 R_ops base l12 (x, fst (kept y (Z.to_nat m0)), snd (kept y (Z.to_nat m0))) = Ok (x', fst (kept y (Z.to_nat (m0 + l12))), snd (kept y (Z.to_nat (m0 + l12)))) /\ len x' = len x /\
    forall j, 0 <= j -> getz 0%R x' j = if (base <=? j) && (j <? base + l12) then passed y (m0 + (j - base)) else getz 0%R x j.
Proof.
  intros Hb Hl H1 Hm HY. unfold highpass50.
  destruct (for_inv (fun i '(x', h1, h2) => len x' = len x /\ h1 = fst (kept y (Z.to_nat (m0 + (i - base)))) /\ h2 = snd (kept y (Z.to_nat (m0 + (i - base)))) /\
    forall j, 0 <= j -> getz 0%R x' j = if (base <=? j) && (j <? i) then passed y (m0 + (j - base)) else getz 0%R x j) base (base + l12)
    (fun n '(x12, h1, h2) => x0 <- idx x12 n ;; let h := fsub R_ops (fsub R_ops x0 (fmul R_ops (flit R_ops (-19652933726226904, -16)) h1)) (fmul R_ops (flit R_ops (9658854605688177, -16)) h2) in
       let y0 := fadd R_ops (fadd R_ops (fmul R_ops (flit R_ops (9827947082978771, -16)) h) (fmul R_ops (flit R_ops (-1965589416595754, -15)) h1)) (fmul R_ops (flit R_ops (9827947082978771, -16)) h2) in
       x12 <- put x12 n y0 ;; Ok (x12, h, h1)) (x, fst (kept y (Z.to_nat m0)), snd (kept y (Z.to_nat m0)))) as ([[x' h1] h2] & E & L & -> & -> & G); [lia| | |].
  - split; [reflexivity|]. replace (m0 + (base - base)) with m0 by lia. repeat split. intros j Hj. destruct (Z.leb_spec base j), (Z.ltb_spec j base); cbn [andb]; try reflexivity; lia.
  - intros i [[x' h1] h2] Hi (L & -> & -> & G). rewrite (idx_get 0%R) by lia. cbn [bind]. rewrite G by lia. destruct (Z.ltb_spec i i); [lia|]. rewrite andb_false_r. rewrite HY by lia. cbv zeta.
    set (k := Z.to_nat (m0 + (i - base))). assert (Hk : m0 + (i - base) = Z.of_nat k) by lia. replace (Z.to_nat (m0 + (i + 1 - base))) with (S k) by lia.
    match goal with |- context [put x' i ?v] => destruct (put_ok 0%R x' i v ltac:(lia)) as (x2 & -> & L2 & G2) end. cbn [bind]. eexists. split; [reflexivity|]. split; [lia|]. cbn [R_ops fsub fmul flit fadd kept fst snd]. rewrite !lit16, Hk.
    split; [reflexivity|]. split; [reflexivity|]. intros j Hj. rewrite G2 by exact Hj. destruct (Z.eqb_spec j i) as [->|N].
    + destruct (Z.leb_spec base i); [|lia]. destruct (Z.ltb_spec i (i + 1)); [|lia]. cbn [andb]. unfold passed. rewrite Hk. destruct (Z.ltb_spec (Z.of_nat k) 0); [lia|]. rewrite Nat2Z.id. cbn [R_ops fsub fmul flit fadd kept fst snd]. rewrite !lit16, lit15. reflexivity.
    + rewrite G by exact Hj. destruct (Z.leb_spec base j), (Z.ltb_spec j i), (Z.ltb_spec j (i + 1)); cbn [andb]; try reflexivity; lia.
  - exists x'. replace (m0 + (base + l12 - base)) with (m0 + l12) in E by lia. auto.
Qed.

(* ---- 6.4 kHz ---- *)
Lemma downsample_R (x12 : list R) l6 (x6 : list R) (d : Z -> R) m0 : 0 <= l6 -> K_MAX + l6 <= len x6 -> NMEM + 2 * l6 + 2 <= len x12 -> (forall j, 0 <= j < len x12 -> getz 0%R x12 j = d (2 * m0 + (j - NMEM))) ->
  exists x', downsample2 R_ops x12 l6 x6 = Ok x' /\ len x' = len x6 /\ forall j, 0 <= j -> getz 0%R x' j = if (K_MAX <=? j) && (j <? K_MAX + l6) then halved d (m0 + (j - K_MAX)) else getz 0%R x6 j.
Proof.
  intros H0 H1 H2 HD. unfold downsample2, NMEM, K_MAX in *. destruct (sub_ok x6 114 (114 + l6) ltac:(lia) H1) as (u & -> & _). cbn [bind]. destruct (sub_ok x12 (232 - 3) (len x12) ltac:(lia) ltac:(lia)) as (w & -> & Lw & Tw). cbn [bind].
  assert (Hm : Z.min l6 ((len w - 5) / 2 + 1) = l6) by (apply Z.min_l; assert (l6 - 1 <= (len w - 5) / 2) by (apply Z.div_le_lower_bound; lia); lia). rewrite Hm. apply (for_put_at 0%R 114 l6 _ (fun j => halved d (m0 + j))); try lia.
  intros i l' Hi Ll. assert (G : forall k, 0 <= k <= 4 -> idx w (2 * i + k) = Ok (d (2 * (m0 + i) - 3 + k))).
  { intros k Hk. rewrite (idx_get 0%R) by lia. f_equal. rewrite Tw by lia. rewrite HD by lia. f_equal. lia. }
  pose proof (G 0 ltac:(lia)) as G0. rewrite Z.add_0_r in G0. rewrite G0, (G 1), (G 2), (G 3), (G 4) by lia. cbn [bind]. f_equal. unfold halved. cbn [R_ops fadd fmul flit]. rewrite !lit16. replace (2 * (m0 + i) - 3 + 0) with (2 * (m0 + i) - 3) by lia. replace (2 * (m0 + i) - 3 + 1) with (2 * (m0 + i) - 2) by lia. replace (2 * (m0 + i) - 3 + 2) with (2 * (m0 + i) - 1) by lia. replace (2 * (m0 + i) - 3 + 3) with (2 * (m0 + i)) by lia. replace (2 * (m0 + i) - 3 + 4) with (2 * (m0 + i) + 1) by lia. ring.
Qed.

(* ---- choices ---- *)
Lemma zrange_S a b : a <= b -> zrange a (b + 1) = zrange a b ++ [b].
Proof. intros H. unfold zrange. replace (Z.to_nat (b + 1 - a)) with (S (Z.to_nat (b - a))) by lia. rewrite seq_S, map_app. cbn [map]. do 2 f_equal. lia. Qed.
Lemma zrange_nil a b : b <= a -> zrange a b = [].
Proof. intros H. unfold zrange. replace (Z.to_nat (b - a)) with O by lia. reflexivity. Qed.
Lemma in_zrange a b k : In k (zrange a b) <-> a <= k < b.
Proof. unfold zrange. rewrite in_map_iff. split; [intros (i & <- & Hi); apply in_seq in Hi; lia|]. intros H. exists (Z.to_nat (k - a)). split; [lia|]. apply in_seq. lia. Qed.
Lemma first_best_snoc f cs d k : first_best f cs d -> ((f k <= f d)%R -> first_best f (cs ++ [k]) d) /\ ((f d < f k)%R -> first_best f (cs ++ [k]) k).
Proof.
  intros (l1 & l2 & -> & H1 & H2). split; intros H.
  - exists l1, (l2 ++ [k]). rewrite <- app_assoc. split; [reflexivity|]. split; [exact H1|]. intros i Hi. apply in_app_iff in Hi. destruct Hi as [Hi|[->|[]]]; [now apply H2|exact H].
  - exists (l1 ++ d :: l2), []. split; [reflexivity|]. split; [|intros i []]. intros i Hi. apply in_app_iff in Hi. destruct Hi as [Hi|[->|Hi]]; [specialize (H1 i Hi); lra|exact H|specialize (H2 i Hi); lra].
Qed.
Lemma first_best_unique f cs d d' : first_best f cs d -> first_best f cs d' -> d = d'.
Proof.
  intros (l1 & l2 & E1 & H1 & H2) (m1 & m2 & E2 & G1 & G2). rewrite E1 in E2. apply app_eq_app in E2. destruct E2 as (l & [[-> E]|[-> E]]); (destruct l as [|x l]; cbn [app] in E; [congruence|]).
  - assert (d' = x) by congruence. subst x. assert (m2 = l ++ d :: l2) by congruence. subst m2. specialize (H1 d' ltac:(apply in_app_iff; right; now left)). specialize (G2 d ltac:(apply in_app_iff; right; now left)). lra.
  - assert (d = x) by congruence. subst x. assert (l2 = l ++ d' :: m2) by congruence. subst l2. specialize (G1 d ltac:(apply in_app_iff; right; now left)). specialize (H2 d' ltac:(apply in_app_iff; right; now left)). lra.
Qed.
Lemma first_best_in f cs d : first_best f cs d -> In d cs.
Proof. intros (l1 & l2 & -> & _). apply in_app_iff. right. now left. Qed.
Lemma first_best_ext f g cs d : (forall k, In k cs -> f k = g k) -> first_best f cs d -> first_best g cs d.
Proof.
  intros E (l1 & l2 & -> & H1 & H2). exists l1, l2. split; [reflexivity|]. split; intros k Hk; rewrite <- !E by (apply in_app_iff; cbn [In]; auto); auto.
Qed.
Lemma first_positive_unique f cs e d d' : first_positive f cs e d -> first_positive f cs e d' -> d = d'.
Proof.
  intros [[-> H]|[H1 H2]] [[-> G]|[G1 G2]]; [reflexivity| | |now apply (first_best_unique f cs)].
  - pose proof (H _ (first_best_in _ _ _ G2)). lra.
  - pose proof (G _ (first_best_in _ _ _ H2)). lra.
Qed.
(* running maximum from 0: value and place *)
Definition best_so_far (f : Z -> R) (cs : list Z) (e : Z) (s : R * Z) : Prop := (s = (0%R, e) /\ forall k, In k cs -> (f k <= 0)%R) \/ fst s = f (snd s) /\ (0 < fst s)%R /\ first_best f cs (snd s).
Lemma best_snoc f cs e s k : best_so_far f cs e s -> best_so_far f (cs ++ [k]) e (if Rlt_bool (fst s) (f k) then (f k, k) else s).
Proof.
  intros [[-> H]|(H1 & H2 & H3)]; cbn [fst].
  - destruct (Rlt_bool_spec 0 (f k)) as [P|P].
    + right. cbn [fst snd]. split; [reflexivity|]. split; [exact P|]. exists cs, []. split; [reflexivity|]. split; [|intros i []]. intros i Hi. specialize (H i Hi). lra.
    + left. split; [reflexivity|]. intros i Hi. apply in_app_iff in Hi. destruct Hi as [Hi|[<-|[]]]; [now apply H|exact P].
  - destruct s as [mx p]. cbn [fst snd] in *. subst mx. destruct (first_best_snoc f cs p k H3) as [S1 S2]. destruct (Rlt_bool_spec (f p) (f k)) as [P|P]; right; cbn [fst snd]; (split; [reflexivity|]); (split; [lra|]); auto.
Qed.
Lemma best_done f cs e s : best_so_far f cs e s -> first_positive f cs e (snd s).
Proof. intros [[-> H]|(H1 & H2 & H3)]; [left; auto|right]. rewrite <- H1. auto. Qed.
Lemma max_from_R (f : Z -> R) a : forall l n best, (forall j, 0 <= j < len l -> getz 0%R l j = f (a + n + j)) -> 0 <= best < n -> first_best f (zrange a (a + n)) (a + best) -> 0 <= n ->
  first_best f (zrange a (a + n + len l)) (a + max_from R_ops l n best (f (a + best))).
Proof.
  induction l as [|v l IH]; intros n best HL Hb HB Hn; cbn [max_from]; [replace (a + n + len []) with (a + n) by (cbn; lia); exact HB|].
  assert (Ll : len (v :: l) = len l + 1) by (unfold len; cbn [length]; lia). pose proof (len_nonneg l). pose proof (HL 0 ltac:(lia)) as H0. rewrite Z.add_0_r in H0. cbn in H0. subst v. rewrite Ll. replace (a + n + (len l + 1)) with (a + (n + 1) + len l) by lia.
  assert (HL' : forall j, 0 <= j < len l -> getz 0%R l j = f (a + (n + 1) + j)) by (intros j Hj; specialize (HL (j + 1) ltac:(lia)); unfold getz in *; replace (Z.to_nat (j + 1)) with (S (Z.to_nat j)) in HL by lia; cbn [nth] in HL; rewrite HL; f_equal; lia).
  destruct (first_best_snoc f _ _ (a + n) HB) as [S1 S2]. replace (zrange a (a + n) ++ [a + n]) with (zrange a (a + (n + 1))) in * by (rewrite <- zrange_S by lia; f_equal; lia).
  cbn [R_ops flt]. destruct (Rlt_bool_spec (f (a + best)) (f (a + n))) as [P|P]; apply IH; auto; lia.
Qed.
Lemma index_of_max_R (f : Z -> R) a (l : list R) : 0 < len l -> (forall j, 0 <= j < len l -> getz 0%R l j = f (a + j)) -> first_best f (zrange a (a + len l)) (a + index_of_max R_ops l).
Proof.
  intros Hl HL. destruct l as [|v l]; [cbn in Hl; lia|]. assert (Ll : len (v :: l) = len l + 1) by (unfold len; cbn [length]; lia). pose proof (len_nonneg l). pose proof (HL 0 ltac:(lia)) as H0. rewrite Z.add_0_r in H0. cbn in H0. unfold index_of_max. cbn [max_from R_ops flt].
  rewrite Rlt_bool_false by lra. clear Hl. rewrite Ll. clear Ll. subst v. replace (f a) with (f (a + 0)) by (f_equal; lia). replace (a + (len l + 1)) with (a + (0 + 1) + len l) by lia. apply (max_from_R f a l (0 + 1) 0); try lia.
  - intros j Hj. specialize (HL (j + 1) ltac:(unfold len in *; cbn [length]; lia)). unfold getz in *. replace (Z.to_nat (j + 1)) with (S (Z.to_nat j)) in HL by lia. cbn [nth] in HL. rewrite HL. f_equal. lia.
  - rewrite zrange_S by lia. rewrite zrange_nil by lia. exists [], []. rewrite Z.add_0_r. split; [reflexivity|]. split; intros k [].
Qed.

(* ---- the lag at 6.4 kHz ---- *)
Lemma autocorr_R (x6 : list R) l6 (a : Z -> R) : 0 <= l6 -> K_MAX + l6 <= len x6 -> (forall j, 0 <= j < K_MAX + l6 -> getz 0%R x6 j = a (j - K_MAX)) ->
  exists r rw, autocorr6 R_ops x6 l6 = Ok (r, rw) /\ len r = 98 /\ len rw = 98 /\ forall k, 0 <= k < 98 -> getz 0%R r k = corr l6 a (17 + k) /\ getz 0%R rw k = ((1 - / 2 * (IZR k / 97)) * corr l6 a (17 + k))%R.
Proof.
  intros H0 H1 HA. unfold autocorr6, K_MAX, K_MIN in *.
  match goal with |- context [for_range 0 98 ?b ?s] => destruct (for_inv (fun i '(r, rw) => len r = 98 /\ len rw = 98 /\ forall k, 0 <= k < i -> getz 0%R r k = corr l6 a (17 + k) /\ getz 0%R rw k = ((1 - / 2 * (IZR k / 97)) * corr l6 a (17 + k))%R) 0 98 b s) as ([r rw] & E & L1 & L2 & G); [lia| | |exists r, rw; auto] end.
  - split; [reflexivity|]. split; [reflexivity|]. intros; lia.
  - intros k [r rw] Hk (L1 & L2 & G). destruct (slices_sum x6 114 (114 - 17 - k) l6 Rmult ltac:(lia) ltac:(lia) ltac:(lia) ltac:(lia) ltac:(lia)) as (u & v & -> & -> & _ & S). cbn [bind]. cbv zeta. rewrite dotp_R. 
    assert (E : fold_left (fun t '(p, q) => (t + p * q)%R) (combine u v) 0%R = corr l6 a (17 + k)).
    { change (fun (t : R) '(p, q) => (t + p * q)%R) with (fun (t : R) '(p, q) => (t + Rmult p q)%R). rewrite S, Rplus_0_l. unfold corr. apply rsum_ext. intros j Hj. rewrite !HA by lia. f_equal; f_equal; lia. }
    rewrite E. destruct (put_ok 0%R r k (corr l6 a (17 + k)) ltac:(lia)) as (r' & -> & L1' & G1). cbn [bind]. match goal with |- context [put rw k ?v] => destruct (put_ok 0%R rw k v ltac:(lia)) as (rw' & -> & L2' & G2) end. cbn [bind]. eexists. split; [reflexivity|]. split; [lia|]. split; [lia|].
    intros i Hi. rewrite G1, G2 by lia. destruct (Z.eqb_spec i k) as [->|N]; [|apply G; lia]. split; [reflexivity|]. cbn [R_ops fmul fsub fdiv fz flit]. rewrite lit1. field.
Qed.
Lemma norm_R (x6 : list R) l6 (a : Z -> R) lag : 0 <= l6 -> 0 <= lag <= K_MAX -> K_MAX + l6 <= len x6 -> (forall j, 0 <= j < K_MAX + l6 -> getz 0%R x6 j = a (j - K_MAX)) -> norm_value R_ops x6 l6 lag = Ok (power l6 a lag).
Proof.
  unfold K_MAX. intros H0 H1 H2 HA. unfold norm_value, usub, K_MAX. destruct (Z.ltb_spec 114 lag); [lia|]. cbn [bind]. rewrite (sub_map 0%R) by lia. cbn [bind R_ops fadd fmul fz]. f_equal. rewrite fold_map. replace (114 - lag + l6 - (114 - lag)) with l6 by lia.
  rewrite (fold_rsum (fun c => getz 0%R x6 (114 - lag + c) * getz 0%R x6 (114 - lag + c))%R) by lia. rewrite Rplus_0_l. unfold power. apply rsum_ext. intros j Hj. rewrite !HA by lia. f_equal; f_equal; lia.
Qed.
Lemma fmax_R x y : fmax R_ops x y = Rmax x y.
Proof. unfold fmax. cbn [R_ops feq flt]. rewrite !Req_bool_true by reflexivity. unfold Rmax. destruct (Rle_dec x y) as [H|H]; [destruct (Rlt_bool_spec x y); [reflexivity|lra]|rewrite Rlt_bool_false by lra; reflexivity]. Qed.
Lemma detect_R c z n t_prev (x12 x6 : list R) : let l6 := len6 (n_ms c) in K_MIN <= t_prev <= K_MAX -> K_MAX + l6 <= len x6 -> NMEM + 2 * l6 + 2 <= len x12 ->
  (forall j, 0 <= j < len x12 -> getz 0%R x12 j = frame12 c z n (j - NMEM)) -> (forall j, 0 <= j < K_MAX -> getz 0%R x6 j = frame6 c z n (j - K_MAX)) ->
  exists t b x', pitch_detect R_ops l6 t_prev x12 x6 = Ok (t, b, x') /\ len x' = len x6 /\ coarse c z n t_prev t /\ (b = true <-> (6 / 10 < ncorr c z n t)%R) /\ K_MIN <= t <= K_MAX /\
    forall j, 0 <= j < K_MAX + l6 -> getz 0%R x' j = frame6 c z n (j - K_MAX).
Proof.
  intros l6 Ht H1 H2 HD H6. assert (Hl : l6 = 48 \/ l6 = 64) by (unfold l6, len6; destruct (n_ms c); auto). assert (Hll : 2 * l6 = len12 (n_ms c)) by (unfold l6, len6, len12; destruct (n_ms c); reflexivity).
  destruct (downsample_R x12 l6 x6 (fun i => z (i - late12 (n_ms c))) (n * l6)) as (y & E & L & G); try (assumption || lia). { intros j Hj. rewrite HD by exact Hj. unfold frame12. f_equal. lia. }
  assert (HY : forall j, 0 <= j < K_MAX + l6 -> getz 0%R y j = frame6 c z n (j - K_MAX)). { intros j Hj. rewrite G by lia. destruct (Z.leb_spec K_MAX j); cbn [andb]; [destruct (Z.ltb_spec j (K_MAX + l6)); [reflexivity|lia]|apply H6; lia]. }
  unfold pitch_detect. rewrite E. cbn [bind]. destruct (autocorr_R y l6 (frame6 c z n) ltac:(lia) ltac:(lia) HY) as (r & rw & -> & Lr & Lw & GR). cbn [bind]. cbv zeta.
  set (a := frame6 c z n) in *. pose proof (index_of_max_R (weighted c z n) 17 rw ltac:(lia)) as I1. rewrite Lw in I1. specialize (I1 ltac:(intros j Hj; rewrite (proj2 (GR j Hj)); unfold weighted; fold l6 a; replace (17 + j - 17) with j by lia; reflexivity)). change (17 + 98) with 115 in I1. set (i1 := index_of_max R_ops rw) in *. clearbody i1.
  pose proof (first_best_in _ _ _ I1) as P1. apply in_zrange in P1. unfold K_MIN, K_MAX in *. unfold usub. destruct (Z.ltb_spec t_prev 4); [lia|]. cbn [bind]. destruct (Z.ltb_spec (Z.min 114 (t_prev + 4)) 17); [lia|]. cbn [bind].
  set (k0 := Z.max 17 (t_prev - 4)) in *. set (k1 := Z.min 114 (t_prev + 4)) in *. assert (Hk : 17 <= k0 <= k1 /\ k1 <= 114) by lia. destruct (sub_ok r (k0 - 17) (k1 - 17 + 1) ltac:(lia) ltac:(lia)) as (w & -> & Lw' & Tw). cbn [bind].
  pose proof (index_of_max_R (corr l6 a) k0 w ltac:(lia)) as I2. rewrite Lw' in I2. specialize (I2 ltac:(intros j Hj; rewrite Tw by lia; rewrite (proj1 (GR (k0 - 17 + j) ltac:(lia))); f_equal; lia)). replace (k0 + (k1 - 17 + 1 - (k0 - 17))) with (k1 + 1) in I2 by lia. set (i2 := index_of_max R_ops w) in *. clearbody i2.
  pose proof (first_best_in _ _ _ I2) as P2. apply in_zrange in P2. replace (i1 + 17) with (17 + i1) by lia. replace (i2 + (k0 - 17) + 17) with (k0 + i2) by lia. set (t1 := 17 + i1) in *. set (t2 := k0 + i2) in *.
  rewrite (norm_R y l6 a 0) by (unfold K_MAX; assumption || lia). cbn [bind]. rewrite (norm_R y l6 a t1) by (unfold K_MAX; assumption || lia). cbn [bind].
  assert (RI : forall t, 17 <= t <= 114 -> idx r (t - 17) = Ok (corr l6 a t)) by (intros t Ht'; rewrite (idx_get 0%R) by lia; rewrite (proj1 (GR (t - 17) ltac:(lia))); do 2 f_equal; lia).
  rewrite (RI t1) by lia. cbn [bind]. assert (NC : forall t, fmax R_ops (fz R_ops 0) (fdiv R_ops (corr l6 a t) (fsqrt R_ops (fmul R_ops (power l6 a 0) (power l6 a t)))) = ncorr c z n t) by (intros t; rewrite fmax_R; reflexivity). rewrite (NC t1).
  replace (if t1 =? t2 then Ok (ncorr c z n t1) else _) with (Ok (ncorr c z n t2)).
  2:{ destruct (Z.eqb_spec t1 t2) as [->|N]; [reflexivity|]. rewrite (norm_R y l6 a t2) by (unfold K_MAX; assumption || lia). cbn [bind]. rewrite (RI t2) by lia. cbn [bind]. rewrite (NC t2). reflexivity. }
  cbn [bind R_ops flt fmul flit]. rewrite lit2, lit1. destruct (Rlt_bool_spec (85 / 100 * ncorr c z n t1) (ncorr c z n t2)) as [B|B].
  - exists t2, (Rlt_bool (6 / 10) (ncorr c z n t2)), y. split; [reflexivity|]. split; [exact L|]. split; [exists t1, t2; fold l6 a k0 k1; auto|]. split; [|split; [lia|exact HY]]. destruct (Rlt_bool_spec (6 / 10) (ncorr c z n t2)); split; intros; try assumption; try reflexivity; try lra; discriminate.
  - exists t1, (Rlt_bool (6 / 10) (ncorr c z n t1)), y. split; [reflexivity|]. split; [exact L|]. split; [exists t1, t2; fold l6 a k0 k1; auto|]. split; [|split; [lia|exact HY]]. destruct (Rlt_bool_spec (6 / 10) (ncorr c z n t1)); split; intros; try assumption; try reflexivity; try lra; discriminate.
Qed.

(* ---- the lag at 12.8 kHz ---- *)
Lemma interpolate_R (r : list R) (f : Z -> R) lo p d : 4 <= p - lo -> p - lo + 4 < len r -> (forall j, 0 <= j < len r -> getz 0%R r j = f (lo + j)) -> interpolate R_ops r (p - lo) d = Ok (rsum 9 (fun i => f (p + (i - 4))%Z * tap TAB_LTPF_INTERP_R 15 (4 * (i - 4) - d))%R).
Proof.
  intros H1 H2 HR. unfold interpolate. rewrite (for_sum _ (fun m => f (p + m)%Z * tap TAB_LTPF_INTERP_R 15 (4 * m - d))%R); [|lia|].
  - f_equal. change (Z.to_nat (5 - -4)) with 9%nat. cbn [R_ops fz]. rewrite Rplus_0_l. apply rsum_ext. intros i Hi. replace (-4 + i) with (i - 4) by lia. reflexivity.
  - intros m s Hm. cbv zeta. unfold tap. destruct (Z.leb_spec (Z.abs (4 * m - d)) 15).
    + destruct (Z.ltb_spec (-16) (4 * m - d)); [|lia]. destruct (Z.ltb_spec (4 * m - d) 16); [|lia]. cbn [andb]. rewrite (idx_get (0, 0)) by (change (len TAB_LTPF_INTERP_R) with 31; lia). cbn [bind]. rewrite (idx_get 0%R) by lia. cbn [bind R_ops fadd fmul flit]. rewrite HR by lia. replace (lo + (p - lo + m)) with (p + m) by lia. replace (4 * m - d + 15) with (15 + (4 * m - d)) by lia. reflexivity.
    + replace (_ && _) with false; [f_equal; ring|]. destruct (Z.ltb_spec (-16) (4 * m - d)), (Z.ltb_spec (4 * m - d) 16); cbn [andb]; reflexivity || lia.
Qed.
Lemma best_fraction_R (r : list R) rel step (f : Z -> R) : (forall d, interpolate R_ops r rel d = Ok (f d)) -> forall n d cs s, best_so_far f cs 0 s -> exists e, best_fraction R_ops n d step r rel s = Ok e /\ first_positive f (cs ++ map (fun i => d + Z.of_nat i * step) (seq 0 n)) 0 e.
Proof.
  intros HI. induction n as [|n IH]; intros d cs s HB; cbn [best_fraction]; [exists (snd s); split; [reflexivity|]; cbn [seq map]; rewrite app_nil_r; now apply best_done|].
  rewrite HI. cbn [bind R_ops flt]. destruct (IH (d + step) (cs ++ [d]) _ (best_snoc f cs 0 s d HB)) as (e & E & K). exists e. split; [exact E|]. rewrite <- app_assoc in K. cbn [seq map]. rewrite <- seq_shift, map_map. replace (d + Z.of_nat 0 * step) with d by lia. cbn [app] in K.
  erewrite (map_ext (fun i => d + Z.of_nat (S i) * step)); [exact K|]. intros i. cbv beta. lia.
Qed.
Lemma lag_R c z n t (x12 : list R) : let l12 := len12 (n_ms c) in K_MIN <= t <= K_MAX -> NMEM + l12 <= len x12 -> (forall j, 0 <= j < len x12 -> getz 0%R x12 j = frame12 c z n (j - NMEM)) ->
  exists p d, fine c z n t p /\ fractional c z n p d /\ let p' := if d <? 0 then p - 1 else p in let fr := if d <? 0 then d + 4 else d in pitch_lag R_ops l12 t x12 = Ok (lag_index p' fr, p', fr) /\ selectable p' fr.
Proof.
  intros l12 Ht H1 HD. assert (Hl : l12 = 96 \/ l12 = 128) by (unfold l12, len12; destruct (n_ms c); auto). destruct (pitch_lag_ok R_ops l12 t x12 Ht ltac:(lia) H1) as ([[ix p0] fr0] & E & S0 & I0). pose proof E as E'. unfold pitch_lag in E. unfold K_MIN, K_MAX, NMEM in *.
  unfold usub at 1 in E. destruct (Z.ltb_spec (2 * t) 4); [lia|]. cbn [bind] in E. cbv zeta in E. set (k0 := Z.max 32 (2 * t - 4)) in *. set (k1 := Z.min 228 (2 * t + 4)) in *. assert (Hk : 32 <= k0 <= k1 /\ k1 <= 228 /\ k1 - k0 <= 8) by lia.
  unfold usub at 1 in E. destruct (Z.ltb_spec k0 4); [lia|]. cbn [bind] in E. unfold usub at 1 in E. destruct (Z.ltb_spec (k1 + 4) (k0 - 4)); [lia|]. cbn [bind] in E.
  destruct (sub_ok (repeat (fz R_ops 0) 233) 0 (k1 + 4 - (k0 - 4) + 1) ltac:(lia) ltac:(change (len (repeat (fz R_ops 0) 233)) with 233; lia)) as (r0 & E0 & L0 & _). rewrite E0 in E. cbn [bind] in E. set (lo := k0 - 4) in *. set (C := corr l12 (frame12 c z n)).
  match type of E with context [for_range lo (k1 + 5) ?b ?s] => destruct (for_inv (fun k '(r, mx, p) => len r = k1 + 4 - lo + 1 /\ (forall j, 0 <= j < k - lo -> getz 0%R r j = C (lo + j)) /\ best_so_far C (zrange k0 (Z.min k (k1 + 1))) k0 (mx, p)) lo (k1 + 5) b s) as ([[r mx] p] & E1 & L1 & G1 & B1) end; [lia| | |].
  - split; [lia|]. split; [intros; lia|]. left. split; [reflexivity|]. intros k Hk'. apply in_zrange in Hk'. lia.
  - intros k [[r mx] p] Hkk (L & G & B). destruct (slices_sum x12 232 (232 - k) l12 Rmult ltac:(lia) ltac:(lia) ltac:(lia) ltac:(lia) ltac:(lia)) as (u & v & Eu & Ev & _ & SS). rewrite Eu. cbn [bind]. unfold usub. destruct (Z.ltb_spec 232 k); [lia|]. cbn [bind]. destruct (Z.ltb_spec (232 + l12) k); [lia|]. cbn [bind].
    replace (232 + l12 - k) with (232 - k + l12) by lia. rewrite Ev. cbn [bind]. cbv zeta.
    assert (Ec : fold_left (fun a '(x, y) => fadd R_ops a (fmul R_ops x y)) (combine u v) (fz R_ops 0) = C k). { cbn [R_ops fadd fmul fz]. change (fun (a : R) '(x, y) => (a + x * y)%R) with (fun (a : R) '(x, y) => (a + Rmult x y)%R). rewrite SS, Rplus_0_l. unfold C, corr. apply rsum_ext. intros j Hj. rewrite !HD by lia. f_equal; f_equal; lia. }
    rewrite Ec. destruct (put_ok 0%R r (k - lo) (C k) ltac:(lia)) as (r' & -> & L' & G'). cbn [bind]. cbn [R_ops flt].
    assert (G2 : forall j, 0 <= j < k + 1 - lo -> getz 0%R r' j = C (lo + j)). { intros j Hj. rewrite G' by lia. destruct (Z.eqb_spec j (k - lo)) as [->|N]; [f_equal; lia|apply G; lia]. }
    destruct (Z.leb_spec k0 k) as [Q1|Q1]; [destruct (Z.leb_spec k k1) as [Q2|Q2]|].
    + replace (Z.min k (k1 + 1)) with k in B by lia. replace (Z.min (k + 1) (k1 + 1)) with (k + 1) by lia. rewrite zrange_S by lia. pose proof (best_snoc C _ _ _ k B) as BS. cbn [fst] in BS. destruct (Rlt_bool mx (C k)); cbn [andb]; (eexists; split; [reflexivity|]); (split; [lia|]); auto.
    + rewrite !andb_false_r. eexists. split; [reflexivity|]. split; [lia|]. split; [exact G2|]. replace (Z.min (k + 1) (k1 + 1)) with (Z.min k (k1 + 1)) by lia. exact B.
    + rewrite andb_false_r. cbn [andb]. eexists. split; [reflexivity|]. split; [lia|]. split; [exact G2|]. rewrite zrange_nil in * by lia. exact B.
  - rewrite E1 in E. cbn [bind] in E. replace (Z.min (k1 + 5) (k1 + 1)) with (k1 + 1) in B1 by lia. pose proof (best_done _ _ _ _ B1) as FP. cbn [snd] in FP. assert (Hp : k0 <= p <= k1) by (destruct FP as [[-> _]|[_ FB]]; [lia|apply first_best_in, in_zrange in FB; lia]).
    unfold usub at 1 in E. destruct (Z.ltb_spec p lo); [lia|]. cbn [bind] in E. exists p.
    assert (HI : forall d, interpolate R_ops r (p - lo) d = Ok (quarter c z n p d)) by (intros d; apply (interpolate_R r C lo p d); [lia|lia|]; intros j Hj; apply G1; lia).
    assert (HQ : exists d, (if p =? 32 then best_fraction R_ops 4 0 1 r (p - lo) (fz R_ops 0, 0) else if (p <? 127) && (32 <? p) then best_fraction R_ops 7 (-3) 1 r (p - lo) (fz R_ops 0, 0) else if (127 <=? p) && (p <? 157) then best_fraction R_ops 3 (-2) 2 r (p - lo) (fz R_ops 0, 0) else Ok 0) = Ok d /\ fractional c z n p d).
    { unfold fractional, quarters. assert (I : best_so_far (quarter c z n p) [] 0 (fz R_ops 0, 0)) by (left; split; [reflexivity|intros k []]). destruct (Z.eqb_spec p 32); [exact (best_fraction_R r (p - lo) 1 _ HI 4 0 [] _ I)|].
      destruct (Z.ltb_spec p 127); cbn [andb]. { destruct (Z.ltb_spec 32 p); [|lia]. exact (best_fraction_R r (p - lo) 1 _ HI 7 (-3) [] _ I). }
      destruct (Z.leb_spec 127 p); [|lia]. cbn [andb]. destruct (Z.ltb_spec p 157); [exact (best_fraction_R r (p - lo) 2 _ HI 3 (-2) [] _ I)|]. exists 0. split; [reflexivity|]. left. split; [reflexivity|intros k []]. }
    destruct HQ as (d & Ed & Fd). rewrite Ed in E. cbn [bind] in E. exists d. split; [exact FP|]. split; [exact Fd|]. cbv zeta.
    destruct (Z.ltb_spec d 0).
    + unfold usub at 1 in E. destruct (Z.ltb_spec p 1); [lia|]. cbn [bind] in E. apply Ok_inj in E. assert (p0 = p - 1 /\ fr0 = d + 4) as [-> ->] by (split; congruence). split; [rewrite E', I0; reflexivity|exact S0].
    + cbn [bind] in E. apply Ok_inj in E. assert (p0 = p /\ fr0 = d) as [-> ->] by (split; congruence). split; [rewrite E', I0; reflexivity|exact S0].
Qed.

(* ---- similarity and the decision ---- *)
Lemma interp12_R c z n (x12 : list R) p d j : 0 <= d <= 3 -> -230 <= j - p -> NMEM + (j - p) + 2 <= len x12 -> (forall j, 0 <= j < len x12 -> getz 0%R x12 j = frame12 c z n (j - NMEM)) -> interp12 R_ops x12 (j - p) d = Ok (shifted c z n p d j).
Proof.
  unfold NMEM. intros Hd H1 H2 HD. unfold interp12, NMEM, shifted. rewrite (for_sum _ (fun k => frame12 c z n (j - p - k)%Z * tap TAB_LTPF_INTERP_X12K8 7 (4 * k - d))%R); [|lia|].
  - f_equal. change (Z.to_nat (3 - -2)) with 5%nat. cbn [R_ops fz]. rewrite Rplus_0_l. apply rsum_ext. intros i Hi. replace (-2 + i) with (i - 2) by lia. reflexivity.
  - intros k s Hk. cbv zeta. unfold tap. destruct (Z.leb_spec (Z.abs (4 * k - d)) 7).
    + destruct (Z.ltb_spec (-8) (4 * k - d)); [|lia]. destruct (Z.ltb_spec (4 * k - d) 8); [|lia]. cbn [andb]. rewrite (idx_get 0%R) by lia. cbn [bind]. rewrite (idx_get (0, 0)) by (change (len TAB_LTPF_INTERP_X12K8) with 15; lia). cbn [bind R_ops fadd fmul flit]. rewrite HD by lia. replace (232 + (j - p) - k - 232) with (j - p - k) by lia. replace (4 * k - d + 7) with (7 + (4 * k - d)) by lia. reflexivity.
    + replace (_ && _) with false; [f_equal; ring|]. destruct (Z.ltb_spec (-8) (4 * k - d)), (Z.ltb_spec (4 * k - d) 8); cbn [andb]; reflexivity || lia.
Qed.
Definition mem_of (st : eltpf R) : pmem := mkPmem (el_t st) (el_pitch st) (el_active st) (el_nc st) (el_nc2 st).
Lemma Rlt_bool_iff x y : Rlt_bool x y = true <-> (x < y)%R.
Proof. destruct (Rlt_bool_spec x y); split; intros; try assumption; try reflexivity; try discriminate; lra. Qed.
Lemma activation_R c z n st (x12 : list R) p fr nn g : let l12 := len12 (n_ms c) in selectable p fr -> NMEM + l12 + 2 <= len x12 -> (forall j, 0 <= j < len x12 -> getz 0%R x12 j = frame12 c z n (j - NMEM)) ->
  exists a, let nc := similarity c z n p fr in let pitch := (IZR p + IZR fr / 4)%R in activation R_ops R_eops c st l12 x12 p fr nn g = Ok (a, nc, pitch) /\ (a = true <-> g && negb nn = true /\ switched_on c (mem_of st) nc pitch).
Proof.
  intros l12 HS H1 HD. assert (Hl : l12 = 96 \/ l12 = 128) by (unfold l12, len12; destruct (n_ms c); auto). unfold activation.
  match goal with |- context [for_range 0 l12 ?b ?s] => destruct (for_inv (fun i s' => s' = (rsum (Z.to_nat i) (fun j => shifted c z n 0 0 j * shifted c z n p fr j)%R, rsum (Z.to_nat i) (fun j => shifted c z n 0 0 j * shifted c z n 0 0 j)%R, rsum (Z.to_nat i) (fun j => shifted c z n p fr j * shifted c z n p fr j)%R)) 0 l12 b s) as (s' & E & ->) end; [lia|reflexivity| |].
  - intros i s Hi ->. replace (interp12 R_ops x12 i 0) with (interp12 R_ops x12 (i - 0) 0) by (f_equal; lia). unfold selectable, NMEM in *. rewrite (interp12_R c z n) by (unfold NMEM; assumption || lia). cbn [bind]. rewrite (interp12_R c z n) by (unfold NMEM; assumption || lia). cbn [bind]. eexists. split; [reflexivity|]. replace (Z.to_nat (i + 1)) with (S (Z.to_nat i)) by lia. cbn [rsum R_ops fadd fmul]. rewrite Z2Nat.id by lia. reflexivity.
  - rewrite E. cbn [bind R_ops fsqrt fmul flt fdiv fz fadd flit fsub R_eops e_abs]. cbv zeta.
    set (ab := rsum (Z.to_nat l12) (fun j => shifted c z n 0 0 j * shifted c z n p fr j)%R). set (den := sqrt _).
    assert (EN : (if Rlt_bool 0 den then (ab / den)%R else 0%R) = similarity c z n p fr). { unfold similarity. fold l12 ab den. destruct (Rlt_bool_spec 0 den), (Rlt_dec 0 den); try reflexivity; lra. }
    rewrite EN. set (nc := similarity c z n p fr). set (pitch := (IZR p + IZR fr / 4)%R). eexists. split; [reflexivity|]. unfold switched_on, mem_of. cbn [pm_active pm_nc pm_nc2 pm_pitch]. rewrite !lit2, !lit1.
    destruct (g && negb nn); [|split; [discriminate|intros [? _]; discriminate]]. rewrite !orb_true_iff, !andb_true_iff, !Rlt_bool_iff, !negb_true_iff. 
    assert (ED : (match n_ms c with TenMs => true | SevenPointFiveMs => Rlt_bool (94 / 100) (el_nc2 st) end) = true <-> (n_ms c = SevenPointFiveMs -> (94 / 100 < el_nc2 st)%R)). { destruct (n_ms c); [rewrite Rlt_bool_iff; intuition|intuition discriminate]. }
    rewrite ED. change (-1 / 10)%R with (- (1) / 10)%R. tauto.
Qed.

(* ---- a frame ---- *)
Definition lr_of (r : pout) : ltpf_result := mkLr (if po_present r then lag_index (po_lag r) (po_frac r) else 0) (po_present r) (po_active r) (if po_present r then 11 else 1).
Definition allowed_of (c : config) (nn : bool) (nbits : Z) : bool := (ltpf_nbits (n_ms c) nbits <? 560 + fs_ind c * 80) && negb nn.
(* what the state holds before frame n of the signal s *)
Record pitch_at (c : config) (s : Z -> Z) (n : Z) (st : eltpf R) : Prop := mkPitchAt {
  pa_wf : eltpf_wf c st;
  pa_xs : forall j, 0 <= j < ext c + nf c -> getz 0 (el_xs st) j = s ((n - 1) * nf c - ext c + j);
  pa_x12 : forall j, 0 <= j < len12 (n_ms c) + late12 (n_ms c) + NMEM -> getz 0%R (el_x12 st) j = passed (resampled (up_factor c) (up_gain c) s) ((n - 1) * len12 (n_ms c) - (late12 (n_ms c) + NMEM) + j);
  pa_x6 : forall j, 0 <= j < K_MAX + len6 (n_ms c) -> getz 0%R (el_x6 st) j = halved (fun i => passed (resampled (up_factor c) (up_gain c) s) (i - late12 (n_ms c))) ((n - 1) * len6 (n_ms c) + (j - K_MAX));
  pa_h1 : el_h1 st = fst (kept (resampled (up_factor c) (up_gain c) s) (Z.to_nat (n * len12 (n_ms c))));
  pa_h2 : el_h2 st = snd (kept (resampled (up_factor c) (up_gain c) s) (Z.to_nat (n * len12 (n_ms c))))
}.
Lemma factors_spec c : legal_config c -> exists rf, eltpf_factors (fs c) = Ok (up_factor c, rf, ext c) /\ R_lit rf = up_gain c /\ up_ok (up_factor c) /\ 240 / up_factor c = ext c /\ up_factor c * nf c = 15 * len12 (n_ms c) /\
  240 / up_factor c + 15 * (len12 (n_ms c) - 1) / up_factor c < ext c + nf c /\ 0 <= ext c /\ 0 < nf c.
Proof.
  intros (f & d & ->). unfold up_ok, up_gain. destruct f, d; eexists; (split; [reflexivity|]); (split; [cbn [fs config_new Z.eqb]; rewrite lit1; cbn; lra|]); (split; [vm_compute; tauto|]); (split; [reflexivity|]); (split; [reflexivity|]); (split; [reflexivity|]); split; (reflexivity || (vm_compute; discriminate)).
Qed.
Lemma shift_front_get {A} (l : list A) from : 0 <= from <= len l -> exists l', shift_front l from = Ok l' /\ len l' = len l /\ forall d j, 0 <= j < len l - from -> getz d l' j = getz d l (from + j).
Proof.
  intros H. unfold shift_front. destruct (sub_ok l from (len l) ltac:(lia) ltac:(lia)) as (u & -> & Lu & Tu). cbn [bind]. destruct (blit_ok l 0 (len l - from) u ltac:(lia) ltac:(lia) ltac:(lia)) as (l' & -> & Ll & G). exists l'. split; [reflexivity|]. split; [exact Ll|].
  intros d j Hj. rewrite G by lia. destruct (Z.leb_spec 0 j); [|lia]. destruct (Z.ltb_spec j (len l - from)); [|lia]. cbn [andb]. rewrite Z.sub_0_r. apply Tu. exact Hj.
Qed.
Theorem pitch_step c s n st x nn nbits : legal_config c -> 0 <= n -> pitch_at c s n st -> len x = nf c -> (forall j, 0 <= j < nf c -> getz 0 x j = s (n * nf c + j)) ->
  exists r st', eltpf_run R_ops R_eops c st x nn nbits = Ok (lr_of r, st') /\ pitch_at c s (n + 1) st' /\ pitch_frame c (passed (resampled (up_factor c) (up_gain c) s)) n (allowed_of c nn nbits) (mem_of st) r (mem_of st').
Proof.
  intros L Hn [W PX P12 P6 PH1 PH2] Lx HX. destruct (eltpf_run_ok R_ops R_eops c st x nn nbits L W Lx) as ([r0 st0] & E0 & W' & _). pose proof E0 as E. destruct W as [W1 W2 W3 W4]. destruct (factors_spec c L) as (rf & EF & ER & Hu & X & U & HL & X0 & N0).
  set (up := up_factor c) in *. set (y := resampled up (up_gain c) s) in *. set (z := passed y) in *. set (l12 := len12 (n_ms c)) in *. set (l6 := len6 (n_ms c)) in *. set (late := late12 (n_ms c)) in *.
  assert (EL : eltpf_lens (n_ms c) = (l12, l6, late)) by (unfold l12, l6, late; destruct (n_ms c); reflexivity). assert (Hl : l12 = 2 * l6 /\ (l6 = 48 /\ late = 44 \/ l6 = 64 /\ late = 24)) by (unfold l12, l6, late; destruct (n_ms c); cbn; lia).
  unfold eltpf_run in E. rewrite Lx, Z.eqb_refl, EL, EF in E. cbn [assert bind] in E. cbv zeta in E. rewrite EL in W3. unfold NMEM, K_MAX in *. unfold shift_samples in E. rewrite X in E. unfold usub in E. destruct (Z.ltb_spec (len (el_xs st)) (ext c)); [lia|]. cbn [bind] in E.
  destruct (shift_front_get (el_xs st) (len (el_xs st) - ext c) ltac:(lia)) as (xs1 & S1 & LS1 & GS1). rewrite S1 in E. cbn [bind] in E. destruct (blit_ok xs1 (ext c) (len xs1) x ltac:(lia) ltac:(lia) ltac:(lia)) as (xs & S2 & LS2 & GS2). rewrite S2 in E. cbn [bind] in E.
  destruct (shift_front_get (el_x12 st) l12 ltac:(lia)) as (u12 & S3 & LS3 & GS3). rewrite S3 in E. cbn [bind] in E. destruct (shift_front_get (el_x6 st) l6 ltac:(lia)) as (u6 & S4 & LS4 & GS4). rewrite S4 in E. cbn [bind] in E.
  assert (GX : forall j, 0 <= j < len xs -> getz 0 xs j = s (n * nf c - 240 / up + j)).
  { intros j Hj. rewrite X. rewrite GS2 by lia. destruct (Z.leb_spec (ext c) j); cbn [andb].
    - destruct (Z.ltb_spec j (len xs1)); [|lia]. rewrite HX by lia. f_equal. lia.
    - rewrite GS1 by lia. rewrite PX by lia. f_equal. lia. }
  destruct (resample_R xs s up rf (late + 232) l12 u12 (n * nf c) (n * l12) Hu ltac:(lia) ltac:(lia) ltac:(lia) ltac:(rewrite LS2, LS1, W2; exact HL) ltac:(nia) GX) as (v12 & S5 & LS5 & GS5). rewrite S5 in E. cbn [bind] in E. rewrite PH1, PH2 in E.
  assert (Hm0 : 0 <= n * l12) by nia. destruct (highpass_R (late + 232) l12 v12 y (n * l12) ltac:(lia) ltac:(lia) ltac:(lia) Hm0) as (w12 & S6 & LS6 & GS6). { intros j Hj. rewrite GS5 by lia. destruct (Z.leb_spec (late + 232) j); [|lia]. destruct (Z.ltb_spec j (late + 232 + l12)); [|lia]. cbn [andb]. rewrite ER. reflexivity. }
  rewrite S6 in E. cbn [bind] in E.
  assert (G12 : forall j, 0 <= j < len w12 -> getz 0%R w12 j = z (n * l12 - (late + 232) + j)).
  { intros j Hj. rewrite GS6 by lia. destruct (Z.leb_spec (late + 232) j); cbn [andb].
    - destruct (Z.ltb_spec j (late + 232 + l12)); [|lia]. unfold z. f_equal. lia.
    - rewrite GS5 by lia. destruct (Z.leb_spec (late + 232) j); [lia|]. cbn [andb]. rewrite GS3 by lia. rewrite P12 by lia. f_equal. lia. }
  assert (G12' : forall j, 0 <= j < len w12 -> getz 0%R w12 j = frame12 c z n (j - NMEM)) by (intros j Hj; rewrite G12 by exact Hj; unfold frame12, NMEM; fold l12 late; f_equal; lia).
  assert (G6 : forall j, 0 <= j < K_MAX -> getz 0%R u6 j = frame6 c z n (j - K_MAX)) by (unfold K_MAX; intros j Hj; rewrite GS4 by lia; rewrite P6 by lia; unfold frame6; fold l6 late; f_equal; lia).
  destruct (detect_R c z n (el_t st) w12 u6) as (t & b & v6 & S7 & LS7 & CO & PR & Ht & GS7); try assumption; try (unfold K_MAX, NMEM; fold l6; lia). fold l6 in S7, GS7. rewrite S7 in E. cbn [bind] in E.
  destruct (lag_R c z n t w12) as (p & d & FI & FR & S8 & SE); try assumption; try (unfold NMEM; fold l12; lia). fold l12 in S8. set (p' := if d <? 0 then p - 1 else p) in *. set (fr := if d <? 0 then d + 4 else d) in *. rewrite S8 in E. cbn [bind] in E.
  destruct (activation_R c z n st w12 p' fr nn (ltpf_nbits (n_ms c) nbits <? 560 + fs_ind c * 80)) as (a & S9 & AC); try assumption; try (unfold NMEM; fold l12; lia). cbv zeta in S9, AC. fold l12 in S9. rewrite S9 in E. cbn [bind] in E. apply Ok_inj in E.
  set (nc := similarity c z n p' fr) in *. set (pitch := (IZR p' + IZR fr / 4)%R) in *.
  exists (mkPout b a p' fr nc), st0. assert (Er : r0 = lr_of (mkPout b a p' fr nc)) by (unfold lr_of; cbn [po_present po_lag po_frac po_active]; congruence).
  match type of E with (_, ?s1) = _ => assert (Es : st0 = s1) by congruence end. clear E. rewrite E0, Er. split; [reflexivity|]. split.
  - constructor; [exact W'|..]; rewrite Es; cbn [el_xs el_x12 el_x6 el_h1 el_h2]; fold up y z l12 l6 late.
    + intros j Hj. rewrite GX by lia. rewrite X. f_equal. lia.
    + intros j Hj. rewrite G12 by (unfold NMEM in *; lia). unfold NMEM. f_equal. lia.
    + intros j Hj. rewrite GS7 by exact Hj. unfold frame6. fold l6 late. f_equal. lia.
    + f_equal. f_equal. f_equal. lia.
    + f_equal. f_equal. f_equal. lia.
  - exists t, p, d. cbn [po_present po_active po_lag po_frac po_nc]. split; [exact CO|]. split; [exact FI|]. split; [exact FR|]. split; [exact PR|]. split; [reflexivity|]. split; [reflexivity|]. split; [reflexivity|]. cbv zeta. split; [exact AC|]. rewrite Es. unfold mem_of. cbn [el_t el_pitch el_active el_nc el_nc2]. destruct b; reflexivity.
Qed.

(* ---- streams ---- *)
Lemma resampled_silent up gain s m : 0 < up -> (forall j, j < 0 -> s j = 0) -> m < 0 -> resampled up gain s m = 0%R.
Proof.
  intros Hu HS Hm. unfold resampled. rewrite rsum_zero; [ring|]. intros q Hq. unfold stuffed. destruct (_ =? 0); [|ring]. rewrite HS; [ring|]. change (Z.of_nat 239) with 239 in Hq. apply Z.div_lt_upper_bound; lia.
Qed.
Lemma pitch_start c s (xs : list Z) (x12 x6 : list R) : legal_config c -> (forall j, j < 0 -> s j = 0) -> eltpf_wf c (eltpf_new R_ops xs x12 x6) -> Forall (fun v => v = 0) xs -> Forall (fun v => v = 0%R) x12 -> Forall (fun v => v = 0%R) x6 -> pitch_at c s 0 (eltpf_new R_ops xs x12 x6).
Proof.
  intros L HS W Z1 Z2 Z3. destruct (factors_spec c L) as (rf & _ & _ & Hu & _ & _ & _ & X0 & N0). assert (Hu0 : 0 < up_factor c) by (destruct Hu as [->|[->|[->|[->| ->]]]]; lia). assert (GZ : forall {A} (d : A) l j, Forall (fun v => v = d) l -> getz d l j = d).
  { intros A d l j H. unfold getz. destruct (nth_in_or_default (Z.to_nat j) l d) as [Hi|E]; [|exact E]. rewrite Forall_forall in H. now apply H. }
  assert (PN : forall m, m < 0 -> passed (resampled (up_factor c) (up_gain c) s) m = 0%R) by (intros m Hm; unfold passed; destruct (Z.ltb_spec m 0); [reflexivity|lia]).
  assert (Hd : 0 < late12 (n_ms c) /\ 0 < len12 (n_ms c) /\ 0 < len6 (n_ms c)) by (unfold late12, len12, len6; destruct (n_ms c); lia). constructor; [exact W|..]; cbn [eltpf_new el_xs el_x12 el_x6 el_h1 el_h2].
  - intros j Hj. rewrite GZ by exact Z1. symmetry. apply HS. lia.
  - intros j Hj. rewrite GZ by exact Z2. symmetry. apply PN. unfold NMEM in *. lia.
  - intros j Hj. rewrite GZ by exact Z3. unfold halved, K_MAX in *. rewrite !PN by lia. ring.
  - reflexivity.
  - reflexivity.
Qed.
Theorem pitch_stream c s : legal_config c -> forall frames n st, 0 <= n -> pitch_at c s n st -> Forall (fun '(x, _, _) => len x = nf c) frames ->
  (forall k x nn nbits, nth_error frames k = Some (x, nn, nbits) -> forall j, 0 <= j < nf c -> getz 0 x j = s ((n + Z.of_nat k) * nf c + j)) ->
  exists rs rp m', eltpf_frames R_ops R_eops c st frames = Ok rp /\ map fst rp = map lr_of rs /\ pitch_run c (passed (resampled (up_factor c) (up_gain c) s)) n (mem_of st) (map (fun '(_, nn, nbits) => allowed_of c nn nbits) frames) rs m'.
Proof.
  intros L. induction frames as [|[[x nn] nbits] frames IH]; intros n st Hn PA HF HX; [exists [], [], (mem_of st); cbn; auto|].
  pose proof (Forall_inv HF) as Lx. cbv beta iota in Lx. apply Forall_inv_tail in HF. destruct (pitch_step c s n st x nn nbits L Hn PA Lx) as (r & st' & E & PA' & PF). { intros j Hj. specialize (HX 0%nat x nn nbits eq_refl j Hj). rewrite Z.add_0_r in HX. exact HX. }
  destruct (IH (n + 1) st' ltac:(lia) PA' HF) as (rs & rp & m' & E2 & M2 & P2). { intros k x' nn' nb' Hk j Hj. rewrite (HX (S k) x' nn' nb' Hk j Hj). f_equal. lia. }
  exists (r :: rs), ((lr_of r, el_pitch st') :: rp), m'. cbn [eltpf_frames]. rewrite E. cbn [bind]. rewrite E2. cbn [bind map fst pitch_run]. split; [reflexivity|]. split; [now rewrite M2|]. exists (mem_of st'). auto.
Qed.
