(* The linear prediction of the encoder's temporal noise shaping on the reals: Levinson's recursion, damping and the reflection
   coefficients (EncTns.tns_analysis) against the theory in Lpc and LpcDamp. *)
From Coq Require Import ZArith Lia List Bool Reals Lra.
From Coquelicot Require Import Coquelicot.
From Flocq Require Import Core.
From Verif Require Import Base Config Loops Scalar EncScalar RealOps EncF32 DecSignal EncTns TnsOk DetectSpec Lpc LpcDamp.
Import ListNotations.
Local Open Scope Z_scope.

Definition fn (l : list R) (n : nat) : R := getz 0%R l (Z.of_nat n).
Lemma fn_Z l k : 0 <= k -> getz 0%R l k = fn l (Z.to_nat k).
Proof. intros H. unfold fn. now rewrite Z2Nat.id. Qed.

(* ---- Levinson's recursion ---- *)
Lemma correlate (l r : list R) (k : nat) : (k < 9)%nat -> len l = 9 -> len r = 9 ->
  for_range 0 (Z.of_nat k) (fun n rc => x <- idx l n ;; y <- idx r (Z.of_nat k - n) ;; Ok (fsub R_ops rc (fmul R_ops x y))) (fz R_ops 0) = Ok (- sm k (fun n => fn l n * fn r (k - n)%nat))%R.
Proof.
  intros Hk Ll Lr. match goal with |- for_range _ _ ?b _ = _ => set (body := b) end.
  change (fz R_ops 0) with 0%R. destruct (for_inv (fun j s => s = (- sm (Z.to_nat j) (fun n => fn l n * fn r (k - n)%nat))%R) 0 (Z.of_nat k) body 0%R) as (s & E & P); [lia|change (Z.to_nat 0) with 0%nat; cbn [sm]; lra| |].
  - intros j s Hj ->. unfold body. rewrite (idx_get 0%R l), (idx_get 0%R r) by lia. cbn [bind]. eexists. split; [reflexivity|]. cbn [R_ops fsub fmul].
    rewrite (fn_Z l j), (fn_Z r) by lia. replace (Z.to_nat (j + 1)) with (S (Z.to_nat j)) by lia. cbn [sm]. replace (Z.to_nat (Z.of_nat k - j)) with (k - Z.to_nat j)%nat by lia. ring.
  - rewrite E, P. now rewrite Nat2Z.id.
Qed.
Lemma levinson_step_R (r a b : list R) (e : R) (k : nat) : (1 <= k <= 8)%nat -> len r = 9 -> len a = 9 -> len b = 9 -> definite (fn r) 9 -> normal (fn r) k (fn a) e ->
  exists a' e', levinson_step R_ops r (Z.of_nat k) (a, b, e) = Ok (a', a, e') /\ len a' = 9 /\ normal (fn r) (S k) (fn a') e'.
Proof.
  intros Hk Lr La Lb D N. pose proof (normal_pos (fn r) k (fn a) e ltac:(lia) (definite_le _ k 9 ltac:(lia) D) N) as P.
  unfold levinson_step. rewrite (correlate a r k) by (assumption || lia). cbn [bind]. cbv zeta. cbn [R_ops feq fz fdiv fadd fmul fsub].
  rewrite (Req_bool_false e 0) by lra. set (rc := (- sm k (fun n => fn a n * fn r (k - n)%nat) / e)%R).
  destruct (put_ok 0%R b 0 1%R ltac:(lia)) as (b1 & -> & L1 & T1). cbn [bind].
  destruct (for_put 0%R 1 (Z.of_nat k) (fun n a0 => x <- idx a n ;; y <- idx a (Z.of_nat k - n) ;; put a0 n (x + rc * y)%R) (fun n => (getz 0%R a n + rc * getz 0%R a (Z.of_nat k - n))%R) b1) as (b2 & E2 & L2 & T2); [lia|lia| |].
  { intros n l Hn Hl. rewrite (idx_get 0%R a n), (idx_get 0%R a (Z.of_nat k - n)) by lia. reflexivity. }
  rewrite E2. cbn [bind]. destruct (put_ok 0%R b2 (Z.of_nat k) rc ltac:(lia)) as (b3 & -> & L3 & T3). cbn [bind]. exists b3. eexists. split; [reflexivity|]. split; [lia|].
  pose proof (normal_up (fn r) k (fn a) e ltac:(lia) N ltac:(lra)) as U. cbv zeta in U. fold rc in U. destruct U as (U0 & U).
  assert (T : forall n, (n <= k)%nat -> fn b3 n = up k (fn a) rc n).
  { intros n Hn. unfold fn at 1. rewrite T3, T2, T1 by lia. unfold up. destruct (Z.eqb_spec (Z.of_nat n) (Z.of_nat k)) as [En|En].
    - replace n with k by lia. rewrite Nat.ltb_irrefl, Nat.eqb_refl. destruct (Nat.eqb_spec k 0); [lia|reflexivity].
    - destruct (Nat.eqb_spec n 0) as [->|N0]; [reflexivity|]. destruct (Z.leb_spec 1 (Z.of_nat n)); [|lia]. destruct (Z.ltb_spec (Z.of_nat n) (Z.of_nat k)); [|lia]. cbn [andb]. rewrite (proj2 (Nat.ltb_lt n k)) by lia.
      unfold fn. f_equal. f_equal. f_equal. lia. }
  split; [rewrite T by lia; exact U0|]. intros i Hi. rewrite <- (U i Hi). apply sm_ext. intros j Hj. now rewrite T by lia.
Qed.
Lemma levinson_R (r : list R) : len r = 9 -> definite (fn r) 9 ->
  exists a b e, (a0 <- put (repeat 0%R 9) 0 1%R ;; for_range 1 9 (levinson_step R_ops r) (a0, repeat 0%R 9, getz 0%R r 0)) = Ok (a, b, e) /\ len a = 9 /\ len b = 9 /\ normal (fn r) 9 (fn a) e.
Proof.
  intros Lr D. destruct (put_ok 0%R (repeat 0%R 9) 0 1%R ltac:(cbn; lia)) as (a0 & -> & L0 & T0). cbn [bind].
  destruct (for_inv (fun k '(a, b, e) => len a = 9 /\ len b = 9 /\ normal (fn r) (Z.to_nat k) (fn a) e) 1 9 (levinson_step R_ops r) (a0, repeat 0%R 9, getz 0%R r 0)) as ([[a b] e] & E & A & B & N).
  - lia.
  - split; [exact L0|]. split; [reflexivity|]. split; [unfold fn; now rewrite T0 by lia|]. intros i Hi. change (Z.to_nat 1) with 1%nat in *. replace i with 0%nat by lia. cbn [sm Nat.eqb]. unfold fn at 1. rewrite T0 by lia. unfold toep, apart, fn. cbn. ring.
  - intros k [[a b] e] Hk (A & B & N). destruct (levinson_step_R r a b e (Z.to_nat k) ltac:(lia) Lr A B D N) as (a' & e' & E & A' & N'). rewrite Z2Nat.id in E by lia. exists (a', a, e'). split; [exact E|]. split; [exact A'|]. split; [exact A|]. replace (Z.to_nat (k + 1)) with (S (Z.to_nat k)) by lia. exact N'.
  - exists a, b, e. auto.
Qed.

(* ---- from the predictor to the reflection coefficients ---- *)
(* the polynomial of a lattice with the given coefficients *)
Fixpoint lattice (rc : nat -> R) (n : nat) : nat -> R := match n with O => fun i => if Nat.eqb i 0 then 1%R else 0%R | S n => up (S n) (lattice rc n) (rc n) end.
(* the predictors of the lower orders *)
Fixpoint lower (a : nat -> R) (m j : nat) : nat -> R := match j with O => a | S j => down (m - j) (lower a m j) end.
Lemma up_down k a n : (0 < k)%nat -> a 0%nat = 1%R -> (a k * a k < 1)%R -> (n <= k)%nat -> up k (down k a) (a k) n = a n.
Proof.
  intros Hk A0 Hp Hn. unfold up, down. destruct (Nat.eqb_spec n 0) as [->|N0]; [now symmetry|]. destruct (Nat.ltb_spec n k) as [H|H].
  - replace (k - (k - n))%nat with n by lia. field. lra.
  - replace n with k by lia. now rewrite Nat.eqb_refl.
Qed.
Lemma lower_normal s m a e : definite s (S m) -> normal s (S m) a e -> forall j, (j <= m)%nat -> exists e', normal s (S m - j) (lower a m j) e'.
Proof.
  intros D N. induction j as [|j IH]; intros Hj; [exists e; exact N|]. destruct (IH ltac:(lia)) as (e' & N'). cbn [lower].
  replace (S m - j)%nat with (S (m - j)) in N' by lia. destruct (normal_down s (m - j) (lower a m j) e' ltac:(lia) (definite_le s (S (m - j)) (S m) ltac:(lia) D) N') as [_ N2]. eexists. replace (S m - S j)%nat with (m - j)%nat by lia. exact N2.
Qed.
Lemma lower_below_one s m a e : definite s (S m) -> normal s (S m) a e -> forall j, (j < m)%nat -> (lower a m j (m - j) * lower a m j (m - j) < 1)%R.
Proof.
  intros D N j Hj. destruct (lower_normal s m a e D N j ltac:(lia)) as (e' & N'). replace (S m - j)%nat with (S (m - j)) in N' by lia.
  exact (proj1 (normal_down s (m - j) (lower a m j) e' ltac:(lia) (definite_le s (S (m - j)) (S m) ltac:(lia) D) N')).
Qed.
Lemma lattice_lower s m a e rc : definite s (S m) -> normal s (S m) a e -> (forall k, (k < m)%nat -> rc k = lower a m (m - S k) (S k)) ->
  forall k, (k <= m)%nat -> forall n, (n <= k)%nat -> lattice rc k n = lower a m (m - k) n.
Proof.
  intros D N H. induction k as [|k IH]; intros Hk n Hn.
  - replace n with 0%nat by lia. cbn [lattice Nat.eqb]. destruct (lower_normal s m a e D N (m - 0)%nat ltac:(lia)) as (e' & N'). symmetry. exact (proj1 N').
  - cbn [lattice]. set (L := lower a m (m - S k)) in *.
    assert (E : forall i, (i <= k)%nat -> lattice rc k i = down (S k) L i).
    { intros i Hi. rewrite IH by lia. replace (m - k)%nat with (S (m - S k)) by lia. cbn [lower]. replace (m - (m - S k))%nat with (S k) by lia. reflexivity. }
    rewrite H by lia. fold L. destruct (lower_normal s m a e D N (m - S k)%nat ltac:(lia)) as (e' & N'). fold L in N'.
    pose proof (lower_below_one s m a e D N (m - S k)%nat ltac:(lia)) as B. replace (m - (m - S k))%nat with (S k) in B by lia. fold L in B.
    rewrite <- (up_down (S k) L n ltac:(lia) (proj1 N') B Hn). unfold up. destruct (Nat.eqb_spec n 0); [reflexivity|]. destruct (Nat.ltb_spec n (S k)); [|reflexivity]. now rewrite !E by lia.
Qed.

Lemma stepdown_R (f : Z) (k : nat) (a b rc : list R) (A : nat -> R) : 0 <= f < 2 -> (1 <= k <= 8)%nat -> len a = 9 -> len b = 9 -> len rc = 16 -> (forall n, (1 <= n <= k)%nat -> fn a n = A n) ->
  exists b' rc', stepdown R_ops f (Z.of_nat k) (a, b, rc) = Ok (b', a, rc') /\ len b' = 9 /\ len rc' = 16 /\ (forall n, (1 <= n < k)%nat -> fn b' n = down k A n) /\
    (forall j, 0 <= j -> getz 0%R rc' j = if j =? f * 8 + Z.of_nat k - 1 then A k else getz 0%R rc j).
Proof.
  intros Hf Hk La Lb Lr H. unfold stepdown. rewrite (idx_get 0%R a) by lia. cbn [bind]. change (getz 0%R a (Z.of_nat k)) with (fn a k). rewrite (H k) by lia.
  destruct (put_ok 0%R rc (f * 8 + Z.of_nat k - 1) (A k) ltac:(lia)) as (rc' & -> & L1 & T1). cbn [bind]. cbv zeta.
  cbn [R_ops fdiv fsub fmul fz]. match goal with |- context [for_range 1 (Z.of_nat k) ?bd b] => destruct (for_put 0%R 1 (Z.of_nat k) bd (fun n => ((getz 0%R a n - A k * getz 0%R a (Z.of_nat k - n)) / (1 - A k * A k))%R) b) as (b' & E2 & L2 & T2) end; [lia|lia| |].
  { intros n l Hn Hl. rewrite (idx_get 0%R a n), (idx_get 0%R a (Z.of_nat k - n)) by lia. reflexivity. }
  rewrite E2. cbn [bind]. exists b', rc'. split; [reflexivity|]. split; [lia|]. split; [lia|]. split; [|exact T1].
  intros n Hn. unfold fn. rewrite T2 by lia. destruct (Z.leb_spec 1 (Z.of_nat n)); [|lia]. destruct (Z.ltb_spec (Z.of_nat n) (Z.of_nat k)); [|lia]. cbn [andb].
  replace (Z.of_nat k - Z.of_nat n) with (Z.of_nat (k - n)) by lia. fold (fn a n) (fn a (k - n)). rewrite !H by lia. reflexivity.
Qed.
Lemma stepdowns_R (f : Z) (a b rc : list R) (A : nat -> R) : 0 <= f < 2 -> len a = 9 -> len b = 9 -> len rc = 16 -> (forall n, (1 <= n <= 8)%nat -> fn a n = A n) ->
  exists a' b' rc', for_rev 1 9 (stepdown R_ops f) (a, b, rc) = Ok (a', b', rc') /\ len rc' = 16 /\ (forall k, (k < 8)%nat -> getz 0%R rc' (f * 8 + Z.of_nat k) = lower A 8 (8 - S k) (S k)) /\
    (forall j, 0 <= j < f * 8 \/ f * 8 + 8 <= j -> getz 0%R rc' j = getz 0%R rc j).
Proof.
  intros Hf La Lb Lr H.
  destruct (for_rev_inv (fun k '(a, b, rc') => len a = 9 /\ len b = 9 /\ len rc' = 16 /\ (forall n, (1 <= n <= Z.to_nat (k - 1))%nat -> fn a n = lower A 8 (Z.to_nat (9 - k)) n) /\
      (forall m, (Z.to_nat (k - 1) <= m < 8)%nat -> getz 0%R rc' (f * 8 + Z.of_nat m) = lower A 8 (8 - S m) (S m)) /\ (forall j, 0 <= j < f * 8 \/ f * 8 + 8 <= j -> getz 0%R rc' j = getz 0%R rc j))
    1 9 (stepdown R_ops f) (a, b, rc)) as ([[a' b'] rc'] & E & P).
  - lia.
  - split; [exact La|]. split; [exact Lb|]. split; [exact Lr|]. split; [|split; [intros m Hm; lia|auto]]. intros n Hn. apply H. lia.
  - intros k [[a1 b1] rc1] Hk (A1 & B1 & C1 & T & U & V). replace (k + 1 - 1) with k in T, U by lia.
    destruct (stepdown_R f (Z.to_nat k) a1 b1 rc1 (lower A 8 (Z.to_nat (9 - (k + 1)))) Hf ltac:(lia) A1 B1 C1 ltac:(intros n Hn; apply T; lia)) as (b2 & rc2 & E & B2 & C2 & T2 & U2). rewrite Z2Nat.id in * by lia.
    exists (b2, a1, rc2). split; [exact E|]. split; [exact B2|]. split; [exact A1|]. split; [exact C2|]. split; [|split].
    + intros n Hn. rewrite T2 by lia. replace (Z.to_nat (9 - k)) with (S (Z.to_nat (9 - (k + 1)))) by lia. cbn [lower]. do 2 f_equal. lia.
    + intros m Hm. rewrite U2 by lia. destruct (Z.eqb_spec (f * 8 + Z.of_nat m) (f * 8 + k - 1)) as [Em|Em].
      * replace (Z.to_nat k) with (S m) by lia. f_equal. lia.
      * apply U. lia.
    + intros j Hj. rewrite U2 by lia. destruct (Z.eqb_spec j (f * 8 + k - 1)); [lia|]. apply V. exact Hj.
  - destruct P as (_ & _ & C & _ & U & V). exists a', b', rc'. split; [exact E|]. split; [exact C|]. split; [|exact V]. intros k Hk. apply U. lia.
Qed.

(* ---- the whole analysis ---- *)
Definition damping (w : Z) (gain : R) : R := if (0 <? w) && Rlt_bool gain 2 then (1 - 3 / 10 * (2 - gain))%R else 1%R.
Lemma damping_range w gain : (3 / 2 < gain)%R -> (17 / 20 < damping w gain <= 1)%R.
Proof. intros H. unfold damping. destruct (0 <? w); cbn [andb]; [|lra]. case Rlt_bool_spec; intros; lra. Qed.
Lemma weigh_R (a : list R) (g : R) : len a = 9 ->
  exists a', for_range 0 9 (fun k a => x <- idx a k ;; put a k (fmul R_ops x (e_powi R_eops g k))) a = Ok a' /\ len a' = 9 /\ forall n, (n < 9)%nat -> fn a' n = (fn a n * g ^ n)%R.
Proof.
  intros La. match goal with |- context [for_range _ _ ?b _] => set (body := b) end.
  destruct (for_inv (fun k l => len l = 9 /\ forall n, (n < 9)%nat -> fn l n = (if (Z.of_nat n <? k)%Z then fn a n * g ^ n else fn a n)%R) 0 9 body a) as (a' & E & L & T).
  - lia.
  - split; [exact La|]. intros n Hn. destruct (Z.ltb_spec (Z.of_nat n) 0); [lia|reflexivity].
  - intros k l Hk (L & T). unfold body. rewrite (idx_get 0%R l) by lia. cbn [bind]. destruct (put_ok 0%R l k (fmul R_ops (getz 0%R l k) (e_powi R_eops g k)) ltac:(lia)) as (l' & -> & L' & T'). exists l'. split; [reflexivity|]. split; [lia|].
    intros n Hn. unfold fn at 1. rewrite T' by lia. destruct (Z.eqb_spec (Z.of_nat n) k) as [En|En].
    + subst k. destruct (Z.ltb_spec (Z.of_nat n) (Z.of_nat n + 1)); [|lia]. fold (fn l n). rewrite T by lia. destruct (Z.ltb_spec (Z.of_nat n) (Z.of_nat n)); [lia|]. cbn [R_ops R_eops fmul e_powi]. now rewrite <- pow_powerRZ.
    + fold (fn l n). rewrite T by lia. destruct (Z.ltb_spec (Z.of_nat n) k), (Z.ltb_spec (Z.of_nat n) (k + 1)); reflexivity || lia.
  - exists a'. split; [exact E|]. split; [exact L|]. intros n Hn. rewrite T by lia. destruct (Z.ltb_spec (Z.of_nat n) 9); [reflexivity|lia].
Qed.

Theorem analysis_R (r : list R) f nn w (rc_q : list R) : len r = 9 -> definite (fn r) 9 -> 0 <= f < 2 -> len rc_q = 16 ->
  exists a e rc, tns_analysis R_ops R_eops r f nn w rc_q = Ok rc /\ len rc = 16 /\ (forall j, 0 <= j < f * 8 \/ f * 8 + 8 <= j -> getz 0%R rc j = getz 0%R rc_q j) /\
    normal (fn r) 9 a e /\ (0 < e)%R /\
    if Rlt_bool (3 / 2) (fn r 0 / e) && negb nn then
      (forall k, (k < 8)%nat -> (Rabs (getz 0%R rc (f * 8 + Z.of_nat k)) < 1)%R) /\
      forall n, (n <= 8)%nat -> lattice (fun k => getz 0%R rc (f * 8 + Z.of_nat k)) 8 n = (a n * damping w (fn r 0 / e) ^ n)%R
    else forall k, (k < 8)%nat -> getz 0%R rc (f * 8 + Z.of_nat k) = 0%R.
Proof.
  intros Lr D Hf Lq. destruct (levinson_R r Lr D) as (a & b & e & E & La & Lb & N). pose proof (normal_pos (fn r) 9 (fn a) e ltac:(lia) D N) as P.
  unfold tns_analysis. rewrite (idx_get 0%R r) by lia. cbn [bind]. destruct (put (repeat 0%R 9) 0 1%R) as [a0| |] eqn:E0; cbn [bind] in E; try discriminate E. cbn [R_ops fz] in *. rewrite E0. cbn [bind]. rewrite E. cbn [bind]. cbv zeta.
  cbn [R_ops feq fdiv flt fsub fmul flit]. rewrite (Req_bool_false e 0) by lra.
  replace (R_lit (15, -1)) with (3 / 2)%R by (unfold R_lit; cbn [fst snd]; unfold powerRZ; change (Pos.to_nat 1) with 1%nat; cbn [pow]; lra).
  replace (R_lit (85, -2)) with (17 / 20)%R by (unfold R_lit; cbn [fst snd]; unfold powerRZ; change (Pos.to_nat 2) with 2%nat; cbn [pow]; lra).
  change (getz 0%R r 0) with (fn r 0). set (gain := (fn r 0 / e)%R). exists (fn a), e. fold gain.
  destruct (Rlt_bool (3 / 2) gain && negb nn) eqn:Eg.
  - assert (Hg : (3 / 2 < gain)%R) by (apply andb_prop in Eg; destruct Eg as [Eg _]; revert Eg; case Rlt_bool_spec; [auto|discriminate]).
    replace (if (0 <? w) && Rlt_bool gain 2 then (1 - (1 - 17 / 20) * (2 - gain) / (2 - 3 / 2))%R else 1%R) with (damping w gain) by (unfold damping; destruct ((0 <? w) && Rlt_bool gain 2); lra).
    pose proof (damping_range w gain Hg) as Dg. set (g := damping w gain) in *.
    destruct (weigh_R a g La) as (a2 & E2 & L2 & T2). cbn [R_ops fmul] in E2. rewrite E2. cbn [bind].
    set (A := fun n => (fn a n * g ^ n)%R). destruct (stepdowns_R f a2 b rc_q A Hf L2 Lb Lq ltac:(intros n Hn; apply T2; lia)) as (a3 & b3 & rc & E3 & L3 & T3 & U3). cbn [R_ops] in E3. rewrite E3. cbn [bind].
    exists rc. split; [reflexivity|]. split; [exact L3|]. split; [exact U3|]. split; [exact N|]. split; [exact P|].
    destruct (damped_predictor (fn r) 7 (fn a) e g D N ltac:(lra)) as (s & Ds & Ns). fold A in Ns. split.
    + intros k Hk. rewrite T3 by exact Hk. pose proof (lower_below_one s 8 A 1 Ds Ns (8 - S k)%nat ltac:(lia)) as B. replace (8 - (8 - S k))%nat with (S k) in B by lia. set (v := lower A 8 (8 - S k) (S k)) in *.
      apply Rsqr_lt_abs_0 in B || (rewrite <- Rabs_R1; apply Rsqr_lt_abs_0; unfold Rsqr; lra).
    + intros n Hn. rewrite (lattice_lower s 8 A 1 _ Ds Ns ltac:(intros k Hk; now apply T3) 8 ltac:(lia) n Hn). reflexivity.
  - destruct (sub_ok rc_q (f * 8) (f * 8 + 8) ltac:(lia) ltac:(lia)) as (x & -> & _). cbn [bind].
    destruct (for_put 0%R (f * 8) (f * 8 + 8) (fun k rc => put rc k 0%R) (fun _ => 0%R) rc_q ltac:(lia) ltac:(lia) ltac:(reflexivity)) as (rc & E2 & L2 & T2). exists rc. split; [exact E2|]. split; [lia|]. split; [|split; [exact N|split; [exact P|]]].
    + intros j Hj. rewrite T2 by lia. destruct (Z.leb_spec (f * 8) j), (Z.ltb_spec j (f * 8 + 8)); cbn [andb]; reflexivity || lia.
    + intros k Hk. rewrite T2 by lia. destruct (Z.leb_spec (f * 8) (f * 8 + Z.of_nat k)), (Z.ltb_spec (f * 8 + Z.of_nat k) (f * 8 + 8)); cbn [andb]; reflexivity || lia.
Qed.
