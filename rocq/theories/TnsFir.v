(* The filter of the encoder's temporal noise shaping on the reals: the lattice of EncTns.tns_enc_line is the transversal filter whose
   polynomial belongs to its coefficients. *)
From Coq Require Import ZArith Lia List Bool Reals Lra.
From Coquelicot Require Import Coquelicot.
From Flocq Require Import Core.
From Verif Require Import Base Config Loops ParseBase Scalar EncScalar RealOps EncF32 DecSignal EncTns TnsOk TnsInverse DetectSpec Lpc TnsLpc.
From Coq Require Import List.
Import ListNotations.
Local Open Scope Z_scope.

(* ---- lattice and polynomial ---- *)
(* u 0 is the present line, u i the line i places below *)
Definition fwd (rc : nat -> R) (k : nat) (u : nat -> R) : R := sm (S k) (fun j => lattice rc k j * u j)%R.
Definition bwd (rc : nat -> R) (k : nat) (u : nat -> R) : R := sm (S k) (fun j => lattice rc k (k - j) * u j)%R.
Definition prev (u : nat -> R) : nat -> R := fun i => u (S i).
Lemma lattice_0 rc k : lattice rc k 0 = 1%R.
Proof. destruct k; reflexivity. Qed.
Lemma lattice_mid rc k j : (1 <= j <= k)%nat -> lattice rc (S k) j = (lattice rc k j + rc k * lattice rc k (S k - j))%R.
Proof. intros H. cbn [lattice]. unfold up. destruct (Nat.eqb_spec j 0); [lia|]. now rewrite (proj2 (Nat.ltb_lt j (S k))) by lia. Qed.
Lemma lattice_top rc k : lattice rc (S k) (S k) = rc k.
Proof. cbn [lattice]. unfold up. now rewrite Nat.ltb_irrefl, Nat.eqb_refl. Qed.
Lemma lattice_ext rc rc' p : (forall k, (k < p)%nat -> rc k = rc' k) -> forall j, lattice rc p j = lattice rc' p j.
Proof. induction p as [|p IH]; intros H j; cbn [lattice]; [reflexivity|]. unfold up. rewrite (H p) by lia. rewrite !IH by (intros; apply H; lia). reflexivity. Qed.
Lemma fwd_S rc k u : fwd rc (S k) u = (fwd rc k u + rc k * bwd rc k (prev u))%R.
Proof.
  unfold fwd, bwd, prev. change (sm (S (S k)) (fun j => lattice rc (S k) j * u j)%R) with (sm (S k) (fun j => lattice rc (S k) j * u j) + lattice rc (S k) (S k) * u (S k))%R.
  rewrite lattice_top, (sm_first k (fun j => lattice rc (S k) j * u j)%R), (sm_first k (fun j => lattice rc k j * u j)%R), !lattice_0.
  rewrite (sm_ext k (fun i => lattice rc (S k) (S i) * u (S i))%R (fun i => lattice rc k (S i) * u (S i) + rc k * (lattice rc k (k - i) * u (S i)))%R) by (intros i Hi; rewrite lattice_mid by lia; replace (S k - S i)%nat with (k - i)%nat by lia; ring).
  rewrite sm_plus, sm_scal. cbn [sm]. replace (k - k)%nat with 0%nat by lia. rewrite lattice_0. ring.
Qed.
Lemma bwd_S rc k u : bwd rc (S k) u = (rc k * fwd rc k u + bwd rc k (prev u))%R.
Proof.
  unfold fwd, bwd, prev. change (sm (S (S k)) (fun j => lattice rc (S k) (S k - j) * u j)%R) with (sm (S k) (fun j => lattice rc (S k) (S k - j) * u j) + lattice rc (S k) (S k - S k) * u (S k))%R.
  replace (S k - S k)%nat with 0%nat by lia. rewrite lattice_0, (sm_first k (fun j => lattice rc (S k) (S k - j) * u j)%R), (sm_first k (fun j => lattice rc k j * u j)%R), lattice_0. replace (S k - 0)%nat with (S k) by lia. rewrite lattice_top.
  rewrite (sm_ext k (fun i => lattice rc (S k) (S k - S i) * u (S i))%R (fun i => lattice rc k (k - i) * u (S i) + rc k * (lattice rc k (S i) * u (S i)))%R).
  - rewrite sm_plus, sm_scal. cbn [sm]. replace (k - k)%nat with 0%nat by lia. rewrite lattice_0. ring.
  - intros i Hi. rewrite lattice_mid by lia. replace (S k - S i)%nat with (k - i)%nat by lia. replace (S k - (k - i))%nat with (S i) by lia. ring.
Qed.
Lemma fwd_ext rc k u w : (forall j, (j <= k)%nat -> u j = w j) -> fwd rc k u = fwd rc k w.
Proof. intros H. apply sm_ext. intros j Hj. now rewrite H by lia. Qed.
Lemma bwd_ext rc k u w : (forall j, (j <= k)%nat -> u j = w j) -> bwd rc k u = bwd rc k w.
Proof. intros H. apply sm_ext. intros j Hj. now rewrite H by lia. Qed.
Lemma bwd_zero rc k : bwd rc k (fun _ => 0%R) = 0%R.
Proof. unfold bwd. rewrite (sm_ext _ _ (fun _ => 0%R)) by (intros; ring). apply sm_zero. Qed.

(* ---- one line ---- *)
(* the first `v` places of the state hold what the lines so far leave there *)
Definition holds (rc : nat -> R) (v : nat) (st : list R) (u : nat -> R) : Prop := forall k, (k < v)%nat -> (k < 8)%nat -> getz 0%R st (Z.of_nat k) = bwd rc k u.
Definition coef (rc : list R) (f : Z) (k : nat) : R := getz 0%R rc (f * 8 + Z.of_nat k).
Lemma line_R rc f (p v : nat) st u : (0 < p <= 8)%nat -> 0 <= f -> f * 8 + 8 <= len rc -> len st = 8 -> holds (coef rc f) v st (prev u) ->
  exists y st', tns_enc_line R_ops rc f (Z.of_nat p) (u 0%nat) st = Ok (y, st') /\ len st' = 8 /\ (forall k, (k < p)%nat -> (k < S v)%nat -> getz 0%R st' (Z.of_nat k) = bwd (coef rc f) k u) /\
    (forall k, (p <= k < 8)%nat -> getz 0%R st' (Z.of_nat k) = getz 0%R st (Z.of_nat k)) /\
    ((p <= v)%nat -> y = fwd (coef rc f) p u).
Proof.
  intros Hp Hf Lr Ls H. unfold tns_enc_line. destruct (sub_ok rc (f * 8) (f * 8 + (Z.of_nat p - 1))) as (w1 & -> & _ & _); [lia|lia|]. destruct (sub_ok st 0 (Z.of_nat p - 1)) as (w2 & -> & _ & _); [lia|lia|]. cbn [bind].
  destruct (for_inv (fun j '(t, save, s) => len s = 8 /\ (forall k, 0 <= k < j -> (Z.to_nat k < S v)%nat -> getz 0%R s k = bwd (coef rc f) (Z.to_nat k) u) /\ (forall k, j <= k < 8 -> getz 0%R s k = getz 0%R st k) /\
      ((Z.to_nat j <= v)%nat -> t = fwd (coef rc f) (Z.to_nat j) u /\ save = bwd (coef rc f) (Z.to_nat j) u)) 0 (Z.of_nat p - 1)
      (fun k '(t, save, s) => r <- idx rc (f * 8 + k) ;; s0 <- idx s k ;; s <- put s k save ;; Ok (fadd R_ops t (fmul R_ops r s0), fadd R_ops (fmul R_ops r t) s0, s)) (u 0%nat, u 0%nat, st)) as ([[t save] s] & E & L & A & B & C).
  - lia.
  - split; [exact Ls|]. split; [intros; lia|]. split; [reflexivity|]. intros _. change (Z.to_nat 0) with 0%nat. unfold fwd, bwd. cbn [sm lattice Nat.sub Nat.eqb]. split; ring.
  - intros j [[t save] s] Hj (L & A & B & C). rewrite (idx_get 0%R rc), (idx_get 0%R s) by lia. cbn [bind]. destruct (put_ok 0%R s j save ltac:(lia)) as (s' & -> & L' & T). cbn [bind]. eexists. split; [reflexivity|]. cbn [R_ops fadd fmul].
    split; [lia|]. split; [|split].
    + intros k Hk Hv. rewrite T by lia. destruct (Z.eqb_spec k j) as [->|]; [apply C; lia|apply A; lia].
    + intros k Hk. rewrite T by lia. destruct (Z.eqb_spec k j); [lia|]. apply B. lia.
    + intros Hv. destruct C as [C1 C2]; [lia|]. replace (Z.to_nat (j + 1)) with (S (Z.to_nat j)) by lia. rewrite fwd_S, bwd_S. rewrite (B j) by lia.
      assert (E : getz 0%R st j = bwd (coef rc f) (Z.to_nat j) (prev u)) by (rewrite <- (Z2Nat.id j) at 1 by lia; apply H; lia). assert (Ec : getz 0%R rc (f * 8 + j) = coef rc f (Z.to_nat j)) by (unfold coef; now rewrite Z2Nat.id by lia). rewrite E, C1, Ec. split; ring.
  - rewrite E. cbn [bind]. rewrite (idx_get 0%R rc), (idx_get 0%R s) by lia. cbn [bind]. destruct (put_ok 0%R s (Z.of_nat p - 1) save ltac:(lia)) as (s' & -> & L' & T). cbn [bind]. eexists. exists s'. split; [reflexivity|]. split; [lia|]. split; [|split].
    + intros k Hk Hv. rewrite T by lia. destruct (Z.eqb_spec (Z.of_nat k) (Z.of_nat p - 1)) as [Ek|].
      * destruct C as [_ C]; [lia|]. rewrite C. f_equal. lia.
      * rewrite A by lia. f_equal. lia.
    + intros k Hk. rewrite T by lia. destruct (Z.eqb_spec (Z.of_nat k) (Z.of_nat p - 1)); [lia|]. apply B. lia.
    + intros Hv. destruct C as [C1 C2]; [lia|]. cbn [R_ops fadd fmul]. replace p with (S (p - 1)) at 3 by lia. rewrite fwd_S. replace (Z.to_nat (Z.of_nat p - 1)) with (p - 1)%nat in C1 by lia. rewrite C1, (B (Z.of_nat p - 1)) by lia.
      assert (Es : getz 0%R st (Z.of_nat p - 1) = bwd (coef rc f) (p - 1) (prev u)) by (replace (Z.of_nat p - 1) with (Z.of_nat (p - 1)) by lia; apply H; lia). assert (Ec : getz 0%R rc (f * 8 + (Z.of_nat p - 1)) = coef rc f (p - 1)) by (unfold coef; f_equal; lia). rewrite Es, Ec. ring.
Qed.

(* ---- one band ---- *)
(* the line i places below n, as long as it is in the band *)
Definition below (x : list R) (a n : Z) (i : nat) : R := if a <=? n - Z.of_nat i then getz 0%R x (n - Z.of_nat i) else 0%R.
Definition filter_loop (rc : list R) (f : Z) (p : nat) : Z -> list R * list R -> res (list R * list R) :=
  fun n '(st, lines) => x <- idx lines n ;; '(x, st) <- tns_enc_line R_ops rc f (Z.of_nat p) x st ;; lines <- put lines n x ;; Ok (st, lines).
Lemma band_R rc f (p v : nat) a b st x : (0 < p <= 8)%nat -> 0 <= f -> f * 8 + 8 <= len rc -> len st = 8 -> 0 <= a <= b -> b <= len x -> holds (coef rc f) v st (fun _ => 0%R) ->
  exists st' y, for_range a b (filter_loop rc f p) (st, x) = Ok (st', y) /\ len st' = 8 /\ len y = len x /\
    (forall n, 0 <= n < a \/ b <= n < len x -> getz 0%R y n = getz 0%R x n) /\
    (forall n, a <= n < b -> Z.of_nat p <= Z.of_nat v + (n - a) -> getz 0%R y n = fwd (coef rc f) p (below x a n)).
Proof.
  intros Hp Hf Lr Ls Hab Hb H.
  destruct (for_inv (fun n '(s, y) => len s = 8 /\ len y = len x /\ (forall k, (k < p)%nat -> Z.of_nat k < Z.of_nat v + (n - a) -> getz 0%R s (Z.of_nat k) = bwd (coef rc f) k (below x a (n - 1))) /\
      (forall m, 0 <= m < a \/ n <= m < len x -> getz 0%R y m = getz 0%R x m) /\ (forall m, a <= m < n -> Z.of_nat p <= Z.of_nat v + (m - a) -> getz 0%R y m = fwd (coef rc f) p (below x a m))) a b (filter_loop rc f p) (st, x)) as ([s y] & E & A1 & A2 & A3 & A4 & A5).
  - lia.
  - split; [exact Ls|]. split; [reflexivity|]. split; [|split; [reflexivity|intros; lia]]. intros k Hk Hv. rewrite H by lia. apply bwd_ext. intros j Hj. unfold below. destruct (Z.leb_spec a (a - 1 - Z.of_nat j)); [lia|reflexivity].
  - intros n [s y] Hn (A1 & A2 & A3 & A4 & A5). unfold filter_loop. rewrite (idx_get 0%R y) by lia. cbn [bind]. rewrite A4 by lia.
    assert (E0 : getz 0%R x n = below x a n 0) by (unfold below; destruct (Z.leb_spec a (n - Z.of_nat 0)); [f_equal; lia|lia]). rewrite E0.
    destruct (line_R rc f p (Nat.min p (v + Z.to_nat (n - a))) s (below x a n)) as (y1 & s1 & E & L1 & B1 & _ & B2); try assumption.
    { intros k Hk _. rewrite A3 by lia. apply bwd_ext. intros j Hj. unfold prev, below. replace (n - 1 - Z.of_nat j) with (n - Z.of_nat (S j)) by lia. reflexivity. }
    rewrite E. cbn [bind]. destruct (put_ok 0%R y n y1 ltac:(lia)) as (y' & -> & Ly & T). cbn [bind]. eexists. split; [reflexivity|]. split; [exact L1|]. split; [lia|]. split; [|split].
    + intros k Hk Hv. rewrite B1 by lia. apply bwd_ext. intros j Hj. f_equal. lia.
    + intros m Hm. rewrite T by lia. destruct (Z.eqb_spec m n); [lia|]. apply A4. lia.
    + intros m Hm Hv. rewrite T by lia. destruct (Z.eqb_spec m n) as [->|]; [apply B2; lia|apply A5; lia].
  - exists s, y. split; [exact E|]. split; [exact A1|]. split; [exact A2|]. split; [exact A4|]. intros; apply A5; lia.
Qed.

(* ---- all bands ---- *)
(* what filter f makes of the lines from a to b; `fresh`: its state is zero at the start *)
Definition filtered (rc : list R) (orders : list Z) (x y : list R) (f a b : Z) (fresh : bool) : Prop :=
  forall n, a <= n < b -> (fresh = true \/ a + getz 0 orders f <= n) ->
    getz 0%R y n = sm (S (Z.to_nat (getz 0 orders f))) (fun j => lattice (coef rc f) (Z.to_nat (getz 0%Z orders f)) j * below x a n j)%R.
Lemma ordered_in : forall l lo n u v, ordered lo n l -> In (u, v) l -> lo <= u <= v /\ v <= n.
Proof.
  induction l as [|[p q] l IH]; intros lo n u v Ho Hin; [contradiction|]. cbn [ordered] in Ho. destruct Ho as [H1 H2]. pose proof (ordered_le _ _ _ H2). destruct Hin as [Hin|Hin]; [injection Hin; intros; subst; lia|].
  destruct (IH _ _ _ _ H2 Hin). lia.
Qed.
Lemma filters_R rc orders : forall params f st x lo fresh, 0 <= f -> 0 <= lo -> ordered lo (len x) (bands_of params) -> f + len params <= len orders -> (f + len params) * 8 <= len rc -> len st = 8 ->
  (forall i, 0 <= i < f + len params -> 0 <= getz 0 orders i <= 8) -> (fresh = true -> forall k, 0 <= k < 8 -> getz 0%R st k = 0%R) ->
  exists y, tns_enc_filters R_ops rc f params orders st x = Ok y /\ len y = len x /\
    (forall n, 0 <= n < len x -> (forall ab, In ab (bands_of params) -> n < fst ab \/ snd ab <= n) -> getz 0%R y n = getz 0%R x n) /\
    forall i, 0 <= i < len params -> let '(a, b) := getz (0, 0) (bands_of params) i in filtered rc orders x y (f + i) a b (fresh && (i =? 0)).
Proof.
  induction params as [|[[a b] subs] params IH]; intros f st x lo fresh Hf Hlo O Lo Lr Ls HO HF.
  - exists x. cbn [tns_enc_filters]. split; [reflexivity|]. split; [reflexivity|]. split; [reflexivity|]. unfold len. cbn [length]. intros; lia.
  - assert (LP : len ((a, b, subs) :: params) = len params + 1) by (unfold len; cbn [length]; lia). rewrite LP in *. assert (0 <= len params) by (unfold len; lia). cbn [bands_of map fst ordered] in O. destruct O as [O1 O2]. pose proof (ordered_le _ _ _ O2) as Ob.
    cbn [tns_enc_filters]. rewrite (idx_get 0 orders f) by lia. cbn [bind]. specialize (HO f ltac:(lia)) as Hp. set (p := Z.to_nat (getz 0 orders f)). assert (Ep : getz 0 orders f = Z.of_nat p) by lia.
    assert (B : exists st1 y1, (if getz 0 orders f =? 0 then Ok (st, x) else _ <- sub x a b ;; for_range a b (filter_loop rc f p) (st, x)) = Ok (st1, y1) /\ len st1 = 8 /\ len y1 = len x /\
       (forall n, 0 <= n < a \/ b <= n < len x -> getz 0%R y1 n = getz 0%R x n) /\ filtered rc orders x y1 f a b fresh).
    { destruct (Z.eqb_spec (getz 0 orders f) 0) as [E0|N0].
      - exists st, x. split; [reflexivity|]. split; [exact Ls|]. split; [reflexivity|]. split; [reflexivity|]. intros n Hn _. rewrite E0. change (Z.to_nat 0) with 0%nat. cbn [sm lattice Nat.eqb]. unfold below. destruct (Z.leb_spec a (n - Z.of_nat 0)); [|lia]. replace (n - Z.of_nat 0) with n by lia. ring.
      - destruct (sub_ok x a b) as (w & -> & _ & _); [lia|lia|]. cbn [bind].
        destruct (band_R rc f p (if fresh then 8%nat else 0%nat) a b st x) as (st1 & y1 & E & L1 & L2 & K1 & K2); [lia|lia|lia|lia|lia|lia| |].
        { destruct fresh; intros k Hk Hk8; [|lia]. rewrite HF by (reflexivity || lia). symmetry. apply bwd_zero. }
        exists st1, y1. split; [exact E|]. split; [exact L1|]. split; [exact L2|]. split; [exact K1|]. intros n Hn Hv. fold p. rewrite K2; [reflexivity|exact Hn|]. destruct fresh; [lia|]. destruct Hv as [Hv|Hv]; [discriminate|lia]. }
    destruct B as (st1 & y1 & E & L1 & L2 & K1 & K2). unfold filter_loop in E. rewrite <- Ep in E. rewrite E. cbn [bind].
    destruct (IH (f + 1) st1 y1 b false) as (y & Ey & Ly & Ky & Kf); [lia|lia|rewrite L2; exact O2|lia|lia|exact L1|intros i Hi; apply HO; lia|discriminate|].
    exists y. split; [exact Ey|]. split; [lia|].
    assert (Lower : forall n, 0 <= n < b -> n < len x -> getz 0%R y n = getz 0%R y1 n).
    { intros n Hn Hx. apply Ky; [lia|]. intros ab Hab. left. destruct ab as [u v]. pose proof (ordered_in _ _ _ _ _ O2 Hab). cbn [fst]. lia. }
    split.
    + intros n Hn Hout. pose proof (Hout (a, b) (or_introl eq_refl)) as H0. cbn [fst snd] in H0. rewrite Ky; [apply K1; lia|lia|]. intros ab Hab. apply Hout. right. exact Hab.
    + intros i Hi. destruct (Z.eqb_spec i 0) as [->|Ni].
      * cbn [bands_of map fst getz Z.to_nat nth]. rewrite Z.add_0_r, andb_true_r. intros n Hn Hv. rewrite Lower by lia. apply K2; assumption.
      * specialize (Kf (i - 1) ltac:(lia)). replace (getz (0, 0) (bands_of ((a, b, subs) :: params)) i) with (getz (0, 0) (bands_of params) (i - 1)) by (unfold getz; cbn [bands_of map fst]; replace (Z.to_nat i) with (S (Z.to_nat (i - 1))) by lia; reflexivity).
        destruct (getz (0, 0) (bands_of params) (i - 1)) as [u v] eqn:Euv. rewrite andb_false_r. cbn [andb] in Kf. replace (f + 1 + (i - 1)) with (f + i) in Kf by lia. intros n Hn Hv.
        assert (Hu : b <= u /\ v <= len x).
        { assert (Hin : In (u, v) (bands_of params)) by (rewrite <- Euv; unfold getz; apply nth_In; unfold bands_of; rewrite map_length; unfold len in *; lia).
          pose proof (ordered_in _ _ _ _ _ O2 Hin). lia. }
        rewrite Kf by (assumption || (destruct Hv as [Hv|Hv]; [discriminate|right; lia])). apply sm_ext. intros j Hj. f_equal. unfold below. destruct (Z.leb_spec u (n - Z.of_nat j)); [|reflexivity]. apply K1. lia.
Qed.
