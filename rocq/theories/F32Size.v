(* Sizes of binary32 results: a value is finite and at most B. *)
From Coq Require Import ZArith List Bool Lia Reals Lra.
From Coquelicot Require Import Complex.
From Flocq Require Import Core BinarySingleNaN Relative.
From Verif Require Import Base Loops Scalar F32 F32Round F32Lines EncF32 RealOps F32Err DecSignal.
From Coq Require Import List.
Import ListNotations.
Local Open Scope R_scope.

Definition bd (B : R) (x : f32) : Prop := is_finite x = true /\ Rabs (B2R x) <= B.
(* room for one rounding *)
Definition grow (T C : R) : Prop := 10000002 / 10000000 * T + / 100000000000000000000 <= C /\ C <= big.
Lemma bd_weaken A B x : bd A x -> A <= B -> bd B x.
Proof. intros [F H] L. split; [exact F|lra]. Qed.
Lemma bd_nonneg A x : bd A x -> 0 <= A.
Proof. intros [_ H]. pose proof (Rabs_pos (B2R x)). lra. Qed.
Lemma tiny150 : bpow radix2 (-150) <= / 100000000000000000000.
Proof. apply Rle_trans with (bpow radix2 (-70)); [apply bpow_le; lia|]. cbn. lra. Qed.
Lemma rnd_size t T C : Rabs t <= T -> grow T C -> Rabs (rnd32 t) <= C /\ Rlt_bool (Rabs (rnd32 t)) (bpow radix2 128) = true.
Proof.
  intros H [G B]. pose proof (rnd_err t) as E. pose proof tiny150 as Y. assert (K : Rabs (rnd32 t) <= C).
  { replace (rnd32 t) with (rnd32 t - t + t) by ring. eapply Rle_trans; [apply Rabs_triang|]. pose proof (Rabs_pos t). unfold uu in E. lra. }
  split; [exact K|]. apply Rlt_bool_true. apply Rle_lt_trans with big; [lra|]. unfold big. apply bpow_lt. lia.
Qed.
Lemma bd_add A B C x y : bd A x -> bd B y -> grow (A + B) C -> bd C (Bplus mode_NE x y).
Proof.
  intros [FA HA] [FB HB] G. destruct (rnd_size (B2R x + B2R y) (A + B) C) as [K L]; [eapply Rle_trans; [apply Rabs_triang|]; lra|exact G|].
  pose proof (Bplus_correct 24 128 f32_prec f32_emax mode_NE x y FA FB) as BP. fold fexp32 in BP. change (round_mode mode_NE) with ZnearestE in BP. fold (rnd32 (B2R x + B2R y)) in BP. rewrite L in BP.
  destruct BP as (V & W & _). split; [exact W|]. now rewrite V.
Qed.
Lemma bd_sub A B C x y : bd A x -> bd B y -> grow (A + B) C -> bd C (Bminus mode_NE x y).
Proof.
  intros [FA HA] [FB HB] G. destruct (rnd_size (B2R x - B2R y) (A + B) C) as [K L]; [eapply Rle_trans; [apply Rabs_triang|]; rewrite Rabs_Ropp; lra|exact G|].
  pose proof (Bminus_correct 24 128 f32_prec f32_emax mode_NE x y FA FB) as BP. fold fexp32 in BP. change (round_mode mode_NE) with ZnearestE in BP. fold (rnd32 (B2R x - B2R y)) in BP. rewrite L in BP.
  destruct BP as (V & W & _). split; [exact W|]. now rewrite V.
Qed.
Lemma bd_mul A B C x y : bd A x -> bd B y -> grow (A * B) C -> bd C (Bmult mode_NE x y).
Proof.
  intros [FA HA] [FB HB] G. destruct (rnd_size (B2R x * B2R y) (A * B) C) as [K L]; [rewrite Rabs_mult; apply Rmult_le_compat; try apply Rabs_pos; assumption|exact G|].
  pose proof (Bmult_correct 24 128 f32_prec f32_emax mode_NE x y) as BP. fold fexp32 in BP. change (round_mode mode_NE) with ZnearestE in BP. fold (rnd32 (B2R x * B2R y)) in BP. rewrite L in BP.
  destruct BP as (V & W & _). split; [now rewrite W, FA, FB|]. now rewrite V.
Qed.
Lemma bd_div A m C x y : bd A x -> is_finite y = true -> 0 < m -> m <= Rabs (B2R y) -> grow (A / m) C -> bd C (Bdiv mode_NE x y).
Proof.
  intros [FA HA] FB M HB G. destruct (rnd_size (B2R x / B2R y) (A / m) C) as [K L]; [|exact G|].
  { unfold Rdiv. rewrite Rabs_mult, Rabs_inv. apply Rmult_le_compat; [apply Rabs_pos|left; apply Rinv_0_lt_compat; lra|exact HA|]. apply Rinv_le; lra. }
  pose proof (Bdiv_correct 24 128 f32_prec f32_emax mode_NE x y) as BP. assert (NZ : B2R y <> 0) by (intros Z; rewrite Z, Rabs_R0 in HB; lra). specialize (BP NZ). fold fexp32 in BP. change (round_mode mode_NE) with ZnearestE in BP. fold (rnd32 (B2R x / B2R y)) in BP. rewrite L in BP.
  destruct BP as (V & W & _). split; [now rewrite W|]. now rewrite V.
Qed.
Lemma bd_opp A x : bd A x -> bd A (Bopp x).
Proof. intros [F H]. split; [now rewrite is_finite_Bopp|]. now rewrite B2R_Bopp, Rabs_Ropp. Qed.
Lemma bd_fz (v : Z) B : (Z.abs v < 2 ^ 24)%Z -> IZR (Z.abs v) <= B -> bd B (f32_of_Z v).
Proof. intros H L. destruct (fz_val v H) as [V F]. split; [exact F|]. now rewrite V, <- abs_IZR. Qed.
Lemma bd_of_ap k S x r B : ap k S x r -> gp k * S <= B -> bd B x.
Proof. intros A L. pose proof (ap_val _ _ _ _ A). destruct A as [F _]. split; [exact F|lra]. Qed.
Lemma big_num n : (n <= 110)%Z -> bpow radix2 n <= big.
Proof. intros H. apply bpow_le. exact H. Qed.

(* ---- lists ---- *)
Lemma Forall_upd {A} (P : A -> Prop) (l : list A) : forall n v, Forall P l -> P v -> Forall P (upd l n v).
Proof. induction l as [|a l IH]; intros n v H V; [exact H|]. inversion_clear H. destruct n; cbn [upd]; constructor; auto. Qed.
Lemma Forall_put {A} (P : A -> Prop) (l l' : list A) i v : put l i v = Ok l' -> Forall P l -> P v -> Forall P l'.
Proof. unfold put. match goal with |- context [if ?b then _ else _] => destruct b end; [discriminate|]. intros E H V. injection E as <-. now apply Forall_upd. Qed.
Lemma Forall_idx {A} (P : A -> Prop) (l : list A) i v : idx l i = Ok v -> Forall P l -> P v.
Proof. unfold idx. destruct (i <? 0)%Z; [discriminate|]. destruct (nth_error l (Z.to_nat i)) eqn:E; [|discriminate]. intros X H. injection X as <-. rewrite Forall_forall in H. apply H. eapply nth_error_In, E. Qed.
Lemma Forall_skipn {A} (P : A -> Prop) (l : list A) n : Forall P l -> Forall P (skipn n l).
Proof. intros H. apply Forall_forall. intros v Hv. rewrite Forall_forall in H. apply H. rewrite <- (firstn_skipn n l). apply in_or_app. now right. Qed.
Lemma Forall_firstn {A} (P : A -> Prop) (l : list A) n : Forall P l -> Forall P (firstn n l).
Proof. intros H. apply Forall_forall. intros v Hv. rewrite Forall_forall in H. apply H. rewrite <- (firstn_skipn n l). apply in_or_app. now left. Qed.
Lemma Forall_sub {A} (P : A -> Prop) (l l' : list A) a b : sub l a b = Ok l' -> Forall P l -> Forall P l'.
Proof. unfold sub. match goal with |- context [if ?b then _ else _] => destruct b end; [discriminate|]. intros E H. injection E as <-. apply Forall_firstn, Forall_skipn, H. Qed.
Lemma Forall_blit {A} (P : A -> Prop) (l l' src : list A) a b : blit l a b src = Ok l' -> Forall P l -> Forall P src -> Forall P l'.
Proof. unfold blit. match goal with |- context [if ?b then _ else _] => destruct b end; [discriminate|]. intros E H S. injection E as <-. apply Forall_app. split; [now apply Forall_firstn|]. apply Forall_app. split; [exact S|now apply Forall_skipn]. Qed.
Lemma Forall_zipmod {A B} (P : A -> Prop) (Q : B -> Prop) (f : A -> B -> A) : forall l src, Forall P l -> Forall Q src -> (forall a b, P a -> Q b -> P (f a b)) -> Forall P (zipmod f l src).
Proof. induction l as [|a l IH]; intros [|b src] H S K; cbn [zipmod]; auto. inversion_clear H. inversion_clear S. constructor; auto. Qed.
Lemma zipmod_all {A B} (P : A -> Prop) (Q : B -> Prop) (f : A -> B -> A) : forall l src, (length l <= length src)%nat -> Forall Q src -> (forall a b, Q b -> P (f a b)) -> Forall P (zipmod f l src).
Proof. induction l as [|a l IH]; intros [|b src] L S K; cbn [zipmod length] in *; auto; [lia|]. inversion_clear S. constructor; [auto|apply IH; auto; lia]. Qed.
Lemma forn_keep {S} (P : S -> Prop) (body : Z -> S -> res S) : forall n i s s', forn n i body s = Ok s' -> P s -> (forall j s s', (i <= j < i + Z.of_nat n)%Z -> body j s = Ok s' -> P s -> P s') -> P s'.
Proof.
  induction n as [|n IH]; intros i s s' E H K; cbn [forn] in E; [injection E as <-; exact H|]. destruct (body i s) as [s1| |] eqn:B; cbn [bind] in E; try discriminate.
  apply (IH (i + 1)%Z s1 s' E); [eapply K; [|exact B|exact H]; lia|]. intros j a b Hj. apply K. lia.
Qed.
Lemma for_keep {S} (P : S -> Prop) (body : Z -> S -> res S) lo hi s s' : for_range lo hi body s = Ok s' -> P s -> (forall j s s', (lo <= j < hi)%Z -> body j s = Ok s' -> P s -> P s') -> P s'.
Proof. intros E H K. apply (forn_keep P body _ _ _ _ E H). intros j a b Hj. apply K. lia. Qed.
