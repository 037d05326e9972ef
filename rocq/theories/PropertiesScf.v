(* C58: the noise shaping analysis of the encoder in exact arithmetic: scale factors, the two stages of the vector quantiser, and where its pulse search goes astray. *)
From Coq Require Import ZArith Lia List Bool Reals Lra.
From Flocq Require Import Core.
From Verif Require Import Base Config SideInfo FrameSpec EncPayload Mpvq SnsIndex Buffers BufLemmas TablesSnsF Loops Scalar EncScalar RealOps EncF32 DecSignal DecTotal SnsProofs LineSpec DecState EncSns EncSnsOk SnsShape EncShape PropertiesShape PropertiesReal DctSpec Dct4Inv PitchSpec DetectSpec PitchRun ScfBound FrameProofs ScfSpec ScfRun.
From Coq Require Import List.
Import ListNotations.
Local Open Scope Z_scope.

(* ---- first least ---- *)
(* state: least value so far and where; inf is a sentinel *)
Definition least {A} (f : A -> R) (inf : R) (cs : list A) (m : R) (a : A) : Prop := (m = inf /\ forall k, In k cs -> (inf <= f k)%R) \/ (m = f a /\ (m < inf)%R /\ first_least f cs a).
Lemma first_least_snoc {A} (f : A -> R) cs d k : first_least f cs d -> ((f d <= f k)%R -> first_least f (cs ++ [k]) d) /\ ((f k < f d)%R -> first_least f (cs ++ [k]) k).
Proof.
  intros (l1 & l2 & -> & H1 & H2). split; intros H.
  - exists l1, (l2 ++ [k]). rewrite <- app_assoc. split; [reflexivity|]. split; [exact H1|]. intros j Hj. apply in_app_iff in Hj. destruct Hj as [Hj|[<-|[]]]; auto.
  - exists (l1 ++ d :: l2), []. split; [reflexivity|]. split; [|intros j []]. intros j Hj. apply in_app_iff in Hj. destruct Hj as [Hj|[<-|Hj]]; [specialize (H1 j Hj); lra|lra|specialize (H2 j Hj); lra].
Qed.
Lemma least_snoc {A} (f : A -> R) inf cs m a k : least f inf cs m a -> if Rlt_bool (f k) m then least f inf (cs ++ [k]) (f k) k else least f inf (cs ++ [k]) m a.
Proof.
  intros [[-> H]|(-> & H2 & H3)].
  - destruct (Rlt_bool_spec (f k) inf) as [P|P].
    + right. split; [reflexivity|]. split; [exact P|]. exists cs, []. split; [reflexivity|]. split; [|intros i []]. intros i Hi. specialize (H i Hi). lra.
    + left. split; [reflexivity|]. intros i Hi. apply in_app_iff in Hi. destruct Hi as [Hi|[<-|[]]]; [now apply H|exact P].
  - destruct (first_least_snoc f cs a k H3) as [S1 S2]. destruct (Rlt_bool_spec (f k) (f a)) as [P|P]; right; (split; [reflexivity|]); (split; [lra|]); auto.
Qed.
Lemma least_done {A} (f : A -> R) inf cs m a : least f inf cs m a -> (exists k, In k cs /\ (f k < inf)%R) -> first_least f cs a.
Proof. intros [[-> H]|(-> & H2 & H3)] (k & Hk & P); [specialize (H k Hk); lra|exact H3]. Qed.
Lemma first_least_ext {A} (f g : A -> R) cs d : (forall k, In k cs -> f k = g k) -> first_least f cs d -> first_least g cs d.
Proof.
  intros H (l1 & l2 & -> & H1 & H2). assert (Hd : f d = g d) by (apply H, in_app_iff; right; now left). exists l1, l2. split; [reflexivity|].
  split; intros k Hk; [assert (f k = g k) by (apply H, in_app_iff; now left); specialize (H1 k Hk)|assert (f k = g k) by (apply H, in_app_iff; right; now right); specialize (H2 k Hk)]; lra.
Qed.
Lemma first_least_in {A} (f : A -> R) cs d : first_least f cs d -> In d cs.
Proof. intros (l1 & l2 & -> & _). apply in_app_iff. right. now left. Qed.

(* ---- first stage ---- *)
Lemma nearest_least x (f : Z -> R) inf : forall codes i b m, 0 <= i -> (forall k, 0 <= k < len codes -> dist8 R_ops x (getz [] codes k) = f (i + k)) -> least f inf (zrange 0 i) m b ->
  least f inf (zrange 0 (i + len codes)) (snd (nearest R_ops x codes i (b, m))) (fst (nearest R_ops x codes i (b, m))).
Proof.
  induction codes as [|c codes IH]; intros i b m Hi H L; cbn [nearest fst snd].
  - unfold len. cbn [length]. now rewrite Z.add_0_r.
  - rewrite len_cons in *. pose proof (len_nonneg codes) as Hl. pose proof (H 0 ltac:(lia)) as H0. rewrite getz_cons_0, Z.add_0_r in H0. pose proof (least_snoc _ _ _ _ _ i L) as L'. rewrite <- zrange_S, <- H0 in L' by lia. replace (i + (len codes + 1)) with (i + 1 + len codes) by lia. cbv zeta. cbn [R_ops flt]. fold R_ops.
    assert (H' : forall k, 0 <= k < len codes -> dist8 R_ops x (getz [] codes k) = f (i + 1 + k)) by (intros k Hk; specialize (H (k + 1) ltac:(lia)); rewrite getz_cons_S in H by lia; rewrite H; f_equal; lia).
    destruct (Rlt_bool (dist8 R_ops x c) m); apply IH; auto; try lia.
Qed.
Lemma sqdist_ext n x x' y y' : (forall k, 0 <= k < Z.of_nat n -> x k = x' k /\ y k = y' k) -> sqdist n x y = sqdist n x' y'.
Proof. intros H. apply rsum_ext. intros k Hk. destruct (H k Hk) as [-> ->]. reflexivity. Qed.
Lemma stage1_real scf M : len scf = 16 -> (0 <= M <= IZR (2 ^ 80))%R -> bounded M scf ->
  exists lf hf st1 r1, sns_stage1 R_ops R_eops scf = Ok (lf, hf, st1, r1) /\ near_lf (getz 0%R scf) lf /\ near_hf (getz 0%R scf) hf /\ len r1 = 16 /\ len st1 = 16 /\ (forall n, 0 <= n < 16 -> getz 0%R st1 n = first_stage lf hf n) /\ (forall n, 0 <= n < 16 -> getz 0%R r1 n = (getz 0%R scf n - first_stage lf hf n)%R).
Proof.
  intros L HM B. destruct (stage1_R scf M L HM B) as (lf & hf & st1 & r1 & E & H1 & H2 & H3 & H4 & Ts & Tr & Br & Ml & Mh). exists lf, hf, st1, r1. split; [exact E|].
  assert (FS : forall n, 0 <= n < 16 -> getz 0%R st1 n = first_stage lf hf n) by (intros n Hn; rewrite Ts by exact Hn; reflexivity).
  cut (near_lf (getz 0%R scf) lf /\ near_hf (getz 0%R scf) hf); [intros [A1 A2]; split; [exact A1|]; split; [exact A2|]; split; [exact H4|]; split; [exact H3|]; split; [exact FS|]; intros n Hn; rewrite Tr, FS by exact Hn; reflexivity|].
  revert E. unfold sns_stage1. destruct (sub_ok scf 0 8 ltac:(lia) ltac:(lia)) as (lo & -> & Ll & Tl). destruct (sub_ok scf 8 16 ltac:(lia) ltac:(lia)) as (hi & -> & Lh & Th). cbn [bind]. cbv zeta.
  assert (G : forall x (X : Z -> R) t, (t = LFCB \/ t = HFCB) -> len x = 8 -> (forall k, 0 <= k < 8 -> getz 0%R x k = X k) -> (forall k, (Rabs (getz 0%R x k) <= M)%R) -> first_least (fun i => sqdist 8 X (cell t i)) (zrange 0 32) (fst (nearest R_ops x t 0 (0, e_inf R_eops)))).
  { intros x X t Ht Lx Tx Bx. assert (Lt : len t = 32) by (destruct Ht; subst t; reflexivity).
    assert (Dx : forall i, 0 <= i < 32 -> dist8 R_ops x (getz [] t i) = sqdist 8 X (cell t i)).
    { intros i Hi. rewrite dist8_R by (auto using book_len). change 8 with (Z.of_nat 8) at 1. rewrite Rsum_zrange. apply rsum_ext. intros k Hk. rewrite Tx by lia. reflexivity. }
    apply (least_done _ (e_inf R_eops) _ (snd (nearest R_ops x t 0 (0, e_inf R_eops)))).
    - pose proof (nearest_least x (fun i => sqdist 8 X (cell t i)) (e_inf R_eops) t 0 0 (e_inf R_eops) ltac:(lia)) as N. rewrite Lt in N. apply N; [intros k Hk; rewrite Dx by lia; reflexivity|left; split; [reflexivity|]; intros k Hk; apply in_zrange in Hk; lia].
    - exists 0. split; [apply in_zrange; lia|]. cbn [R_eops e_inf]. unfold sqdist. rewrite <- Rsum_zrange. eapply Rle_lt_trans; [apply Rle_abs|].
      eapply Rle_lt_trans; [apply (Rsum_bound _ ((M + 10) * (M + 10)))|].
      + intros k Hk. apply in_zrange in Hk. rewrite Rabs_mult. assert (E : (Rabs (X k - cell t 0 k) <= M + 10)%R).
        { rewrite <- Tx by lia. unfold Rminus. eapply Rle_trans; [apply Rabs_triang|]. rewrite Rabs_Ropp. pose proof (Bx k). assert (Rabs (cell t 0 k) <= 10)%R by (destruct Ht; subst t; [apply LF_small|apply HF_small]). lra. }
        pose proof (Rabs_pos (X k - cell t 0 k)%R). apply Rmult_le_compat; assumption.
      + change (length (zrange 0 (Z.of_nat 8))) with 8%nat. replace (INR 8) with 8%R by (cbn; lra). assert (P : (IZR (2 ^ 80) * IZR (2 ^ 80) * 64 < IZR (2 ^ 200))%R) by (rewrite <- !mult_IZR; apply IZR_lt; vm_compute; reflexivity).
        assert (10 <= IZR (2 ^ 80))%R by (apply IZR_le; vm_compute; congruence). nra. }
  assert (Bsub : forall x off, len x = 8 -> (forall d k, 0 <= k < 8 -> getz d x k = getz d scf (off + k)) -> forall k, (Rabs (getz 0%R x k) <= M)%R).
  { intros x off Lx Tx k. destruct (Z_lt_le_dec k 8) as [K|K]; [|unfold getz; rewrite nth_overflow by (unfold len in Lx; lia); rewrite Rabs_R0; lra]. destruct (Z_lt_le_dec k 0) as [K0|K0]; [|rewrite Tx by lia; apply B].
    replace (getz 0%R x k) with (getz 0%R x 0) by (unfold getz; f_equal; lia). rewrite Tx by lia. apply B. }
  assert (A1 : near_lf (getz 0%R scf) (fst (nearest R_ops lo LFCB 0 (0, e_inf R_eops)))) by (apply (G lo); [now left|lia|intros k Hk; rewrite Tl by lia; f_equal; lia|apply (Bsub lo 0); [lia|intros d k Hk; apply Tl; lia]]).
  assert (A2 : near_hf (getz 0%R scf) (fst (nearest R_ops hi HFCB 0 (0, e_inf R_eops)))) by (apply (G hi); [now right|lia|intros k Hk; rewrite Th by lia; f_equal; lia|apply (Bsub hi 8); [lia|intros d k Hk; apply Th; lia]]).
  pose proof (first_least_in _ _ _ A1) as I1. pose proof (first_least_in _ _ _ A2) as I2. apply in_zrange in I1, I2.
  set (i1 := fst (nearest R_ops lo LFCB 0 (0, e_inf R_eops))) in *. set (i2 := fst (nearest R_ops hi HFCB 0 (0, e_inf R_eops))) in *.
  rewrite (idx_get [] LFCB i1), (idx_get [] HFCB i2) by assumption. cbn [bind]. intros E. apply ParseBase.Ok_inj in E. apply pair_equal_spec in E. destruct E as [E _]. apply pair_equal_spec in E. destruct E as [E _]. apply pair_equal_spec in E. destruct E as [<- <-]. auto.
Qed.

(* ---- choice of shape and gain ---- *)
Lemma choose_gain_least t2 xq j (f : Z * Z -> R) inf : forall gains i cs a b mn g v, (forall k, 0 <= k < len gains -> d_mse R_ops t2 xq (R_lit (getz (0, 0) gains k)) = f (j, i + k)) -> least f inf cs mn (a, b) ->
  let '(a', b', mn', _, _) := choose_gain R_ops t2 xq j i gains (a, b, mn, g, v) in least f inf (cs ++ map (pair j) (zrange i (i + len gains))) mn' (a', b').
Proof.
  induction gains as [|g0 gains IH]; intros i cs a b mn g v H L; cbn [choose_gain].
  - unfold len. cbn [length]. rewrite zrange_nil by lia. now rewrite app_nil_r.
  - rewrite len_cons in *. pose proof (len_nonneg gains) as Hl. pose proof (H 0 ltac:(lia)) as H0. rewrite getz_cons_0, Z.add_0_r in H0. pose proof (least_snoc _ _ _ _ _ (j, i) L) as L'. rewrite <- H0 in L'. cbv zeta. cbn [R_ops flt flit]. fold R_ops.
    assert (H' : forall k, 0 <= k < len gains -> d_mse R_ops t2 xq (R_lit (getz (0, 0) gains k)) = f (j, i + 1 + k)) by (intros k Hk; specialize (H (k + 1) ltac:(lia)); rewrite getz_cons_S in H by lia; rewrite H; do 2 f_equal; lia).
    assert (Z : cs ++ map (pair j) (zrange i (i + (len gains + 1))) = (cs ++ [(j, i)]) ++ map (pair j) (zrange (i + 1) (i + 1 + len gains))).
    { rewrite <- app_assoc. f_equal. unfold SnsIndex.zrange. replace (Z.to_nat (i + (len gains + 1) - i)) with (S (Z.to_nat (len gains))) by lia. replace (Z.to_nat (i + 1 + len gains - (i + 1))) with (Z.to_nat (len gains)) by lia. cbn [seq map app]. rewrite Z.add_0_r. f_equal. rewrite <- seq_shift, !map_map. apply map_ext. intros; f_equal; lia. }
    rewrite Z. destruct (Rlt_bool (d_mse R_ops t2 xq (R_lit g0)) mn); apply IH; assumption.
Qed.
Lemma choose_least t2 x0 x1 x2 x3 (f : Z * Z -> R) : (forall j i, 0 <= j < 4 -> 0 <= i < g_maxind j -> d_mse R_ops t2 (pick j x0 x1 x2 x3) (gain_of j i) = f (j, i)) -> (f (0, 0)%Z < IZR (2 ^ 200))%R ->
  exists j i mn, choose R_ops R_eops t2 x0 x1 x2 x3 = Ok (j, i, mn, gain_of j i, pick j x0 x1 x2 x3) /\ 0 <= j < 4 /\ 0 <= i < g_maxind j /\ first_least f pairs (j, i).
Proof.
  intros H D0. destruct (choose_R t2 x0 x1 x2 x3) as (j & i & mn & E & Hj & Hi & _).
  { exists 0, 0. split; [lia|]. split; [unfold g_maxind; cbn [Z.eqb]; lia|]. rewrite H; [exact D0|lia|unfold g_maxind; cbn [Z.eqb]; lia]. }
  exists j, i, mn. split; [exact E|]. split; [exact Hj|]. split; [exact Hi|]. revert E. unfold choose.
  assert (G0 : sub SNS_VQ_REG_ADJ_GAINS 0 1 = Ok (firstn 1 SNS_VQ_REG_ADJ_GAINS)) by reflexivity. assert (G1 : sub SNS_VQ_REG_LF_ADJ_GAINS 0 3 = Ok (firstn 3 SNS_VQ_REG_LF_ADJ_GAINS)) by reflexivity.
  assert (G2 : sub SNS_VQ_NEAR_ADJ_GAINS 0 3 = Ok (firstn 3 SNS_VQ_NEAR_ADJ_GAINS)) by reflexivity. assert (G3 : sub SNS_VQ_FAR_ADJ_GAINS 0 7 = Ok (firstn 7 SNS_VQ_FAR_ADJ_GAINS)) by reflexivity.
  rewrite G0, G1, G2, G3. cbn [bind]. clear G0 G1 G2 G3. cbv zeta.
  assert (T : forall x l j, 0 <= j < 4 -> x = pick j x0 x1 x2 x3 -> len l = g_maxind j -> (forall k, 0 <= k < g_maxind j -> R_lit (getz (0, 0) l k) = gain_of j k) -> forall k, 0 <= k < len l -> d_mse R_ops t2 x (R_lit (getz (0, 0) l k)) = f (j, 0 + k)).
  { intros x l j' Hj' -> Ll Tl k Hk. rewrite Tl, H by lia. reflexivity. }
  pose proof (choose_gain_least t2 x0 0 f (IZR (2 ^ 200)) (firstn 1 SNS_VQ_REG_ADJ_GAINS) 0 [] 0 0 (e_inf R_eops) (fz R_ops 0) x0) as H0. destruct (choose_gain R_ops t2 x0 0 0 _ _) as [[[[a0 b0] m0] g0] v0].
  specialize (H0 ltac:(apply (T _ _ 0); [lia|reflexivity|reflexivity|intros k Hk; unfold g_maxind in Hk; cbn [Z.eqb Pos.eqb] in Hk; assert (k = 0) as -> by lia; reflexivity]) ltac:(left; split; [reflexivity|intros k []])).
  pose proof (fun cs => choose_gain_least t2 x1 1 f (IZR (2 ^ 200)) (firstn 3 SNS_VQ_REG_LF_ADJ_GAINS) 0 cs a0 b0 m0 g0 v0) as H1. destruct (choose_gain R_ops t2 x1 1 0 _ _) as [[[[a1 b1] m1] g1] v1].
  specialize (H1 _ ltac:(apply (T _ _ 1); [lia|reflexivity|reflexivity|intros k Hk; unfold g_maxind in Hk; cbn [Z.eqb Pos.eqb] in Hk; assert (C : k = 0 \/ k = 1 \/ k = 2) by lia; destruct C as [->|[->| ->]]; reflexivity]) H0).
  pose proof (fun cs => choose_gain_least t2 x2 2 f (IZR (2 ^ 200)) (firstn 3 SNS_VQ_NEAR_ADJ_GAINS) 0 cs a1 b1 m1 g1 v1) as H2. destruct (choose_gain R_ops t2 x2 2 0 _ _) as [[[[a2 b2] m2] g2] v2].
  specialize (H2 _ ltac:(apply (T _ _ 2); [lia|reflexivity|reflexivity|intros k Hk; unfold g_maxind in Hk; cbn [Z.eqb Pos.eqb] in Hk; assert (C : k = 0 \/ k = 1 \/ k = 2) by lia; destruct C as [->|[->| ->]]; reflexivity]) H1).
  pose proof (fun cs => choose_gain_least t2 x3 3 f (IZR (2 ^ 200)) (firstn 7 SNS_VQ_FAR_ADJ_GAINS) 0 cs a2 b2 m2 g2 v2) as H3. destruct (choose_gain R_ops t2 x3 3 0 _ _) as [[[[a3 b3] m3] g3] v3].
  specialize (H3 _ ltac:(apply (T _ _ 3); [lia|reflexivity|reflexivity|intros k Hk; unfold g_maxind in Hk; cbn [Z.eqb Pos.eqb] in Hk; assert (C : k = 0 \/ k = 1 \/ k = 2 \/ k = 3 \/ k = 4 \/ k = 5 \/ k = 6) by lia; destruct C as [->|[->|[->|[->|[->|[->| ->]]]]]]; reflexivity]) H2).
  intros E. apply ParseBase.Ok_inj in E. inversion E. subst. apply (least_done f (IZR (2 ^ 200)) pairs mn); [exact H3|]. exists (0, 0). split; [now left|exact D0].
Qed.

(* ---- both stages ---- *)
Lemma norm2_energy y : len y = 16 -> norm2 y = energy16 (getz 0 y).
Proof. intros L. unfold norm2, energy16. rewrite (map_getz 0), L. change 16 with (Z.of_nat 16) at 1. apply Rsum_zrange. Qed.
Lemma d_mse_real t2 y g : len t2 = 16 -> len y = 16 -> d_mse R_ops t2 (normalise R_ops y) g = sqdist 16 (getz 0%R t2) (fun n => (g * (IZR (getz 0%Z y n) / norm16 (getz 0%Z y)))%R).
Proof.
  intros Lt Ly. rewrite normalise_R by exact Ly. unfold d_mse. cbn [R_ops fadd fsub fmul fz]. cbv zeta.
  rewrite (SnsShape.fold_ext _ (fun a p => (a + (fun p => (snd p - g * fst p) * (snd p - g * fst p)) p)%R)) by (intros a [x t]; reflexivity). rewrite fold_sum, Rplus_0_l.
  rewrite (combine_sum2 (fun x t => (t - g * x) * (t - g * x))%R 0%R 0%R _ t2 16) by (rewrite ?len_map; assumption). change 16 with (Z.of_nat 16) at 1. rewrite Rsum_zrange. unfold sqdist. apply rsum_ext. intros k Hk.
  rewrite (getz_map _ 0%Z) by lia. unfold norm16. rewrite norm2_energy by exact Ly. reflexivity.
Qed.
Lemma sqdist_point t p y y' : (forall n, 0 <= n < 16 -> y n = y' n) -> sqdist 16 t (point p y) = sqdist 16 t (point p y').
Proof. intros H. apply sqdist_ext. intros k Hk. split; [reflexivity|]. unfold point, norm16, energy16. rewrite H by lia. do 3 f_equal. apply rsum_ext. intros i Hi. now rewrite H by lia. Qed.
(* the hypothesis on the rest after the first stage keeps the search for a pulse in set B from finding none *)
Definition set_b_left (x : Z -> R) : Prop := forall lf hf, near_lf x lf -> near_hf x hf -> exists n, 10 <= n < 16 /\ target x lf hf n <> 0%R.
Lemma near_ext x x' i : (forall n, 0 <= n < 16 -> x n = x' n) -> (near_lf x i -> near_lf x' i) /\ (near_hf x i -> near_hf x' i).
Proof. intros H. split; apply first_least_ext; intros k _; apply sqdist_ext; intros n Hn; rewrite H by lia; auto. Qed.
Lemma target_ext x x' lf hf n : (forall n, 0 <= n < 16 -> x n = x' n) -> target x lf hf n = target x' lf hf n.
Proof. intros H. apply rsum_ext. intros k Hk. now rewrite H by lia. Qed.
Theorem C58_quantiser scf x M : len scf = 16 -> (forall n, 0 <= n < 16 -> getz 0%R scf n = x n) -> (0 <= M <= IZR (2 ^ 80))%R -> (forall n, 0 <= n < 16 -> (Rabs (x n) <= M)%R) -> set_b_left x ->
  exists r s t y0 y1 y2 y3, sns_quant R_ops R_eops scf = Ok (r, s) /\
    near_lf x (sr_lf r) /\ near_hf x (sr_hf r) /\ (forall n, 0 <= n < 16 -> t n = target x (sr_lf r) (sr_hf r) n) /\
    candidates t y0 y1 y2 y3 /\ chosen t y0 y1 y2 y3 (sr_shape r, sr_gind r) /\
    (* the indices stand for the vector chosen, and this is what the decoder makes of them *)
    (exists q y, describes q r /\ sns_legal q /\ sns_vector q = Ok y /\ forall n, 0 <= n < 16 -> getz 0 y n = one_of y0 y1 y2 y3 (sr_shape r) n) /\
    len s = 16 /\ (forall n, 0 <= n < 16 -> getz 0%R s n = quantised (sr_lf r) (sr_hf r) (sr_shape r, sr_gind r) (one_of y0 y1 y2 y3 (sr_shape r)) n).
Proof.
  intros L Hx HM Bx Al.
  assert (B : bounded M scf).
  { intros k. destruct (Z_lt_le_dec k 16) as [K|K]; [|unfold getz; rewrite nth_overflow by (unfold len in L; lia); rewrite Rabs_R0; lra]. destruct (Z_lt_le_dec k 0) as [K0|K0]; [|rewrite Hx by lia; apply Bx; lia]. replace (getz 0%R scf k) with (getz 0%R scf 0) by (unfold getz; f_equal; lia). rewrite Hx by lia. apply Bx. lia. }
  unfold sns_quant. destruct (stage1_real scf M L HM B) as (lf & hf & st1 & r1 & E & N1 & N2 & H4 & H3 & Ts & Tr). apply (proj1 (near_ext _ x lf Hx)) in N1. apply (proj2 (near_ext _ x hf Hx)) in N2.
  destruct (stage1_R scf M L HM B) as (lf' & hf' & st1' & r1' & E' & H1 & H2 & _ & _ & _ & _ & Br & _ & _). rewrite E in E'. apply ParseBase.Ok_inj in E'. apply pair_equal_spec in E'. destruct E' as [E' <-]. apply pair_equal_spec in E'. destruct E' as [E' <-]. apply pair_equal_spec in E'. destruct E' as [<- <-].
  rewrite E. cbn [bind]. cbv zeta. clear E. pose proof (rotate_bound (M + 10) r1 H4 ltac:(lra) Br) as Bt. pose proof (rotate_len R_ops r1) as Lt.
  assert (Tt : forall n, 0 <= n < 16 -> getz 0%R (sns_rotate R_ops r1) n = target x lf hf n).
  { intros n Hn. rewrite rotate_R by assumption. change 16 with (Z.of_nat 16) at 1. rewrite Rsum_zrange. apply rsum_ext. intros k Hk. rewrite Tr, Hx by lia. reflexivity. }
  set (t2 := sns_rotate R_ops r1) in *. destruct (Al lf hf N1 N2) as (n0 & Hn0 & Nz). rewrite <- Tt in Nz by lia.
  destruct (candidates_real t2 n0 Lt Hn0 Nz) as (y0 & y1 & y2 & y3 & E & L0 & L1 & L2 & L3 & Ca).
  destruct (candidates_ok R_ops R_eops t2 Lt (R_regular _ n0 Lt Hn0 Nz) (R_set_b _ n0 Hn0 Nz)) as ([[[z0 z1] z2] z3] & E' & _ & PA & PB & _ & P1 & _ & P2 & _ & P3). rewrite E in E'. apply ParseBase.Ok_inj in E'. apply pair_equal_spec in E'. destruct E' as [E' <-]. apply pair_equal_spec in E'. destruct E' as [E' <-]. apply pair_equal_spec in E'. destruct E' as [<- <-].
  rewrite E. cbn [bind]. clear E. set (z1 := y1 ++ repeat 0 6).
  assert (F1 : firstn 10 z1 = y1 /\ skipn 10 z1 = repeat 0 6).
  { unfold z1. assert (HL : length y1 = 10%nat) by (unfold len in L1; lia). rewrite firstn_app, skipn_app, HL, Nat.sub_diag, <- HL, firstn_all, skipn_all. cbn [firstn skipn]. now rewrite app_nil_r. }
  assert (Lz : len z1 = 16) by (unfold z1; rewrite len_app, len_repeat; lia).
  assert (Tz : forall n, 0 <= n < 16 -> getz 0 z1 n = getz 0 y1 n).
  { intros n Hn. unfold z1. rewrite SnsShape.getz_app by lia. destruct (Z.ltb_spec n (len y1)); [reflexivity|]. unfold getz. rewrite nth_repeat. symmetry. apply nth_overflow. unfold len in *. lia. }
  assert (SV0 : shape_vec 0 y0) by (unfold shape_vec; auto 6).
  set (f := fun p => sqdist 16 (getz 0%R t2) (point p (one_of (getz 0 y0) (getz 0 y1) (getz 0 y2) (getz 0 y3) (fst p)))).
  destruct (choose_least t2 (normalise R_ops y0) (normalise R_ops y1) (normalise R_ops y2) (normalise R_ops y3) f) as (j & i & mn & E & Rj & Ri & FL).
  { intros j i Hj Hi. rewrite (normalise_short y1 L1). fold z1. unfold f. cbn [fst snd]. assert (C : j = 0 \/ j = 1 \/ j = 2 \/ j = 3) by lia. destruct C as [->|[->|[->| ->]]]; unfold pick, one_of; cbn [Z.eqb Pos.eqb]; rewrite d_mse_real by assumption; try reflexivity.
    rewrite (sqdist_point _ _ (getz 0 y1) (getz 0 z1)) by (intros n Hn; symmetry; now apply Tz). reflexivity. }
  { unfold f. cbn [fst]. change (one_of (getz 0 y0) (getz 0 y1) (getz 0 y2) (getz 0 y3) 0) with (getz 0 y0). pose proof (d_small (16 * (M + 10)) t2 y0 Lt) as DS. rewrite d_mse_real in DS by assumption. apply DS; [|exact Bt|exact L0|exact (norm2_pos 0 y0 SV0)].
    assert (P : (IZR (2 ^ 80) * 512 <= IZR (2 ^ 90))%R) by (rewrite <- mult_IZR; apply IZR_le; vm_compute; congruence). assert (10 <= IZR (2 ^ 80))%R by (apply IZR_le; vm_compute; congruence). lra. }
  rewrite E. cbn [bind]. clear E. pose proof (g_maxind_table j Rj) as G.
  set (y := if j =? 0 then y0 else if j =? 1 then z1 else if j =? 2 then y2 else y3).
  assert (SV : shape_vec j y).
  { unfold shape_vec, y. destruct (Z.eqb_spec j 0); [auto 6|]. destruct (Z.eqb_spec j 1); [|destruct (Z.eqb_spec j 2)].
    - destruct F1 as [F1 F2]. rewrite F1, F2. split; [exact Lz|auto 6].
    - auto 6.
    - split; [exact L3|]. right. right. right. split; [lia|exact P3]. }
  assert (Q0 : j = 0 -> y0 = y) by (intros ->; reflexivity). assert (Q1 : j = 1 -> y1 = firstn 10 y) by (intros ->; symmetry; exact (proj1 F1)).
  assert (Q2 : j = 2 -> y2 = y) by (intros ->; reflexivity). assert (Q3 : j = 3 -> y3 = y) by (intros ->; reflexivity).
  assert (X : pick j (normalise R_ops y0) (normalise R_ops y1) (normalise R_ops y2) (normalise R_ops y3) = normalise R_ops y).
  { unfold pick, y. rewrite (normalise_short y1 L1). fold z1. destruct (j =? 0), (j =? 1), (j =? 2); reflexivity. }
  assert (Ly : len y = 16) by exact (proj1 SV). rewrite X, normalise_R by exact Ly.
  assert (Ty : forall n, 0 <= n < 16 -> getz 0 y n = one_of (getz 0 y0) (getz 0 y1) (getz 0 y2) (getz 0 y3) j n).
  { intros n Hn. unfold y, one_of. destruct (j =? 0); [reflexivity|]. destruct (j =? 1); [now apply Tz|]. destruct (j =? 2); reflexivity. }
  destruct (joint_round_trip j i y0 y1 y2 y3 y lf hf ltac:(lia) H1 H2 SV Q0 Q1 Q2 Q3) as (ji & la & lb & q & EJ & A1 & A2 & A3 & A4 & A5 & A6 & A7 & A8).
  rewrite EJ. cbn [bind]. eexists. eexists. exists (getz 0%R t2), (getz 0 y0), (getz 0 y1), (getz 0 y2), (getz 0 y3). split; [reflexivity|]. cbn [sr_lf sr_hf sr_shape sr_gind].
  split; [exact N1|]. split; [exact N2|]. split; [exact Tt|]. split; [exact Ca|]. split; [exact FL|]. split.
  { exists q, y. split; [unfold describes; cbn [sr_lf sr_hf sr_shape sr_gind sr_lsa sr_joint]; repeat split; congruence|]. auto. }
  split; [rewrite len_map, len_combine, H3; reflexivity|].
  intros n Hn. rewrite (getz_map_in _ (0%R, [])) by (rewrite len_combine, H3; change (len D) with 16; lia). rewrite getz_combine by (rewrite H3; reflexivity). cbv beta iota. rewrite Ts by exact Hn.
  cbn [R_ops fadd fmul fz flit]. rewrite row_sum by (rewrite ?len_map; assumption). unfold quantised. f_equal. unfold rot. change 16 with (Z.of_nat 16) at 1. rewrite Rsum_zrange, <- rsum_mul. apply rsum_ext. intros k Hk. unfold point.
  rewrite (getz_map _ 0%Z) by lia. rewrite norm2_energy by exact Ly. assert (EN : energy16 (getz 0 y) = energy16 (one_of (getz 0 y0) (getz 0 y1) (getz 0 y2) (getz 0 y3) j)) by (apply rsum_ext; intros i' Hi'; now rewrite !Ty by lia).
  rewrite EN, Ty by lia. unfold norm16. change (shape_gain (j, i)) with (gain_of j i). change (cell D n k) with (entry D n k). cbv beta. ring.
Qed.

(* ---- scale factors ---- *)
Theorem C58_scale_factors c eb attack : legal_config c -> nb c = 64 -> len eb = 64 ->
  exists scf, sns_scale_factors R_ops R_eops c eb attack = Ok scf /\ len scf = 16 /\
    (forall n, 0 <= n < 16 -> getz 0%R scf n = scale_factors c attack (getz 0%R eb) n) /\ rsum 16 (getz 0%R scf) = 0%R.
Proof.
  intros Lc Nb Le. destruct (scale_factors_real c eb attack Lc Nb Le) as (scf & E & L & T). exists scf. split; [exact E|]. split; [exact L|]. split; [exact T|].
  etransitivity; [|exact (scale_factors_sum c attack (getz 0%R eb))]. apply rsum_ext. intros n Hn. apply T. lia.
Qed.
(* both steps on the energies of a frame *)
Theorem C58_noise_shaping c eb attack : legal_config c -> nb c = 64 -> len eb = 64 -> Forall (fun v => 0 <= v)%R eb ->
  let x := scale_factors c attack (getz 0%R eb) in set_b_left x ->
  exists scf r s t y0 y1 y2 y3, sns_scale_factors R_ops R_eops c eb attack = Ok scf /\ sns_quant R_ops R_eops scf = Ok (r, s) /\
    near_lf x (sr_lf r) /\ near_hf x (sr_hf r) /\ (forall n, 0 <= n < 16 -> t n = target x (sr_lf r) (sr_hf r) n) /\
    candidates t y0 y1 y2 y3 /\ chosen t y0 y1 y2 y3 (sr_shape r, sr_gind r) /\
    len s = 16 /\ (forall n, 0 <= n < 16 -> getz 0%R s n = quantised (sr_lf r) (sr_hf r) (sr_shape r, sr_gind r) (one_of y0 y1 y2 y3 (sr_shape r)) n).
Proof.
  intros Lc Nb Le He x Al. destruct (scale_factors_real c eb attack Lc Nb Le) as (scf & E & L & T). destruct (scale_factors_bounded c eb attack Lc Nb Le He) as (scf' & E' & _ & W). rewrite E in E'. apply ParseBase.Ok_inj in E'. subst scf'.
  destruct (C58_quantiser scf x (17 / 2) L T) as (r & s & t & y0 & y1 & y2 & y3 & Q & N1 & N2 & Tt & Ca & Ch & _ & Ls & Ts); [split; [lra|assert (9 <= IZR (2 ^ 80))%R by (apply IZR_le; vm_compute; congruence); lra]| |exact Al|].
  - intros n Hn. rewrite <- T by exact Hn. apply (within_bounded (17 / 2)); [lra|exact W].
  - exists scf, r, s, t, y0, y1, y2, y3. auto 12.
Qed.

(* ---- shape 3 takes the best position for each pulse ---- *)
Lemma scan_best (f : Z -> R) bt cs : forall b l r, scan bt b l r -> (forall b k, In b (cs ++ l) -> In k l -> bt b k <-> (f b < f k)%R) -> first_best f cs b -> first_best f (cs ++ l) r.
Proof.
  intros b l r S. revert cs. induction S as [b|b k l r Hb S IH|b k l r Hb S IH]; intros cs H B.
  - now rewrite app_nil_r.
  - assert (X : cs ++ k :: l = (cs ++ [k]) ++ l) by (rewrite <- app_assoc; reflexivity). rewrite X in *. apply IH.
    + intros b' k' H1 H2. apply H; [exact H1|now right].
    + apply (proj2 (first_best_snoc f cs b k B)). apply H; [apply in_app_iff; left; apply in_app_iff; left; exact (first_best_in _ _ _ B)|now left|exact Hb].
  - assert (X : cs ++ k :: l = (cs ++ [k]) ++ l) by (rewrite <- app_assoc; reflexivity). rewrite X in *. apply IH.
    + intros b' k' H1 H2. apply H; [exact H1|now right].
    + apply (proj1 (first_best_snoc f cs b k B)). destruct (Rle_lt_dec (f k) (f b)); [assumption|]. exfalso. apply Hb. apply H; [apply in_app_iff; left; apply in_app_iff; left; exact (first_best_in _ _ _ B)|now left|assumption].
Qed.
(* the comparison of products is one of quotients when the energies are positive *)
Lemma scan_quotient a c e y r : (forall k, 0 <= k < 16 -> (0 < e + 2 * IZR (y k) + 1)%R) -> scan (better a c e y) 0 (zrange 1 16) r ->
  first_best (fun k => ((c + a k) * (c + a k) / (e + 2 * IZR (y k) + 1))%R) (zrange 0 16) r.
Proof.
  intros P S. rewrite zrange_0 by lia. change (0 :: zrange 1 16) with ([0] ++ zrange 1 16). apply (scan_best _ (better a c e y) [0] 0).
  - exact S.
  - intros b k Hb Hk. apply in_zrange in Hk. assert (Hb' : 0 <= b < 16) by (apply in_app_iff in Hb; destruct Hb as [[<-|[]]|Hb]; [lia|apply in_zrange in Hb; lia]).
    pose proof (P b Hb') as Pb. pose proof (P k ltac:(lia)) as Pk. unfold better. set (u := (e + 2 * IZR (y b) + 1)%R) in *. set (v := (e + 2 * IZR (y k) + 1)%R) in *. set (m := ((c + a b) * (c + a b))%R). set (n := ((c + a k) * (c + a k))%R).
    assert (E1 : (m / u * (u * v) = m * v)%R) by (field; lra). assert (E2 : (n / v * (u * v) = n * u)%R) by (field; lra). assert (0 < u * v)%R by now apply Rmult_lt_0_compat.
    split; intros H0; [apply (Rmult_lt_reg_r (u * v)); [assumption|]; rewrite E1, E2; exact H0|]. rewrite <- E1, <- E2. now apply Rmult_lt_compat_r.
  - exists [], []. split; [reflexivity|]. split; intros k [].
Qed.
Lemma corr_more a y b : 0 <= b < 16 -> corr16 a (one_more y b) = (corr16 a y + a b)%R.
Proof.
  intros Hb. unfold corr16. assert (E : rsum 16 (fun k => if k =? b then a k else 0%R) = a b) by (rewrite (rsum_single 16 _ b); [now rewrite Z.eqb_refl|lia|intros t _ Ht; destruct (Z.eqb_spec t b); [contradiction|reflexivity]]).
  rewrite <- E, <- rsum_add. apply rsum_ext. intros k _. unfold one_more. destruct (Z.eqb_spec k b); [rewrite plus_IZR|]; lra.
Qed.
Lemma energy_more y b : 0 <= b < 16 -> energy16 (one_more y b) = (energy16 y + 2 * IZR (y b) + 1)%R.
Proof.
  intros Hb. unfold energy16. rewrite Rplus_assoc. assert (E : rsum 16 (fun k => if k =? b then (2 * IZR (y k) + 1)%R else 0%R) = (2 * IZR (y b) + 1)%R) by (rewrite (rsum_single 16 _ b); [now rewrite Z.eqb_refl|lia|intros t _ Ht; destruct (Z.eqb_spec t b); [contradiction|reflexivity]]).
  rewrite <- E, <- rsum_add. apply rsum_ext. intros k _. unfold one_more. destruct (Z.eqb_spec k b); [rewrite plus_IZR|]; lra.
Qed.
Lemma energy_nonneg y : (0 <= energy16 y)%R.
Proof. unfold energy16. replace 0%R with (rsum 16 (fun _ => 0%R)) by (apply rsum_zero; reflexivity). apply rsum_le. intros t _. apply Rle_0_sqr. Qed.
Lemma grown_greedy a : forall m y y' l l', (forall k, 0 <= k < 16 -> 0 <= y k) -> grown a 16 m y (corr16 a y) (energy16 y) l y' l' -> greedy a m y y' /\ forall k, 0 <= k < 16 -> 0 <= y' k.
Proof.
  induction m as [|m IH]; intros y y' l l' Hy; cbn [grown greedy].
  - intros [H _]. split; [exact H|]. intros k Hk. rewrite H by exact Hk. now apply Hy.
  - intros (b & S & G). pose proof (scan_range _ _ _ S ltac:(lia)) as Hb.
    assert (N : forall k, 0 <= k < 16 -> 0 <= one_more y b k) by (intros k Hk; unfold one_more; pose proof (Hy k Hk); destruct (k =? b); lia).
    rewrite <- corr_more, <- energy_more in G by exact Hb. destruct (IH _ _ _ _ N G) as [I1 I2]. split; [|exact I2]. exists b. split; [|exact I1].
    apply scan_quotient in S; [|intros k Hk; pose proof (energy_nonneg y); pose proof (IZR_le _ _ (Hy k Hk)); lra].
    refine (first_best_ext _ _ _ _ _ S). intros k Hk. apply in_zrange in Hk. unfold merit. rewrite corr_more, energy_more by exact Hk. reflexivity.
Qed.
Lemma abs_sgn v k : 0 <= k -> Z.abs (sgn_of v k) = k.
Proof. unfold sgn_of. destruct (Rlt_dec v 0); lia. Qed.
Lemma greedy_ext a m : forall y y' y'', (forall k, 0 <= k < 16 -> y'' k = y' k) -> greedy a m y y' -> greedy a m y y''.
Proof. induction m as [|m IH]; intros y y' y'' H; cbn [greedy]; [intros G k Hk; rewrite H by exact Hk; now apply G|intros (b & B & G); exists b; split; [exact B|now apply (IH _ y')]]. Qed.
(* six pulses: those of the projection onto the pyramid, then each of the others where the similarity with the target grows most *)
Theorem C58_shape3_greedy t y0 y1 y2 y3 : candidates t y0 y1 y2 y3 -> 
  let a k := Rabs (t k) in exists p, (forall k, 0 <= k < 16 -> p k = Zfloor (5 * a k / rsum 16 a)) /\ greedy a (Z.to_nat (6 - zsum (map p (zrange 0 16)))) p (fun k => Z.abs (y3 k)).
Proof.
  intros (p & m3 & m2 & m1 & l3 & l2 & l1 & b & Hp & G3 & _ & _ & _ & H3 & _) a. exists p. split; [exact Hp|].
  assert (N : forall k, 0 <= k < 16 -> 0 <= p k).
  { intros k Hk. rewrite Hp by exact Hk. apply Zfloor_lub. assert (S : (0 <= rsum 16 a)%R) by (replace 0%R with (rsum 16 (fun _ => 0%R)) by (apply rsum_zero; reflexivity); apply rsum_le; intros i _; apply Rabs_pos). apply Rmult_le_pos; [apply Rmult_le_pos; [lra|apply Rabs_pos]|].
    destruct (Req_dec (rsum 16 a) 0) as [Z|Z]; [|left; apply Rinv_0_lt_compat; fold a; lra]. fold a. rewrite Z. rewrite Rinv_0. lra. }
  fold a in G3. destruct (grown_greedy a _ _ _ _ _ N G3) as [G NN]. refine (greedy_ext _ _ _ _ _ _ G). intros k Hk. rewrite (proj1 (H3 k Hk)). now apply abs_sgn, NN.
Qed.

(* ---- shape 2 does not: its search starts from the correlation and energy of the last position tried for shape 3 ---- *)
Lemma first_best_at f d : 0 <= d < 16 -> (forall k, 0 <= k < d -> (f k < f d)%R) -> (forall k, d < k < 16 -> (f k <= f d)%R) -> first_best f (zrange 0 16) d.
Proof.
  intros Hd H1 H2. exists (zrange 0 d), (zrange (d + 1) 16). split; [|split; intros k Hk; apply in_zrange in Hk; [apply H1|apply H2]; lia].
  apply (list_eq_getz 0).
  - rewrite len_app, len_cons. unfold len, SnsIndex.zrange. rewrite !map_length, !seq_length. lia.
  - intros j Hj. assert (G : forall a b i, 0 <= i < b - a -> getz 0 (zrange a b) i = a + i) by (intros a b i Hi; unfold getz, SnsIndex.zrange; rewrite (nth_indep _ 0 ((fun i => a + Z.of_nat i) O)) by (rewrite map_length, seq_length; lia); rewrite (map_nth (fun i => a + Z.of_nat i)), seq_nth by lia; lia).
    unfold len, SnsIndex.zrange in Hj. rewrite map_length, seq_length in Hj. rewrite G by lia. rewrite SnsShape.getz_app by lia. assert (L : len (zrange 0 d) = d) by (apply zrange_len; lia). rewrite L. destruct (Z.ltb_spec j d); [rewrite G by lia; reflexivity|].
    destruct (Z.eq_dec j d) as [->|N]; [rewrite Z.sub_diag, getz_cons_0; lia|]. replace (j - d) with (j - d - 1 + 1) by lia. rewrite getz_cons_S, G by lia. lia.
Qed.
Definition spike_at (d : Z) (v k : Z) : Z := if k =? d then v else 0.
Definition spike_target : list R := map (fun k => IZR (spike_at 14 1 k)) (zrange 0 16).
Lemma sum_spike d (g : Z -> R) : 0 <= d < 16 -> (forall k, 0 <= k < 16 -> k <> d -> g k = 0%R) -> rsum 16 g = g d.
Proof. intros Hd H. apply rsum_single; [lia|]. intros t Ht. apply H. lia. Qed.
Theorem C58_shape2_greedy_refuted : exists t2 y0 y1 y2 y3 y', len t2 = 16 /\ sns_candidates R_ops R_eops t2 = Ok (y0, y1, y2, y3) /\
  let a k := Rabs (getz 0%R t2 k) in let size y k := Z.abs (getz 0 y k) in
  greedy a 2 (size y3) y' /\ zsum (map y' (zrange 0 16)) = 8 /\ zsum (map (size y2) (zrange 0 16)) = 8 /\ (merit a (size y2) < merit a y')%R.
Proof.
  assert (T : forall k, 0 <= k < 16 -> getz 0%R spike_target k = IZR (spike_at 14 1 k)) by (intros k Hk; unfold spike_target; now rewrite map_range_get).
  destruct (candidates_real spike_target 14 eq_refl ltac:(lia)) as (y0 & y1 & y2 & y3 & E & _ & _ & _ & _ & C); [rewrite T by lia; change (spike_at 14 1 14) with 1; lra|].
  exists spike_target, y0, y1, y2, y3, (spike_at 14 8). split; [reflexivity|]. split; [exact E|]. clear E. cbv zeta. set (a := fun k => Rabs (getz 0%R spike_target k)).
  assert (Ta : forall k, 0 <= k < 16 -> a k = IZR (spike_at 14 1 k)) by (intros k Hk; unfold a; rewrite T by exact Hk; rewrite <- abs_IZR; unfold spike_at; destruct (k =? 14); reflexivity).
  destruct C as (p & m3 & m2 & m1 & l3 & l2 & l1 & b & Hp & G3 & G2 & _ & _ & Hy & _). fold a in G3, G2. change (forall k, 0 <= k < 16 -> p k = Zfloor (5 * a k / rsum 16 a)) in Hp.
  assert (Sa : rsum 16 a = 1%R) by (rewrite (sum_spike 14); [rewrite Ta by lia; reflexivity|lia|intros k Hk N; rewrite Ta by exact Hk; unfold spike_at; destruct (Z.eqb_spec k 14); [contradiction|reflexivity]]).
  assert (P : forall k, 0 <= k < 16 -> p k = spike_at 14 5 k).
  { intros k Hk. rewrite Hp, Sa, Ta by exact Hk. unfold spike_at. destruct (k =? 14); [replace (5 * 1 / 1)%R with (IZR 5) by lra|replace (5 * 0 / 1)%R with (IZR 0) by lra]; apply Zfloor_IZR. }
  assert (Zp : zsum (map p (zrange 0 16)) = 5) by (rewrite (map_zrange_ext p (spike_at 14 5)) by exact P; reflexivity). rewrite Zp in G3. clear Zp. change (Z.to_nat (6 - 5)) with 1%nat in G3.
  assert (Cp : corr16 a p = 5%R). { unfold corr16. rewrite (sum_spike 14); [rewrite P, Ta by lia; change (spike_at 14 5 14) with 5; change (spike_at 14 1 14) with 1; lra|lia|intros k Hk N; rewrite Ta by exact Hk; unfold spike_at; destruct (Z.eqb_spec k 14); [contradiction|lra]]. }
  assert (Ep : energy16 p = 25%R). { unfold energy16. rewrite (sum_spike 14); [rewrite P by lia; change (spike_at 14 5 14) with 5; lra|lia|intros k Hk N; rewrite P by exact Hk; unfold spike_at; destruct (Z.eqb_spec k 14); [contradiction|lra]]. }
  rewrite Cp, Ep in G3. clear Cp Ep. cbn [grown] in G3, G2. destruct G3 as (b3 & S3 & M3 & L3).
  assert (b3 = 14) as ->.
  { apply scan_quotient in S3; [|intros k Hk; rewrite P by exact Hk; unfold spike_at; destruct (k =? 14); lra]. refine (first_best_unique _ _ _ _ S3 _). apply first_best_at; [lia| |]; intros k Hk; cbv beta; rewrite !P, !Ta by lia; unfold spike_at; change (14 =? 14) with true; destruct (Z.eqb_spec k 14); try lia; cbv iota; lra. }
  rewrite Ta, P in L3 by lia. change (spike_at 14 1 (16 - 1)) with 0 in L3. change (spike_at 14 5 (16 - 1)) with 0 in L3. subst l3. cbn [fst snd] in G2.
  assert (Y3 : forall k, 0 <= k < 16 -> m3 k = spike_at 14 6 k) by (intros k Hk; rewrite M3 by exact Hk; unfold one_more; rewrite P by exact Hk; unfold spike_at; destruct (k =? 14); reflexivity).
  destruct G2 as (b1 & S1 & b2 & S2 & M2 & _).
  assert (b1 = 0) as ->.
  { apply scan_quotient in S1; [|intros k Hk; rewrite Y3 by exact Hk; unfold spike_at; destruct (k =? 14); lra]. refine (first_best_unique _ _ _ _ S1 _). apply first_best_at; [lia|intros k Hk; lia|]. intros k Hk; cbv beta; rewrite !Y3, !Ta by lia; unfold spike_at; change (0 =? 14) with false; destruct (Z.eqb_spec k 14); cbv iota; lra. }
  assert (One : forall k, 0 <= k < 16 -> one_more m3 0 k = if k =? 0 then 1 else spike_at 14 6 k) by (intros k Hk; unfold one_more; rewrite Y3 by exact Hk; unfold spike_at; destruct (Z.eqb_spec k 0); [subst|]; reflexivity).
  rewrite Ta, Y3 in S2 by lia. change (spike_at 14 1 0) with 0 in S2. change (spike_at 14 6 0) with 0 in S2.
  assert (b2 = 14) as ->.
  { apply scan_quotient in S2; [|intros k Hk; rewrite One by exact Hk; unfold spike_at; destruct (k =? 0), (k =? 14); lra]. refine (first_best_unique _ _ _ _ S2 _). apply first_best_at; [lia| |]; intros k Hk; cbv beta; rewrite !One, !Ta by lia; unfold spike_at; change (14 =? 14) with true; change (14 =? 0) with false; destruct (Z.eqb_spec k 0), (Z.eqb_spec k 14); try lia; cbv iota; lra. }
  assert (Y2 : forall k, 0 <= k < 16 -> m2 k = if k =? 0 then 1 else spike_at 14 7 k) by (intros k Hk; rewrite M2 by exact Hk; unfold one_more at 1; rewrite !One by lia; unfold spike_at; destruct (Z.eqb_spec k 14), (Z.eqb_spec k 0); subst; try lia; reflexivity).
  assert (A3 : forall k, 0 <= k < 16 -> Z.abs (getz 0 y3 k) = spike_at 14 6 k) by (intros k Hk; rewrite (proj1 (Hy k Hk)), abs_sgn; rewrite Y3 by exact Hk; [reflexivity|unfold spike_at; destruct (k =? 14); lia]).
  assert (A2 : forall k, 0 <= k < 16 -> Z.abs (getz 0 y2 k) = if k =? 0 then 1 else spike_at 14 7 k) by (intros k Hk; rewrite (proj2 (Hy k Hk)), abs_sgn; rewrite Y2 by exact Hk; [reflexivity|unfold spike_at; destruct (k =? 0), (k =? 14); lia]).
  assert (CE : forall (y : Z -> Z) v, (forall k, 0 <= k < 16 -> y k = spike_at 14 v k) -> corr16 a y = IZR v /\ energy16 y = (IZR v * IZR v)%R).
  { intros y v H. unfold corr16, energy16. split; (rewrite (sum_spike 14); [rewrite ?Ta, H by lia; change (spike_at 14 1 14) with 1; change (spike_at 14 v 14) with v; lra|lia|intros k Hk N; rewrite H by exact Hk; unfold spike_at; destruct (Z.eqb_spec k 14); [contradiction|lra]]). }
  assert (Step : forall (y : Z -> Z) v, 0 < v -> (forall k, 0 <= k < 16 -> y k = spike_at 14 v k) -> first_best (fun k => merit a (one_more y k)) (zrange 0 16) 14).
  { intros y v Hv H. destruct (CE y v H) as [Cy Ey]. apply IZR_lt in Hv.
    assert (F14 : merit a (one_more y 14) = 1%R). { unfold merit. rewrite corr_more, energy_more, Cy, Ey, H, Ta by lia. change (spike_at 14 1 14) with 1. change (spike_at 14 v 14) with v. field. nra. }
    assert (Fk : forall k, 0 <= k < 16 -> k <> 14 -> (merit a (one_more y k) < 1)%R).
    { intros k Hk N. unfold merit. rewrite corr_more, energy_more, Cy, Ey, H, Ta by lia. unfold spike_at. destruct (Z.eqb_spec k 14); [contradiction|]. apply (Rmult_lt_reg_r (IZR v * IZR v + 2 * 0 + 1)); [nra|]. unfold Rdiv. rewrite Rmult_assoc, Rinv_l by nra. nra. }
    apply first_best_at; [lia| |]; intros k Hk; cbv beta; rewrite F14; [|left]; apply Fk; lia. }
  split; [|split; [reflexivity|split]].
  - cbn [greedy]. exists 14. split; [apply (Step _ 6); [lia|exact A3]|]. exists 14. split; [apply (Step _ 7); [lia|]|]; intros k Hk; unfold one_more; rewrite ?A3 by exact Hk; unfold spike_at; destruct (k =? 14); reflexivity.
  - rewrite (map_zrange_ext _ (fun k => if k =? 0 then 1 else spike_at 14 7 k)) by exact A2. reflexivity.
  - unfold merit. destruct (CE (spike_at 14 8) 8 (fun k _ => eq_refl)) as [-> ->].
    assert (C2 : corr16 a (fun k => Z.abs (getz 0 y2 k)) = 7%R). { unfold corr16. rewrite (sum_spike 14); [rewrite A2, Ta by lia; change (14 =? 0) with false; change (spike_at 14 1 14) with 1; change (spike_at 14 7 14) with 7; lra|lia|intros k Hk N; rewrite Ta by exact Hk; unfold spike_at; destruct (Z.eqb_spec k 14); [contradiction|lra]]. }
    assert (E2 : energy16 (fun k => Z.abs (getz 0 y2 k)) = 50%R). { unfold energy16. rewrite (rsum_ext 16 _ (fun k => (IZR (if k =? 0 then 1 else spike_at 14 7 k) * IZR (if k =? 0 then 1 else spike_at 14 7 k))%R)) by (intros k Hk; now rewrite A2 by lia). cbn. lra. }
    rewrite C2, E2. lra.
Qed.

(* ---- cases ---- *)
Lemma first_least_unique {A} (f : A -> R) cs d d' : first_least f cs d -> first_least f cs d' -> d = d'.
Proof.
  intros (l1 & l2 & E1 & H1 & H2) (k1 & k2 & E2 & G1 & G2). rewrite E1 in E2. clear E1 cs. revert k1 E2 G1. induction l1 as [|x l1 IH]; intros [|z k1] E G1; cbn [app] in E; inversion E; subst; auto.
  - exfalso. pose proof (G1 z (or_introl eq_refl)). assert (In d' (k1 ++ d' :: k2)) by (apply in_app_iff; right; now left). specialize (H2 _ H0). lra.
  - exfalso. pose proof (H1 d' (or_introl eq_refl)). assert (In d (l1 ++ d :: l2)) by (apply in_app_iff; right; now left). specialize (G2 _ H0). lra.
  - apply (IH (fun k Hk => H1 k (or_intror Hk)) k1 H3 (fun k Hk => G1 k (or_intror Hk))).
Qed.
Lemma alive_left scf x M : len scf = 16 -> (forall n, 0 <= n < 16 -> getz 0%R scf n = x n) -> (0 <= M <= IZR (2 ^ 80))%R -> bounded M scf -> set_b_alive scf -> set_b_left x.
Proof.
  intros L Hx HM B Al lf hf N1 N2. destruct (stage1_real scf M L HM B) as (lf' & hf' & st1 & r1 & E & N1' & N2' & H4 & _ & _ & Tr). apply (proj1 (near_ext _ x lf' Hx)) in N1'. apply (proj2 (near_ext _ x hf' Hx)) in N2'.
  pose proof (first_least_unique _ _ _ _ N1 N1'). pose proof (first_least_unique _ _ _ _ N2 N2'). subst lf' hf'. destruct (Al _ _ _ _ E) as (n & Hn & Nz). exists n. split; [exact Hn|]. intros Z. apply Nz. rewrite rotate_R by (assumption || lia).
  etransitivity; [|exact Z]. change 16 with (Z.of_nat 16) at 1. rewrite Rsum_zrange. apply rsum_ext. intros k Hk. rewrite Tr, Hx by lia. reflexivity.
Qed.
Lemma silent_factors c attack e n : (forall b, e b = 0%R) -> scale_factors c attack e n = 0%R.
Proof.
  intros He. set (fs := fs_ind c). assert (T : forall b, tilted fs e b = 0%R) by (intros b; unfold tilted, blurred; rewrite !He; lra). set (L := band_level fs e 0).
  assert (V : forall b, band_level fs e b = L) by (intros b; unfold L, band_level; unfold noise_floor; rewrite !T; reflexivity).
  assert (G : forall m, group_level fs e m = L) by (intros m; unfold group_level; rewrite (rsum_ext 6 _ (fun i => (weight6 i * L)%R)) by (intros i _; now rewrite V); cbn [rsum]; unfold weight6; cbn; lra).
  assert (Mc : forall K, mean 16 (fun _ => K) = K) by (intros K; unfold mean; cbn [rsum INR]; field).
  assert (C : forall m, centred fs e m = 0%R) by (intros m; unfold centred; rewrite G, (mean_ext 16 _ (fun _ => L)) by (intros; apply G); rewrite Mc; lra).
  unfold scale_factors. fold fs. cbv zeta. destruct attack; [|apply C]. assert (S : forall m, 0 <= m < 16 -> spread (centred fs e) m = 0%R).
  { intros m Hm. unfold spread, mean. cbv zeta. rewrite rsum_zero by (intros; apply C). unfold Rdiv. lra. }
  assert (S' : spread (centred fs e) n = 0%R). { unfold spread, mean. cbv zeta. rewrite rsum_zero by (intros; apply C). unfold Rdiv. lra. }
  unfold softened. rewrite S', (mean_ext 16 _ (fun _ => 0%R)) by (intros; apply S; lia). rewrite Mc. lra.
Qed.
(* a silent frame at 48 kHz: the factors are zero but the code books hold nothing near, so the quantiser has work to do *)
Example C58_case : let c := config_new Hz48000 TenMs in let eb := repeat 0%R 64 in
  legal_config c /\ nb c = 64 /\ len eb = 64 /\ Forall (fun v => 0 <= v)%R eb /\ set_b_left (scale_factors c true (getz 0%R eb)) /\ set_b_left (getz 0%R ex_scf).
Proof.
  cbv zeta. split; [eexists; eexists; reflexivity|]. split; [reflexivity|]. split; [reflexivity|]. split; [apply Forall_forall; intros v Hv; apply repeat_spec in Hv; lra|].
  assert (P : (10000 <= IZR (2 ^ 80))%R) by (apply IZR_le; vm_compute; congruence). split.
  - assert (Z : forall n, getz 0%R (repeat 0%R 16) n = 0%R) by (intros n; unfold getz; apply nth_repeat).
    apply (alive_left (repeat 0%R 16) _ 1 eq_refl); [|lra|intros n; rewrite Z, Rabs_R0; lra|now apply zero_alive].
    intros n Hn. rewrite Z. symmetry. set (c := config_new Hz48000 TenMs).
    apply silent_factors. intros k. unfold getz. apply nth_repeat.
  - apply (alive_left ex_scf _ 10000 eq_refl (fun _ _ => eq_refl)); [lra|exact ex_bound|exact (proj1 C48_case)].
Qed.

Print Assumptions C58_scale_factors.
Print Assumptions C58_quantiser.
Print Assumptions C58_noise_shaping.
Print Assumptions C58_shape3_greedy.
Print Assumptions C58_shape2_greedy_refuted.
