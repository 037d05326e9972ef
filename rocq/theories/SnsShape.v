(* Noise shaping as a curve: which gain each band gets, in exact arithmetic, in the decoder and in the encoder; and that the decoder's shaping undoes the encoder's. *)
From Coq Require Import ZArith Lia List Bool Reals Lra.
From Flocq Require Import Core.
From Verif Require Import Base Config SideInfo FrameSpec EncPayload Mpvq MpvqProofs SnsIndex SnsProofs Buffers BufLemmas TablesSnsF Loops Scalar EncScalar RealOps EncF32 DecSignal DecTotal LineSpec DecState EncSns EncSnsOk.
Import ListNotations.
Local Open Scope Z_scope.

(* ---- specification ---- *)
(* The curve through the points (4 n + 3/2, q n), n = 0..15: straight between them, constant below the first, with the last slope beyond the last. *)
Definition curve (q : Z -> R) (b : Z) : R :=
  if b <? 2 then q 0 else let n := Z.min 14 ((b - 2) / 4) in (q n + (IZR b - 4 * IZR n - 3 / 2) / 4 * (q (n + 1)%Z - q n))%R.
(* 60 bands (8 kHz): the first eight points are averaged in pairs *)
Definition band_curve (nb : Z) (q : Z -> R) (b : Z) : R :=
  if nb =? 64 then curve q b else if b <? 64 - nb then ((curve q (2 * b)%Z + curve q (2 * b + 1)%Z) / 2)%R else curve q (b + (64 - nb)).
(* scale factor n of a parameter set: code book entry plus gain times the normalised, rotated pulse vector *)
Definition Rsum (l : list R) : R := fold_right Rplus 0%R l.
Definition norm2 (y : list Z) : R := Rsum (map (fun v => IZR v * IZR v)%R y).
Definition entry (t : list (list (Z * Z))) (n k : Z) : R := R_lit (getz (0, 0) (getz [] t n) k).
Definition gain_of (shape gind : Z) : R :=
  R_lit (getz (0, 0) (if shape =? 0 then SNS_VQ_REG_ADJ_GAINS else if shape =? 1 then SNS_VQ_REG_LF_ADJ_GAINS else if shape =? 2 then SNS_VQ_NEAR_ADJ_GAINS else SNS_VQ_FAR_ADJ_GAINS) gind).
Definition scale_factor (q : sns_vq) (y : list Z) (n : Z) : R :=
  ((if n <? 8 then entry LFCB (q_ind_lf q) n else entry HFCB (q_ind_hf q) (n - 8)) +
   gain_of (2 * q_submode_msb q + q_submode_lsb q) (q_g_ind q) * (Rsum (map (fun k => IZR (getz 0%Z y k) * entry D n k) (SnsIndex.zrange 0 16)) / sqrt (norm2 y)))%R.

(* ---- interpolation ---- *)
Lemma list16 {A} (q : list A) : len q = 16 -> exists a0 a1 a2 a3 a4 a5 a6 a7 a8 a9 a10 a11 a12 a13 a14 a15, q = [a0; a1; a2; a3; a4; a5; a6; a7; a8; a9; a10; a11; a12; a13; a14; a15].
Proof.
  intros H. assert (K : length q = 16%nat) by (unfold len in H; lia). clear H. do 16 (destruct q as [|? q]; [discriminate K|]). destruct q; [|discriminate K]. repeat eexists.
Qed.
Definition at_ {F} (o : ops F) (q : list F) (b : Z) : F :=
  if b <? 2 then getz (fz o 0) q 0
  else if b <? 62 then let n := (b - 2) / 4 in fadd o (getz (fz o 0) q n) (fmul o (eighth o (2 * ((b - 2) mod 4) + 1)) (fsub o (getz (fz o 0) q (n + 1)) (getz (fz o 0) q n)))
  else fadd o (getz (fz o 0) q 15) (fmul o (eighth o (2 * (b - 62) + 1)) (fsub o (getz (fz o 0) q 15) (getz (fz o 0) q 14))).
Lemma interp_at {F} (o : ops F) q : len q = 16 -> sns_interp o q = Ok (map (at_ o q) (SnsIndex.zrange 0 64)).
Proof. intros H. destruct (list16 q H) as (a0 & a1 & a2 & a3 & a4 & a5 & a6 & a7 & a8 & a9 & a10 & a11 & a12 & a13 & a14 & a15 & ->). reflexivity. Qed.
Lemma at_curve q b : 0 <= b < 64 -> at_ R_ops q b = curve (getz 0%R q) b.
Proof.
  intros H. unfold at_, curve, eighth. cbn [R_ops fz fadd fmul fsub fdiv]. destruct (Z.ltb_spec b 2); [reflexivity|]. destruct (Z.ltb_spec b 62).
  - rewrite Z.min_r by (Z.div_mod_to_equations; lia). set (n := (b - 2) / 4). assert (Em : (b - 2) mod 4 = b - 2 - 4 * n) by (unfold n; Z.div_mod_to_equations; lia). rewrite Em.
    rewrite plus_IZR, mult_IZR, !minus_IZR, mult_IZR. field.
  - rewrite Z.min_l by (Z.div_mod_to_equations; lia). change (14 + 1) with 15. rewrite plus_IZR, mult_IZR, !minus_IZR. field.
Qed.
Lemma zrange_nth (f : Z -> R) n b : 0 <= b < n -> getz 0%R (map f (SnsIndex.zrange 0 n)) b = f b.
Proof.
  intros H. unfold getz, SnsIndex.zrange. rewrite map_map. rewrite (nth_indep _ 0%R (f (0 + Z.of_nat 0))) by (rewrite map_length, seq_length; lia).
  rewrite (map_nth (fun x => f (0 + Z.of_nat x))), seq_nth by lia. f_equal. lia.
Qed.
Definition gain_list (c : config) (q : Z -> R) : list R := map (fun b => Rpower 2 (band_curve (nb c) q b)) (SnsIndex.zrange 0 (nb c)).
Lemma map_zrange_ext {A} (f g : Z -> A) n : (forall b, 0 <= b < n -> f b = g b) -> map f (SnsIndex.zrange 0 n) = map g (SnsIndex.zrange 0 n).
Proof. intros H. apply map_ext_in. intros b Hb. apply zrange_In in Hb. now apply H. Qed.
Lemma reduce_60 {F} (o : ops F) (f : Z -> F) :
  sns_reduce o 60 (map f (SnsIndex.zrange 0 64)) = Ok (map (fun b => if b <? 4 then fdiv o (fadd o (f (2 * b)) (f (2 * b + 1))) (fz o 2) else if b <? 60 then f (b + 4) else f b) (SnsIndex.zrange 0 64)).
Proof. reflexivity. Qed.
Lemma legal_nb c : legal_config c -> nb c = 64 \/ nb c = 60.
Proof. intros (f & d & ->). destruct f, d; (left; reflexivity) || (right; reflexivity). Qed.
Lemma zrange_split n m : 0 <= n <= m -> SnsIndex.zrange 0 m = SnsIndex.zrange 0 n ++ SnsIndex.zrange n m.
Proof.
  intros H. unfold SnsIndex.zrange. replace (Z.to_nat (m - 0)) with (Z.to_nat (n - 0) + Z.to_nat (m - n))%nat by lia. rewrite seq_app, map_app. f_equal.
  rewrite <- (map_id (seq 0 (Z.to_nat (m - n)))). rewrite Nat.add_0_l. replace (Z.to_nat (n - 0)) with (Z.to_nat n) by lia.
  assert (G : forall k a, seq (Z.to_nat n + a) k = map (fun i => (Z.to_nat n + i)%nat) (seq a k)). { induction k as [|k IH]; intros a; [reflexivity|]. cbn [seq map]. f_equal. rewrite <- IH. f_equal. lia. }
  specialize (G (Z.to_nat (m - n)) O). rewrite Nat.add_0_r in G. rewrite G, !map_map. apply map_ext. intros i. lia.
Qed.
Lemma decoder_gains c q : legal_config c -> len q = 16 -> (s <- sns_interp R_ops q ;; s <- sns_reduce R_ops (nb c) s ;; sns_linear R_ops (nb c) s) = Ok (gain_list c (getz 0%R q)).
Proof.
  intros Lc H. rewrite (interp_at R_ops q H). cbn [bind]. unfold gain_list. destruct (legal_nb c Lc) as [E|E]; rewrite E.
  - change (sns_reduce R_ops 64 (map (at_ R_ops q) (SnsIndex.zrange 0 64))) with (Ok (map (at_ R_ops q) (SnsIndex.zrange 0 64))). cbn [bind]. unfold sns_linear.
    change (sub (map (at_ R_ops q) (SnsIndex.zrange 0 64)) 0 64) with (Ok (map (at_ R_ops q) (SnsIndex.zrange 0 64))). cbn [bind]. f_equal. rewrite map_map. apply map_zrange_ext. intros b Hb.
    cbn [R_ops fexp2]. unfold band_curve. change (64 =? 64) with true. cbv iota. now rewrite at_curve.
  - rewrite reduce_60. cbn [bind]. unfold sns_linear. match goal with |- context [map ?g (SnsIndex.zrange 0 64)] => change (sub (map g (SnsIndex.zrange 0 64)) 0 60) with (Ok (map g (SnsIndex.zrange 0 60))) end.
    cbn [bind]. f_equal. rewrite map_map. apply map_zrange_ext. intros b Hb. cbn [R_ops fexp2 fdiv fadd fz]. unfold band_curve. change (60 =? 64) with false. cbv iota. change (64 - 60) with 4. f_equal.
    destruct (Z.ltb_spec b 4); [rewrite !at_curve by lia; reflexivity|]. destruct (Z.ltb_spec b 60); [|lia]. rewrite at_curve by lia. reflexivity.
Qed.

(* ---- scale factors ---- *)
Lemma fold_sum {A} (f : A -> R) : forall l acc, fold_left (fun a x => (a + f x)%R) l acc = (acc + Rsum (map f l))%R.
Proof. induction l as [|x l IH]; intros acc; cbn [fold_left map Rsum fold_right]; [lra|]. rewrite IH. unfold Rsum. lra. Qed.
Definition rprod (p : R * R) : R := (fst p * snd p)%R.
Lemma combine_sum (y : list R) (row : list R) n : len y = n -> len row = n -> Rsum (map rprod (combine y row)) = Rsum (map (fun k => (getz 0 y k * getz 0 row k)%R) (SnsIndex.zrange 0 n)).
Proof.
  intros Hy Hr. f_equal. apply (nth_ext _ _ 0%R 0%R); [rewrite !map_length, combine_length; unfold SnsIndex.zrange; rewrite map_length, seq_length; unfold len in *; lia|].
  intros i Hi. rewrite map_length, combine_length in Hi.
  rewrite (nth_indep _ 0%R (rprod (0, 0)%R)) by (rewrite map_length, combine_length; exact Hi). rewrite (map_nth rprod), combine_nth by (unfold len in *; lia).
  pose proof (zrange_nth (fun k => (getz 0 y k * getz 0 row k)%R) n (Z.of_nat i) ltac:(unfold len in *; lia)) as G. unfold getz in G at 1. rewrite Nat2Z.id in G. rewrite G. unfold getz. now rewrite Nat2Z.id.
Qed.
Lemma getz_map_lit (l : list (Z * Z)) k : getz 0%R (map R_lit l) k = R_lit (getz (0, 0) l k).
Proof. unfold getz. replace 0%R with (R_lit (0, 0)) by (unfold R_lit; cbn [fst snd]; lra). apply map_nth. Qed.
Lemma getz_map_IZR (l : list Z) k : getz 0%R (map IZR l) k = IZR (getz 0 l k).
Proof. unfold getz. apply (map_nth IZR). Qed.
Lemma combine_map_r {A B C} (g : B -> C) (a : list A) : forall b, combine a (map g b) = map (fun p => (fst p, g (snd p))) (combine a b).
Proof. induction a as [|x a IH]; intros [|y b]; cbn [combine map]; try reflexivity. now rewrite IH. Qed.
Lemma combine_map_l {A B C} (g : A -> C) : forall (a : list A) (b : list B), combine (map g a) b = map (fun p => (g (fst p), snd p)) (combine a b).
Proof. induction a as [|x a IH]; intros [|y b]; cbn [combine map]; try reflexivity. now rewrite IH. Qed.
Definition rot (y : list R) (n : Z) : R := Rsum (map (fun k => (getz 0 y k * entry D n k)%R) (SnsIndex.zrange 0 16)).
Lemma fold_ext {A B} (f g : A -> B -> A) l : (forall a b, f a b = g a b) -> forall a, fold_left f l a = fold_left g l a.
Proof. intros H. induction l as [|x l IH]; intros a; cbn [fold_left]; [reflexivity|]. now rewrite H, IH. Qed.
Lemma D_row n : 0 <= n < 16 -> len (getz [] D n) = 16.
Proof.
  intros Hn. unfold getz. assert (K : forallb (fun r => Nat.eqb (length r) 16) D = true) by reflexivity. rewrite forallb_forall in K.
  assert (Hl : (Z.to_nat n < length D)%nat) by (change (length D) with 16%nat; lia). specialize (K (nth (Z.to_nat n) D []) (nth_In D [] Hl)). apply Nat.eqb_eq in K. unfold len. lia.
Qed.
Lemma row_sum (y : list R) n : len y = 16 -> 0 <= n < 16 -> fold_left (fun a '(x, d) => (a + x * R_lit d)%R) (combine y (getz [] D n)) 0%R = rot y n.
Proof.
  intros Hy Hn. pose proof (D_row n Hn) as HD.
  rewrite (fold_ext _ (fun a p => (a + (fun p => fst p * R_lit (snd p)) p)%R)) by (intros a [x d]; reflexivity). rewrite fold_sum, Rplus_0_l. unfold rot.
  transitivity (Rsum (map rprod (combine y (map R_lit (getz [] D n))))).
  - rewrite combine_map_r, map_map. reflexivity.
  - rewrite (combine_sum _ _ 16) by (rewrite ?len_map; assumption). f_equal. apply map_ext. intros k. now rewrite getz_map_lit.
Qed.
(* the quantised factors as a list: code book entries l, gain g, vector y *)
Lemma getz_combine {A B} (da : A) (db : B) (a : list A) (b : list B) n : len a = len b -> getz (da, db) (combine a b) n = (getz da a n, getz db b n).
Proof. intros H. unfold getz. apply combine_nth. unfold len in H. lia. Qed.
Lemma getz_map_in {A B} (f : A -> B) da db l n : 0 <= n < len l -> getz db (map f l) n = f (getz da l n).
Proof. intros H. unfold getz. rewrite (nth_indep _ db (f da)) by (rewrite map_length; unfold len in H; lia). apply map_nth. Qed.
Lemma book_len t i : t = LFCB \/ t = HFCB -> 0 <= i < 32 -> len (getz [] t i) = 8.
Proof.
  intros Ht Hi. unfold getz. assert (K : forallb (fun r => Nat.eqb (length r) 8) t = true /\ length t = 32%nat) by (destruct Ht; subst t; split; reflexivity). destruct K as [K L]. rewrite forallb_forall in K.
  assert (Hl : (Z.to_nat i < length t)%nat) by lia. specialize (K (nth (Z.to_nat i) t []) (nth_In t [] Hl)). apply Nat.eqb_eq in K. unfold len. lia.
Qed.
Lemma getz_app {A} (d : A) a b n : 0 <= n -> getz d (a ++ b) n = if n <? len a then getz d a n else getz d b (n - len a).
Proof. intros H. unfold getz, len. destruct (Z.ltb_spec n (Z.of_nat (length a))); [apply app_nth1; lia|]. rewrite app_nth2 by lia. f_equal. lia. Qed.
Lemma norm2_nonneg y : (0 <= norm2 y)%R.
Proof. unfold norm2, Rsum. induction y as [|v y IH]; cbn [map fold_right]; [lra|]. pose proof (Rle_0_sqr (IZR v)) as G. unfold Rsqr in G. lra. Qed.
Lemma norm2_zero y : norm2 y = 0%R -> Forall (fun v => v = 0) y.
Proof.
  induction y as [|v y IH]; intros H; [constructor|]. unfold norm2 in *. cbn [map Rsum fold_right] in H. pose proof (norm2_nonneg y) as N. unfold norm2, Rsum in *. pose proof (Rle_0_sqr (IZR v)) as G. unfold Rsqr in G.
  constructor; [|apply IH; lra]. apply eq_IZR. nra.
Qed.
Lemma norm2_pos j y : shape_vec j y -> (0 < norm2 y)%R.
Proof.
  intros [L S]. destruct (Rlt_le_dec 0 (norm2 y)) as [H|H]; [exact H|exfalso]. assert (Z0 : norm2 y = 0%R) by (pose proof (norm2_nonneg y); lra). apply norm2_zero in Z0.
  assert (P : forall l, Forall (fun v => v = 0) l -> MpvqProofs.pulses l = 0) by (induction 1; [reflexivity|]; subst; cbn [MpvqProofs.pulses fold_right map]; assumption).
  assert (PF : MpvqProofs.pulses (firstn 10 y) = 0) by (apply P; apply Forall_forall; intros v Hv; rewrite Forall_forall in Z0; apply Z0; rewrite <- (firstn_skipn 10 y); apply in_or_app; now left).
  rewrite (P y Z0) in S. lia.
Qed.
Lemma fold_norm y : fold_left (fun (acc : R) (v : Z) => (acc + IZR v * IZR v)%R) y 0%R = norm2 y.
Proof. rewrite (fold_sum (fun v => IZR v * IZR v)%R). unfold norm2. lra. Qed.
Lemma gains_get j i : 0 <= j <= 3 -> 0 <= i < gain_table_len j -> exists l, sns_gains j = Ok l /\ exists g, idx l i = Ok g /\ R_lit g = gain_of j i.
Proof.
  intros Hj Hi. unfold sns_gains, gain_of, gain_table_len in *. assert (D4 : j = 0 \/ j = 1 \/ j = 2 \/ j = 3) by lia.
  destruct D4 as [->|[->|[->| ->]]]; cbn [Z.eqb Pos.eqb] in *; eexists; (split; [reflexivity|]); eexists; (split; [apply (idx_get (0, 0))|reflexivity]); vm_compute (len _); lia.
Qed.
Lemma entries q n : 0 <= q_ind_lf q < 32 -> 0 <= q_ind_hf q < 32 -> 0 <= n < 16 ->
  R_lit (getz (0, 0) (getz [] LFCB (q_ind_lf q) ++ getz [] HFCB (q_ind_hf q)) n) = if n <? 8 then entry LFCB (q_ind_lf q) n else entry HFCB (q_ind_hf q) (n - 8).
Proof.
  intros A B Hn. rewrite getz_app, (book_len LFCB) by (auto; lia). unfold entry. destruct (n <? 8); reflexivity.
Qed.
Lemma rot_IZR y n : rot (map IZR y) n = Rsum (map (fun k => IZR (getz 0%Z y k) * entry D n k)%R (SnsIndex.zrange 0 16)).
Proof. unfold rot. f_equal. apply map_ext. intros k. now rewrite getz_map_IZR. Qed.
Lemma factor_decoder q y : sns_legal q -> sns_vector q = Ok y -> exists s, sns_factors R_ops q = Ok s /\ len s = 16 /\ forall n, 0 <= n < 16 -> getz 0%R s n = scale_factor q y n.
Proof.
  intros Q Ev. destruct (sns_legal_ranges q Q) as (A & B & M & L). destruct (shape_of_legal q Q) as (y' & E & SV & G). rewrite Ev in E. apply ParseBase.Ok_inj in E. subst y'.
  unfold sns_factors. rewrite (idx_get [] LFCB) by (change (len LFCB) with 32; lia). rewrite (idx_get [] HFCB) by (change (len HFCB) with 32; lia). cbn [bind]. rewrite Ev. cbn [bind]. cbv zeta.
  rewrite Z.shiftl_mul_pow2, Z.pow_1_r, (Z.mul_comm _ 2) by lia. set (j := 2 * q_submode_msb q + q_submode_lsb q) in *.
  pose proof (norm2_pos j y SV) as NP. destruct (gains_get j (q_g_ind q) ltac:(lia) G) as (gl & Eg & g & Eg2 & Vg). rewrite Eg. cbn [bind]. rewrite Eg2. cbn [bind].
  cbn [R_ops fadd fmul fz fsqrt feq flit fdiv]. rewrite fold_norm. assert (SP : (0 < sqrt (norm2 y))%R) by now apply sqrt_lt_R0.
  rewrite Req_bool_false by lra. eexists. split; [reflexivity|].
  assert (LL : len (getz [] LFCB (q_ind_lf q) ++ getz [] HFCB (q_ind_hf q)) = 16) by (rewrite len_app, !book_len by (auto; lia); reflexivity). split.
  - rewrite len_map, len_combine, LL. reflexivity.
  - intros n Hn. rewrite (getz_map_in _ ((0, 0), [])) by (rewrite len_combine, LL; change (len D) with 16; lia). rewrite getz_combine by (rewrite LL; reflexivity). cbv beta iota. rewrite entries by lia.
    unfold scale_factor. fold j. f_equal. rewrite Vg. unfold sns_row. cbn [R_ops fadd fmul fz flit].
    replace (fold_left _ (combine y (getz [] D n)) 0%R) with (rot (map IZR y) n).
    + rewrite rot_IZR. field. lra.
    + rewrite <- row_sum by (rewrite ?len_map; destruct SV; assumption). rewrite combine_map_l. generalize 0%R. induction (combine y (getz [] D n)) as [|[a b] l IH]; intros acc; [reflexivity|]. cbn [map fold_left fst snd]. apply IH.
Qed.
