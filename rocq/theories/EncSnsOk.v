(* The encoder's noise shaping stage never fails and yields legal parameters, in any arithmetic. *)
From Coq Require Import ZArith List Bool Lia.
From Verif Require Import EncPayload Base Config SideInfo FrameSpec Mpvq MpvqProofs SnsIndex SnsProofs Buffers BufLemmas Loops Scalar EncScalar DecSignal DecTotal DecState EncSns TablesSnsF.
Import ListNotations.
Local Open Scope Z_scope.

Section SnsOk.
Context {F : Type} (o : ops F) (e : eops F).
Let f0 := fz o 0.

Lemma smooth_ok x out : len x = 64 -> len out = 64 -> okp (sns_smooth o x out) (fun s => len s = 64).
Proof.
  intros Lx Lo. unfold sns_smooth. okstep; [lia|]. okstep; [lia|]. okstep; [lia|].
  eapply okp_bind with (P := fun l => len l = 64).
  { apply (okp_for (fun l => len l = 64)); [lia|]. intros j s Hj Hs. okstep; [lia|]. okstep; [lia|]. okstep; [lia|]. eapply okp_weaken; [apply okp_put; lia|]. intros; liab. }
  intros l Ll. cbv beta in Ll. okstep; [lia|]. okstep; [lia|]. eapply okp_weaken; [apply okp_put; lia|]. intros; liab.
Qed.
Lemma weighting_len : len (WEIGHTING o) = 6.
Proof. reflexivity. Qed.
Lemma group_ok x : len x = 64 -> okp (sns_group o x) (fun s => len s = 16).
Proof.
  intros Lx. unfold sns_group. pose proof weighting_len as W. okstep; [lia|]. okstep; [lia|].
  eapply okp_bind with (P := fun _ => True).
  { apply (okp_for (fun _ => True)); [exact I|]. intros j s Hj _. okstep; [lia|]. okstep; [lia|]. now apply okp_ok. }
  intros d0 _. okstep; [rewrite len_repeat; lia|]. rewrite len_repeat in H1. change (Z.of_nat 16) with 16 in H1.
  eapply okp_bind with (P := fun l => len l = 16).
  { apply (okp_for (fun l => len l = 16)); [lia|]. intros j s Hj Hs. okstep; [lia|lia|]. eapply okp_weaken; [apply okp_put; lia|]. intros; liab. }
  intros l Ll. cbv beta in Ll. okstep; [lia|]. okstep; [lia|]. eapply okp_bind with (P := fun _ => True).
  { apply (okp_for (fun _ => True)); [exact I|]. intros j s Hj _. okstep; [lia|]. okstep; [lia|]. now apply okp_ok. }
  intros d15 _. eapply okp_weaken; [apply okp_put; lia|]. intros; liab.
Qed.
Lemma attack_ok attack d x out : len x = 16 -> len out = 16 -> okp (sns_attack o attack d x out) (fun s => len s = 16).
Proof.
  intros Lx Lo. unfold sns_attack. rewrite Lx, Lo. cbn [Z.eqb Pos.eqb assert bind]. destruct attack.
  - do 4 (okstep; [lia|]). do 2 (okstep; [lia|]).
    eapply okp_bind with (P := fun l => len l = 16).
    { apply (okp_for (fun l => len l = 16)); [lia|]. intros j s Hj Hs. okstep; [lia|lia|]. eapply okp_weaken; [apply okp_put; lia|]. intros; liab. }
    intros l Ll. cbv beta in Ll. do 4 (okstep; [lia|]). do 2 (okstep; [lia|]). apply okp_ok. rewrite len_map. lia.
  - eapply okp_weaken; [apply okp_blit; lia|]. intros; liab.
Qed.
Lemma zrange_length a b : length (SnsIndex.zrange a b) = Z.to_nat (b - a).
Proof. unfold SnsIndex.zrange. now rewrite map_length, seq_length. Qed.
Lemma scale_factors_ok c eb attack : legal_config c -> nb c = 64 -> len eb = 64 -> okp (sns_scale_factors o e c eb attack) (fun s => len s = 16).
Proof.
  intros Lc Nb Le. destruct (config_geom c Lc) as (_ & _ & _ & _ & _ & Hf & _). unfold sns_scale_factors. okstep; [change (len G_TILT) with 5; lia|].
  unfold sns_pad. rewrite Nb. unfold usub. change (64 <? 64) with false. cbn [bind]. change (0 <? 64 - 64) with false. cbv iota.
  eapply okp_bind; [apply okp_blit; rewrite ?len_repeat; lia|]. intros p Lp. cbv beta in Lp. rewrite len_repeat in Lp.
  eapply okp_bind; [apply (smooth_ok p (repeat (fz o 0) 64)); rewrite ?len_repeat; lia|]. intros s Ls. cbv beta in Ls.
  eapply okp_bind; [apply group_ok|].
  { rewrite len_map, len_map, len_combine. unfold len at 1. rewrite zrange_length, Ls. lia. }
  intros d Ld. cbv beta in Ld. apply attack_ok; [unfold sns_mean; rewrite len_map; exact Ld|rewrite len_repeat; reflexivity].
Qed.

(* ---- stage 1 ---- *)
Lemma nearest_range x codes : forall i s, 0 <= fst s < i -> 0 <= fst (nearest o x codes i s) < i + len codes.
Proof.
  induction codes as [|c codes IH]; intros i s H; cbn [nearest]; [unfold len; cbn [length]; lia|]. rewrite len_cons.
  specialize (IH (i + 1) (if flt o (dist8 o x c) (snd s) then (i, dist8 o x c) else s)). destruct (flt o (dist8 o x c) (snd s)); cbn [fst] in IH; lia.
Qed.
Lemma nearest_first x codes s : fst s = 0 -> 0 < len codes -> 0 <= fst (nearest o x codes 0 s) < len codes.
Proof.
  destruct codes as [|c codes]; [unfold len; cbn [length]; lia|]. intros H _. cbn [nearest]. rewrite len_cons. change (0 + 1) with 1.
  pose proof (nearest_range x codes 1 (if flt o (dist8 o x c) (snd s) then (0, dist8 o x c) else s)) as P. destruct (flt o (dist8 o x c) (snd s)); cbn [fst] in P; lia.
Qed.
Lemma book_rows l b i r : l = LFCB \/ l = HFCB -> idx l i = Ok r -> len r = 8 /\ (b = r -> True).
Proof.
  intros Hl E. split; [|auto]. assert (Fo : Forall (fun r => len r = 8) l) by (destruct Hl as [-> | ->]; repeat constructor).
  rewrite Forall_forall in Fo. apply Fo. unfold idx in E. destruct (i <? 0); [discriminate|]. destruct (nth_error l (Z.to_nat i)) eqn:N; [|discriminate]. apply (f_equal (fun m => match m with Ok a => a | _ => [] end)) in E. subst r. eapply nth_error_In, N.
Qed.
Lemma stage1_ok scf : len scf = 16 -> okp (sns_stage1 o e scf) (fun '(lf, hf, st1, r1) => 0 <= lf < 32 /\ 0 <= hf < 32 /\ len st1 = 16 /\ len r1 = 16).
Proof.
  intros L. unfold sns_stage1. okstep; [lia|lia|]. okstep; [lia|lia|].
  pose proof (nearest_first a LFCB (0, e_inf e) eq_refl ltac:(change (len LFCB) with 32; lia)) as R1. pose proof (nearest_first a0 HFCB (0, e_inf e) eq_refl ltac:(change (len HFCB) with 32; lia)) as R2.
  change (len LFCB) with 32 in R1. change (len HFCB) with 32 in R2. cbv zeta. set (i1 := fst (nearest o a LFCB 0 _)) in *. set (i2 := fst (nearest o a0 HFCB 0 _)) in *.
  destruct (Loops.idx_ok LFCB i1 ltac:(change (len LFCB) with 32; lia)) as (l & E1). destruct (Loops.idx_ok HFCB i2 ltac:(change (len HFCB) with 32; lia)) as (h & E2).
  rewrite E1. cbn [bind]. rewrite E2. cbn [bind]. apply (book_rows _ [] _ _ (or_introl eq_refl)) in E1. apply (book_rows _ [] _ _ (or_intror eq_refl)) in E2.
  apply okp_ok. split; [exact R1|]. split; [exact R2|]. rewrite !len_map, len_combine, len_map, len_app. lia.
Qed.
Lemma rotate_len r1 : len (sns_rotate o r1) = 16.
Proof.
  unfold sns_rotate. assert (G : forall l t, len t = 16 -> len (fold_left (fun t '(r, row) => zipmod (fun t d => fadd o t (fmul o r (flit o d))) t row) l t) = 16).
  { induction l as [|[r row] l IH]; intros t Ht; cbn [fold_left]; [exact Ht|]. apply IH. now rewrite len_zipmod. }
  apply G. reflexivity.
Qed.

(* ---- stage 2 ---- *)
Lemma pulse_best_ok ax corr en cand n_max : 1 <= n_max -> n_max <= len ax -> n_max <= len cand -> okp (pulse_best o ax corr en cand n_max) (fun b => 0 <= b < n_max).
Proof.
  intros H1 H2 H3. unfold pulse_best. okstep; [lia|]. okstep; [lia|]. eapply okp_bind with (P := fun '(b, _, _) => 0 <= b < n_max).
  - apply (okp_for (fun '(b, _, _) => 0 <= b < n_max)); [lia|]. intros j [[b bc] be] Hj Hb. okstep; [lia|]. okstep; [lia|]. apply okp_ok. destruct (flt _ _ _); [lia|exact Hb].
  - intros [[b bc] be] Hb. apply okp_ok. exact Hb.
Qed.
Lemma pulses_ok iters ax n_max : forall cand corr en ret, 1 <= n_max -> n_max <= len ax -> n_max <= len cand -> nonneg cand ->
  okp (pulses o iters ax n_max cand corr en ret) (fun '(y, _) => len y = len cand /\ nonneg y /\ zsum y = zsum cand + Z.of_nat iters).
Proof.
  induction iters as [|m IH]; intros cand corr en ret H1 H2 H3 Hc; cbn [pulses]; [apply okp_ok; repeat split; auto; lia|].
  eapply okp_bind; [apply pulse_best_ok; assumption|]. intros b Hb. cbv beta in Hb. okstep; [lia|]. okstep; [lia|]. cbv zeta. okstep; [lia|].
  rewrite (BufLemmas.idx_nth cand b 0) by lia. cbn [bind]. pose proof (nonneg_nth cand (Z.to_nat b) Hc).
  assert (Ep : put cand b (nth (Z.to_nat b) cand 0 + 1) = Ok (upd cand (Z.to_nat b) (nth (Z.to_nat b) cand 0 + 1))).
  { rewrite <- store_ok by lia. reflexivity. }
  rewrite Ep. cbn [bind]. eapply okp_weaken; [apply IH; try assumption|].
  - unfold len in *. rewrite upd_length. lia.
  - apply upd_nonneg; [exact Hc|lia].
  - intros [y r] (A & B & C). split; [unfold len in *; rewrite A, upd_length; lia|]. split; [exact B|]. rewrite C, upd_zsum by (unfold len in *; lia). lia.
Qed.

Lemma sub_eq {A} (l : list A) a b : 0 <= a <= b -> b <= len l -> sub l a b = Ok (firstn (Z.to_nat (b - a)) (skipn (Z.to_nat a) l)).
Proof. intros H1 H2. unfold sub. destruct (Z.ltb_spec a 0); [lia|]. destruct (Z.ltb_spec b a); [lia|]. destruct (Z.ltb_spec (len l) b); [lia|]. reflexivity. Qed.
Lemma upd_app_r {A} (a b : list A) n v : upd (a ++ b) (length a + n) v = a ++ upd b n v.
Proof. induction a as [|x a IH]; cbn [app length Nat.add upd]; [reflexivity|now rewrite IH]. Qed.
Definition proj_factor (ax : list F) : F := fdiv o (fsub o (fz o 6) (fz o 1)) (fsum o ax).
Definition proj (ax : list F) (a : F) : Z := f_i32 o (e_floor e (fmul o a (proj_factor ax))).
Lemma project_spec ax : exists s, project o e ax = (map (proj ax) ax, zsum (map (proj ax) ax), s).
Proof.
  unfold project. fold (proj_factor ax).
  assert (G : forall l y k s, exists s', fold_left (fun '(y, k, (cr, en)) a =>
    let v := f_i32 o (e_floor e (fmul o a (proj_factor ax))) in
    (y ++ [v], k + v, if v =? 0 then (cr, en) else (fadd o cr (fmul o (fz o v) a), fadd o en (fmul o (fz o v) (fz o v))))) l (y, k, s) = (y ++ map (proj ax) l, k + zsum (map (proj ax) l), s')).
  { induction l as [|a l IH]; intros y k [cr en]; cbn [fold_left map].
    - exists (cr, en). rewrite app_nil_r. cbn [zsum fold_right]. now rewrite Z.add_0_r.
    - cbv zeta. fold (proj ax a). destruct (proj ax a =? 0); edestruct IH as (s' & ->); exists s'; rewrite <- app_assoc; cbn [app]; (f_equal; f_equal; unfold zsum; cbn [fold_right]; lia). }
  apply (G ax [] 0 (fz o 0, fz o 0)).
Qed.
Lemma largest_range : forall l n best mx, (n <= best < n + len l \/ exists v, In v l /\ flt o mx v = true) -> n <= largest o l n best mx < n + len l.
Proof.
  assert (G : forall l n best mx lo, lo <= best < n + len l -> lo <= n -> lo <= largest o l n best mx < n + len l).
  { induction l as [|v l IH]; intros n best mx lo H Hl; cbn [largest]; [exact H|]. rewrite len_cons in *. pose proof (len_nonneg l). destruct (flt o mx v).
    - pose proof (IH (n + 1) n v lo ltac:(lia) ltac:(lia)). lia.
    - pose proof (IH (n + 1) best mx lo ltac:(lia) ltac:(lia)). lia. }
  induction l as [|v l IH]; intros n best mx H; cbn [largest].
  - destruct H as [H|(v & [] & _)]. exact H.
  - rewrite len_cons in *. pose proof (len_nonneg l). destruct (flt o mx v) eqn:E.
    + pose proof (G l (n + 1) n v n ltac:(lia) ltac:(lia)). lia.
    + destruct H as [H|(w & [<-|Hw] & Hf)]; [|congruence|].
      * pose proof (G l (n + 1) best mx n ltac:(lia) ltac:(lia)). lia.
      * pose proof (IH (n + 1) best mx (or_intror (ex_intro _ w (conj Hw Hf)))). lia.
Qed.
Lemma signed_abs t : forall y, len t = len y -> nonneg y -> SnsProofs.signed (EncSns.signed o t y) y.
Proof.
  induction t as [|v t IH]; intros [|x y] L H; unfold EncSns.signed, SnsProofs.signed; cbn [combine map]; try constructor; rewrite ?len_cons in L.
  - unfold len in L. cbn [length] in L. lia.
  - inversion H; subst. cbv beta in *. destruct (flt o v (fz o 0)); lia.
  - inversion H; subst. apply IH; [lia|assumption].
Qed.
Lemma signed_short t : forall y n, length y = n -> (n <= length t)%nat -> EncSns.signed o t y = EncSns.signed o (firstn n t) y.
Proof.
  unfold EncSns.signed. induction t as [|v t IH]; intros [|x y] [|n] L H; cbn [length firstn combine map] in *; try reflexivity; try lia. f_equal. apply IH; lia.
Qed.

(* some component of set B is not zero *)
Definition set_b (t2 : list F) : Prop := exists n, 10 <= n < 16 /\ flt o f0 (e_abs e (getz f0 t2 n)) = true.
(* shape 0 is the nearest of the four *)
Definition shape_0 (t2 : list F) : Prop :=
  exists y0 y1 y2 y3 i d g v, sns_candidates o e t2 = Ok (y0, y1, y2, y3) /\ choose o e t2 (normalise o y0) (normalise o y1) (normalise o y2) (normalise o y3) = Ok (0, i, d, g, v).
(* what the arithmetic has to provide: the projection onto the pyramid has at most six pulses, none negative, and some component of
   set B is not zero or shape 0 is not chosen *)
Record regular (t2 : list F) : Prop := mkRegular {
  rg_proj : Forall (fun a => 0 <= proj (map (e_abs e) t2) a) (map (e_abs e) t2);
  rg_sum : zsum (map (proj (map (e_abs e) t2)) (map (e_abs e) t2)) <= 6;
  rg_b : set_b t2 \/ ~ shape_0 t2
}.
Lemma set_b_dec t2 : set_b t2 \/ forall n, 10 <= n < 16 -> flt o f0 (e_abs e (getz f0 t2 n)) = false.
Proof.
  destruct (existsb (fun n => flt o f0 (e_abs e (getz f0 t2 n))) [10; 11; 12; 13; 14; 15]) eqn:E.
  - left. apply existsb_exists in E. destruct E as (n & I & H). exists n. split; [cbn [In] in I; lia|exact H].
  - right. intros n Hn. destruct (flt o f0 (e_abs e (getz f0 t2 n))) eqn:B; [|reflexivity]. rewrite <- E. symmetry. apply existsb_exists. exists n. split; [cbn [In]; lia|exact B].
Qed.
Lemma largest_none : forall l n best mx, Forall (fun v => flt o mx v = false) l -> largest o l n best mx = best.
Proof. induction l as [|v l IH]; intros n best mx H; cbn [largest]; [reflexivity|]. inversion_clear H as [|? ? H1 H2]. rewrite H1. now apply IH. Qed.
Lemma nonneg_firstn n l : nonneg l -> nonneg (firstn n l).
Proof. unfold nonneg. intros H. revert n. induction H; intros [|n]; cbn [firstn]; constructor; auto. Qed.
Lemma nonneg_skipn n l : nonneg l -> nonneg (skipn n l).
Proof. unfold nonneg. intros H. revert n. induction H; intros [|n]; cbn [skipn]; auto; constructor; auto. Qed.
Lemma candidates_any t2 : len t2 = 16 -> Forall (fun a => 0 <= proj (map (e_abs e) t2) a) (map (e_abs e) t2) -> zsum (map (proj (map (e_abs e) t2)) (map (e_abs e) t2)) <= 6 -> okp (sns_candidates o e t2) (fun '(y0, y1, y2, y3) =>
  (set_b t2 /\ len y0 = 16 /\ MpvqProofs.pulses (firstn 10 y0) = 10 /\ MpvqProofs.pulses (skipn 10 y0) = 1 \/ ~ set_b t2 /\ MpvqProofs.pulses (skipn 10 y0) = 0 /\ len y0 = 16 /\ 1 <= MpvqProofs.pulses y0 <= 11) /\ len y1 = 10 /\ MpvqProofs.pulses y1 = 10 /\
  len y2 = 16 /\ MpvqProofs.pulses y2 = 8 /\ len y3 = 16 /\ MpvqProofs.pulses y3 = 6).
Proof.
  intros L R1 R2. unfold sns_candidates. set (ax := map (e_abs e) t2) in *. assert (La : len ax = 16) by (unfold ax; now rewrite len_map).
  destruct (project_spec ax) as (s & ->). set (p3 := map (proj ax) ax) in *. assert (N3 : nonneg p3) by (unfold p3, nonneg; rewrite Forall_map; exact R1). assert (L3 : len p3 = 16) by (unfold p3; now rewrite len_map).
  pose proof (zsum_nonneg p3 N3) as S3. destruct (Z.ltb_spec (zsum p3) 0); [lia|]. unfold add_pulses.
  eapply okp_bind; [apply pulses_ok; try lia; exact N3|]. intros [y3 s3] (A1 & A2 & A3). cbv beta iota in *.
  eapply okp_bind; [apply pulses_ok; try lia; exact A2|]. intros [y2 [cr en]] (B1 & B2 & B3). cbv beta iota in *.

  rewrite !sub_eq by lia. cbn [bind]. change (skipn (Z.to_nat 0) y2) with y2. change (Z.to_nat (10 - 0)) with 10%nat. change (Z.to_nat 10) with 10%nat. change (Z.to_nat (16 - 10)) with 6%nat.
  assert (T6 : firstn 6 (skipn 10 y2) = skipn 10 y2) by (apply firstn_all2; rewrite skipn_length; unfold len in *; lia).
  assert (U6 : firstn 6 (skipn 10 ax) = skipn 10 ax) by (apply firstn_all2; rewrite skipn_length; unfold len in *; lia). rewrite T6, U6. clear T6 U6.
  set (k := 8 - zsum (skipn 10 y2)). cbv zeta.
  assert (Z10 : zsum (firstn 10 y2) = k) by (pose proof (zsum_app (firstn 10 y2) (skipn 10 y2)) as Z; rewrite firstn_skipn in Z; unfold k; lia).
  pose proof (zsum_nonneg _ (nonneg_firstn 10 y2 B2)) as K0. pose proof (zsum_nonneg _ (nonneg_skipn 10 y2 B2)) as K1. destruct (Z.ltb_spec k 0); [lia|].
  assert (L10 : len (firstn 10 y2) = 10) by (unfold len in *; rewrite firstn_length; lia).
  eapply okp_bind; [apply pulses_ok; try lia; apply nonneg_firstn, B2|]. intros [y1 s1] (C1 & C2 & C3). cbv beta iota in *.
  set (b := largest o (skipn 10 ax) 10 0 (fz o 0)).
  assert (Lk : len (skipn 10 ax) = 6) by (unfold len in *; rewrite skipn_length; lia).
  pose proof (signed_abs t2 y2 ltac:(lia) B2) as G2. pose proof (signed_abs t2 y3 ltac:(lia) A2) as G3.
  pose proof (signed_abs (firstn 10 t2) y1 ltac:(unfold len in *; rewrite firstn_length; lia) C2) as G1.
  assert (Ly : len (y1 ++ repeat 0 6) = 16) by (rewrite len_app, len_repeat; lia). assert (HL : length y1 = 10%nat) by (unfold len in *; lia).
  destruct (set_b_dec t2) as [SB|SB].
  - pose proof SB as (nB & R3 & R4).
    assert (Hb : 10 <= b < 16).
    { pose proof (largest_range (skipn 10 ax) 10 0 (fz o 0)) as G. rewrite Lk in G. apply G. right. exists (e_abs e (getz f0 t2 nB)). split; [|exact R4].
      replace (e_abs e (getz f0 t2 nB)) with (nth (Z.to_nat (nB - 10)) (skipn 10 ax) (e_abs e f0)).
      - apply nth_In. unfold len in Lk. lia.
      - rewrite nth_skipn. unfold ax. rewrite map_nth. unfold getz. f_equal. f_equal. lia. }
    assert (Ep : put (y1 ++ repeat 0 6) b 1 = Ok (upd (y1 ++ repeat 0 6) (Z.to_nat b) 1)) by (rewrite <- store_ok by lia; reflexivity).
    rewrite Ep. cbn [bind]. set (y0 := upd (y1 ++ repeat 0 6) (Z.to_nat b) 1).
    assert (F10 : firstn 10 y0 = y1 /\ skipn 10 y0 = upd (repeat 0 6) (Z.to_nat (b - 10)) 1).
    { unfold y0. replace (Z.to_nat b) with (length y1 + Z.to_nat (b - 10))%nat by lia. rewrite upd_app_r.
      rewrite firstn_app, skipn_app, HL, Nat.sub_diag, firstn_all2, skipn_all2 by lia. cbn [firstn skipn app]. now rewrite app_nil_r. }
    destruct F10 as [F10 S10].
    assert (N6 : nonneg (upd (repeat 0 6) (Z.to_nat (b - 10)) 1)) by (apply upd_nonneg; [apply Forall_forall; intros v Hv; apply repeat_spec in Hv; lia|lia]).
    assert (Z6 : zsum (upd (repeat 0 6) (Z.to_nat (b - 10)) 1) = 1) by (rewrite upd_zsum by (rewrite repeat_length; lia); rewrite nth_repeat, zsum_zeros; reflexivity).
    assert (N0 : nonneg y0) by (rewrite <- (firstn_skipn 10 y0), F10, S10; apply Forall_app; split; assumption).
    assert (L0 : len y0 = 16) by (unfold y0, len in *; rewrite upd_length; exact Ly).
    apply okp_ok. pose proof (signed_abs t2 y0 ltac:(lia) N0) as G0. rewrite (signed_short t2 y1 10) by (unfold len in *; lia).
    destruct (signed_app _ _ 10 G0) as [G01 G02]. rewrite F10 in G01. rewrite S10 in G02. unfold len in *.
    rewrite (signed_len _ _ G0), (signed_len _ _ G1), (signed_len _ _ G2), (signed_len _ _ G3), (signed_pulses _ _ G01), (signed_pulses _ _ G02), (signed_pulses _ _ G1), (signed_pulses _ _ G2), (signed_pulses _ _ G3). split; [left; split; [exact SB|lia]|lia].
  - assert (Hb : b = 0).
    { apply largest_none. apply Forall_forall. intros v Hv. destruct (In_nth _ _ (e_abs e f0) Hv) as (j & Hj & <-). rewrite nth_skipn. unfold ax. rewrite map_nth. unfold len in Lk. specialize (SB (10 + Z.of_nat j) ltac:(lia)). unfold getz in SB. replace (Z.to_nat (10 + Z.of_nat j)) with (10 + j)%nat in SB by lia. exact SB. }
    rewrite Hb. assert (Ep : put (y1 ++ repeat 0 6) 0 1 = Ok (upd (y1 ++ repeat 0 6) (Z.to_nat 0) 1)) by (rewrite <- store_ok by lia; reflexivity). change (Z.to_nat 0) with 0%nat in Ep.
    rewrite Ep. cbn [bind]. set (y0 := upd (y1 ++ repeat 0 6) 0 1).
    assert (S10 : skipn 10 y0 = repeat 0 6) by (unfold y0; clear -HL; do 10 (destruct y1 as [|? y1]; [discriminate HL|]); destruct y1; [reflexivity|discriminate HL]).
    assert (N0 : nonneg y0) by (unfold y0; apply upd_nonneg; [apply Forall_app; split; [exact C2|apply Forall_forall; intros v Hv; apply repeat_spec in Hv; lia]|lia]).
    assert (L0 : len y0 = 16) by (unfold y0, len in *; rewrite upd_length; exact Ly).
    apply okp_ok. pose proof (signed_abs t2 y0 ltac:(lia) N0) as G0. rewrite (signed_short t2 y1 10) by (unfold len in *; lia).
    destruct (signed_app _ _ 10 G0) as [_ G02]. rewrite S10 in G02. unfold len in *.
    assert (Z0 : 1 <= zsum y0 <= 11).
    { unfold y0. rewrite upd_zsum by lia. rewrite zsum_app, zsum_zeros. pose proof (zsum_nonneg y1 C2) as Z1. clear -HL C2 C3 Z1 Z10 H0 L10 K0 K1. destruct y1 as [|h y1]; [discriminate HL|]. inversion_clear C2 as [|? ? P1 P2]. pose proof (zsum_nonneg y1 P2). change (zsum (h :: y1)) with (h + zsum y1) in *. cbn [app nth]. lia. }
    rewrite (signed_len _ _ G0), (signed_len _ _ G1), (signed_len _ _ G2), (signed_len _ _ G3), (signed_pulses _ _ G0), (signed_pulses _ _ G02), (signed_pulses _ _ G1), (signed_pulses _ _ G2), (signed_pulses _ _ G3). split; [right; split; [|split; [reflexivity|lia]]|lia].
    intros (n & Hn & B). rewrite (SB n Hn) in B. discriminate B.
Qed.

Lemma candidates_ok t2 : len t2 = 16 -> regular t2 -> set_b t2 -> okp (sns_candidates o e t2) (fun '(y0, y1, y2, y3) =>
  len y0 = 16 /\ MpvqProofs.pulses (firstn 10 y0) = 10 /\ MpvqProofs.pulses (skipn 10 y0) = 1 /\ len y1 = 10 /\ MpvqProofs.pulses y1 = 10 /\
  len y2 = 16 /\ MpvqProofs.pulses y2 = 8 /\ len y3 = 16 /\ MpvqProofs.pulses y3 = 6).
Proof. intros L [R1 R2 _] SB. eapply okp_weaken; [apply (candidates_any t2 L R1 R2)|]. intros [[[y0 y1] y2] y3] [[(_ & A)|(N & _)] B]; [tauto|now elim N]. Qed.

(* ---- choice ---- *)
Definition range (j i : Z) : Prop := 0 <= j < 4 /\ 0 <= i < g_maxind j.
Lemma choose_gain_range t2 xq j : 0 <= j < 4 -> forall gains i s, 0 <= i -> i + len gains <= g_maxind j -> (let '(a, b, _, _, _) := s in range a b) ->
  let '(a, b, _, _, _) := choose_gain o t2 xq j i gains s in range a b.
Proof.
  intros Hj. induction gains as [|g gains IH]; intros i s Hi Hg Hs; cbn [choose_gain]; [exact Hs|]. rewrite len_cons in Hg. pose proof (len_nonneg gains).
  destruct s as [[[[a b] mn] g0] v]. apply IH; [lia|lia|]. destruct (flt o _ mn); [unfold range; lia|exact Hs].
Qed.
Lemma choose_ok t2 x0 x1 x2 x3 : okp (choose o e t2 x0 x1 x2 x3) (fun '(j, i, _, _, _) => range j i).
Proof.
  unfold choose. apply okp_ok.
  apply (choose_gain_range _ _ 3); [lia|lia|vm_compute; congruence|]. apply (choose_gain_range _ _ 2); [lia|lia|vm_compute; congruence|].
  apply (choose_gain_range _ _ 1); [lia|lia|vm_compute; congruence|]. apply (choose_gain_range _ _ 0); [lia|lia|vm_compute; congruence|]. unfold range. cbn. lia.
Qed.

(* the parameters mean something to the decoder *)
Record sr_legal (r : sns_result) : Prop := mkSrLegal {
  sg_q : exists q, sns_legal q /\ sr_lf r = q_ind_lf q /\ sr_hf r = q_ind_hf q /\ sr_shape r = 2 * q_submode_msb q + q_submode_lsb q /\ sr_gind r = q_g_ind q /\
    sr_lsa r = q_ls_inda q /\ sr_joint r = sns_joint q
}.
(* a set B with no pulse: the leading sign stays at the sentinel *)
Lemma no_pulse y : len y = 6 -> MpvqProofs.pulses y = 0 -> mvpq_enum 6 y = Ok (0, -2147483648).
Proof.
  intros L P. assert (y = repeat 0 6) as ->; [|reflexivity].
  assert (G : forall l, 0 <= MpvqProofs.pulses l /\ (MpvqProofs.pulses l = 0 -> l = repeat 0 (length l))).
  { induction l as [|v l [I1 I2]]; [split; [cbn; lia|reflexivity]|]. change (MpvqProofs.pulses (v :: l)) with (Z.abs v + MpvqProofs.pulses l). split; [lia|]. intros H. cbn [length repeat]. f_equal; [lia|apply I2; lia]. }
  rewrite (proj2 (G y) P). unfold len in L. now replace (length y) with 6%nat by lia.
Qed.
Lemma quant_stuck scf lf hf st1 r1 rs : sns_stage1 o e scf = Ok (lf, hf, st1, r1) -> let t2 := sns_rotate o r1 in
  Forall (fun a => 0 <= proj (map (e_abs e) t2) a) (map (e_abs e) t2) -> zsum (map (proj (map (e_abs e) t2)) (map (e_abs e) t2)) <= 6 -> ~ set_b t2 -> shape_0 t2 -> sns_quant o e scf <> Ok rs.
Proof.
  intros E t2 R1 R2 NB (y0 & y1 & y2 & y3 & i & d & g & v & E1 & E2) H. unfold sns_quant in H. rewrite E in H. cbn [bind] in H. cbv zeta in H. fold t2 in H. rewrite E1 in H. cbn [bind] in H. rewrite E2 in H. cbn [bind] in H.
  destruct (candidates_any t2 (rotate_len r1) R1 R2) as ([[[z0 z1] z2] z3] & E3 & [(SB & _)|(_ & P & L0 & _)] & _); [now elim NB|]. rewrite E1 in E3. assert (y0 = z0) by congruence. subst z0.
  unfold joint_index in H. cbn [Z.eqb] in H. destruct (mvpq_enum 10 y0) as [[ia la]| |]; cbn [bind] in H; try discriminate H. rewrite no_pulse in H; [discriminate H|unfold len in *; rewrite skipn_length; lia|exact P].
Qed.
Lemma quant_ok scf : len scf = 16 -> (forall lf hf st1 r1, sns_stage1 o e scf = Ok (lf, hf, st1, r1) -> regular (sns_rotate o r1)) ->
  okp (sns_quant o e scf) (fun '(r, s) => sr_legal r /\ len s = 16).
Proof.
  intros L R. unfold sns_quant. destruct (stage1_ok scf L) as ([[[lf hf] st1] r1] & E & H1 & H2 & H3 & H4). specialize (R _ _ _ _ E). rewrite E. cbn [bind]. cbv zeta. clear E.
  set (t2 := sns_rotate o r1) in *. destruct R as [R1 R2 RB]. destruct (candidates_any t2 (rotate_len r1) R1 R2) as ([[[y0 y1] y2] y3] & EC & P0 & L1 & P1 & L2 & P2 & L3 & P3). rewrite EC. cbn [bind].
  destruct (choose_ok t2 (normalise o y0) (normalise o y1) (normalise o y2) (normalise o y3)) as ([[[[j i] mn] g] xq] & E & Rj & Ri). rewrite E. cbn [bind].
  assert (J0 : j = 0 -> len y0 = 16 /\ MpvqProofs.pulses (firstn 10 y0) = 10 /\ MpvqProofs.pulses (skipn 10 y0) = 1).
  { intros ->. destruct P0 as [(_ & P0)|(NB & _)]; [exact P0|]. destruct RB as [SB|S0]; [now elim NB|]. elim S0. exists y0, y1, y2, y3, i, mn, g, xq. auto. }
  clear P0 E EC RB.
  pose proof (g_maxind_table j Rj) as G.
  set (y := if j =? 0 then y0 else if j =? 1 then y1 ++ repeat 0 6 else if j =? 2 then y2 else y3).
  assert (F1 : firstn 10 (y1 ++ repeat 0 6) = y1 /\ skipn 10 (y1 ++ repeat 0 6) = repeat 0 6).
  { assert (HL : length y1 = 10%nat) by (unfold len in L1; lia). rewrite firstn_app, skipn_app, HL, Nat.sub_diag, <- HL, firstn_all, skipn_all. cbn [firstn skipn]. now rewrite app_nil_r. }
  assert (SV : shape_vec j y).
  { unfold shape_vec, y. destruct (Z.eqb_spec j 0) as [J|]; [destruct (J0 J) as (L0 & PA & PB); auto 6|]. destruct (Z.eqb_spec j 1); [|destruct (Z.eqb_spec j 2)].
    - destruct F1 as [F1 F2]. rewrite F1, F2, len_app, L1. split; [reflexivity|auto 6].
    - auto 6.
    - split; [exact L3|]. right. right. right. split; [lia|exact P3]. }
  assert (Q0 : j = 0 -> y0 = y) by (intros ->; reflexivity).
  assert (Q1 : j = 1 -> y1 = firstn 10 y) by (intros ->; symmetry; exact (proj1 F1)).
  assert (Q2 : j = 2 -> y2 = y) by (intros ->; reflexivity).
  assert (Q3 : j = 3 -> y3 = y) by (intros ->; reflexivity).
  destruct (joint_round_trip j i y0 y1 y2 y3 y lf hf ltac:(lia) H1 H2 SV Q0 Q1 Q2 Q3) as (ji & la & lb & q & EJ & A1 & A2 & A3 & A4 & A5 & A6 & A7 & A8).
  rewrite EJ. cbn [bind]. apply okp_ok. split; [|rewrite len_map, len_combine, H3; reflexivity].
  constructor. exists q. cbn [sr_lf sr_hf sr_shape sr_gind sr_lsa sr_joint]. split; [exact A1|]. repeat split; congruence.
Qed.

Lemma interpolate_ok q : len q = 16 -> okp (sns_interpolate o q) (fun s => len s = 64).
Proof.
  intros L. unfold sns_interpolate. rewrite L. cbn [Z.eqb Pos.eqb assert bind]. cbv zeta. okstep; [lia|]. okstep; [rewrite len_repeat; lia|]. rewrite len_repeat in H0. okstep; [lia|].
  eapply okp_bind with (P := fun l => len l = 64).
  { apply (okp_for (fun l => len l = 64)); [lia|]. intros j s Hj Hs. okstep; [lia|]. okstep; [lia|]. okstep; [lia|]. okstep; [lia|]. okstep; [lia|]. eapply okp_weaken; [apply okp_put; lia|]. intros; liab. }
  intros l Ll. cbv beta in Ll. okstep; [lia|]. okstep; [lia|]. okstep; [lia|]. eapply okp_weaken; [apply okp_put; lia|]. intros; liab.
Qed.
Lemma apply_ok edges gains (lines : list F) last : edges_ok edges (len gains) last -> last <= len lines -> okp (sns_apply o edges gains lines) (fun l => len l = len lines).
Proof.
  intros E Hl. pose proof (edges_mono _ _ _ E) as M. destruct E as (L & Z0 & ZL & S). unfold sns_apply. apply (okp_for (fun l => len l = len lines)); [reflexivity|].
  intros b l Hb Ll. okstep; [lia|]. rewrite (idx_get 0 edges b), (idx_get 0 edges (b + 1)) by lia. cbn [bind].
  pose proof (M 0 b ltac:(lia) ltac:(lia)). pose proof (M b (b + 1) ltac:(lia) ltac:(lia)). pose proof (M (b + 1) (len gains) ltac:(lia) ltac:(lia)).
  okstep; [lia|lia|]. apply (okp_for (fun l => len l = len lines)); [exact Ll|]. intros n l' Hn Ll'. okstep; [lia|]. eapply okp_weaken; [apply okp_put; lia|]. intros; liab.
Qed.

(* the rotated residual of the scale factors of a frame *)
Definition sns_regular (c : config) (eb : list F) (attack : bool) : Prop :=
  forall scf lf hf st1 r1, sns_scale_factors o e c eb attack = Ok scf -> sns_stage1 o e scf = Ok (lf, hf, st1, r1) -> regular (sns_rotate o r1).
Theorem sns_encode_ok c lines eb attack : legal_config c -> nb c = 64 -> len lines = ne c -> len eb = 64 -> sns_regular c eb attack ->
  okp (sns_encode o e c lines eb attack) (fun '(r, l) => sr_legal r /\ len l = ne c).
Proof.
  intros Lc Nb Ll Le R. unfold sns_encode. rewrite Ll, Z.eqb_refl. cbn [assert bind].
  destruct (scale_factors_ok c eb attack Lc Nb Le) as (scf & E & Ls). rewrite E. cbn [bind].
  eapply okp_bind; [apply (quant_ok scf Ls); intros lf hf st1 r1 E1; exact (R _ _ _ _ _ E E1)|]. intros [r sq] [Hr Lq]. cbv beta iota in *.
  eapply okp_bind; [apply interpolate_ok, Lq|]. intros s Lsi. cbv beta in Lsi. unfold sns_narrow. rewrite Nb. unfold usub. change (64 <? 64) with false. cbn [bind]. change (0 <? 64 - 64) with false. cbv iota. cbn [bind].
  pose proof Lc as (f & d & Ec). destruct (band_table_ok f d) as (edges & E3 & B). rewrite <- Ec in *. rewrite E3. cbn [bind].
  eapply okp_bind; [apply (apply_ok edges _ lines (ne c)); [rewrite len_map, Lsi, <- Nb; exact B|lia]|]. intros l Hl. cbv beta in Hl. apply okp_ok. split; [exact Hr|lia].
Qed.
End SnsOk.
