(* C57: rate control of the encoder in exact arithmetic. *)
From Coq Require Import ZArith List Bool Lia ZifyBool Reals Lra.
From Flocq Require Import Core.
From Verif Require Import Base Config Loops Scalar EncScalar BufLemmas MdctSpec DecTotal ParseBase DetectSpec DctSpec LineSpec EncQuant QuantSpec RealOps EncF32 QuantReal RateSpec PropertiesQuant.
From Coq Require Import List.
Import ListNotations.
Local Open Scope R_scope.

(* ---- levels ---- *)
Lemma R_floor23 : flit R_ops (11920928955078125, -23)%Z = / 2 ^ 23.
Proof. unfold R_ops, flit, R_lit, fst, snd, powerRZ. change (Pos.to_nat 23) with 23%nat. rewrite <- !pow_inv. lra. Qed.
Lemma quads_spec en : forall x f, (4 * len en <= len x)%Z -> (forall i, (0 <= i < len x)%Z -> f i = getz 0 x i) ->
  len (spectral_energy R_ops R_eops en x) = len en /\ forall k, (0 <= k < len en)%Z -> getz 0 (spectral_energy R_ops R_eops en x) k = quad_db f k.
Proof.
  induction en as [|a en IH]; intros x f L Hf; [split; [reflexivity|intros k Hk; change (len []) with 0%Z in Hk; lia]|].
  rewrite len_cons in L. pose proof (len_nonneg en) as P.
  destruct x as [|x0 [|x1 [|x2 [|x3 x]]]]; rewrite ?len_cons in L; change (len (@nil R)) with 0%Z in L; try lia. cbn [spectral_energy]. rewrite !len_cons in Hf.
  destruct (IH x (fun i => f (i + 4)%Z) ltac:(lia)) as [I1 I2].
  { intros i Hi. rewrite Hf by lia. replace (i + 4)%Z with (i + 1 + 1 + 1 + 1)%Z by lia. rewrite !getz_cons_S by lia. reflexivity. }
  split; [rewrite !len_cons, I1; reflexivity|]. intros k Hk. rewrite len_cons in Hk. destruct (Z.eq_dec k 0) as [->|NE].
  - rewrite getz_cons_0. unfold quad_db, log10. rewrite R_floor23. cbn [R_ops R_eops fz fadd fmul e_log10]. unfold rsum; cbn [Nat.add]. 
    pose proof (len_nonneg x). rewrite !Hf by lia. rewrite Rplus_0_l. reflexivity.
  - replace k with (k - 1 + 1)%Z at 1 by lia. rewrite getz_cons_S by lia. rewrite I2 by lia. unfold quad_db. do 3 f_equal. apply rsum_ext. intros i Hi. cbv beta. replace (4 * (k - 1) + i + 4)%Z with (4 * k + i)%Z by lia. reflexivity.
Qed.

(* ---- cost ---- *)
Definition nil_b {A} (l : list A) : bool := match l with [] => true | _ => false end.
Definition cost_step (g : R) (s : R * bool) (x : R) : R * bool :=
  let '(t, z) := s in if Rlt_dec (7 / 5 * x - g) 0 then ((if z then t else t + 189 / 50), z) else (t + quad_cost g x, false).
Lemma cost_on g l : forall t, fold_left (cost_step g) l (t, false) = (t + total (map (quad_cost g) l), false).
Proof.
  induction l as [|x l IH]; intros t; cbn [fold_left map total]; [f_equal; lra|]. unfold cost_step at 2. destruct (Rlt_dec (7 / 5 * x - g) 0) as [H|H]; rewrite IH; f_equal.
  - unfold quad_cost at 2. destruct (Rlt_dec _ 0); [lra|contradiction].
  - lra.
Qed.
Lemma cost_from g l : fold_left (cost_step g) l (0, true) = (total (map (quad_cost g) (drop_quiet g l)), nil_b (drop_quiet g l)).
Proof.
  induction l as [|x l IH]; cbn [fold_left drop_quiet]; [reflexivity|]. unfold cost_step at 2. destruct (Rlt_dec (7 / 5 * x - g) 0) as [H|H]; [exact IH|]. rewrite cost_on. cbn [map total nil_b]. f_equal. lra.
Qed.
Lemma fold_ext {A B} (f g : A -> B -> A) l : (forall a b, f a b = g a b) -> forall a, fold_left f l a = fold_left g l a.
Proof. intros H. induction l as [|b l IH]; intros a; cbn [fold_left]; [reflexivity|]. rewrite H. apply IH. Qed.
Lemma lit27 : flit R_ops (27, -1)%Z = 27 / 10.
Proof. unfold R_ops, flit, R_lit, fst, snd, powerRZ. change (Pos.to_nat 1) with 1%nat. cbn [pow]. lra. Qed.
Lemma lit14 : flit R_ops (14, -1)%Z = 14 / 10.
Proof. unfold R_ops, flit, R_lit, fst, snd, powerRZ. change (Pos.to_nat 1) with 1%nat. cbn [pow]. lra. Qed.
Lemma lit8 : flit R_ops (8, -1)%Z = 8 / 10.
Proof. unfold R_ops, flit, R_lit, fst, snd, powerRZ. change (Pos.to_nat 1) with 1%nat. cbn [pow]. lra. Qed.
Lemma lit2 : flit R_ops (2, -1)%Z = 2 / 10.
Proof. unfold R_ops, flit, R_lit, fst, snd, powerRZ. change (Pos.to_nat 1) with 1%nat. cbn [pow]. lra. Qed.
Lemma gain_cost_real g en : gain_cost R_ops g en = (frame_cost g en, nil_b (drop_quiet g (rev en))).
Proof.
  unfold gain_cost, frame_cost. rewrite <- cost_from. apply fold_ext. intros [t z] x. unfold cost_step, twentieths. rewrite lit27. cbn [R_ops fz flt fsub fmul fdiv fadd].
  unfold quad_cost. destruct (Rlt_dec (7 / 5 * x - g) 0) as [H|H].
  - rewrite Rlt_bool_true by lra. destruct z; [reflexivity|]. f_equal. lra.
  - rewrite Rlt_bool_false by lra. destruct (Rlt_dec (301 / 5) (7 / 5 * x - g)) as [K|K].
    + rewrite Rlt_bool_true by lra. f_equal. lra.
    + rewrite Rlt_bool_false by lra. f_equal. lra.
Qed.

(* ---- bisection ---- *)
Definition too_dear (es : list R) (off bits k : Z) : Prop := 49 / 25 * IZR bits < frame_cost (IZR (k + off)) es.
Lemma too_dear_below es off bits k k' : (k <= k')%Z -> too_dear es off bits k' -> too_dear es off bits k.
Proof. unfold too_dear. intros H K. refine (Rlt_le_trans _ _ _ K _). apply frame_cost_le. apply IZR_le. lia. Qed.
Lemma gain_search_real es off bits : (0 <= bits)%Z -> forall n gg, let g := gain_search R_ops n (2 ^ Z.of_nat n) gg off bits es in
  (gg - (2 ^ Z.of_nat n - 1) <= g <= gg)%Z /\ (forall k, (gg - (2 ^ Z.of_nat n - 1) <= k < g)%Z -> too_dear es off bits k) /\ ((g < gg)%Z -> ~ too_dear es off bits g).
Proof.
  intros Hb. induction n as [|n IH]; intros gg; [change (2 ^ Z.of_nat 0)%Z with 1%Z; cbn [gain_search]; cbv zeta; split; [lia|]; split; intros; lia|].
  assert (P : (2 ^ Z.of_nat (S n) = 2 * 2 ^ Z.of_nat n)%Z) by (rewrite Nat2Z.inj_succ, Z.pow_succ_r by lia; reflexivity). assert (P2 : (0 < 2 ^ Z.of_nat n)%Z) by (apply Z.pow_pos_nonneg; lia).
  rewrite P. cbn [gain_search]. replace (2 * 2 ^ Z.of_nat n / 2)%Z with (2 ^ Z.of_nat n)%Z by (rewrite Z.mul_comm, Z.div_mul by lia; reflexivity). set (m := (2 ^ Z.of_nat n)%Z) in *. clearbody m.
  rewrite gain_cost_real, lit14. cbn [R_ops fz flt fsub fmul fdiv fadd]. fold R_ops. rewrite <- plus_IZR.
  assert (D : Rlt_bool (IZR bits * (14 / 10) * 28 / 20) (frame_cost (IZR (gg - m + off)) es) && negb (nil_b (drop_quiet (IZR (gg - m + off)) (rev es))) = true <-> too_dear es off bits (gg - m)).
  { unfold too_dear. rewrite andb_true_iff. split.
    - intros [A _]. destruct (Rlt_bool_spec (IZR bits * (14 / 10) * 28 / 20) (frame_cost (IZR (gg - m + off)) es)); [lra|discriminate].
    - intros A. split; [apply Rlt_bool_true; lra|]. unfold frame_cost in A. destruct (drop_quiet _ _); [|reflexivity]. cbn [map total] in A. apply IZR_le in Hb. lra. }
  destruct (_ && _).
  - assert (DD := proj1 D eq_refl). destruct (IH (gg - m + m)%Z) as (I1 & I2 & I3). cbv zeta. split; [lia|]. split; [|intros; apply I3; lia]. intros k Hk. destruct (Z.le_gt_cases (gg - (m - 1)) k); [apply I2; lia|]. apply too_dear_below with (gg - m)%Z; [lia|exact DD].
  - assert (DD : ~ too_dear es off bits (gg - m)) by (intros A; apply D in A; discriminate). destruct (IH (gg - m)%Z) as (I1 & I2 & I3). cbv zeta. split; [lia|]. split; [intros; apply I2; lia|]. intros H. match goal with |- ~ too_dear _ _ _ ?g => destruct (Z.eq_dec g (gg - m)) as [-> |NE]; [exact DD|apply I3; lia] end.
Qed.
Lemma search_affordable es off bits : (0 <= bits)%Z -> smallest_affordable es off bits (gain_search R_ops 8 256 255 off bits es).
Proof.
  intros Hb. destruct (gain_search_real es off bits Hb 8 255) as (H1 & H2 & H3). change (2 ^ Z.of_nat 8)%Z with 256%Z in *. split; [lia|]. split; [intros k Hk; apply H2; lia|].
  intros H. apply H3 in H. unfold too_dear in H. lra.
Qed.

(* ---- parameters ---- *)
Lemma R_fmin a b : fmin R_ops a b = Rmin a b.
Proof.
  unfold fmin. cbn [R_ops feq flt]. rewrite !Req_bool_true by reflexivity. unfold Rmin. destruct (Rle_dec a b) as [H|H].
  - rewrite Rlt_bool_false by lra. reflexivity.
  - rewrite Rlt_bool_true by lra. reflexivity.
Qed.
Lemma correction_range rs prev spec est : -40 <= prev <= 40 -> -40 <= correction rs prev spec est <= 40.
Proof.
  intros H. unfold correction. destruct rs; [lra|]. set (v := Rmin 40 _). assert (-40 <= v <= 40); [|lra]. unfold v.
  split; [apply Rmin_glb; [lra|apply Rmax_l]|apply Rmin_l].
Qed.
Lemma gain_params_real q B : (0 <= B < 4096)%Z -> -40 <= eq_offset q <= 40 ->
  let c := correction (eq_reset q) (eq_offset q) (eq_spec_old q) (eq_est q) in gain_params R_ops q B = (c, aim B c).
Proof.
  intros HB Ho c. pose proof (correction_range (eq_reset q) (eq_offset q) (eq_spec_old q) (eq_est q) Ho) as R. unfold gain_params. rewrite R_fmin, R_fmax, R_half, lit8, lit2. cbn [R_ops fz fsub fmul fdiv fadd].
  match goal with |- (?v, _) = _ => replace v with c end; [|unfold c, correction; destruct (eq_reset q); [reflexivity|]; lra].
  fold c in R. f_equal. unfold as_u16, aim. cbn [f_i32 R_ops]. set (y := IZR B + c + / 2). assert (Y : -40 <= y <= 4137). { unfold y. assert (0 <= IZR B <= 4096) by (split; apply IZR_le; lia). lra. }
  destruct (Rle_lt_dec 0 y) as [P|P].
  - rewrite Ztrunc_floor by exact P. assert (0 <= Zfloor y)%Z by (apply Zfloor_lub; exact P). assert (Zfloor y <= 4137)%Z by (apply le_IZR; pose proof (Zfloor_lb y); lra). lia.
  - rewrite Ztrunc_ceil by lra. assert (Zceil y <= 0)%Z by (apply Zceil_glb; lra). assert (Zfloor y <= 0)%Z by (apply le_IZR; pose proof (Zfloor_lb y); lra). lia.
Qed.
Lemma peak_getz x f ne B : len x = ne -> (forall i, (0 <= i < ne)%Z -> f i = getz 0 x i) -> 0 <= B -> (peak R_ops R_eops x <= B <-> forall i, (0 <= i < ne)%Z -> Rabs (f i) <= B).
Proof.
  intros L Hf HB. destruct (R_peak x) as (P0 & P1 & P2). split.
  - intros H i Hi. rewrite Hf by exact Hi. rewrite Forall_forall in P1. refine (Rle_trans _ _ _ (P1 _ _) H). unfold getz. apply nth_In. unfold len in L. lia.
  - intros H. apply P2; [exact HB|]. apply Forall_forall. intros v Hv. apply (In_nth _ _ 0) in Hv. destruct Hv as (n & Hn & <-). specialize (H (Z.of_nat n) ltac:(unfold len in L; lia)). rewrite Hf in H by (unfold len in L; lia). unfold getz in H. rewrite Nat2Z.id in H. exact H.
Qed.
Lemma gain_pos k : 0 < gain k. Proof. unfold gain, Rpower. apply exp_pos. Qed.
Lemma floor_fitting x f ne off : len x = ne -> (forall i, (0 <= i < ne)%Z -> f i = getz 0 x i) -> (-245 <= off < 0)%Z -> (gain_floor R_ops R_eops x off <= 32000)%Z ->
  smallest_fitting f ne off (gain_floor R_ops R_eops x off).
Proof.
  intros L Hf Ho G k Hk. pose proof (gain_pos (k + off)) as GP. assert (T : 0 <= top * gain (k + off)) by (apply Rmult_le_pos; [unfold top|]; lra). fold top. split.
  - intros H. destruct (Z.le_gt_cases k 32000) as [K|K]; [|lia]. apply gain_floor_le; [exact Ho|lia|]. apply (peak_getz x f ne _ L Hf T) in H. destruct (R_peak x) as (_ & P1 & _). eapply Forall_impl; [|exact P1]. cbv beta. intros v Hv. unfold gain in H. lra.
  - intros H. apply (peak_getz x f ne _ L Hf T). apply gain_floor_enough; [exact Ho|lia|exact H].
Qed.
Lemma silent_peak x f ne : len x = ne -> (forall i, (0 <= i < ne)%Z -> f i = getz 0 x i) -> (silent f ne <-> peak R_ops R_eops x = 0).
Proof.
  intros L Hf. destruct (R_peak x) as (P0 & _ & _). pose proof (peak_getz x f ne 0 L Hf (Rle_refl 0)) as Q. split.
  - intros S. apply Rle_antisym; [|exact P0]. apply Q. intros i Hi. rewrite (S i Hi), Rabs_R0. lra.
  - intros E i Hi. rewrite E in Q. pose proof (proj1 Q (Rle_refl 0) i Hi) as A. pose proof (Rabs_pos (f i)). destruct (Req_dec (f i) 0) as [Z0|NZ]; [exact Z0|]. apply Rabs_pos_lt in NZ. lra.
Qed.
Lemma gain_limit_real chk x f ne off g : len x = ne -> (forall i, (0 <= i < ne)%Z -> f i = getz 0 x i) -> (-245 <= off < 0)%Z -> (gain_floor R_ops R_eops x off <= 32000)%Z -> (0 <= g <= 255)%Z ->
  exists (rs : bool) (gmin : Z), gain_limit R_ops R_eops chk x off g = Ok (rs, gmin, if rs then gmin else g) /\ gmin = gain_floor R_ops R_eops x off /\ (rs = true <-> silent f ne \/ (g < gmin)%Z) /\ (silent f ne -> gmin = 0%Z).
Proof.
  intros L Hf Ho G Hg. unfold gain_limit. fold (peak R_ops R_eops x). pose proof (silent_peak x f ne L Hf) as S. destruct (R_peak x) as (P0 & _ & _). unfold gain_floor in *.
  change (flt R_ops (fz R_ops 0) (peak R_ops R_eops x)) with (Rlt_bool 0 (peak R_ops R_eops x)) in *. change (feq R_ops (peak R_ops R_eops x) (fz R_ops 0)) with (Req_bool (peak R_ops R_eops x) 0).
  destruct (Rlt_bool_spec 0 (peak R_ops R_eops x)) as [P|P].
  - set (v := as_i16 _ _) in *. assert (V : (-32768 <= v)%Z) by (unfold v, as_i16; lia). unfold i16c.
    destruct (Z.leb_spec (-32768) (v - off)); [|lia]. destruct (Z.leb_spec (v - off) 32767); [|lia]. cbn [andb bind]. rewrite Req_bool_false by lra. rewrite orb_false_r.
    exists (g <? v - off)%Z, (v - off)%Z. split; [destruct (g <? v - off)%Z; reflexivity|]. split; [reflexivity|]. split; [|intros A; apply S in A; lra]. destruct (Z.ltb_spec g (v - off)); split; try tauto; try discriminate. intros [A|A]; [apply S in A; lra|lia].
  - cbn [bind]. rewrite Req_bool_true by lra. rewrite orb_true_r. exists true, 0%Z. split; [reflexivity|]. split; [reflexivity|]. split; [|reflexivity]. split; [intros _; left; apply S; lra|reflexivity].
Qed.

(* ---- quantiser ---- *)
Lemma quantise_line_real g v : 0 < g -> Rabs v <= (32768 - 3 / 8) * g -> quantise_line R_ops g v = line_index g v.
Proof.
  intros Hg Hv. assert (Y : Rabs v / g <= 32768 - 3 / 8) by (apply Rmult_le_reg_r with g; [exact Hg|]; unfold Rdiv; rewrite Rmult_assoc, Rinv_l by lra; lra).
  unfold quantise_line, fge, as_i16, line_index. cbn [R_ops flt feq fz f_i32 fadd fsub fdiv]. rewrite R_375. destruct (Rle_dec 0 v) as [P|P].
  - assert (O : Rlt_bool 0 v || Req_bool 0 v = true). { destruct (Rlt_bool_spec 0 v); [reflexivity|]. apply Req_bool_true. lra. } rewrite O. rewrite Rabs_pos_eq in Y by exact P. assert (0 <= v / g) by (apply Rmult_le_pos; [exact P|apply Rlt_le, Rinv_0_lt_compat, Hg]).
    rewrite Ztrunc_floor by lra. assert (0 <= Zfloor (v / g + 3 / 8))%Z by (apply Zfloor_lub; lra). assert (Zfloor (v / g + 3 / 8) <= 32768)%Z by (apply le_IZR; pose proof (Zfloor_lb (v / g + 3 / 8)); lra). lia.
  - assert (O : Rlt_bool 0 v || Req_bool 0 v = false) by (rewrite Rlt_bool_false by lra; apply Req_bool_false; lra). rewrite O. rewrite Rabs_left in Y by lra. assert (0 <= - v / g) by (apply Rmult_le_pos; [lra|apply Rlt_le, Rinv_0_lt_compat, Hg]).
    replace (v / g - 3 / 8) with (- (- v / g + 3 / 8)) by (field; lra). rewrite Ztrunc_opp, Ztrunc_floor by lra. assert (0 <= Zfloor (- v / g + 3 / 8))%Z by (apply Zfloor_lub; lra). assert (Zfloor (- v / g + 3 / 8) <= 32768)%Z by (apply le_IZR; pose proof (Zfloor_lb (- v / g + 3 / 8)); lra). lia.
Qed.

(* ---- adjustment ---- *)
Lemma T_tables fs : (0 <= fs <= 4)%Z -> idx T1 fs = Ok (80 + 150 * fs)%Z /\ idx T2 fs = Ok (500 + 525 * fs)%Z /\ idx T3 fs = Ok (850 + 850 * fs)%Z.
Proof. intros H. assert (C : (fs = 0 \/ fs = 1 \/ fs = 2 \/ fs = 3 \/ fs = 4)%Z) by lia. destruct C as [-> |[-> |[-> |[-> | ->]]]]; repeat split. Qed.
Lemma gain_delta_real fs est : (0 <= fs <= 4)%Z -> gain_delta R_ops R_eops (80 + 150 * fs) (500 + 525 * fs) (850 + 850 * fs) est = IZR (Zfloor (margin fs est + / 2)).
Proof.
  intros Hf. unfold gain_delta. rewrite R_half. cbn [R_ops R_eops fz fsub fmul fdiv fadd e_floor]. do 2 f_equal. f_equal. unfold margin.
  assert (D : IZR (80 + 150 * fs) < IZR (500 + 525 * fs)) by (apply IZR_lt; lia). revert D.
  destruct (Z.ltb_spec est (80 + 150 * fs)) as [A|A].
  { apply IZR_lt in A. destruct (Rlt_dec _ _); [lra|contradiction]. }
  apply IZR_le in A. destruct (Rlt_dec (IZR est) (IZR (80 + 150 * fs))); [lra|].
  destruct (Z.ltb_spec est (500 + 525 * fs)) as [A2|A2].
  { apply IZR_lt in A2. destruct (Rlt_dec _ _); [|contradiction]. intros D. field. lra. }
  apply IZR_le in A2. destruct (Rlt_dec (IZR est) (IZR (500 + 525 * fs))); [lra|]. intros _.
  destruct (Z.ltb_spec est (850 + 850 * fs)) as [A3|A3].
  { apply IZR_lt in A3. rewrite Rmin_left by lra. reflexivity. }
  apply IZR_le in A3. rewrite Rmin_right by lra. reflexivity.
Qed.
Lemma gain_adjust_real fs gg gmin B est : (0 <= fs <= 4)%Z -> (0 <= B < 2 ^ 20)%Z -> (0 <= est < 2 ^ 31)%Z -> exists g, gain_adjust R_ops R_eops fs gg gmin B est = Ok (g, negb (gg =? g)%Z) /\ adjusted fs B est gmin gg g.
Proof.
  intros Hf HB He. destruct (T_tables fs Hf) as (E1 & E2 & E3). pose proof (el_low _ _ R_elaws fs _ _ _ est B E1 E2 E3) as Low. unfold gain_adjust. rewrite E1, E2, E3. cbn [bind]. cbv zeta. rewrite gain_delta_real in * by exact Hf. unfold adjusted.
  set (d := Zfloor (margin fs est + / 2)) in *. clearbody d. cbn [R_ops fz flt fadd fsub] in *. fold R_ops in *. rewrite <- !plus_IZR, <- minus_IZR in *.
  assert (X : forall a b, Rlt_bool (IZR a) (IZR b) = (a <? b)%Z). { intros a b. destruct (Z.ltb_spec a b) as [K|K]; [apply Rlt_bool_true; now apply IZR_lt|apply Rlt_bool_false; now apply IZR_le]. } rewrite !X in *. replace (B - (d + 2))%Z with (B - d - 2)%Z in * by lia.
  eexists. split; [reflexivity|]. destruct (Z.ltb_spec B est) as [Q|Q].
  - rewrite Low by lia. rewrite andb_false_r, orb_false_r, andb_true_r. cbn [andb]. destruct (gg <? 255)%Z; [|reflexivity]. destruct ((gg =? 254)%Z || (est <? B + d)%Z); lia.
  - rewrite andb_false_r. cbn [orb andb]. destruct (est <? B - d - 2)%Z, (0 <? gg)%Z; cbn [andb]; try reflexivity; apply Z.max_comm.
Qed.

(* ---- one frame ---- *)
Lemma gg_off_base fs nbits : (0 <= fs <= 4)%Z -> (0 <= nbits < 32768)%Z -> base_index fs nbits = gg_off fs nbits.
Proof.
  intros Hf Hn. unfold gg_off, base_index. assert (W : wrap 16 nbits = nbits) by (unfold wrap; change (2 ^ (16 - 1))%Z with 32768%Z; change (2 ^ 16)%Z with 65536%Z; rewrite Z.mod_small; lia). rewrite W, Z.quot_div_nonneg by lia. reflexivity.
Qed.
Theorem C57_rate_control :
  forall chk h fs_ind q x xq nbits bw tns ltpf B, (1 <= h <= 200)%nat -> let ne := (2 * Z.of_nat h)%Z in
    len x = ne -> len xq = ne -> (0 <= fs_ind <= 4)%Z -> (0 <= nbits < 32768)%Z -> bit_budget ne nbits bw tns ltpf = Ok B -> (0 <= B < 4096)%Z ->
    Forall (fun v => Rabs v <= 10 ^ 100) x -> -40 <= eq_offset q <= 40 ->
    exists r xq' q' g0 gmin n m b, quant_run R_ops R_eops chk ne fs_ind q x xq nbits bw tns ltpf = Ok (r, xq', q') /\
      let f := getz 0 x in let off := base_index fs_ind nbits in let g1 := if eq_reset q' then gmin else g0 in
      (* the bits aimed at *)
      eq_offset q' = correction (eq_reset q) (eq_offset q) (eq_spec_old q) (eq_est q) /\
      (* the first index: cheap enough, and high enough for the loudest line *)
      smallest_affordable (quads f (ne / 4)) off (aim B (eq_offset q')) g0 /\
      smallest_fitting f ne off gmin /\ (silent f ne -> gmin = 0%Z) /\ (eq_reset q' = true <-> silent f ne \/ (g0 < gmin)%Z) /\
      (* the bits it needs, as specified for C23 *)
      estimate ne (if 160 + fs_ind * 160 <? nbits then 512 else 0)%Z B (480 + fs_ind * 160 <=? nbits)%Z (map (line_index (gain (g1 + off))) x) n m b /\ eq_est q' = cn_est b /\
      (* the index sent, and the lines for it *)
      adjusted fs_ind B (eq_est q') gmin g1 (qr_gg_ind r) /\
      (forall i, (0 <= i < qr_last r)%Z -> getz 0%Z xq' i = line_index (gain (qr_gg_ind r + off)) (f i)) /\
      (* the budget of this frame is not remembered *)
      eq_spec_old q' = eq_spec_old q.
Proof.
  intros chk h fs_ind q x xq nbits bw tns ltpf B Hh ne Lx Lxq Hf Hn HB B4 HF Ho. rewrite (gg_off_base fs_ind nbits Hf Hn). pose proof (gg_off_range fs_ind nbits Hf Hn) as GO.
  assert (GF : (gain_floor R_ops R_eops x (gg_off fs_ind nbits) <= 32000)%Z).
  { apply gain_floor_le; [lia|lia|]. eapply Forall_impl; [|exact HF]. intros v Hv. refine (Rle_trans _ _ _ Hv _). rewrite <- Rpower_pow by lra. apply Rle_trans with (1 * Rpower 10 (IZR (32000 + gg_off fs_ind nbits) / 28))%R; [|apply Rmult_le_compat_r; [apply Rlt_le, exp_pos|unfold top; lra]].
    rewrite Rmult_1_l. apply Rle_Rpower; [lra|]. assert (I : (IZR 31000 <= IZR (32000 + gg_off fs_ind nbits))%R) by (apply IZR_le; lia). rewrite INR_IZR_INZ. change (Z.of_nat 100) with 100%Z. lra. }
  destruct (C25_gain_index_used R R_ops R_eops R_elaws chk h fs_ind q x xq nbits bw tns ltpf B Hh Lx Lxq Hf Hn HB B4 ltac:(lia)) as (r0 & xq0 & q0 & ER & PL & _ & La & IP & IB).
  pose proof ER as ER0. revert ER. unfold quant_run at 1. fold ne. rewrite Lx, Lxq, !Z.eqb_refl. cbn [assert bind]. rewrite HB. cbn [bind]. rewrite (gain_params_real q B B4 Ho).
  set (c := correction _ _ _ _). set (off := gg_off fs_ind nbits) in *. cbv zeta. rewrite (sub_map 0) by (change (len (repeat (fz R_ops 0) 100)) with 100%Z; unfold ne; dml). cbn [bind].
  assert (Q : spectral_energy R_ops R_eops (map (fun i => getz 0 (repeat (fz R_ops 0) 100) (0 + i)) (iota (ne / 4 - 0))) x = quads (getz 0 x) (ne / 4)).
  { destruct (quads_spec (map (fun i => getz 0 (repeat (fz R_ops 0) 100) (0 + i)) (iota (ne / 4 - 0))) x (getz 0 x)) as [Q1 Q2]; [rewrite len_map, len_iota by (unfold ne; dml); rewrite Lx; unfold ne; dml|intros; reflexivity|].
    rewrite len_map, len_iota in Q1, Q2 by (unfold ne; dml). unfold quads. apply (list_eq_getz 0); [rewrite Q1, len_map, len_iota by (unfold ne; dml); lia|]. intros j Hj. rewrite Q1 in Hj. rewrite Q2 by lia. rewrite (getz_map _ 0%Z) by (rewrite len_iota; lia). rewrite getz_iota by lia. reflexivity. }
  rewrite Q. assert (A0 : (0 <= aim B c)%Z) by (unfold aim; lia). pose proof (search_affordable (quads (getz 0 x) (ne / 4)) off (aim B c) A0) as SA. set (g0 := gain_search _ _ _ _ _ _ _) in *. clearbody g0.
  destruct (gain_limit_real chk x (getz 0 x) ne off g0 Lx ltac:(reflexivity) ltac:(lia) GF ltac:(destruct SA; lia)) as (rs & gmin & E1 & GM & RS & SM). rewrite E1. cbn [bind]. set (g1 := if rs then gmin else g0).
  destruct (quantise_spec R_ops R_eops R_elaws h fs_ind nbits off g1 B x xq Hh Lx Lxq B4) as (xq1 & b1 & n1 & m1 & E2 & ES1 & Lq1 & Fq1 & Lx1 & P1). fold ne in E2. rewrite E2. cbn [bind].
  destruct (gain_adjust_real fs_ind g1 gmin B (cn_est b1) Hf ltac:(change (2 ^ 20)%Z with 1048576%Z; lia) (es_range _ _ _ _ _ _ _ _ ES1)) as (g' & E3 & AD). rewrite E3. cbn [bind].
  assert (FIT : smallest_fitting (getz 0 x) ne off gmin) by (rewrite GM; apply floor_fitting; [exact Lx|reflexivity|lia|exact GF]).
  assert (LI : forall k v, (0 <= k)%Z -> (gmin <= k)%Z -> In v x -> quantise_line R_ops (gain (k + off)) v = line_index (gain (k + off)) v).
  { intros k v K0 K1 Hv. apply quantise_line_real; [apply gain_pos|]. apply (In_nth _ _ 0) in Hv. destruct Hv as (j & Hj & <-). pose proof (proj2 (FIT k K0) K1 (Z.of_nat j) ltac:(unfold len in Lx; lia)) as K2. unfold getz in K2. rewrite Nat2Z.id in K2. exact K2. }
  assert (G1 : (0 <= g1)%Z /\ (gmin <= g1)%Z).
  { unfold g1. destruct SA as (SA & _). destruct rs.
    - destruct (proj1 RS eq_refl) as [S|S]; [rewrite (SM S)|]; lia.
    - destruct (Z.le_gt_cases gmin g0); [lia|]. assert (false = true) by (apply RS; right; lia). discriminate. }
  assert (EM : map (quantise_line R_ops (fgain R_ops (g1 + off))) x = map (line_index (gain (g1 + off))) x) by (apply map_ext_in; intros v Hv; apply LI; tauto).
  rewrite EM in ES1. intros ER. assert (FIN : qr_gg_ind r0 = g' /\ q0 = mkEquant rs c (eq_spec_old q) (cn_est b1)).
  { destruct (Z.eqb_spec g1 g') as [EQ|NE]; cbn [negb bind] in ER.
    - apply Ok_inj in ER. now inversion ER.
    - destruct (quantise_spec R_ops R_eops R_elaws h fs_ind nbits off g' B x xq1 Hh Lx Lx1 B4) as (xq2 & b2 & n2 & m2 & E4 & _). fold ne in E4. rewrite E4 in ER. cbn [bind] in ER. apply Ok_inj in ER. now inversion ER. }
  destruct FIN as [EG EQ0]. exists r0, xq0, q0, g0, gmin, n1, m1, b1. split; [exact ER0|]. rewrite EQ0. cbn [eq_reset eq_offset eq_spec_old eq_est]. fold g1. rewrite EG in *. repeat (split; [first [assumption|reflexivity]|]). split; [|reflexivity].
  intros i Hi. rewrite PL by exact Hi. change (fgain R_ops (g' + off)) with (gain (g' + off)). apply LI; [lia|rewrite GM; exact IB|]. unfold getz. apply nth_In. unfold len in Lx. lia.
Qed.
Print Assumptions C57_rate_control.

(* ---- many frames ---- *)
(* one frame after the other, whatever their lines and sizes; the budget of no frame may be negative *)
Inductive rate_frames (fs_ind ne : Z) : equant R -> list (equant R) -> Prop :=
| rf_nil q : rate_frames fs_ind ne q []
| rf_cons chk q x xq nbits bw tns ltpf B r xq' q' l :
    len x = ne -> len xq = ne -> (0 <= nbits < 32768)%Z -> bit_budget ne nbits bw tns ltpf = Ok B -> (0 <= B < 4096)%Z -> Forall (fun v => Rabs v <= 10 ^ 100) x ->
    quant_run R_ops R_eops chk ne fs_ind q x xq nbits bw tns ltpf = Ok (r, xq', q') -> rate_frames fs_ind ne q' l -> rate_frames fs_ind ne q (q' :: l).
Lemma rate_step fs_ind h chk q x xq nbits bw tns ltpf B r xq' q' : (1 <= h <= 200)%nat -> (0 <= fs_ind <= 4)%Z -> let ne := (2 * Z.of_nat h)%Z in
  len x = ne -> len xq = ne -> (0 <= nbits < 32768)%Z -> bit_budget ne nbits bw tns ltpf = Ok B -> (0 <= B < 4096)%Z -> Forall (fun v => Rabs v <= 10 ^ 100) x ->
  quant_run R_ops R_eops chk ne fs_ind q x xq nbits bw tns ltpf = Ok (r, xq', q') -> -40 <= eq_offset q <= 0 -> eq_spec_old q = 0%Z -> (0 <= eq_est q)%Z ->
  -40 <= eq_offset q' <= 0 /\ eq_spec_old q' = 0%Z /\ (0 <= eq_est q')%Z /\ eq_offset q' = if eq_reset q then 0 else 4 / 5 * eq_offset q + 1 / 5 * Rmax (-40) (eq_offset q - IZR (eq_est q)).
Proof.
  intros Hh Hf ne Lx Lq Hn HB B4 HX E O S P.
  destruct (C57_rate_control chk h fs_ind q x xq nbits bw tns ltpf B Hh Lx Lq Hf Hn HB B4 HX ltac:(lra)) as (r1 & xq1 & q1 & g0 & gmin & n & m & b & E1 & C1 & _ & _ & _ & _ & ES & EE & _ & _ & SO).
  fold ne in E1. rewrite E in E1. apply Ok_inj in E1. assert (q' = q1) by congruence. subst q1. apply IZR_le in P.
  destruct (correction_range (eq_reset q) (eq_offset q) (eq_spec_old q) (eq_est q) ltac:(lra)) as [R1 _].
  assert (V : eq_offset q' = if eq_reset q then 0 else 4 / 5 * eq_offset q + 1 / 5 * Rmax (-40) (eq_offset q - IZR (eq_est q))).
  { rewrite C1. unfold correction. destruct (eq_reset q); [reflexivity|]. rewrite S. replace (eq_offset q + 0 - IZR (eq_est q)) with (eq_offset q - IZR (eq_est q)) by lra. rewrite Rmin_right by (apply Rmax_lub; lra). lra. }
  split; [|split; [now rewrite SO|split; [rewrite EE; apply (es_range _ _ _ _ _ _ _ _ ES)|exact V]]]. split; [rewrite C1; exact R1|]. rewrite V. destruct (eq_reset q); [lra|].
  assert (Rmax (-40) (eq_offset q - IZR (eq_est q)) <= 0) by (apply Rmax_lub; lra). lra.
Qed.
(* The correction is never positive: because the budget of the last frame is not remembered, the feedback always takes the
   bits of the last frame for an excess. From the first frame on the encoder aims at most 40 bits below its budget and never above it. *)
Theorem C57_feedback_one_sided :
  forall fs_ind h qs, (1 <= h <= 200)%nat -> (0 <= fs_ind <= 4)%Z -> rate_frames fs_ind (2 * Z.of_nat h) (equant_new R_ops) qs ->
    Forall (fun q => -40 <= eq_offset q <= 0 /\ forall B, (0 <= B < 4096)%Z -> (Z.max 0 (B - 40) <= aim B (eq_offset q) <= B)%Z) qs.
Proof.
  intros fs_ind h qs Hh Hf. assert (G : forall q, rate_frames fs_ind (2 * Z.of_nat h) q qs -> -40 <= eq_offset q <= 0 -> eq_spec_old q = 0%Z -> (0 <= eq_est q)%Z ->
    Forall (fun q => -40 <= eq_offset q <= 0 /\ forall B, (0 <= B < 4096)%Z -> (Z.max 0 (B - 40) <= aim B (eq_offset q) <= B)%Z) qs).
  { intros q RF. induction RF as [|chk q x xq nbits bw tns ltpf B r xq' q' l Lx Lq Hn HB B4 HX E RF IH]; intros O S P; constructor;
      destruct (rate_step fs_ind h chk q x xq nbits bw tns ltpf B r xq' q' Hh Hf Lx Lq Hn HB B4 HX E O S P) as (O' & S' & P' & _); [|now apply IH].
    split; [exact O'|]. intros B' HB'. unfold aim. assert (L1 : (B' - 40 <= Zfloor (IZR B' + eq_offset q' + / 2))%Z) by (apply Zfloor_lub; rewrite minus_IZR; lra).
    assert (L2 : (Zfloor (IZR B' + eq_offset q' + / 2) < B' + 1)%Z) by (apply lt_IZR; rewrite plus_IZR; pose proof (Zfloor_lb (IZR B' + eq_offset q' + / 2)); lra). lia. }
  intros RF. apply (G (equant_new R_ops) RF); cbn [equant_new eq_offset eq_spec_old eq_est R_ops fz]; [lra|reflexivity|lia].
Qed.
Print Assumptions C57_feedback_one_sided.
(* While the loudest line never decides the gain and every frame takes 40 bits or more, the correction runs into -40. *)
Theorem C57_feedback_saturates :
  forall fs_ind h qs, (1 <= h <= 200)%nat -> (0 <= fs_ind <= 4)%Z -> rate_frames fs_ind (2 * Z.of_nat h) (equant_new R_ops) qs ->
    Forall (fun q => eq_reset q = false /\ (40 <= eq_est q)%Z) qs -> forall n q, nth_error qs n = Some q -> eq_offset q = - 40 * (1 - (4 / 5) ^ n).
Proof.
  intros fs_ind h qs Hh Hf.
  assert (G : forall qs q, rate_frames fs_ind (2 * Z.of_nat h) q qs -> -40 <= eq_offset q <= 0 -> eq_spec_old q = 0%Z -> eq_reset q = false -> (40 <= eq_est q)%Z -> Forall (fun q => eq_reset q = false /\ (40 <= eq_est q)%Z) qs ->
    forall n q', nth_error qs n = Some q' -> eq_offset q' + 40 = (eq_offset q + 40) * (4 / 5) ^ S n).
  { clear qs. intros qs q RF. induction RF as [|chk q x xq nbits bw tns ltpf B r xq' q' l Lx Lq Hn HB B4 HX E RF IH]; intros O S R P FA n q1 N; [destruct n; discriminate|].
    destruct (rate_step fs_ind h chk q x xq nbits bw tns ltpf B r xq' q' Hh Hf Lx Lq Hn HB B4 HX E O S ltac:(lia)) as (O' & S' & P' & V). rewrite R in V. apply IZR_le in P. rewrite Rmax_left in V by lra. apply Forall_cons_iff in FA. destruct FA as [[F1 F2] FA].
    destruct n as [|n]; cbn [nth_error] in N.
    - injection N as <-. rewrite V. rewrite pow_1. lra.
    - rewrite (IH O' S' F1 F2 FA n q1 N). rewrite V. cbn [pow]. lra. }
  intros RF FA n q N. inversion RF as [q0 E1 E2|chk q0 x xq nbits bw tns ltpf B r xq' q' l Lx Lq Hn HB B4 HX E RF' E1 E2]; [subst; destruct n; discriminate|]. subst q0 qs.
  destruct (rate_step fs_ind h chk (equant_new R_ops) x xq nbits bw tns ltpf B r xq' q' Hh Hf Lx Lq Hn HB B4 HX E ltac:(cbn [equant_new eq_offset R_ops fz]; lra) eq_refl ltac:(cbn [equant_new eq_est]; lia)) as (O' & S' & P' & V).
  cbn [equant_new eq_reset eq_offset eq_est R_ops fz] in V. rewrite Rmax_right in V by lra. apply Forall_cons_iff in FA. destruct FA as [[F1 F2] FA]. destruct n as [|n]; cbn [nth_error] in N.
  - injection N as <-. rewrite V. cbn [pow]. lra.
  - pose proof (G l q' RF' O' S' F1 F2 FA n q N) as Q. rewrite V in Q. lra.
Qed.
Print Assumptions C57_feedback_saturates.
(* a frame of 16 kHz in 80 bytes with lines of -30000: the hypotheses hold, a run exists, and the gain goes up by two for an estimate of 700 *)
Example C57_case : Forall (fun v => Rabs v <= 10 ^ 100) (repeat (-30000) 160) /\ bit_budget 160 640 1 2 1 = Ok 577%Z /\
  (exists q, rate_frames 1 160 (equant_new R_ops) [q]) /\ adjusted 1 577 700 0 100 102 /\ adjusted 1 577 590 0 100 101 /\ adjusted 1 577 540 0 100 99 /\
  frame_cost 0 [50; -20; 10; -5] = 89.6 + 3.78 + 23.8.
Proof.
  assert (HX : Forall (fun v => Rabs v <= 10 ^ 100) (repeat (-30000) 160)) by (apply Forall_forall; intros v Hv; apply repeat_spec in Hv; subst v; rewrite Rabs_left by lra; apply Rle_trans with (10 ^ 5); [lra|apply Rle_pow; [lra|lia]]).
  split; [exact HX|]. split; [reflexivity|]. split.
  { destruct (C57_rate_control true 80 1 (equant_new R_ops) (repeat (-30000) 160) (repeat 0%Z 160) 640 1 2 1 577 ltac:(lia) eq_refl eq_refl ltac:(lia) ltac:(lia) eq_refl ltac:(lia) HX ltac:(cbn [equant_new eq_offset R_ops fz]; lra)) as (r & xq' & q' & _ & _ & _ & _ & _ & E & _).
    exists q'. refine (rf_cons 1 160 true (equant_new R_ops) (repeat (-30000) 160) (repeat 0%Z 160) 640 1 2 1 577 r xq' q' [] eq_refl eq_refl _ eq_refl _ HX E (rf_nil 1 160 q')); lia. }
  assert (M : forall est d, 230 <= IZR est < 1025 -> (IZR d <= 17.375 + (IZR est - 230) / 795 * (1025 / 48 - 17.375) + / 2 < IZR d + 1) -> Zfloor (margin 1 est + / 2) = d).
  { intros est d H1 H2. apply Zfloor_imp. rewrite plus_IZR. unfold margin. change (80 + 150 * 1)%Z with 230%Z. change (500 + 525 * 1)%Z with 1025%Z. destruct (Rlt_dec _ _); [lra|]. destruct (Rlt_dec _ _); [|lra]. lra. }
  unfold adjusted. rewrite (M 700%Z 20%Z), (M 590%Z 19%Z), (M 540%Z 19%Z) by lra. split; [reflexivity|]. split; [reflexivity|]. split; [reflexivity|].
  unfold frame_cost. cbn [rev app drop_quiet]. repeat (destruct (Rlt_dec _ 0); [try lra|try lra]). cbn [map total]. unfold quad_cost. repeat (destruct (Rlt_dec _ _); try lra).
Qed.
