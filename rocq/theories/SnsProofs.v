(* The pulse search yields the right number of pulses and the joint index is demultiplexed to the same vector (C17). *)
From Coq Require Import ZArith List Bool Lia.
From Verif Require Import Base BufLemmas SideInfo Mpvq MpvqProofs SnsIndex FrameSpec.
Import ListNotations.
Local Open Scope Z_scope.

Definition nonneg (l : list Z) : Prop := Forall (fun x => 0 <= x) l.

Lemma upd_length (l : list Z) i v : length (upd l i v) = length l.
Proof. revert i. induction l as [|x l IH]; intros [|i]; cbn [upd length]; auto. Qed.
Lemma zsum_app a b : zsum (a ++ b) = zsum a + zsum b.
Proof. unfold zsum. induction a; cbn [app fold_right]; lia. Qed.
Lemma zsum_nonneg l : nonneg l -> 0 <= zsum l.
Proof. unfold zsum. induction 1; cbn [fold_right]; lia. Qed.
Lemma zsum_zeros n : zsum (repeat 0 n) = 0.
Proof. unfold zsum. induction n; cbn [repeat fold_right]; lia. Qed.
Lemma upd_zsum l i v : (i < length l)%nat -> zsum (upd l i v) = zsum l - nth i l 0 + v.
Proof. unfold zsum. revert i. induction l as [|x l IH]; intros [|i] H; cbn [length] in H; cbn [upd fold_right nth]; [lia|lia|lia|]. rewrite IH by lia. lia. Qed.
Lemma upd_nonneg l i v : nonneg l -> 0 <= v -> nonneg (upd l i v).
Proof. intros H Hv. revert i. induction H as [|x l Hx Hl IH]; intros [|i]; cbn [upd]; constructor; auto. apply IH. Qed.
Lemma nonneg_nth l i : nonneg l -> 0 <= nth i l 0.
Proof. intros H. revert i. induction H; intros [|i]; cbn [nth]; [lia|lia|lia|auto]. Qed.

Section S.
Variable o : oracle.

Lemma best_loop_range n : forall nc best cand, 0 <= best < nc -> 0 <= best_loop o n nc best cand < nc + Z.of_nat n.
Proof.
  induction n; intros nc best cand H; cbn [best_loop]; [lia|].
  specialize (IHn (nc + 1) (if o_better o cand nc best then nc else best) cand). destruct (o_better o cand nc best); lia.
Qed.

Lemma add_unit_pulse_spec iters n_max : forall cand, 1 <= n_max <= len cand -> nonneg cand ->
  exists y, add_unit_pulse o iters n_max cand = Ok y /\ len y = len cand /\ nonneg y /\ zsum y = zsum cand + Z.of_nat iters.
Proof.
  induction iters as [|m IH]; intros cand Hn Hc; cbn [add_unit_pulse]; [exists cand; repeat split; auto; lia|].
  set (b := best_loop o (Z.to_nat (n_max - 1)) 1 0 cand).
  assert (Hb : 0 <= b < len cand) by (pose proof (best_loop_range (Z.to_nat (n_max - 1)) 1 0 cand ltac:(lia)); unfold b; lia).
  rewrite (idx_nth cand b 0) by exact Hb. cbn [bind]. rewrite store_ok by exact Hb. cbn [bind].
  pose proof (nonneg_nth cand (Z.to_nat b) Hc).
  destruct (IH (upd cand (Z.to_nat b) (nth (Z.to_nat b) cand 0 + 1))) as (y & E & L & N & Q).
  - unfold len in *. rewrite upd_length. lia.
  - apply upd_nonneg; [exact Hc|lia].
  - exists y. split; [exact E|]. split; [unfold len in *; rewrite L, upd_length; lia|]. split; [exact N|]. rewrite Q, upd_zsum by (unfold len in Hb; lia). lia.
Qed.

Lemma zrange_In a b n : In n (zrange a b) <-> a <= n < b.
Proof.
  unfold zrange. rewrite in_map_iff. split.
  - intros (i & <- & Hi). apply in_seq in Hi. lia.
  - intros H. exists (Z.to_nat (n - a)). split; [lia|apply in_seq; lia].
Qed.
Lemma zrange_len a b : a <= b -> len (zrange a b) = b - a.
Proof. intros H. unfold zrange, len. rewrite map_length, seq_length. lia. Qed.

Lemma b_loop_range ns (P : Z -> Prop) : (forall n, In n ns -> P n) -> forall best, (exists n, In n ns /\ o_rises o n = true) \/ P best -> P (b_loop o ns best).
Proof.
  induction ns as [|n ns IH]; intros HP best H; cbn [b_loop]; [destruct H as [(n & [] & _)|H]; exact H|].
  apply IH; [intros m Hm; apply HP; now right|]. destruct (o_rises o n) eqn:E; [right; apply HP; now left|].
  destruct H as [(m & [<-|Hm] & R)|H]; [congruence|left; eauto|now right].
Qed.

(* y differs from the non-negative vector only in signs *)
Definition signed (y v : list Z) : Prop := Forall2 (fun a b => Z.abs a = b) y v.
Lemma signed_pulses y v : signed y v -> pulses y = zsum v.
Proof. unfold zsum, pulses. induction 1; cbn [fold_right]; lia. Qed.
Lemma signed_len y v : signed y v -> length y = length v.
Proof. induction 1; cbn [length]; congruence. Qed.
Lemma signed_app y v n : signed y v -> signed (firstn n y) (firstn n v) /\ signed (skipn n y) (skipn n v).
Proof.
  intros H. revert n. induction H as [|a b y v E H IH]; intros [|n]; cbn [firstn skipn]; split; try constructor; auto; apply IH.
Qed.
Lemma with_sign_spec y : nonneg y -> signed (with_sign o y) y.
Proof.
  intros H. unfold with_sign. assert (L : length (zrange 0 (len y)) = length y) by (unfold zrange, len; rewrite map_length, seq_length; lia).
  revert L. generalize (zrange 0 (len y)). intros l. revert l. induction H as [|x y Hx Hy IH]; intros [|n l] L; cbn [length] in L; try discriminate L; [constructor|].
  cbn [combine map]. constructor; [destruct (o_neg o n); lia|]. apply IH. lia.
Qed.

(* what the floats guarantee: the projection lies on or below the pyramid of 6 pulses, and some component of set B is not zero *)
Record oracle_ok : Prop := mkOk {
  ok_proj : forall n, 0 <= n < 16 -> 0 <= o_proj o n;
  ok_sum : zsum (map (o_proj o) (zrange 0 16)) <= 6;
  ok_b : exists n, 10 <= n < 16 /\ o_rises o n = true
}.

Lemma candidates_spec : oracle_ok -> exists y0 y1 y2 y3, candidates o = Ok (y0, y1, y2, y3) /\
  len y0 = 16 /\ pulses (firstn 10 y0) = 10 /\ pulses (skipn 10 y0) = 1 /\ len y1 = 10 /\ pulses y1 = 10 /\
  len y2 = 16 /\ pulses y2 = 8 /\ len y3 = 16 /\ pulses y3 = 6.
Proof.
  intros [H1 H2 (nb & Hnb & Hr)]. unfold candidates. set (p3 := map (o_proj o) (zrange 0 N_SCALES)).
  assert (N3 : nonneg p3).
  { apply Forall_forall. intros x Hx. unfold p3 in Hx. apply in_map_iff in Hx as (n & <- & Hn). apply zrange_In in Hn. now apply H1. }
  assert (L3 : len p3 = 16) by reflexivity.
  fold N_SCALES in H2. change 16 with N_SCALES in H2. fold p3 in H2. pose proof (zsum_nonneg p3 N3).
  destruct (add_unit_pulse_spec (Z.to_nat (6 - zsum p3)) N_SCALES p3 ltac:(rewrite L3; unfold N_SCALES; lia) N3) as (y3 & E3 & L & N & Q). rewrite E3. cbn [bind].
  destruct (add_unit_pulse_spec (Z.to_nat (8 - 6)) N_SCALES y3 ltac:(rewrite L, L3; unfold N_SCALES; lia) N) as (y2 & E2 & L2 & N2 & Q2). rewrite E2. cbn [bind].
  change (Z.of_nat (Z.to_nat (8 - 6))) with 2 in Q2. rewrite Z2Nat.id in Q by lia.
  assert (NF : nonneg (firstn 10 y2) /\ nonneg (skipn 10 y2)) by (apply Forall_app; now rewrite firstn_skipn). destruct NF as [NF NS].
  pose proof (zsum_app (firstn 10 y2) (skipn 10 y2)) as ZA. rewrite firstn_skipn in ZA.
  pose proof (zsum_nonneg _ NF). pose proof (zsum_nonneg _ NS).
  destruct (Z.ltb_spec (8 - zsum (skipn 10 y2)) 0); [lia|].
  assert (LF : len (firstn 10 y2) = 10) by (unfold len in *; rewrite firstn_length; lia).
  destruct (add_unit_pulse_spec (Z.to_nat (10 - (8 - zsum (skipn 10 y2)))) 10 (firstn 10 y2) ltac:(lia) NF) as (y1 & E1 & L1 & N1 & Q1). rewrite E1. cbn [bind].
  rewrite Z2Nat.id in Q1 by lia. rewrite LF in L1.
  assert (HB : 10 <= b_loop o (zrange 10 16) 0 < 16).
  { apply (b_loop_range (zrange 10 16) (fun n => 10 <= n < 16)); [intros n Hn; now apply zrange_In|]. left. exists nb. split; [now apply zrange_In|exact Hr]. }
  set (b := b_loop o (zrange 10 16) 0) in *.
  assert (L0 : len (y1 ++ repeat 0 6) = 16) by (rewrite len_app, L1; reflexivity).
  rewrite store_ok by (rewrite L0; lia). cbn [bind].
  set (u := upd (y1 ++ repeat 0 6) (Z.to_nat b) 1).
  assert (NU : nonneg u) by (apply upd_nonneg; [apply Forall_app; split; [exact N1|repeat constructor; lia]|lia]).
  assert (LU : len u = 16) by (unfold u, len in *; now rewrite upd_length).
  assert (U1 : firstn 10 u = y1).
  { unfold u. assert (Hl : length y1 = 10%nat) by (unfold len in L1; lia). assert (Hq : (10 <= Z.to_nat b)%nat) by lia. clear - Hl Hq.
    generalize (Z.to_nat b) Hq. intros n Hn. clear Hq. do 10 (destruct y1 as [|? y1]; [discriminate Hl|]; destruct n as [|n]; [lia|]). destruct y1; [|discriminate Hl]. reflexivity. }
  assert (ZU : zsum u = 11).
  { unfold u. rewrite upd_zsum by (unfold len in L0; lia). rewrite zsum_app, zsum_zeros. rewrite app_nth2 by (unfold len in L1; lia). rewrite nth_repeat. lia. }
  pose proof (zsum_app (firstn 10 u) (skipn 10 u)) as ZB. rewrite firstn_skipn, U1 in ZB.
  exists (with_sign o u), (with_sign o y1), (with_sign o y2), (with_sign o y3). split; [reflexivity|].
  pose proof (with_sign_spec u NU) as W0. pose proof (with_sign_spec y1 N1) as W1. pose proof (with_sign_spec y2 N2) as W2. pose proof (with_sign_spec y3 N) as W3.
  destruct (signed_app _ _ 10 W0) as [WA WB]. rewrite (signed_pulses _ _ WA), (signed_pulses _ _ WB), (signed_pulses _ _ W1), (signed_pulses _ _ W2), (signed_pulses _ _ W3), U1.
  unfold len in *. rewrite (signed_len _ _ W0), (signed_len _ _ W1), (signed_len _ _ W2), (signed_len _ _ W3). lia.
Qed.

(* shape and gain are always in range *)
Lemma shape_gain_range : let '(j, i) := shape_gain o in 0 <= j < 4 /\ 0 <= i < g_maxind j.
Proof.
  unfold shape_gain. set (l := flat_map _ _).
  assert (HL : Forall (fun '(j, i) => 0 <= j < 4 /\ 0 <= i < g_maxind j) l).
  { apply Forall_forall. intros [j i] H. unfold l in H. apply in_flat_map in H as (j' & Hj & Hi). apply in_map_iff in Hi as (i' & E & Hi). injection E as -> ->.
    apply zrange_In in Hj, Hi. auto. }
  assert (G : forall acc, (let '(j, i) := acc in 0 <= j < 4 /\ 0 <= i < g_maxind j) ->
    let '(j, i) := fold_left (fun acc '(j, i) => if o_improves o j i then (j, i) else acc) l acc in 0 <= j < 4 /\ 0 <= i < g_maxind j).
  { clear -HL. induction HL as [|[j i] l H HL IH]; intros acc Ha; cbn [fold_left]; [exact Ha|]. apply IH. destruct (o_improves o j i); [exact H|exact Ha]. }
  apply (G (0, 0)). unfold g_maxind. cbn. lia.
Qed.
End S.

(* ---- one vector of each shape ---- *)
Definition shape_vec (j : Z) (y : list Z) : Prop :=
  len y = 16 /\
  ((j = 0 /\ pulses (firstn 10 y) = 10 /\ pulses (skipn 10 y) = 1) \/
   (j = 1 /\ pulses (firstn 10 y) = 10 /\ skipn 10 y = repeat 0 6) \/
   (j = 2 /\ pulses y = 8) \/ (j = 3 /\ pulses y = 6)).

Lemma enum_full v : (length v <= 16)%nat -> 1 <= pulses v <= 10 -> mvpq_enum (len v) v = Ok (ix v, lead v).
Proof. intros H1 H2. rewrite <- (app_nil_r v) at 2. now apply mvpq_enum_spec. Qed.

(* published sizes of the four code books *)
Lemma size_10_10 : size 10 10 = 2390004.
Proof. unfold size. rewrite <- (crow_nth 10 10) by lia. rewrite !crow_step. vm_compute. reflexivity. Qed.
Lemma size_6_1 : size 6 1 = 6.
Proof. unfold size. rewrite <- (crow_nth 6 1) by lia. rewrite !crow_step. vm_compute. reflexivity. Qed.
Lemma size_16_8 : size 16 8 = 15158272.
Proof. unfold size. rewrite <- (crow_nth 16 8) by lia. rewrite !crow_step. vm_compute. reflexivity. Qed.
Lemma size_16_6 : size 16 6 = 774912.
Proof. unfold size. rewrite <- (crow_nth 16 6) by lia. rewrite !crow_step. vm_compute. reflexivity. Qed.

(* the joint index of a vector of the right shape explains itself as a legal parameter set whose vector is the same *)
Lemma joint_round_trip j i y0 y1 y2 y3 y lf hf : 0 <= i < gain_table_len j -> 0 <= lf < 32 -> 0 <= hf < 32 -> shape_vec j y ->
  (j = 0 -> y0 = y) -> (j = 1 -> y1 = firstn 10 y) -> (j = 2 -> y2 = y) -> (j = 3 -> y3 = y) ->
  exists ji la lb q, joint_index j i y0 y1 y2 y3 = Ok (ji, la, lb) /\ sns_legal q /\ sns_joint q = ji /\ q_ls_inda q = la /\ q_g_ind q = i /\
    2 * q_submode_msb q + q_submode_lsb q = j /\ q_ind_lf q = lf /\ q_ind_hf q = hf /\ sns_vector q = Ok y.
Proof.
  intros Hi Hlf Hhf [Ly Hs] E0 E1 E2 E3.
  assert (LA : length (firstn 10 y) = 10%nat) by (unfold len in Ly; rewrite firstn_length; lia).
  assert (LB : length (skipn 10 y) = 6%nat) by (unfold len in Ly; rewrite skipn_length; lia).
  assert (Lq : length y = 16%nat) by (unfold len in Ly; lia).
  pose proof (Z.land_nonneg i 1) as _. assert (HL : Z.land i 1 = i mod 2) by (change 1 with (Z.ones 1); rewrite Z.land_ones by lia; reflexivity).
  assert (LR : forall v, lead v = 0 \/ lead v = 1) by (intros v; pose proof (lead_range v); lia).
  destruct Hs as [(-> & PA & PB)|[(-> & PA & PB)|[(-> & P)|(-> & P)]]]; unfold joint_index; cbn [Z.eqb Pos.eqb].
  - rewrite (E0 eq_refl). set (a := firstn 10 y) in *. set (b := skipn 10 y) in *.
    assert (Ea : mvpq_enum 10 y = Ok (ix a, lead a)).
    { pose proof (mvpq_enum_spec a b ltac:(lia) ltac:(lia)) as E. unfold a, b in E. rewrite firstn_skipn in E. fold a in E. unfold len in E. rewrite LA in E. exact E. }
    assert (Eb : mvpq_enum 6 b = Ok (ix b, lead b)) by (pose proof (enum_full b ltac:(lia) ltac:(lia)) as E; unfold len in E; rewrite LB in E; exact E).
    rewrite Ea. cbn [bind]. rewrite Eb. cbn [bind]. destruct (Z.ltb_spec (lead b) 0); [destruct (LR b); lia|].
    exists ((2 * ix b + lead b + 2) * 2390004 + ix a), (lead a), (lead b), (mkSnsVq lf hf (lead a) (lead b) (ix a) (ix b) 0 0 i).
    pose proof (ix_range a ltac:(lia) ltac:(lia)) as RA. pose proof (ix_range b ltac:(lia) ltac:(lia)) as RB. rewrite LA, PA in RA. rewrite LB, PB in RB.
    change (Z.to_nat 10) with 10%nat in RA. change (Z.to_nat 1) with 1%nat in RB. rewrite size_10_10 in RA. rewrite size_6_1 in RB.
    split; [reflexivity|]. split; [constructor; cbn [q_ind_lf q_ind_hf q_ls_inda q_ls_indb q_idx_a q_idx_b q_submode_lsb q_submode_msb q_g_ind]; [exact Hlf|exact Hhf|apply LR|left; cbn [gain_table_len Z.eqb Pos.eqb] in Hi; unfold gain_table_len in Hi; cbn [Z.eqb Pos.eqb] in Hi; repeat split; first [apply LR|lia]]|].
    split; [reflexivity|]. do 5 (split; [reflexivity|]). unfold sns_vector. cbn [q_submode_msb q_submode_lsb q_ls_inda q_idx_a q_ls_indb q_idx_b]. change (Z.shiftl 0 1 + 0 =? 0) with true. cbn iota.
    pose proof (deenum_ix a ltac:(lia) ltac:(lia)) as Da. pose proof (deenum_ix b ltac:(lia) ltac:(lia)) as Db. rewrite LA, PA in Da. rewrite LB, PB in Db.
    unfold mpvq_deenum. change (Z.to_nat 10) with 10%nat. change (Z.to_nat 6) with 6%nat. fold (sgn_of (lead a)). fold (sgn_of (lead b)). rewrite Da. cbn [bind]. rewrite Db. cbn [bind].
    unfold a, b. now rewrite firstn_skipn.
  - rewrite (E1 eq_refl). set (a := firstn 10 y) in *.
    assert (Ea : mvpq_enum 10 a = Ok (ix a, lead a)) by (pose proof (enum_full a ltac:(lia) ltac:(lia)) as E; unfold len in E; rewrite LA in E; exact E).
    rewrite Ea. cbn [bind]. exists (Z.land i 1 * 2390004 + ix a), (lead a), 0, (mkSnsVq lf hf (lead a) 0 (ix a) 0 1 0 i).
    pose proof (ix_range a ltac:(lia) ltac:(lia)) as RA. rewrite LA, PA in RA. change (Z.to_nat 10) with 10%nat in RA. rewrite size_10_10 in RA.
    split; [reflexivity|]. split; [constructor; cbn [q_ind_lf q_ind_hf q_ls_inda q_ls_indb q_idx_a q_idx_b q_submode_lsb q_submode_msb q_g_ind]; [exact Hlf|exact Hhf|apply LR|right; left; cbn [gain_table_len Z.eqb Pos.eqb] in Hi; unfold gain_table_len in Hi; cbn [Z.eqb Pos.eqb] in Hi; repeat split; first [apply LR|lia]]|].
    split; [unfold sns_joint; cbn [q_submode_msb q_submode_lsb q_g_ind q_idx_a]; now rewrite HL|]. do 5 (split; [reflexivity|]). unfold sns_vector. cbn [q_submode_msb q_submode_lsb q_ls_inda q_idx_a q_ls_indb q_idx_b].
    change (Z.shiftl 0 1 + 1 =? 0) with false. change (Z.shiftl 0 1 + 1 =? 1) with true. cbn iota.
    pose proof (deenum_ix a ltac:(lia) ltac:(lia)) as Da. rewrite LA, PA in Da.
    unfold mpvq_deenum. change (Z.to_nat 10) with 10%nat. fold (sgn_of (lead a)). rewrite Da. cbn [bind]. rewrite <- PB. unfold a. now rewrite firstn_skipn.
  - rewrite (E2 eq_refl).
    assert (Ea : mvpq_enum 16 y = Ok (ix y, lead y)) by (pose proof (enum_full y ltac:(lia) ltac:(lia)) as E; rewrite Ly in E; exact E).
    rewrite Ea. cbn [bind]. exists (ix y), (lead y), 0, (mkSnsVq lf hf (lead y) 0 (ix y) 0 0 1 i).
    pose proof (ix_range y ltac:(lia) ltac:(lia)) as RA. rewrite Lq, P in RA. change (Z.to_nat 8) with 8%nat in RA. rewrite size_16_8 in RA.
    split; [reflexivity|]. split; [constructor; cbn [q_ind_lf q_ind_hf q_ls_inda q_ls_indb q_idx_a q_idx_b q_submode_lsb q_submode_msb q_g_ind]; [exact Hlf|exact Hhf|apply LR|right; right; left; cbn [gain_table_len Z.eqb Pos.eqb] in Hi; unfold gain_table_len in Hi; cbn [Z.eqb Pos.eqb] in Hi; repeat split; first [apply LR|lia]]|].
    split; [reflexivity|]. do 5 (split; [reflexivity|]). unfold sns_vector. cbn [q_submode_msb q_submode_lsb q_ls_inda q_idx_a q_ls_indb q_idx_b].
    change (Z.shiftl 1 1 + 0) with 2. cbn [Z.eqb Pos.eqb].
    pose proof (deenum_ix y ltac:(lia) ltac:(lia)) as Da. rewrite Lq, P in Da.
    unfold mpvq_deenum. change (Z.to_nat 16) with 16%nat. fold (sgn_of (lead y)). exact Da.
  - rewrite (E3 eq_refl).
    assert (Ea : mvpq_enum 16 y = Ok (ix y, lead y)) by (pose proof (enum_full y ltac:(lia) ltac:(lia)) as E; rewrite Ly in E; exact E).
    rewrite Ea. cbn [bind]. exists (15158272 + Z.land i 1 + 2 * ix y), (lead y), 0, (mkSnsVq lf hf (lead y) 0 (ix y) 0 1 1 i).
    pose proof (ix_range y ltac:(lia) ltac:(lia)) as RA. rewrite Lq, P in RA. change (Z.to_nat 6) with 6%nat in RA. rewrite size_16_6 in RA.
    split; [reflexivity|]. split; [constructor; cbn [q_ind_lf q_ind_hf q_ls_inda q_ls_indb q_idx_a q_idx_b q_submode_lsb q_submode_msb q_g_ind]; [exact Hlf|exact Hhf|apply LR|right; right; right; cbn [gain_table_len Z.eqb Pos.eqb] in Hi; unfold gain_table_len in Hi; cbn [Z.eqb Pos.eqb] in Hi; repeat split; first [apply LR|lia]]|].
    split; [unfold sns_joint; cbn [q_submode_msb q_submode_lsb q_g_ind q_idx_a]; now rewrite HL|]. do 5 (split; [reflexivity|]). unfold sns_vector. cbn [q_submode_msb q_submode_lsb q_ls_inda q_idx_a q_ls_indb q_idx_b].
    change (Z.shiftl 1 1 + 1) with 3. cbn [Z.eqb Pos.eqb].
    pose proof (deenum_ix y ltac:(lia) ltac:(lia)) as Da. rewrite Lq, P in Da.
    unfold mpvq_deenum. change (Z.to_nat 16) with 16%nat. fold (sgn_of (lead y)). exact Da.
Qed.

Lemma g_maxind_table j : 0 <= j < 4 -> g_maxind j <= gain_table_len j.
Proof. intros H. unfold g_maxind, gain_table_len. destruct (j =? 0); [lia|]. destruct (j =? 1); [lia|]. destruct (j =? 2); lia. Qed.

Theorem stage2_spec o lf hf : oracle_ok o -> 0 <= lf < 32 -> 0 <= hf < 32 ->
  exists j i ji la lb y q, stage2 o = Ok (j, i, ji, la, lb, y) /\ 0 <= j < 4 /\ 0 <= i < gain_table_len j /\ shape_vec j y /\
    sns_legal q /\ sns_joint q = ji /\ q_ls_inda q = la /\ q_g_ind q = i /\ 2 * q_submode_msb q + q_submode_lsb q = j /\
    q_ind_lf q = lf /\ q_ind_hf q = hf /\ sns_vector q = Ok y.
Proof.
  intros Ho Hlf Hhf. destruct (candidates_spec o Ho) as (y0 & y1 & y2 & y3 & E & L0 & PA & PB & L1 & P1 & L2 & P2 & L3 & P3).
  unfold stage2. rewrite E. cbn [bind]. pose proof (shape_gain_range o) as R. destruct (shape_gain o) as [j i]. destruct R as [Rj Ri].
  pose proof (g_maxind_table j Rj) as G.
  set (y := if j =? 0 then y0 else if j =? 1 then y1 ++ repeat 0 6 else if j =? 2 then y2 else y3).
  assert (F1 : firstn 10 (y1 ++ repeat 0 6) = y1 /\ skipn 10 (y1 ++ repeat 0 6) = repeat 0 6).
  { assert (HL : length y1 = 10%nat) by (unfold len in L1; lia). rewrite firstn_app, skipn_app, HL, Nat.sub_diag, <- HL, firstn_all, skipn_all. cbn [firstn skipn]. now rewrite app_nil_r. }
  assert (SV : shape_vec j y).
  { unfold shape_vec, y. destruct (Z.eqb_spec j 0); [auto 6|]. destruct (Z.eqb_spec j 1); [|destruct (Z.eqb_spec j 2)].
    - destruct F1 as [F1 F2]. rewrite F1, F2, len_app, L1. split; [reflexivity|auto 6].
    - auto 6.
    - split; [exact L3|]. right. right. right. split; [lia|exact P3]. }
  assert (Q0 : j = 0 -> y0 = y) by (intros ->; reflexivity).
  assert (Q1 : j = 1 -> y1 = firstn 10 y) by (intros ->; symmetry; exact (proj1 F1)).
  assert (Q2 : j = 2 -> y2 = y) by (intros ->; reflexivity).
  assert (Q3 : j = 3 -> y3 = y) by (intros ->; reflexivity).
  destruct (joint_round_trip j i y0 y1 y2 y3 y lf hf ltac:(lia) Hlf Hhf SV Q0 Q1 Q2 Q3) as (ji & la & lb & q & EJ & R).
  rewrite EJ. cbn [bind]. exists j, i, ji, la, lb, y, q. split; [reflexivity|]. split; [lia|]. split; [lia|]. split; [exact SV|]. exact R.
Qed.

(* every accepted parameter set has a vector of its shape and a gain inside its table *)
Lemma shape_of_legal q : sns_legal q -> exists y, sns_vector q = Ok y /\ shape_vec (2 * q_submode_msb q + q_submode_lsb q) y /\
  0 <= q_g_ind q < gain_table_len (2 * q_submode_msb q + q_submode_lsb q).
Proof.
  intros [_ _ Ha Hr]. unfold sns_vector, shape_vec.
  destruct Hr as [(M & S & G & A1 & B1 & C1)|[(M & S & G & A1 & B1 & C1)|[(M & S & G & A1 & B1 & C1)|(M & S & G & A1 & B1 & C1)]]]; rewrite M, S.
  - change (Z.shiftl 0 1 + 0 =? 0) with true. cbn iota. change (2 * 0 + 0) with 0.
    destruct (deenum_enum 10 10 (q_ls_inda q) (q_idx_a q) ltac:(lia) ltac:(lia) Ha ltac:(rewrite size_10_10; lia)) as (a & Da & La & Pa & _).
    destruct (deenum_enum 6 1 (q_ls_indb q) (q_idx_b q) ltac:(lia) ltac:(lia) C1 ltac:(rewrite size_6_1; lia)) as (b & Db & Lb & Pb & _).
    change (Z.of_nat 10) with 10 in Da. change (Z.of_nat 6) with 6 in Db. change (Z.of_nat 1) with 1 in Db. rewrite Da. cbn [bind]. rewrite Db. cbn [bind].
    exists (a ++ b). split; [reflexivity|]. split; [|unfold gain_table_len; cbn; lia]. split; [unfold len; rewrite app_length; lia|]. left.
    rewrite firstn_app, skipn_app, La, Nat.sub_diag, <- La, firstn_all, skipn_all. cbn [firstn skipn app]. rewrite app_nil_r. repeat split; lia.
  - change (Z.shiftl 0 1 + 1 =? 0) with false. change (Z.shiftl 0 1 + 1 =? 1) with true. cbn iota. change (2 * 0 + 1) with 1.
    destruct (deenum_enum 10 10 (q_ls_inda q) (q_idx_a q) ltac:(lia) ltac:(lia) Ha ltac:(rewrite size_10_10; lia)) as (a & Da & La & Pa & _).
    change (Z.of_nat 10) with 10 in Da. rewrite Da. cbn [bind]. exists (a ++ repeat 0 6). split; [reflexivity|]. split; [|unfold gain_table_len; cbn; lia].
    split; [unfold len; rewrite app_length, repeat_length; lia|]. right. left.
    rewrite firstn_app, skipn_app, La, Nat.sub_diag, <- La, firstn_all, skipn_all. cbn [firstn skipn app]. rewrite app_nil_r. repeat split; lia.
  - change (Z.shiftl 1 1 + 0) with 2. cbn [Z.eqb Pos.eqb]. change (2 * 1 + 0) with 2.
    destruct (deenum_enum 16 8 (q_ls_inda q) (q_idx_a q) ltac:(lia) ltac:(lia) Ha ltac:(rewrite size_16_8; lia)) as (a & Da & La & Pa & _).
    exists a. split; [exact Da|]. split; [|unfold gain_table_len; cbn; lia]. split; [unfold len; lia|]. right. right. left. auto.
  - change (Z.shiftl 1 1 + 1) with 3. cbn [Z.eqb Pos.eqb]. change (2 * 1 + 1) with 3.
    destruct (deenum_enum 16 6 (q_ls_inda q) (q_idx_a q) ltac:(lia) ltac:(lia) Ha ltac:(rewrite size_16_6; lia)) as (a & Da & La & Pa & _).
    exists a. split; [exact Da|]. split; [|unfold gain_table_len; cbn; lia]. split; [unfold len; lia|]. right. right. right. auto.
Qed.
