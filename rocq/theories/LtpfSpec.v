(* What the long term post filter computes, sample by sample, over any scalar type: a recursive filter on the
   unbounded past of its input and output, of which the circular buffers keep the last blocks. *)
From Coq Require Import ZArith List Bool Lia.
From Verif Require Import Base Config SideInfo FrameSpec Buffers TablesLtpf Loops Scalar DecSignal DecMdct DecLtpf DecTotal DecState ParseBase ParseTotal MdctSpec.
Import ListNotations.
Local Open Scope Z_scope.

Section LtpfSpec.
Context {F : Type} (o : ops F).
Local Notation z0 := (fz o 0).

(* op (.. (op acc (c_0 * h t)) ..) (c_k * h (t - k)) *)
Fixpoint taps (op : F -> F -> F) (cs : list F) (h : Z -> F) (t : Z) (acc : F) : F :=
  match cs with [] => acc | c :: cs => taps op cs h (t - 1) (op acc (fmul o c (h t))) end.
(* numerator on the last inputs x, denominator on the outputs y around `lag` samples before t *)
Definition filt (cnum cden : list F) (x y : Z -> F) (t lag : Z) : F :=
  taps (fsub o) cden y (t - lag + (len cden - 1) / 2) (taps (fadd o) cnum x t z0).

Record lt_par : Type := mkLtPar { lp_num : list F; lp_den : list F; lp_lag : Z }.
Definition pfilt (p : lt_par) (x y : Z -> F) (t : Z) : F := filt (lp_num p) (lp_den p) x y t (lp_lag p).
Definition ramp_in (norm n : Z) (f : F) : F := fmul o f (fdiv o (fz o n) (fz o norm)).
Definition ramp_out (norm n : Z) (f : F) : F := fmul o f (fsub o (fz o 1) (fdiv o (fz o n) (fz o norm))).

(* One frame of nf samples: x is the input, y the output, both on the whole past (t < 0) and the frame (0 <= t < nf).
   `old` and `new` are the filters of the previous and of this frame, q is the length of the cross fade,
   z the signal between the two filters when both run. `yr` is what the second of them reads as its own past. *)
Definition ltpf_rel (tr : transition) (old new : lt_par) (nf q : Z) (x y z yr : Z -> F) (n : Z) : Prop :=
  match tr with
  | Inactive => y n = x n
  | Activated => y n = fsub o (x n) (if n <? q then ramp_in q n (pfilt new x y n) else pfilt new x y n)
  | Deactivated => y n = if n <? q then fsub o (x n) (ramp_out q n (pfilt old x y n)) else x n
  | ActiveNoPitchChange => y n = fsub o (x n) (pfilt new x y n)
  | ActivePitchChanged =>
      if n <? q then z n = fsub o (x n) (ramp_out q n (pfilt old x z n)) /\ y n = fsub o (z n) (ramp_in q n (pfilt new z yr n))
      else y n = fsub o (x n) (pfilt new x y n)
  end.

(* contents of a ring of `total` samples seen as the past of position blk *)
Definition past (total : Z) (l : list F) (blk t : Z) : F := getz z0 l (wrap_neg total (blk + t)).

Lemma taps_ext op cs : forall h h' t acc, (forall j, t - len cs < j <= t -> h j = h' j) -> taps op cs h t acc = taps op cs h' t acc.
Proof.
  induction cs as [|c cs IH]; intros h h' t acc H; cbn [taps]; [reflexivity|]. replace (len (c :: cs)) with (len cs + 1) in H by (unfold len; cbn [length]; lia).
  pose proof (len_nonneg cs). rewrite (H t) by lia. apply IH. intros j Hj. apply H. lia.
Qed.
Lemma filt_ext cnum cden x x' y y' t lag : (forall j, t - len cnum < j <= t -> x j = x' j) ->
  (forall j, t - lag + (len cden - 1) / 2 - len cden < j <= t - lag + (len cden - 1) / 2 -> y j = y' j) -> filt cnum cden x y t lag = filt cnum cden x' y' t lag.
Proof. intros H1 H2. unfold filt. rewrite (taps_ext _ _ x x') by assumption. now apply taps_ext. Qed.
Lemma fir_taps op total (l : list F) start h T : forall cs k acc,
  (forall j, 0 <= j < len cs -> 0 <= wrap_neg total (start - k - j) < len l /\ getz z0 l (wrap_neg total (start - k - j)) = h (T - k - j)) ->
  fir o op total cs l start k acc = Ok (taps op cs h (T - k) acc).
Proof.
  induction cs as [|c cs IH]; intros k acc H; cbn [fir taps]; [reflexivity|]. replace (len (c :: cs)) with (len cs + 1) in H by (unfold len; cbn [length]; lia).
  pose proof (len_nonneg cs). destruct (H 0 ltac:(lia)) as [H1 H2]. rewrite !Z.sub_0_r in *. rewrite (idx_get z0) by exact H1. cbn [bind]. rewrite H2.
  rewrite IH; [f_equal; f_equal; lia|]. intros j Hj. specialize (H (j + 1) ltac:(lia)).
  replace (start - (k + 1) - j) with (start - k - (j + 1)) by lia. replace (T - (k + 1) - j) with (T - k - (j + 1)) by lia. exact H.
Qed.

Section Loop.
Variables (total blk : Z) (xl0 : list F).
Hypothesis Hblk : 0 <= blk < total.
(* the output so far *)
Definition cur (xl : list F) (t : Z) : F := if t <? 0 then past total xl0 blk t else getz z0 xl (blk + t).
Definition lt_inv (body : (Z -> F) -> Z -> F) (n : Z) (xl : list F) : Prop :=
  len xl = total /\ (forall j, 0 <= j -> j < blk \/ blk + n <= j -> getz z0 xl j = getz z0 xl0 j) /\
  forall m, 0 <= m < n -> getz z0 xl (blk + m) = body (cur xl) m.
Lemma loop_inv (body : (Z -> F) -> Z -> F) (step : Z -> list F -> res (list F)) lo hi xl : 0 <= lo <= hi -> blk + hi <= total ->
  (forall h h' m, 0 <= m < hi -> (forall t, - total <= t < m -> h t = h' t) -> body h m = body h' m) ->
  (forall n xl, lo <= n < hi -> len xl = total -> (forall j, 0 <= j -> j < blk \/ blk + n <= j -> getz z0 xl j = getz z0 xl0 j) ->
     exists xl', step n xl = Ok xl' /\ len xl' = total /\ forall j, 0 <= j -> getz z0 xl' j = if j =? blk + n then body (cur xl) n else getz z0 xl j) ->
  lt_inv body lo xl -> exists xl', for_range lo hi step xl = Ok xl' /\ lt_inv body hi xl'.
Proof.
  intros Hlo Hhi Hext Hstep H0. apply (for_inv (lt_inv body)); [lia|exact H0|]. intros n l Hn (I1 & I2 & I3).
  destruct (Hstep n l Hn I1 I2) as (l' & E & L & G). exists l'. split; [exact E|]. split; [exact L|].
  assert (C : forall t, - total <= t < n -> cur l' t = cur l t).
  { intros t Ht. unfold cur. destruct (Z.ltb_spec t 0); [reflexivity|]. rewrite G by lia. destruct (Z.eqb_spec (blk + t) (blk + n)); [lia|reflexivity]. }
  split.
  - intros j Hj Hout. rewrite G by lia. destruct (Z.eqb_spec j (blk + n)); [lia|]. apply I2; lia.
  - intros m Hm. rewrite G by lia. destruct (Z.eqb_spec (blk + m) (blk + n)).
    + replace m with n by lia. apply Hext; [lia|]. intros t Ht. symmetry. apply C. lia.
    + rewrite I3 by lia. apply Hext; [lia|]. intros t Ht. symmetry. apply C. lia.
Qed.
(* reading the ring of outputs before sample n is written *)
Lemma read_cur xl n t : len xl = total -> (forall j, 0 <= j -> j < blk \/ blk + n <= j -> getz z0 xl j = getz z0 xl0 j) ->
  - total + n <= t < n -> 0 <= n -> blk + n < total -> 0 <= wrap_neg total (blk + t) < len xl /\ getz z0 xl (wrap_neg total (blk + t)) = cur xl t.
Proof.
  intros L I Ht Hn Hb. unfold cur, past, wrap_neg. destruct (Z.ltb_spec (blk + t) 0), (Z.ltb_spec t 0); try lia; (split; [lia|]); try reflexivity; apply I; lia.
Qed.

Variables (x : list F) (xh : Z -> F).
Hypothesis Hxl : len x = total.
(* one sample: ltpf_sample puts x n - g (filter) at position n *)
Lemma sample_step g cnum cden pitch n xl : len xl = total -> 0 <= n -> blk + n < total ->
  (forall j, 0 <= j -> j < blk \/ blk + n <= j -> getz z0 xl j = getz z0 xl0 j) ->
  (forall t, n - len cnum < t <= n -> 0 <= wrap_neg total (blk + t) < total /\ getz z0 x (wrap_neg total (blk + t)) = xh t) ->
  1 <= len cnum -> 1 <= len cden -> (len cden - 1) / 2 < pitch -> pitch + len cden <= total ->
  exists xl', ltpf_sample o g total (len cden - 1) cnum cden x blk pitch n xl = Ok xl' /\ len xl' = total /\
    forall j, 0 <= j -> getz z0 xl' j = if j =? blk + n then fsub o (xh n) (g (filt cnum cden xh (cur xl) n pitch)) else getz z0 xl j.
Proof.
  intros L Hn Hb I Hx Hc Hd Hp1 Hp2. unfold ltpf_sample. rewrite (idx_get z0) by lia. cbn [bind].
  destruct (put_ok z0 xl (blk + n) (getz z0 x (blk + n)) ltac:(lia)) as (l1 & E1 & L1 & G1). rewrite E1. cbn [bind].
  assert (X0 : getz z0 x (blk + n) = xh n).
  { destruct (Hx n ltac:(lia)) as [_ E]. rewrite <- E. unfold wrap_neg. destruct (Z.ltb_spec (blk + n) 0); [lia|reflexivity]. }
  unfold compute_filter.
  rewrite (fir_taps _ _ _ _ xh n) by (intros j Hj; rewrite !Z.sub_0_r, Hxl; replace (blk + n - j) with (blk + (n - j)) by lia; apply Hx; lia). cbn [bind]. rewrite Z.sub_0_r.
  rewrite (fir_taps _ _ _ _ (cur xl) (n - pitch + (len cden - 1) / 2)).
  2:{ intros j Hj. rewrite !Z.sub_0_r, L1. replace (blk + n - pitch + (len cden - 1) / 2 - j) with (blk + (n - pitch + (len cden - 1) / 2 - j)) by lia.
      set (t := n - pitch + (len cden - 1) / 2 - j). assert (Ht : - total + n < t < n) by (unfold t; Z.div_mod_to_equations; lia).
      destruct (read_cur xl n t L I ltac:(lia) Hn Hb) as [R1 R2]. split; [exact R1|]. rewrite G1 by lia.
      destruct (Z.eqb_spec (wrap_neg total (blk + t)) (blk + n)) as [E|_]; [|exact R2]. exfalso. unfold wrap_neg in E. destruct (Z.ltb_spec (blk + t) 0); lia. }
  cbn [bind]. rewrite Z.sub_0_r. rewrite (idx_get z0) by lia. cbn [bind]. rewrite G1, Z.eqb_refl by lia.
  destruct (put_ok z0 l1 (blk + n) (fsub o (getz z0 x (blk + n)) (g (taps (fsub o) cden (cur xl) (n - pitch + (len cden - 1) / 2) (taps (fadd o) cnum xh n z0)))) ltac:(lia)) as (l2 & E2 & L2 & G2).
  exists l2. split; [exact E2|]. split; [lia|]. intros j Hj. rewrite G2, G1 by lia. destruct (Z.eqb_spec j (blk + n)); [|reflexivity]. rewrite X0. reflexivity.
Qed.
End Loop.

Lemma pfilt_ext total p x y y' n : 1 <= len (lp_den p) -> (len (lp_den p) - 1) / 2 < lp_lag p -> lp_lag p + len (lp_den p) <= total -> 0 <= n ->
  (forall t, - total <= t < n -> y t = y' t) -> pfilt p x y n = pfilt p x y' n.
Proof. intros H1 H2 H3 H4 H. apply filt_ext; [reflexivity|]. intros j Hj. apply H. Z.div_mod_to_equations; lia. Qed.
Lemma pfilt_ext2 nf p x x' y n : 1 <= len (lp_num p) <= nf -> 0 <= n -> (forall t, - nf < t <= n -> x t = x' t) -> pfilt p x y n = pfilt p x' y n.
Proof. intros H1 H2 H. apply filt_ext; [|reflexivity]. intros j Hj. apply H. lia. Qed.

(* geometry shared by all frames *)
Record lt_geom (total blk nf q : Z) : Prop := mkLtGeom {
  lg_blk : 0 <= blk /\ blk + nf <= total;
  lg_first : blk = 0 \/ nf <= blk;
  lg_q : 0 < q <= nf;
  lg_two : 2 * nf <= total
}.
Record par_ok (total nf : Z) (p : lt_par) : Prop := mkParOk {
  po_num : 1 <= len (lp_num p) <= nf;
  po_den : len (lp_den p) = len (lp_num p) + 2;
  po_lag : (len (lp_den p) - 1) / 2 < lp_lag p /\ lp_lag p + len (lp_den p) <= total
}.

Lemma nfold_range total blk nf q (x : list F) t : lt_geom total blk nf q -> len x = total -> - nf < t < nf -> 0 <= wrap_neg total (blk + t) < total.
Proof. intros [G1 G2 G3 G4] L H. unfold wrap_neg. destruct (Z.ltb_spec (blk + t) 0); lia. Qed.

Section Frame.
Variables (total blk nf q : Z) (x xl0 : list F).
Hypothesis G : lt_geom total blk nf q.
Hypothesis Hx : len x = total.
Hypothesis Hxl0 : len xl0 = total.
Local Notation xh := (past total x blk).

Lemma blk_range : 0 <= blk < total.
Proof. destruct G as [G1 G2 G3 G4]. lia. Qed.
Lemma xh_here n : 0 <= n -> xh n = getz z0 x (blk + n).
Proof. intros H. pose proof blk_range. unfold past, wrap_neg. destruct (Z.ltb_spec (blk + n) 0); [lia|reflexivity]. Qed.

Lemma filt_loop p (g : Z -> F -> F) (body : (Z -> F) -> Z -> F) lo hi xl : par_ok total nf p -> 0 <= lo <= hi -> hi <= nf ->
  (forall h h' m, 0 <= m < hi -> (forall t, - total <= t < m -> h t = h' t) -> body h m = body h' m) ->
  (forall h m, lo <= m < hi -> body h m = fsub o (xh m) (g m (pfilt p xh h m))) ->
  lt_inv total blk xl0 body lo xl ->
  exists xl', for_range lo hi (fun k => ltpf_sample o (g k) total (len (lp_den p) - 1) (lp_num p) (lp_den p) x blk (lp_lag p) k) xl = Ok xl' /\ lt_inv total blk xl0 body hi xl'.
Proof.
  intros [P1 P2 [P3 P4]] Hlo Hhi Hext Hb H0. pose proof blk_range as B. pose proof G as [G1 G2 G3 G4].
  apply (loop_inv total blk xl0 B body); auto; try lia. intros n l Hn L I. rewrite Hb by exact Hn.
  apply (sample_step total blk xl0 B x xh Hx (g n) (lp_num p) (lp_den p) (lp_lag p) n l); try assumption; try lia.
  intros t Ht. split; [eapply nfold_range; eauto; lia|reflexivity].
Qed.
Lemma lt_inv_0 body : lt_inv total blk xl0 body 0 xl0.
Proof. split; [exact Hxl0|]. split; [reflexivity|lia]. Qed.

(* the result of a frame: samples outside the block are kept, those inside satisfy R *)
Definition framed (R : (Z -> F) -> Z -> Prop) (xl : list F) : Prop :=
  len xl = total /\ (forall j, 0 <= j -> j < blk \/ blk + nf <= j -> getz z0 xl j = getz z0 xl0 j) /\
  forall m, 0 <= m < nf -> R (cur total blk xl0 xl) m.
Lemma cur_here xl m : 0 <= m -> cur total blk xl0 xl m = getz z0 xl (blk + m).
Proof. intros H. unfold cur. destruct (Z.ltb_spec m 0); [lia|reflexivity]. Qed.
Lemma framed_inv body (R : (Z -> F) -> Z -> Prop) xl : lt_inv total blk xl0 body nf xl -> (forall h m, 0 <= m < nf -> h m = body h m -> R h m) -> framed R xl.
Proof. intros (I1 & I2 & I3) H. split; [exact I1|]. split; [exact I2|]. intros m Hm. apply H; [exact Hm|]. rewrite cur_here by lia. now apply I3. Qed.

Lemma act_new p : par_ok total nf p -> forall h h' m, 0 <= m -> (forall t, - total <= t < m -> h t = h' t) -> pfilt p xh h m = pfilt p xh h' m.
Proof. intros [P1 P2 [P3 P4]] h h' m Hm H. apply (pfilt_ext total); auto. lia. Qed.

Lemma no_change_ok old p : par_ok total nf p ->
  exists xl', for_range 0 nf (fun k => ltpf_sample o (fun f => f) total (len (lp_den p) - 1) (lp_num p) (lp_den p) x blk (lp_lag p) k) xl0 = Ok xl' /\
    framed (fun y n => ltpf_rel ActiveNoPitchChange old p nf q xh y y y n) xl'.
Proof.
  intros P. pose proof G as [G1 G2 G3 G4]. set (body := fun h m => fsub o (xh m) (pfilt p xh h m)).
  destruct (filt_loop p (fun _ f => f) body 0 nf xl0 P ltac:(lia) ltac:(lia)) as (xl' & E & I); [| |apply lt_inv_0|].
  - intros h h' m Hm H. unfold body. f_equal. apply act_new; auto; lia.
  - reflexivity.
  - exists xl'. split; [exact E|]. eapply framed_inv; [exact I|]. intros h m Hm H. exact H.
Qed.
Lemma activated_ok old p : par_ok total nf p ->
  exists xl1 xl', for_range 0 q (fun k => ltpf_sample o (ramp_in q k) total (len (lp_den p) - 1) (lp_num p) (lp_den p) x blk (lp_lag p) k) xl0 = Ok xl1 /\
    for_range q nf (fun k => ltpf_sample o (fun f => f) total (len (lp_den p) - 1) (lp_num p) (lp_den p) x blk (lp_lag p) k) xl1 = Ok xl' /\
    framed (fun y n => ltpf_rel Activated old p nf q xh y y y n) xl'.
Proof.
  intros P. pose proof G as [G1 G2 G3 G4]. set (body := fun h m => fsub o (xh m) (if m <? q then ramp_in q m (pfilt p xh h m) else pfilt p xh h m)).
  assert (X : forall hi h h' m, 0 <= m < hi -> (forall t, - total <= t < m -> h t = h' t) -> body h m = body h' m).
  { intros hi h h' m Hm H. unfold body. rewrite (act_new p P h h') by (auto; lia). reflexivity. }
  destruct (filt_loop p (fun k => ramp_in q k) body 0 q xl0 P ltac:(lia) ltac:(lia)) as (xl1 & E1 & I1); [apply X| |apply lt_inv_0|].
  { intros h m Hm. unfold body. destruct (Z.ltb_spec m q); [reflexivity|lia]. }
  destruct (filt_loop p (fun _ f => f) body q nf xl1 P ltac:(lia) ltac:(lia)) as (xl' & E2 & I2); [apply X| |exact I1|].
  { intros h m Hm. unfold body. destruct (Z.ltb_spec m q); [lia|reflexivity]. }
  exists xl1, xl'. split; [exact E1|]. split; [exact E2|]. eapply framed_inv; [exact I2|]. intros h m Hm H. exact H.
Qed.
Lemma deact_ok body old : par_ok total nf old ->
  (forall h h' m, 0 <= m < q -> (forall t, - total <= t < m -> h t = h' t) -> body h m = body h' m) ->
  (forall h m, 0 <= m < q -> body h m = fsub o (xh m) (ramp_out q m (pfilt old xh h m))) ->
  exists xl1, for_range 0 q (fun k => ltpf_sample o (ramp_out q k) total (len (lp_den old) - 1) (lp_num old) (lp_den old) x blk (lp_lag old) k) xl0 = Ok xl1 /\ lt_inv total blk xl0 body q xl1.
Proof.
  intros P X B. pose proof G as [G1 G2 G3 G4]. apply (filt_loop old (fun k => ramp_out q k) body 0 q xl0 P); auto; try lia. apply lt_inv_0.
Qed.
Lemma deactivated_ok old p : par_ok total nf old ->
  exists xl1 xl', for_range 0 q (fun k => ltpf_sample o (ramp_out q k) total (len (lp_den old) - 1) (lp_num old) (lp_den old) x blk (lp_lag old) k) xl0 = Ok xl1 /\
    for_range q nf (fun k xl => v <- idx x (blk + k) ;; put xl (blk + k) v) xl1 = Ok xl' /\
    framed (fun y n => ltpf_rel Deactivated old p nf q xh y y y n) xl'.
Proof.
  intros P. pose proof G as [G1 G2 G3 G4]. set (body := fun h m => if m <? q then fsub o (xh m) (ramp_out q m (pfilt old xh h m)) else xh m).
  assert (X : forall hi h h' m, 0 <= m < hi -> (forall t, - total <= t < m -> h t = h' t) -> body h m = body h' m).
  { intros hi h h' m Hm H. unfold body. rewrite (act_new old P h h') by (auto; lia). reflexivity. }
  destruct (deact_ok body old P) as (xl1 & E1 & I1); [apply X| |].
  { intros h m Hm. unfold body. destruct (Z.ltb_spec m q); [reflexivity|lia]. }
  destruct (loop_inv total blk xl0 blk_range body (fun k xl => v <- idx x (blk + k) ;; put xl (blk + k) v) q nf xl1) as (xl' & E2 & I2); [lia|lia|apply X| |exact I1|].
  { intros n l Hn L I. rewrite (idx_get z0) by lia. cbn [bind]. destruct (put_ok z0 l (blk + n) (getz z0 x (blk + n)) ltac:(lia)) as (l' & E & L' & GG).
    exists l'. split; [exact E|]. split; [lia|]. intros j Hj. rewrite GG by lia. unfold body. destruct (Z.ltb_spec n q); [lia|]. rewrite xh_here by lia. reflexivity. }
  exists xl1, xl'. split; [exact E1|]. split; [exact E2|]. eapply framed_inv; [exact I2|]. intros h m Hm H. exact H.
Qed.

(* second filter of a change of pitch: it runs over the output xl1 of the first one *)
Lemma activate_spec p xl1 scratch : par_ok total nf p -> len xl1 = total -> (forall j, 0 <= j -> j < blk \/ blk + q <= j -> getz z0 xl1 j = getz z0 xl0 j) ->
  len scratch = len (lp_num p) - 1 + q -> len (lp_num p) + q <= total - nf ->
  exists sc xl2, activate_from_mem o total (len (lp_den p) - 1) q (lp_num p) (lp_den p) blk (lp_lag p) q scratch xl1 = Ok (sc, xl2) /\ len sc = len scratch /\
    lt_inv total blk xl1 (fun h m => fsub o (cur total blk xl0 xl1 m) (ramp_in q m (pfilt p (cur total blk xl0 xl1) h m))) q xl2.
Proof.
  intros P L1 K Ls Hbig. pose proof P as [P1 P2 [P3 P4]]. pose proof G as [G1 G2 G3 G4]. pose proof blk_range as B. unfold activate_from_mem.
  set (zh := cur total blk xl0 xl1). set (ln := len (lp_num p) - 1) in *. unfold usub at 1. destruct (Z.ltb_spec (len (lp_num p)) 1); [lia|]. cbn [bind]. fold ln.
  assert (Z1 : forall t, - ln <= t < q -> getz z0 xl1 (wrap_neg total (blk + t)) = zh t).
  { intros t Ht. unfold zh, cur, past, wrap_neg. destruct (Z.ltb_spec (blk + t) 0), (Z.ltb_spec t 0); try lia; try reflexivity; apply K; lia. }
  assert (SC : exists sc, (if blk <? ln then from <- usub total ln ;; s <- sub xl1 from (from + ln) ;; scratch <- blit scratch 0 ln s ;; s <- sub xl1 0 q ;; blit scratch ln (len scratch) s
              else from <- usub blk ln ;; s <- sub xl1 from (blk + q) ;; blit scratch 0 (len scratch) s) = Ok sc /\ len sc = len scratch /\ forall j, 0 <= j < ln + q -> getz z0 sc j = zh (j - ln)).
  { destruct (Z.ltb_spec blk ln).
    - assert (blk = 0) by lia. unfold usub. destruct (Z.ltb_spec total ln); [lia|]. cbn [bind].
      destruct (sub_ok xl1 (total - ln) (total - ln + ln) ltac:(lia) ltac:(lia)) as (s1 & E1 & Q1 & T1). rewrite E1. cbn [bind].
      destruct (blit_ok scratch 0 ln s1 ltac:(lia) ltac:(lia) ltac:(lia)) as (b1 & E2 & Q2 & T2). rewrite E2. cbn [bind].
      destruct (sub_ok xl1 0 q ltac:(lia) ltac:(lia)) as (s2 & E3 & Q3 & T3). rewrite E3. cbn [bind].
      destruct (blit_ok b1 ln (len b1) s2 ltac:(lia) ltac:(lia) ltac:(lia)) as (b2 & E4 & Q4 & T4). exists b2. split; [exact E4|]. split; [lia|].
      intros j Hj. rewrite <- Z1 by lia. rewrite T4 by lia. unfold wrap_neg. bcase; try lia.
      + rewrite T3 by lia. f_equal. lia.
      + rewrite T2 by lia. bcase; try lia. rewrite T1 by lia. f_equal. lia.
    - unfold usub. destruct (Z.ltb_spec blk ln); [lia|]. cbn [bind].
      destruct (sub_ok xl1 (blk - ln) (blk + q) ltac:(lia) ltac:(lia)) as (s1 & E1 & Q1 & T1). rewrite E1. cbn [bind].
      destruct (blit_ok scratch 0 (len scratch) s1 ltac:(lia) ltac:(lia) ltac:(lia)) as (b1 & E2 & Q2 & T2). exists b1. split; [exact E2|]. split; [exact Q2|].
      intros j Hj. rewrite <- Z1 by lia. rewrite T2 by lia. unfold wrap_neg. bcase; try lia. rewrite T1 by lia. f_equal. lia. }
  destruct SC as (sc & Esc & Lsc & Tsc). rewrite Esc. cbn [bind]. clear Esc.
  match goal with |- context [for_range 0 q ?b xl1] => set (step := b) end.
  set (body := fun h m => fsub o (zh m) (ramp_in q m (pfilt p zh h m))).
  destruct (loop_inv total blk xl1 B body step 0 q xl1) as (xl2 & E & I).
  - lia.
  - lia.
  - intros h h' m Hm H0. unfold body. f_equal. f_equal. apply (pfilt_ext total); auto; lia.
  - intros n l Hn L I. unfold step. rewrite (idx_get z0) by lia. cbn [bind]. rewrite Tsc by lia. replace (n + ln - ln) with n by lia.
    destruct (put_ok z0 l (blk + n) (zh n) ltac:(lia)) as (l1 & E1 & Q1 & T1). rewrite E1. cbn [bind].
    rewrite (fir_taps _ _ _ _ zh n).
    2:{ intros j Hj. unfold wrap_neg. destruct (Z.ltb_spec (ln + n - 0 - j) 0); [lia|]. split; [lia|]. rewrite Tsc by lia. f_equal. lia. }
    cbn [bind]. rewrite Z.sub_0_r. rewrite (fir_taps _ _ _ _ (cur total blk xl1 l) (n - lp_lag p + (len (lp_den p) - 1) / 2)).
    2:{ intros j Hj. rewrite !Z.sub_0_r, Q1. replace (blk + n - lp_lag p + (len (lp_den p) - 1) / 2 - j) with (blk + (n - lp_lag p + (len (lp_den p) - 1) / 2 - j)) by lia.
        set (t := n - lp_lag p + (len (lp_den p) - 1) / 2 - j). assert (Ht : - total + n < t < n) by (unfold t; Z.div_mod_to_equations; lia).
        destruct (read_cur total blk xl1 B l n t L I ltac:(lia) ltac:(lia) ltac:(lia)) as [R1 R2]. split; [exact R1|]. rewrite T1 by lia.
        destruct (Z.eqb_spec (wrap_neg total (blk + t)) (blk + n)) as [EE|_]; [|exact R2]. exfalso. unfold wrap_neg in EE. destruct (Z.ltb_spec (blk + t) 0); lia. }
    cbn [bind]. rewrite Z.sub_0_r. rewrite (idx_get z0) by lia. cbn [bind]. rewrite T1, Z.eqb_refl by lia.
    match goal with |- context [put l1 (blk + n) ?v] => destruct (put_ok z0 l1 (blk + n) v ltac:(lia)) as (l2 & E2 & Q2 & T2) end.
    exists l2. split; [exact E2|]. split; [lia|]. intros j Hj. rewrite T2, T1 by lia. destruct (Z.eqb_spec j (blk + n)); reflexivity.
  - split; [exact L1|]. split; [reflexivity|lia].
  - rewrite E. cbn [bind]. exists sc, xl2. split; [reflexivity|]. split; [exact Lsc|exact I].
Qed.

(* what the second filter reads as its own past: the true past, except that positions a whole ring back hold the
   output of the first filter *)
Definition read5 (z y : Z -> F) (t : Z) : F := if t <? q - total then z (t + total) else y t.
Lemma changed_ok old p scratch : par_ok total nf old -> par_ok total nf p -> len scratch = len (lp_num p) - 1 + q -> len (lp_num p) + q <= total - nf ->
  exists z xl1 sc xl2 xl', for_range 0 q (fun k => ltpf_sample o (ramp_out q k) total (len (lp_den old) - 1) (lp_num old) (lp_den old) x blk (lp_lag old) k) xl0 = Ok xl1 /\
    activate_from_mem o total (len (lp_den p) - 1) q (lp_num p) (lp_den p) blk (lp_lag p) q scratch xl1 = Ok (sc, xl2) /\
    for_range q nf (fun k => ltpf_sample o (fun f => f) total (len (lp_den p) - 1) (lp_num p) (lp_den p) x blk (lp_lag p) k) xl2 = Ok xl' /\ len sc = len scratch /\
    framed (fun y n => (forall t, t < 0 -> z t = y t) /\ ltpf_rel ActivePitchChanged old p nf q xh y z (read5 z y) n) xl'.
Proof.
  intros Po P Ls Hbig. pose proof P as [P1 P2 [P3 P4]]. pose proof G as [G1 G2 G3 G4].
  destruct (deact_ok (fun h m => fsub o (xh m) (ramp_out q m (pfilt old xh h m))) old Po) as (xl1 & E1 & (I1 & I2 & I3)); [|reflexivity|].
  { intros h h' m Hm H. rewrite (act_new old Po h h') by (auto; lia). reflexivity. }
  destruct (activate_spec p xl1 scratch P I1 I2 Ls Hbig) as (sc & xl2 & E2 & Lsc & (J1 & J2 & J3)).
  set (zh := cur total blk xl0 xl1) in *.
  assert (K2 : forall j, 0 <= j -> j < blk \/ blk + q <= j -> getz z0 xl2 j = getz z0 xl0 j) by (intros j Hj Ho; rewrite J2, I2 by lia; reflexivity).
  set (body := fun h m => if m <? q then getz z0 xl2 (blk + m) else fsub o (xh m) (pfilt p xh h m)).
  destruct (filt_loop p (fun _ f => f) body q nf xl2 P ltac:(lia) ltac:(lia)) as (xl' & E3 & (M1 & M2 & M3)).
  { intros h h' m Hm H. unfold body. rewrite (act_new p P h h') by (auto; lia). reflexivity. }
  { intros h m Hm. unfold body. destruct (Z.ltb_spec m q); [lia|reflexivity]. }
  { split; [exact J1|]. split; [exact K2|]. intros m Hm. unfold body. destruct (Z.ltb_spec m q); [reflexivity|lia]. }
  exists zh, xl1, sc, xl2, xl'. split; [exact E1|]. split; [exact E2|]. split; [exact E3|]. split; [exact Lsc|]. split; [exact M1|]. split; [exact M2|].
  intros m Hm. split; [intros t Ht; unfold zh, cur; destruct (Z.ltb_spec t 0); [reflexivity|lia]|]. unfold ltpf_rel. destruct (Z.ltb_spec m q).
  - split.
    + unfold zh at 1. rewrite cur_here by lia. rewrite I3 by lia. reflexivity.
    + rewrite cur_here by lia. rewrite M3 by lia. unfold body. destruct (Z.ltb_spec m q); [|lia]. rewrite J3 by lia. f_equal. f_equal.
      apply (pfilt_ext total); try assumption; [lia|lia|]. intros t Ht. unfold read5. unfold cur at 1. pose proof blk_range as B.
      destruct (Z.ltb_spec t 0).
      * unfold past. destruct (Z.ltb_spec t (q - total)).
        -- unfold zh. rewrite cur_here by lia. f_equal. unfold wrap_neg. destruct (Z.ltb_spec (blk + t) 0); lia.
        -- unfold cur. destruct (Z.ltb_spec t 0); [|lia]. unfold past. apply I2; unfold wrap_neg; destruct (Z.ltb_spec (blk + t) 0); lia.
      * destruct (Z.ltb_spec t (q - total)); [lia|]. rewrite cur_here by lia. rewrite M3 by lia. unfold body. destruct (Z.ltb_spec t q); [reflexivity|lia].
  - rewrite cur_here by lia. rewrite M3 by lia. unfold body. destruct (Z.ltb_spec m q); [lia|reflexivity].
Qed.
End Frame.

Lemma ltpf_rel_ext total blk nf q tr old p x x' y y' z z' n : lt_geom total blk nf q ->
  (tr = Deactivated \/ tr = ActivePitchChanged -> par_ok total nf old) -> (tr = Activated \/ tr = ActiveNoPitchChange \/ tr = ActivePitchChanged -> par_ok total nf p) -> 0 <= n < nf ->
  (forall t, - nf < t < nf -> x t = x' t) -> (forall t, - total <= t < nf -> y t = y' t) -> (forall t, - total <= t < nf -> z t = z' t) ->
  ltpf_rel tr old p nf q x y z (read5 total q z y) n -> ltpf_rel tr old p nf q x' y' z' (read5 total q z' y') n.
Proof.
  intros [G1 G2 G3 G4] Po P Hn Hx Hy Hz. assert (X : forall pp f, par_ok total nf pp -> pfilt pp x f n = pfilt pp x' f n).
  { intros pp f [Q1 _ _]. apply (pfilt_ext2 nf); [exact Q1|lia|]. intros t Ht. apply Hx. lia. }
  assert (Z1 : forall pp f, par_ok total nf pp -> pfilt pp z f n = pfilt pp z' f n).
  { intros pp f [Q1 _ _]. apply (pfilt_ext2 nf); [exact Q1|lia|]. intros t Ht. apply Hz. lia. }
  assert (Y : forall pp f g g', par_ok total nf pp -> (forall t, - total <= t < nf -> g t = g' t) -> pfilt pp f g n = pfilt pp f g' n).
  { intros pp f g g' [Q1 Q2 [Q3 Q4]] H. apply (pfilt_ext total); try assumption; try lia. intros t Ht. apply H. lia. }
  unfold ltpf_rel. destruct tr; rewrite <- ?Hx, <- ?Hy by lia.
  - auto.
  - intros ->. rewrite (X p), (Y p x' y y') by auto. reflexivity.
  - intros ->. rewrite (X old), (Y old x' y y') by auto. reflexivity.
  - intros ->. rewrite (X p), (Y p x' y y') by auto. reflexivity.
  - destruct (Z.ltb_spec n q).
    + intros [E1 E2]. rewrite <- (Hz n) by lia.
      assert (R : forall t, - total <= t < nf -> read5 total q z y t = read5 total q z' y' t) by (intros t Ht; unfold read5; destruct (Z.ltb_spec t (q - total)); [apply Hz|apply Hy]; lia).
      rewrite <- (Z1 p), <- (Y p z _ _ ltac:(auto) R) by auto. rewrite <- (X old), <- (Y old x z z') by auto. auto.
    + intros ->. rewrite (X p), (Y p x' y y') by auto. reflexivity.
Qed.

(* ---- parameters of a frame ---- *)
(* transmitted pitch index -> lag at 12.8 kHz in quarter samples *)
Definition lag_q (i : Z) : Z := if i <? 380 then i + 128 else if i <? 440 then 2 * i - 252 else 4 * i - 1132.
(* in quarter samples at the (nominal) sampling frequency, rounded to nearest *)
Definition lag_up (fs i : Z) : Z := ltpf_p_up fs (lag_q i).
Definition par_of (c : config) (n : ltpf_lens) (i : ltpf_info) (nbits : Z) : lt_par :=
  let u := lag_up (fs c) (l_pitch i) in
  match ltpf_tables (fs c) (snd (ltpf_gain c nbits)) (u mod 4) with
  | Ok (tn, td) =>
      let g := fst (ltpf_gain c nbits) in
      mkLtPar (map (fun v => fmul o (fmul o (flit o (85, -2)) (flit o g)) (flit o v)) (firstn (Z.to_nat (l_cnum n)) tn))
              (map (fun v => fmul o (flit o g) (flit o v)) (firstn (Z.to_nat (l_cden n)) td)) (u / 4)
  | _ => mkLtPar [] [] 0
  end.
Lemma quarter_lag_val p : 0 <= p < 512 -> ltpf_quarter_lag p = Ok (lag_q p).
Proof.
  intros H. unfold ltpf_quarter_lag, lag_q, usub. destruct (Z.leb_spec 440 p).
  - destruct (Z.ltb_spec p 283); [lia|]. cbn [bind]. f_equal. bcase; try lia.
  - destruct (Z.leb_spec 380 p).
    + destruct (Z.ltb_spec (p / 2) 63); [Z.div_mod_to_equations; lia|]. cbn [bind].
      destruct (Z.ltb_spec (2 * p) (4 * (p / 2 - 63))); [Z.div_mod_to_equations; lia|]. cbn [bind].
      destruct (Z.ltb_spec (2 * p - 4 * (p / 2 - 63)) 252); [Z.div_mod_to_equations; lia|]. cbn [bind]. f_equal. bcase; try lia.
    + cbv zeta. destruct (Z.ltb_spec (p + 128) (4 * (p / 4 + 32))); [Z.div_mod_to_equations; lia|]. cbn [bind]. f_equal. bcase; try lia.
Qed.
Lemma params_val fs0 i : 0 <= l_pitch i < 512 -> ltpf_params fs0 i = Ok (if l_active i then (lag_up fs0 (l_pitch i) / 4, lag_up fs0 (l_pitch i) mod 4) else (0, 0)).
Proof.
  intros H. unfold ltpf_params. destruct (l_active i); [|reflexivity]. rewrite quarter_lag_val by exact H. cbn [bind]. unfold lag_up. do 2 f_equal. Z.div_mod_to_equations; lia.
Qed.
Lemma zipmod_firstn {A B} (f : B -> A) : forall (l : list A) (src : list B), (length l <= length src)%nat -> zipmod (fun _ v => f v) l src = map f (firstn (length l) src).
Proof. induction l as [|x l IH]; intros [|s src] H; cbn [length] in H; try reflexivity; [lia|]. cbn [zipmod length firstn map]. f_equal. apply IH. lia. Qed.
Lemma tables_len c n g fr tn td : legal_config c -> ltpf_lengths c = Ok n -> 0 <= g < 4 -> 0 <= fr < 4 -> ltpf_tables (fs c) g fr = Ok (tn, td) -> l_cnum n <= len tn /\ l_cden n <= len td.
Proof.
  intros (f & d & ->) E Hg Hf. unfold ltpf_tables.
  assert (Cg : g = 0 \/ g = 1 \/ g = 2 \/ g = 3) by lia. assert (Cf : fr = 0 \/ fr = 1 \/ fr = 2 \/ fr = 3) by lia.
  destruct Cg as [->|[->|[->| ->]]], Cf as [->|[->|[->| ->]]]; destruct f, d; intros Q; vm_compute in Q; apply Ok_inj in Q;
    apply (f_equal (fun '(a, b) => (len a, len b))) in Q; cbv iota beta in Q; injection Q; intros <- <-; vm_compute in E; apply Ok_inj in E; subst n; vm_compute; split; discriminate.
Qed.

(* the filter in force after a frame *)
Definition state_par (s : ltpf F) : lt_par := mkLtPar (t_num s) (t_den s) (t_pint s).
Definition frac_of (c : config) (i : ltpf_info) : Z := lag_up (fs c) (l_pitch i) mod 4.

Lemma par_of_ok c n i nbits : legal_config c -> ltpf_lengths c = Ok n -> 0 <= l_pitch i < 512 ->
  len (lp_num (par_of c n i nbits)) = l_cnum n /\ len (lp_den (par_of c n i nbits)) = l_cden n /\ lp_lag (par_of c n i nbits) = lag_up (fs c) (l_pitch i) / 4 /\ lag_ok n (lp_lag (par_of c n i nbits)).
Proof.
  intros L E H. pose proof (gain_ind_range c nbits) as R. destruct (lengths_ok c L) as (n' & E' & [_ _ [Gc1 Gc2] _ _]). rewrite E in E'. injection E' as <-.
  assert (Hf : 0 <= lag_up (fs c) (l_pitch i) mod 4 < 4) by (apply Z.mod_pos_bound; lia).
  destruct (tables_ok c _ _ L R Hf) as ([tn td] & ET & _). destruct (tables_len c n _ _ tn td L E R Hf ET) as [T1 T2].
  unfold par_of. rewrite ET. cbn [lp_num lp_den lp_lag]. rewrite !len_map. unfold len in *. rewrite !firstn_length. split; [lia|]. split; [lia|]. split; [reflexivity|].
  destruct (params_ok c n (mkLtpf true true (l_pitch i)) L E H) as ([p fr] & EP & _ & P2). rewrite params_val in EP by exact H. cbn [l_active l_pitch] in *.
  injection EP as <- <-. apply P2. reflexivity.
Qed.

Lemma coeffs_spec c n s i nbits : legal_config c -> ltpf_lengths c = Ok n -> ltpf_ok c n s -> 0 <= l_pitch i < 512 ->
  exists nu de, ltpf_coeffs o c s i nbits (if l_active i then frac_of c i else 0) = Ok (t_num s, t_den s, nu, de) /\ len nu = l_cnum n /\ len de = l_cden n /\
    (l_active i = true -> nu = lp_num (par_of c n i nbits) /\ de = lp_den (par_of c n i nbits)).
Proof.
  intros L E S H. destruct (lengths_ok c L) as (n' & E' & [_ _ [Gc1 Gc2] _ _]). rewrite E in E'. injection E' as <-. destruct S as [S1 S2 S3 S4 S5 _ _ _ _ _].
  assert (full : forall a b : list F, len a = len b -> blit a 0 (len a) b = Ok b).
  { intros a b Hl. destruct (blit_ok a 0 (len a) b ltac:(pose proof (len_nonneg a); lia) ltac:(lia) ltac:(lia)) as (r & Er & Lr & Gr). rewrite Er. f_equal.
    apply (list_eq_getz z0); [lia|]. intros j Hj. rewrite Gr by lia. bcase; try lia. f_equal. lia. }
  unfold ltpf_coeffs. rewrite full by lia. cbn [bind]. rewrite full by lia. cbn [bind]. destruct (l_active i).
  - pose proof (gain_ind_range c nbits) as R. assert (Hf : 0 <= frac_of c i < 4) by (apply Z.mod_pos_bound; lia).
    destruct (tables_ok c _ _ L R Hf) as ([tn td] & ET & _). destruct (tables_len c n _ _ tn td L E R Hf ET) as [T1 T2].
    unfold par_of. unfold frac_of in *. rewrite ET. destruct (ltpf_gain c nbits) as [g gi]. cbn [snd fst] in *. rewrite ET. cbn [bind]. cbn [lp_num lp_den].
    eexists _, _. split; [reflexivity|]. rewrite !len_zipmod. split; [lia|]. split; [lia|]. intros _. unfold len in *. rewrite !zipmod_firstn by lia.
    split; do 2 f_equal; lia.
  - destruct (sub_ok (t_zeros s) 0 (len (t_num s)) ltac:(lia) ltac:(lia)) as (z & Ez & Lz & _). rewrite Ez. cbn [bind]. rewrite full by lia. cbn [bind]. rewrite full by lia. cbn [bind].
    eexists _, _. split; [reflexivity|]. split; [lia|]. split; [lia|]. discriminate.
Qed.

(* signals around a frame: past from the ring, present from the frame *)
Definition around (total : Z) (l : list F) (blk : Z) (fr : list F) (t : Z) : F := if t <? 0 then past total l blk t else getz z0 fr t.

Definition same_lag (c : config) (s : ltpf F) (i : ltpf_info) : bool :=
  ((if l_active i then lag_up (fs c) (l_pitch i) / 4 else 0) =? t_pint s) && ((if l_active i then frac_of c i else 0) =? t_pfr s).

Theorem ltpf_run_spec c n s i nbits freq : legal_config c -> ltpf_lengths c = Ok n -> ltpf_ok c n s -> 0 <= l_pitch i < 512 -> len freq = nf c ->
  let total := l_blocks n * nf c in
  let q := l_norm n in
  let new := par_of c n i nbits in
  exists b s', ltpf_run o c s i nbits freq = Ok (b, s') /\ len b = nf c /\ ltpf_ok c n s' /\ t_active s' = l_active i /\
    (l_active i = true -> state_par s' = new /\ t_pfr s' = frac_of c i) /\
    (forall t, - total <= t < 0 -> past total (t_x s') (t_blk s') t = around total (t_x s) (t_blk s) freq (t + nf c)) /\
    (forall t, - total <= t < 0 -> past total (t_xl s') (t_blk s') t = around total (t_xl s) (t_blk s) b (t + nf c)) /\
    exists z, (forall t, t < 0 -> z t = past total (t_xl s) (t_blk s) t) /\
      forall m, 0 <= m < nf c -> let y := around total (t_xl s) (t_blk s) b in
        ltpf_rel (ltpf_transition (l_active i) (t_active s) (same_lag c s i)) (state_par s) new (nf c) q (around total (t_x s) (t_blk s) freq) y z (read5 total q z y) m.
Proof.
  intros L E S Hp Hf total q new. destruct (lengths_ok c L) as (n' & E' & GG). rewrite E in E'. injection E' as <-.
  pose proof GG as [Gb [Gx Gxl] [Gc1 Gc2] [Gn1 Gn2] Gs]. pose proof S as [S1 S2 S3 S4 S5 S6 S7 S8 (j & S9 & S9') S10]. destruct (config_geom c L) as (G1 & _).
  destruct (ltpf_run_ok o c n s i nbits freq L E S Hp Hf) as ([b s'] & ER & Lb & SO). rewrite ER. exists b, s'. split; [reflexivity|]. split; [exact Lb|]. split; [exact SO|].
  unfold ltpf_run in ER. rewrite E in ER. cbn [bind] in ER. rewrite params_val in ER by exact Hp. cbn [bind] in ER.
  destruct (coeffs_spec c n s i nbits L E S Hp) as (nu & de & EC & Lnu & Lde & Hnd).
  set (pint := if l_active i then lag_up (fs c) (l_pitch i) / 4 else 0). set (pfr := if l_active i then frac_of c i else 0) in *.
  replace (if l_active i then (lag_up (fs c) (l_pitch i) / 4, lag_up (fs c) (l_pitch i) mod 4) else (0, 0)) with (pint, pfr) in ER by (unfold pint, pfr; destruct (l_active i); reflexivity).
  cbv iota beta in ER. rewrite EC in ER. cbn [bind] in ER. unfold usub in ER. destruct (Z.ltb_spec (len de) 1); [lia|]. cbn [bind] in ER.
  assert (Hj : 0 <= j * nf c /\ j * nf c + nf c <= total) by (unfold total; nia). rewrite <- S9 in Hj.
  destruct (blit_ok (t_x s) (t_blk s) (t_blk s + nf c) freq ltac:(lia) ltac:(lia) ltac:(lia)) as (x & Ex & Lx & Tx). rewrite Ex in ER. cbn [bind] in ER.
  rewrite <- Gn1 in ER. fold total in ER. fold q in ER, Gn2.
  assert (LG : lt_geom total (t_blk s) (nf c) q).
  { constructor; [lia| |lia|unfold total; nia]. destruct (Z.eq_dec j 0); [left; nia|right; nia]. }
  assert (Hsame : same_lag c s i = (pint =? t_pint s) && (pfr =? t_pfr s)) by reflexivity. rewrite Hsame. clear Hsame.
  assert (Pnew : l_active i = true -> par_ok total (nf c) new /\ mkLtPar nu de pint = new).
  { intros Ha. destruct (par_of_ok c n i nbits L E Hp) as (Q1 & Q2 & Q3 & Q4). fold new in Q1, Q2, Q3, Q4. destruct Q4 as [Q4 Q5]. destruct (Hnd Ha) as [-> ->]. fold new. split.
    - constructor; [lia|lia|]. rewrite Q2. split; [exact Q4|lia].
    - unfold pint. rewrite Ha. rewrite <- Q3. destruct new; reflexivity. }
  assert (Pold : t_active s = true -> par_ok total (nf c) (state_par s)).
  { intros Ha. destruct (S10 Ha) as [Q4 Q5]. unfold state_par. constructor; cbn [lp_num lp_den lp_lag]; [lia|lia|]. rewrite S3. split; [exact Q4|lia]. }
  set (tr := ltpf_transition (l_active i) (t_active s) ((pint =? t_pint s) && (pfr =? t_pfr s))) in *.
  assert (Hnew : tr = Activated \/ tr = ActiveNoPitchChange \/ tr = ActivePitchChanged -> l_active i = true).
  { unfold tr, ltpf_transition. destruct (l_active i), (t_active s); cbn [negb andb]; auto; intros [Q|[Q|Q]]; discriminate Q. }
  assert (Hold : tr = Deactivated \/ tr = ActivePitchChanged -> t_active s = true).
  { unfold tr, ltpf_transition. destruct (l_active i), (t_active s); cbn [negb andb]; auto; intros [Q|Q]; discriminate Q. }
  assert (Hxl : len (t_xl s) = total) by (unfold total; lia). assert (Hx : len x = total) by (unfold total; lia).
  assert (CASE : exists sc xl z, match tr with
        | Inactive => s0 <- sub x (t_blk s) (t_blk s + nf c) ;; xl <- blit (t_xl s) (t_blk s) (t_blk s + nf c) s0 ;; Ok (t_scratch s, xl)
        | Activated =>
            xl <- for_range 0 q (fun k => ltpf_sample o (fun f => fmul o f (fdiv o (fz o k) (fz o q))) total (len de - 1) nu de x (t_blk s) pint k) (t_xl s) ;;
            xl <- for_range q (nf c) (fun k => ltpf_sample o (fun f => f) total (len de - 1) nu de x (t_blk s) pint k) xl ;; Ok (t_scratch s, xl)
        | Deactivated =>
            xl <- for_range 0 q (fun k => ltpf_sample o (fun f => fmul o f (fsub o (fz o 1) (fdiv o (fz o k) (fz o q)))) total (len de - 1) (t_num s) (t_den s) x (t_blk s) (t_pint s) k) (t_xl s) ;;
            xl <- for_range q (nf c) (fun k xl => v <- idx x (t_blk s + k) ;; put xl (t_blk s + k) v) xl ;; Ok (t_scratch s, xl)
        | ActiveNoPitchChange => xl <- for_range 0 (nf c) (fun k => ltpf_sample o (fun f => f) total (len de - 1) nu de x (t_blk s) pint k) (t_xl s) ;; Ok (t_scratch s, xl)
        | ActivePitchChanged =>
            xl <- for_range 0 q (fun k => ltpf_sample o (fun f => fmul o f (fsub o (fz o 1) (fdiv o (fz o k) (fz o q)))) total (len de - 1) (t_num s) (t_den s) x (t_blk s) (t_pint s) k) (t_xl s) ;;
            '(scratch, xl) <- activate_from_mem o total (len de - 1) q nu de (t_blk s) pint q (t_scratch s) xl ;;
            xl <- for_range q (nf c) (fun k => ltpf_sample o (fun f => f) total (len de - 1) nu de x (t_blk s) pint k) xl ;; Ok (scratch, xl)
        end = Ok (sc, xl) /\
      framed total (t_blk s) (nf c) (t_xl s) (fun y m => (forall t, t < 0 -> z t = y t) /\ ltpf_rel tr (state_par s) new (nf c) q (past total x (t_blk s)) y z (read5 total q z y) m) xl).
  { assert (W : forall (R : (Z -> F) -> Z -> Prop) xl, framed total (t_blk s) (nf c) (t_xl s) R xl -> (forall y m, (forall t, t < 0 -> y t = past total (t_xl s) (t_blk s) t) -> R y m -> (forall t, t < 0 -> past total (t_xl s) (t_blk s) t = y t) /\ ltpf_rel tr (state_par s) new (nf c) q (past total x (t_blk s)) y (past total (t_xl s) (t_blk s)) (read5 total q (past total (t_xl s) (t_blk s)) y) m) ->
       framed total (t_blk s) (nf c) (t_xl s) (fun y m => (forall t, t < 0 -> past total (t_xl s) (t_blk s) t = y t) /\ ltpf_rel tr (state_par s) new (nf c) q (past total x (t_blk s)) y (past total (t_xl s) (t_blk s)) (read5 total q (past total (t_xl s) (t_blk s)) y) m) xl).
    { intros R xl (F1 & F2 & F3) HR. split; [exact F1|]. split; [exact F2|]. intros m Hm. apply HR; [|apply F3; exact Hm].
      intros t Ht. unfold cur. destruct (Z.ltb_spec t 0); [reflexivity|lia]. }
    assert (Lold : t_active s = true -> len de = len (lp_den (state_par s))) by (intros _; cbn [state_par lp_den]; lia).
    destruct tr eqn:Etr.
    - destruct (sub_ok x (t_blk s) (t_blk s + nf c) ltac:(lia) ltac:(lia)) as (s0 & E0 & L0 & T0). rewrite E0. cbn [bind].
      destruct (blit_ok (t_xl s) (t_blk s) (t_blk s + nf c) s0 ltac:(lia) ltac:(lia) ltac:(lia)) as (xl & E1 & L1 & T1). rewrite E1. cbn [bind].
      eexists _, _, _. split; [reflexivity|]. apply (W (fun y m => y m = past total x (t_blk s) m)).
      + split; [lia|]. split.
        * intros k Hk Ho. rewrite T1 by lia. bcase; try lia; reflexivity.
        * intros m Hm. unfold cur. destruct (Z.ltb_spec m 0); [lia|]. rewrite T1 by lia. bcase; try lia. rewrite T0 by lia. unfold past, wrap_neg. bcase; try lia. f_equal. lia.
      + intros y m Hy R. split; [intros t Ht; symmetry; auto|exact R].
    - destruct (Pnew (Hnew ltac:(auto))) as [P Q]. destruct (activated_ok total (t_blk s) (nf c) q x (t_xl s) LG Hx Hxl (state_par s) new P) as (xl1 & xl & E1 & E2 & Fr).
      rewrite <- Q in E1, E2. cbn [lp_num lp_den lp_lag] in E1, E2. unfold ramp_in in E1. rewrite E1. cbn [bind]. rewrite E2. cbn [bind].
      eexists _, _, _. split; [reflexivity|]. eapply W; [exact Fr|]. intros y m Hy R. split; [intros t Ht; symmetry; auto|exact R].
    - pose proof (Pold (Hold ltac:(auto))) as P. destruct (deactivated_ok total (t_blk s) (nf c) q x (t_xl s) LG Hx Hxl (state_par s) new P) as (xl1 & xl & E1 & E2 & Fr).
      rewrite <- (Lold (Hold ltac:(auto))) in E1. cbn [state_par lp_num lp_den lp_lag] in E1. unfold ramp_out in E1. rewrite E1. cbn [bind]. rewrite E2. cbn [bind].
      eexists _, _, _. split; [reflexivity|]. eapply W; [exact Fr|]. intros y m Hy R. split; [intros t Ht; symmetry; auto|exact R].
    - destruct (Pnew (Hnew ltac:(auto))) as [P Q]. destruct (no_change_ok total (t_blk s) (nf c) q x (t_xl s) LG Hx Hxl (state_par s) new P) as (xl & E1 & Fr).
      rewrite <- Q in E1. cbn [lp_num lp_den lp_lag] in E1. rewrite E1. cbn [bind].
      eexists _, _, _. split; [reflexivity|]. eapply W; [exact Fr|]. intros y m Hy R. split; [intros t Ht; symmetry; auto|exact R].
    - destruct (Pnew (Hnew ltac:(auto))) as [P Q]. pose proof (Pold (Hold ltac:(auto))) as Po.
      destruct (changed_ok total (t_blk s) (nf c) q x (t_xl s) LG Hx Hxl (state_par s) new (t_scratch s) Po P) as (z & xl1 & sc & xl2 & xl & E1 & E2 & E3 & _ & Fr).
      { rewrite <- Q. cbn [lp_num]. lia. }
      { rewrite <- Q. cbn [lp_num]. clear - L E Lnu. unfold total, q. destruct L as (f & d & ->). destruct f, d; cbn in E; injection E as <-; cbn [l_cnum l_norm l_blocks] in *; rewrite Lnu; vm_compute; discriminate. }
      rewrite <- (Lold (Hold ltac:(auto))) in E1. rewrite <- Q in E2, E3. cbn [state_par lp_num lp_den lp_lag] in E1, E2, E3. unfold ramp_out in E1. rewrite E1. cbn [bind]. rewrite E2. cbn [bind]. rewrite E3. cbn [bind].
      eexists _, _, z. split; [reflexivity|]. exact Fr. }
  destruct CASE as (sc & xl & z & EC2 & (F1 & F2 & F3)). rewrite EC2 in ER. cbn [bind] in ER.
  destruct (sub_ok xl (t_blk s) (t_blk s + nf c) ltac:(lia) ltac:(lia)) as (s0 & E0 & L0 & T0). rewrite E0 in ER. cbn [bind] in ER.
  destruct (blit_ok freq 0 (len freq) s0 ltac:(lia) ltac:(lia) ltac:(lia)) as (fr & E1 & L1 & T1). rewrite E1 in ER. cbn [bind] in ER.
  apply Ok_inj in ER. assert (Eb : fr = b) by (apply (f_equal fst) in ER; exact ER). apply (f_equal snd) in ER. cbn [snd] in ER. subst b s'.
  cbn [t_active t_num t_den t_pint t_pfr t_x t_xl t_blk]. split; [reflexivity|]. split.
  { intros Ha. destruct (Pnew Ha) as [_ Q]. unfold state_par. cbn [t_num t_den t_pint]. split; [exact Q|]. unfold pfr. rewrite Ha. reflexivity. }
  assert (Tb : forall m, 0 <= m < nf c -> getz z0 fr m = getz z0 xl (t_blk s + m)) by (intros m Hm; rewrite T1 by lia; bcase; try lia; rewrite T0 by lia; f_equal; lia).
  assert (NEXT : forall (l l' fr : list F), (forall k, 0 <= k -> k < t_blk s \/ t_blk s + nf c <= k -> getz z0 l' k = getz z0 l k) -> (forall m, 0 <= m < nf c -> getz z0 l' (t_blk s + m) = getz z0 fr m) ->
      forall t, - total <= t < 0 -> past total l' (if (l_blocks n - 1) * nf c <? t_blk s + nf c then 0 else t_blk s + nf c) t = around total l (t_blk s) fr (t + nf c)).
  { intros l l' fr' H1 H2 t Ht. unfold around, past, wrap_neg. assert (HT : total = (l_blocks n - 1) * nf c + nf c) by (unfold total; nia).
    assert (Hlast : (l_blocks n - 1) * nf c < t_blk s + nf c -> t_blk s + nf c = total).
    { intros Q. rewrite HT. rewrite S9 in *. assert (l_blocks n - 1 < j + 1) by (apply (Z.mul_lt_mono_pos_r (nf c)); lia). assert (j = l_blocks n - 1) as -> by lia. lia. }
    destruct (Z.ltb_spec ((l_blocks n - 1) * nf c) (t_blk s + nf c)) as [Q|Q].
    - specialize (Hlast Q). destruct (Z.ltb_spec (0 + t) 0); [|lia]. destruct (Z.ltb_spec (t + nf c) 0).
      + destruct (Z.ltb_spec (t_blk s + (t + nf c)) 0); [lia|]. replace (0 + t + total) with (t_blk s + (t + nf c)) by lia. apply H1; lia.
      + rewrite <- H2 by lia. f_equal. lia.
    - destruct (Z.ltb_spec (t + nf c) 0).
      + replace (t_blk s + nf c + t) with (t_blk s + (t + nf c)) by lia. destruct (Z.ltb_spec (t_blk s + (t + nf c)) 0); apply H1; lia.
      + rewrite <- H2 by lia. destruct (Z.ltb_spec (t_blk s + nf c + t) 0); [lia|]. f_equal. lia. }
  split.
  { apply NEXT; [intros k Hk Ho; rewrite Tx by lia; bcase; try lia; reflexivity|]. intros m Hm. rewrite Tx by lia. bcase; try lia. f_equal. lia. }
  split.
  { apply NEXT; [exact F2|]. intros m Hm. symmetry. apply Tb. exact Hm. }
  exists z. split.
  { intros t Ht. destruct (F3 0 ltac:(lia)) as [Q _]. rewrite Q by exact Ht. unfold cur. destruct (Z.ltb_spec t 0); [reflexivity|lia]. }
  intros m Hm. destruct (F3 m Hm) as [_ R]. revert R. apply (ltpf_rel_ext total (t_blk s)); auto.
  - intros Q. apply Pnew. auto.
  - intros t Ht. unfold around, past. destruct (Z.ltb_spec t 0).
    + rewrite Tx by (unfold wrap_neg; destruct (Z.ltb_spec (t_blk s + t) 0); lia). unfold wrap_neg. destruct LG as [Q1 Q2 Q3 Q4].
      destruct (Z.ltb_spec (t_blk s + t) 0); bcase; try lia; reflexivity.
    + unfold wrap_neg. destruct (Z.ltb_spec (t_blk s + t) 0); [lia|]. rewrite Tx by lia. bcase; try lia. f_equal. lia.
  - intros t Ht. unfold cur, around. destruct (Z.ltb_spec t 0); [reflexivity|]. symmetry. apply Tb. lia.
Qed.

(* ---- the output of a frame is determined by its input and the past ---- *)
Lemma upto (P : Z -> Prop) (hi : Z) : (forall n, 0 <= n < hi -> (forall m, 0 <= m < n -> P m) -> P n) -> forall n, 0 <= n < hi -> P n.
Proof.
  intros H. assert (A : forall k n, 0 <= n < hi -> n < Z.of_nat k -> P n).
  { induction k as [|k IH]; intros n Hn Hk; [lia|]. apply H; [exact Hn|]. intros m Hm. apply IH; lia. }
  intros n Hn. apply (A (Z.to_nat (n + 1))); lia.
Qed.
Lemma ltpf_rel_unique total blk nf q tr old p x y y' z z' : lt_geom total blk nf q ->
  (tr = Deactivated \/ tr = ActivePitchChanged -> par_ok total nf old) -> (tr = Activated \/ tr = ActiveNoPitchChange \/ tr = ActivePitchChanged -> par_ok total nf p) ->
  (forall t, - total <= t < 0 -> y t = y' t) -> (forall t, - total <= t < 0 -> z t = z' t) ->
  (forall m, 0 <= m < nf -> ltpf_rel tr old p nf q x y z (read5 total q z y) m) -> (forall m, 0 <= m < nf -> ltpf_rel tr old p nf q x y' z' (read5 total q z' y') m) ->
  forall m, 0 <= m < nf -> y m = y' m.
Proof.
  intros [G1 G2 G3 G4] Po P Hy Hz R R'.
  assert (X : forall pp f g g' n, par_ok total nf pp -> 0 <= n < nf -> (forall t, - total <= t < n -> g t = g' t) -> pfilt pp f g n = pfilt pp f g' n).
  { intros pp f g g' n [Q1 Q2 [Q3 Q4]] Hn H. apply (pfilt_ext total); try assumption; lia. }
  assert (J : forall (f g : Z -> F) n, (forall t, - total <= t < 0 -> f t = g t) -> (forall m, 0 <= m < n -> f m = g m) -> forall t, - total <= t < n -> f t = g t).
  { intros f g n H1 H2 t Ht. destruct (Z.ltb_spec t 0); [apply H1|apply H2]; lia. }
  assert (Zq : tr = ActivePitchChanged -> forall n, 0 <= n < q -> z n = z' n).
  { intros Etr. apply upto. intros n Hn IH. specialize (R n ltac:(lia)). specialize (R' n ltac:(lia)). rewrite Etr in *. cbn [ltpf_rel] in R, R'.
    destruct (Z.ltb_spec n q); [|lia]. destruct R as [-> _], R' as [-> _]. rewrite (X old x z z' n); auto; [lia|]. apply J; auto. }
  apply upto. intros n Hn IH. specialize (R n Hn). specialize (R' n Hn). pose proof (J y y' n Hy IH) as Jn. destruct tr; cbn [ltpf_rel] in R, R'.
  - congruence.
  - rewrite R, R'. rewrite (X p x y y' n); auto.
  - rewrite R, R'. rewrite (X old x y y' n); auto.
  - rewrite R, R'. rewrite (X p x y y' n); auto.
  - destruct (Z.ltb_spec n q).
    + destruct R as [_ ->], R' as [_ ->]. rewrite (Zq eq_refl n) by lia. f_equal. f_equal. rewrite (pfilt_ext2 nf p z z' _ n); [|apply P; auto|lia|].
      * apply X; auto. intros t Ht. unfold read5. destruct (Z.ltb_spec t (q - total)); [apply Zq; auto; lia|apply Jn; lia].
      * intros t Ht. destruct (Z.ltb_spec t 0); [apply Hz|apply Zq; auto]; lia.
    + rewrite R, R'. rewrite (X p x y y' n); auto.
Qed.

(* ---- histories ---- *)
Record lt_in : Type := mkLtIn { li_info : ltpf_info; li_bits : Z; li_x : list F }.
Fixpoint ltpf_frames (c : config) (s : ltpf F) (fs : list lt_in) : res (list (list F) * ltpf F) :=
  match fs with
  | [] => Ok ([], s)
  | f :: fs => '(b, s) <- ltpf_run o c s (li_info f) (li_bits f) (li_x f) ;; '(bs, s) <- ltpf_frames c s fs ;; Ok (b :: bs, s)
  end.
(* which of the five cases: from the parameters of this frame and of the previous one *)
Definition spec_transition (c : config) (prev : option lt_in) (f : lt_in) : transition :=
  match prev with
  | Some p =>
      if l_active (li_info p) then
        if l_active (li_info f) then
          if lag_up (fs c) (l_pitch (li_info f)) =? lag_up (fs c) (l_pitch (li_info p)) then ActiveNoPitchChange else ActivePitchChanged
        else Deactivated
      else if l_active (li_info f) then Activated else Inactive
  | None => if l_active (li_info f) then Activated else Inactive
  end.
Definition par_in (c : config) (n : ltpf_lens) (f : lt_in) : lt_par := par_of c n (li_info f) (li_bits f).
(* hx, hy: everything that went in and came out before the frame *)
Fixpoint ltpf_trace (c : config) (n : ltpf_lens) (prev : option lt_in) (hx hy : list F) (fs : list lt_in) (bs : list (list F)) : Prop :=
  match fs, bs with
  | [], [] => True
  | f :: fs, b :: bs =>
      let total := l_blocks n * nf c in
      let q := l_norm n in
      let x t := getz z0 (hx ++ li_x f) (len hx + t) in
      let y t := getz z0 (hy ++ b) (len hy + t) in
      len b = nf c /\
      (exists z, (forall t, t < 0 -> z t = y t) /\ forall m, 0 <= m < nf c ->
         ltpf_rel (spec_transition c prev f) (match prev with Some p => par_in c n p | None => mkLtPar [] [] 0 end) (par_in c n f) (nf c) q x y z (read5 total q z y) m) /\
      ltpf_trace c n (Some f) (hx ++ li_x f) (hy ++ b) fs bs
  | _, _ => False
  end.
Definition in_ok (c : config) (f : lt_in) : Prop := 0 <= l_pitch (li_info f) < 512 /\ len (li_x f) = nf c.
Definition prev_is (c : config) (n : ltpf_lens) (prev : option lt_in) (s : ltpf F) : Prop :=
  match prev with
  | Some p => t_active s = l_active (li_info p) /\ (t_active s = true -> state_par s = par_in c n p /\ t_pfr s = frac_of c (li_info p) /\ t_pint s = lag_up (fs c) (l_pitch (li_info p)) / 4)
  | None => t_active s = false
  end.
Lemma getz_app1 {A} (d : A) (a b : list A) j : 0 <= j < len a -> getz d (a ++ b) j = getz d a j.
Proof. intros H. unfold getz, len in *. apply app_nth1. lia. Qed.
Lemma getz_app2 {A} (d : A) (a b : list A) j : 0 <= j -> getz d (a ++ b) (len a + j) = getz d b j.
Proof. intros H. unfold getz, len in *. rewrite app_nth2 by lia. f_equal. lia. Qed.

Theorem ltpf_history c n : legal_config c -> ltpf_lengths c = Ok n -> forall fs s prev hx hy, ltpf_ok c n s -> Forall (in_ok c) fs -> prev_is c n prev s ->
  let total := l_blocks n * nf c in
  total <= len hx -> total <= len hy -> (forall t, - total <= t < 0 -> past total (t_x s) (t_blk s) t = getz z0 hx (len hx + t)) ->
  (forall t, - total <= t < 0 -> past total (t_xl s) (t_blk s) t = getz z0 hy (len hy + t)) ->
  exists bs s', ltpf_frames c s fs = Ok (bs, s') /\ ltpf_ok c n s' /\ ltpf_trace c n prev hx hy fs bs.
Proof.
  intros L E. destruct (lengths_ok c L) as (n' & E' & GG). rewrite E in E'. injection E' as <-. pose proof GG as [Gb [Gx Gxl] [Gc1 Gc2] [Gn1 Gn2] Gs]. destruct (config_geom c L) as (G1 & _).
  induction fs as [|f fs IH]; intros s prev hx hy S HF HP total Hhx Hhy Kx Ky; cbn [ltpf_frames].
  - exists [], s. split; [reflexivity|]. split; [exact S|exact I].
  - inversion HF as [|? ? [Hf1 Hf2] HF']; subst. destruct (ltpf_run_spec c n s (li_info f) (li_bits f) (li_x f) L E S Hf1 Hf2) as (b & s1 & ER & Lb & SO & HA & HPar & Nx & Ny & z & Hz & HR).
    fold total in Nx, Ny, Hz, HR. rewrite ER. cbn [bind].
    assert (Tpos : nf c <= total) by (unfold total; nia).
    assert (Xeq : forall (l : list F) (h fr : list F) t, len fr = nf c -> total <= len h -> (forall t, - total <= t < 0 -> past total l (t_blk s) t = getz z0 h (len h + t)) -> - total <= t < nf c ->
       around total l (t_blk s) fr t = getz z0 (h ++ fr) (len h + t)).
    { intros l h fr t Hl Hh K Ht. unfold around. destruct (Z.ltb_spec t 0).
      - rewrite getz_app1 by lia. apply K. lia.
      - rewrite getz_app2 by lia. reflexivity. }
    destruct (IH s1 (Some f) (hx ++ li_x f) (hy ++ b)) as (bs & s2 & EB & SO2 & TR).
    + exact SO.
    + exact HF'.
    + cbn [prev_is]. split; [exact HA|]. rewrite HA. intros Ha. destruct (HPar Ha) as [Q1 Q2]. split; [exact Q1|]. split; [exact Q2|].
      apply (f_equal lp_lag) in Q1. cbn [state_par lp_lag] in Q1. rewrite Q1. apply (par_of_ok c n (li_info f) (li_bits f) L E Hf1).
    + rewrite len_app. fold total. lia.
    + rewrite len_app. fold total. lia.
    + fold total. intros t Ht. rewrite Nx by exact Ht. rewrite (Xeq _ hx) by (auto; lia). f_equal. rewrite len_app. lia.
    + fold total. intros t Ht. rewrite Ny by exact Ht. rewrite (Xeq _ hy) by (auto; lia). f_equal. rewrite len_app. lia.
    + rewrite EB. cbn [bind]. exists (b :: bs), s2. split; [reflexivity|]. split; [exact SO2|]. cbn [ltpf_trace]. cbv zeta. fold total. split; [exact Lb|]. split; [|exact TR].
      set (x := fun t => getz z0 (hx ++ li_x f) (len hx + t)). set (y := fun t => getz z0 (hy ++ b) (len hy + t)).
      exists (fun t => if t <? 0 then y t else z t). split; [intros t Ht; destruct (Z.ltb_spec t 0); [reflexivity|lia]|].
      assert (SB : exists jb, t_blk s = jb * nf c /\ 0 <= jb < l_blocks n) by apply S. destruct SB as (jb & SB1 & SB2).
      assert (LG : lt_geom total (t_blk s) (nf c) (l_norm n)).
      { constructor; [unfold total; nia| |lia|unfold total; nia]. destruct (Z.eq_dec jb 0); [left; nia|right; nia]. }
      assert (TRE : ltpf_transition (l_active (li_info f)) (t_active s) (same_lag c s (li_info f)) = spec_transition c prev f).
      { unfold ltpf_transition, spec_transition, same_lag. destruct prev as [pv|]; cbn [prev_is] in HP.
        - destruct HP as [HP1 HP2]. rewrite HP1 in *. destruct (l_active (li_info pv)); destruct (l_active (li_info f)); cbn [negb andb]; try reflexivity.
          destruct (HP2 eq_refl) as (_ & Q2 & Q3). rewrite Q2, Q3. unfold frac_of.
          set (u := lag_up (Config.fs c) (l_pitch (li_info f))). set (v := lag_up (Config.fs c) (l_pitch (li_info pv))).
          destruct (Z.eqb_spec u v) as [->|Hne]; [rewrite !Z.eqb_refl; reflexivity|].
          destruct (Z.eqb_spec (u / 4) (v / 4)), (Z.eqb_spec (u mod 4) (v mod 4)); try reflexivity. exfalso. apply Hne. Z.div_mod_to_equations; lia.
        - rewrite HP in *. destruct (l_active (li_info f)); reflexivity. }
      intros m Hm. specialize (HR m Hm). cbv zeta in HR. rewrite TRE in HR.
      assert (Pn : spec_transition c prev f = Activated \/ spec_transition c prev f = ActiveNoPitchChange \/ spec_transition c prev f = ActivePitchChanged -> par_ok total (nf c) (par_in c n f)).
      { intros _. destruct (par_of_ok c n (li_info f) (li_bits f) L E Hf1) as (Q1 & Q2 & Q3 & Q4). unfold par_in. destruct Q4. constructor; [lia|lia|]. rewrite Q2. unfold total. split; lia. }
      assert (Po : spec_transition c prev f = Deactivated \/ spec_transition c prev f = ActivePitchChanged -> par_ok total (nf c) (state_par s) /\ state_par s = match prev with Some p => par_in c n p | None => mkLtPar [] [] 0 end).
      { unfold spec_transition. destruct prev as [pv|]; cbn [prev_is] in HP.
        - destruct HP as [HP1 HP2]. destruct (l_active (li_info pv)) eqn:Epv.
          + intros _. destruct (HP2 HP1) as (Q1 & _). split; [|exact Q1]. destruct S as [_ S2 S3 _ _ _ _ _ _ S10]. destruct (S10 HP1) as [W1 W2].
            unfold state_par. constructor; cbn [lp_num lp_den lp_lag]; [lia|lia|]. rewrite S3. split; [exact W1|unfold total; lia].
          + destruct (l_active (li_info f)); intros [Q|Q]; discriminate Q.
        - destruct (l_active (li_info f)); intros [Q|Q]; discriminate Q. }
      assert (HR' : ltpf_rel (spec_transition c prev f) (match prev with Some p => par_in c n p | None => mkLtPar [] [] 0 end) (par_in c n f) (nf c) (l_norm n)
           (around total (t_x s) (t_blk s) (li_x f)) (around total (t_xl s) (t_blk s) b) z (read5 total (l_norm n) z (around total (t_xl s) (t_blk s) b)) m).
      { revert HR Po. destruct (spec_transition c prev f); intros HR Po; try exact HR; destruct Po as [_ <-]; auto; exact HR. }
      revert HR'. apply (ltpf_rel_ext total (t_blk s)); auto.
      * intros Q. destruct (Po Q) as [Q1 <-]. exact Q1.
      * intros t Ht. apply Xeq; auto. unfold total in *. nia.
      * intros t Ht. apply Xeq; auto.
      * intros t Ht. destruct (Z.ltb_spec t 0); [|reflexivity]. rewrite Hz by lia. unfold y. rewrite getz_app1 by lia. apply Ky. lia.
Qed.
(* With the past really available the second filter reads its true past *)
Lemma read5_true total q p z y n : 0 <= n -> lp_lag p + len (lp_den p) - 1 - (len (lp_den p) - 1) / 2 <= total - q + n -> pfilt p z (read5 total q z y) n = pfilt p z y n.
Proof.
  intros H0 H. apply filt_ext; [reflexivity|]. intros t Ht. unfold read5. destruct (Z.ltb_spec t (q - total)); [lia|reflexivity].
Qed.
End LtpfSpec.
