(* C22, C23, C24, C25: the spectral quantiser, its bit estimator and its bit budget. *)
From Coq Require Import ZArith List Bool Lia ZifyBool Reals Lra.
From Flocq Require Import Core.
From Verif Require Import Base Config Loops Scalar EncScalar FrameSpec BufLemmas AcSpec AcStreamProofs TablesProofs TablesTns AcEncProofs SideInfo DecTotal EncDetect DetectSpec FrameEnc PayloadSpec Events EncPayload EncFrame EncQuant EncTns
  EncLtpf EstimateSpec QuantSpec QuantReal TnsBits DecSignal MdctSpec F32 RealOps EncF32.
Import ListNotations.
Local Open Scope Z_scope.

(* ---- C22 ---- *)
(* `quantise` with the lines quantised to q: the estimate of the part that is kept fits in the budget, the index of the last kept
   pair is even and not above the untruncated one, the lines below it are the quantised ones and every line above it is zero. *)
Theorem C22_truncation :
  forall (F : Type) (o : ops F) (e : eops F), elaws o e -> forall h fs_ind nbits off gg_ind B x xq, (1 <= h <= 200)%nat -> let ne := 2 * Z.of_nat h in
    len x = ne -> len xq = ne -> 0 <= B < 4096 ->
    exists xq' lsb b gg, quantise o e ne fs_ind nbits off gg_ind B x xq = Ok (xq', lsb, b, gg) /\
      cn_trunc b <= B /\ Z.even (cn_last_trunc b) = true /\ 2 <= cn_last_trunc b <= cn_last b /\ cn_last b <= ne /\
      len xq' = ne /\ (forall i, 0 <= i < cn_last_trunc b -> getz 0 xq' i = quantise_line o gg (getz (fz o 0) x i)) /\
      (forall i, cn_last_trunc b <= i < ne -> getz 0 xq' i = 0) /\
      (forall i, cn_last b <= i < ne -> quantise_line o gg (getz (fz o 0) x i) = 0).
Proof.
  intros F o e EL h fs_ind nbits off gg_ind B x xq Hh ne Lx Lq HB. destruct (quantise_spec o e EL h fs_ind nbits off gg_ind B x xq Hh Lx Lq HB) as (xq' & b & n & m & E & ES & Lq' & Fq & Lx' & P).
  eexists xq', _, b, _. split; [exact E|]. destruct (es_pairs _ _ _ _ _ _ _ _ ES) as [Pm Pn]. pose proof (es_last _ _ _ _ _ _ _ _ ES) as EL1. pose proof (es_trunc _ _ _ _ _ _ _ _ ES) as ET.
  rewrite EL1, ET. split; [|split; [|split; [lia|split; [lia|split; [exact Lx'|split; [|split]]]]]].
  - destruct (es_cut _ _ _ _ _ _ _ _ ES) as [(_ & C & -> & _)|(_ & -> & _)]; [unfold whole_bits; Z.div_mod_to_equations; lia|lia].
  - rewrite Z.even_mul. reflexivity.
  - intros i Hi. rewrite P by lia. destruct (Z.ltb_spec i (2 * Z.of_nat m)); [|lia]. apply getz_map. lia.
  - intros i Hi. rewrite P by lia. destruct (Z.ltb_spec i (2 * Z.of_nat m)); [lia|reflexivity].
  - intros i Hi. pose proof (es_zero _ _ _ _ _ _ _ _ ES i ltac:(lia)) as Q. rewrite <- Q. symmetry. apply getz_map. lia.
Qed.
Print Assumptions C22_truncation.

(* A frame of 160 lines, all within the quantiser's range, with a budget of 500 bits. *)
Example C22_case : (1 <= 80 <= 200)%nat /\ len (repeat 100%R 160) = 2 * Z.of_nat 80 /\ len (repeat 7 160) = 2 * Z.of_nat 80 /\ 0 <= 500 < 4096 /\ elaws R_ops R_eops.
Proof. split; [lia|]. split; [reflexivity|]. split; [reflexivity|]. split; [lia|exact R_elaws]. Qed.

(* What the writer then emits for the kept lines (PayloadSpec: head symbols and tail bits, without the lsb part) costs at most the
   budget; missing: the case where the first pair is not zero and alone exceeds the budget. *)
Theorem C22_truncated_cost_partial :
  forall (F : Type) (o : ops F) (e : eops F), elaws o e -> forall h fs_ind nbits off gg_ind B x xq, (1 <= h <= 200)%nat -> let ne := 2 * Z.of_nat h in
    let rate := if 160 + fs_ind * 160 <? nbits then 512 else 0 in
    let mode := 480 + fs_ind * 160 <=? nbits in
    let q := map (quantise_line o (fgain o (gg_ind + off))) x in
    len x = ne -> len xq = ne -> 10 <= B < 4096 ->
    (nz_pair q 0 = true -> spec_cost_of 1 mode ne 0 0 rate q <= 2048 * B) ->
    exists xq' lsb b gg, quantise o e ne fs_ind nbits off gg_ind B x xq = Ok (xq', lsb, b, gg) /\ ev_cost (spec_evs (Z.to_nat (cn_last_trunc b / 2)) lsb ne 0 0 rate xq') <= 2048 * B.
Proof.
  intros F o e EL h fs_ind nbits off gg_ind B x xq Hh ne rate mode q Lx Lq HB H1.
  destruct (quantise_spec o e EL h fs_ind nbits off gg_ind B x xq Hh Lx Lq ltac:(lia)) as (xq' & b & n & m & E & ES & Lq' & Fq & Lx' & P). fold rate mode q in E, ES, Lq', Fq, P.
  eexists xq', _, b, _. split; [exact E|]. rewrite (es_trunc _ _ _ _ _ _ _ _ ES). replace (2 * Z.of_nat m / 2) with (Z.of_nat m) by (rewrite Z.mul_comm, Z.div_mul by lia; reflexivity). rewrite Nat2Z.id.
  assert (Hr : rate = 0 \/ rate = 512) by (unfold rate; destruct (_ <? _); auto).
  destruct (written_cost h rate B mode q xq' n m b Hh Hr Lq' Fq HB ES P) as [G|(G1 & G2 & G3 & G4)]; [exact G|]. specialize (H1 G2). unfold ne in H1. lia.
Qed.
Print Assumptions C22_truncated_cost_partial.
Example C22_cost_case : let q := repeat 1 160 in Forall bits_ok q /\ nz_pair q 0 = true /\ spec_cost_of 1 false 160 0 0 0 q <= 2048 * 500.
Proof.
  split; [apply Forall_forall; intros v Hv; apply repeat_spec in Hv; subst; unfold bits_ok; lia|]. split; [reflexivity|].
  pose proof (spec_cost_range false 160 0 (repeat 1 160) 1 (or_introl eq_refl)) as P. refine (Z.le_trans _ _ _ (proj2 (P _ 0 0 _ _ _)) _); [|lia|vm_compute; congruence|lia|lia].
  apply Forall_forall; intros v Hv; apply repeat_spec in Hv; subst; unfold bits_ok; lia.
Qed.

(* The full statement is false: a loud first pair is kept although it does not fit, with a recorded cost of zero bits
   (spectral_quantization.rs:276 starts from lastnz_trunc = 2 and nbits_trunc = 0). Budget 20 bits, 8 kHz, 20 byte frame. *)
Theorem C22_truncated_cost_refuted :
  forall (F : Type) (o : ops F) (e : eops F), elaws o e ->
    let q := 32000 :: 32000 :: repeat 0 78 in
    exists b, bit_consumption o e 80 0 160 20 q = Ok b /\ cn_last_trunc b = 2 /\ cn_last b = 2 /\ cn_trunc b = 0 /\ 2048 * 20 < ev_cost (spec_evs 1 false 80 0 0 (cn_rate b) q).
Proof.
  intros F o e EL q. assert (Fq : Forall bits_ok q) by (apply Forall_forall; intros v Hv; cbn [In repeat q] in Hv; unfold bits_ok; repeat destruct Hv as [Hv|Hv]; try (subst; lia); contradiction).
  destruct (bit_consumption_spec o e EL 40 0 160 20 q ltac:(lia) ltac:(vm_compute; reflexivity) Fq ltac:(lia)) as (b & n & m & E & ES). change (estimate 80 0 20 false q n m b) in ES.
  exists b. split; [exact E|]. rewrite (es_rate _ _ _ _ _ _ _ _ ES).
  assert (C : 2048 * 20 < ev_cost (spec_evs 1 false 80 0 0 0 q)).
  { unfold ev_cost. assert (T : tbits (spec_evs 1 false 80 0 0 0 q) = 28) by (vm_compute; reflexivity). rewrite T. pose proof (spec_cost_range false 80 0 q 1 (or_introl eq_refl) Fq 0 0 ltac:(lia) ltac:(vm_compute; congruence) ltac:(lia)) as P.
    assert (0 <= prices (ev_syms (spec_evs 1 false 80 0 0 0 q))); [|lia].
    assert (V : evalid (spec_evs 1 false 80 0 0 0 q)) by (apply spec_evs_valid; [now left|lia|lia|intros i Hi; assert (i = 0 \/ i = 1) as [-> | ->] by lia; vm_compute; congruence]).
    clear - V. unfold evalid in V. induction (ev_syms (spec_evs 1 false 80 0 0 0 q)) as [|y l IH]; cbn [prices]; [lia|]. apply Forall_cons_iff in V. destruct V as [(V1 & V2 & V3) V]. specialize (IH V). pose proof (price_range (snd y) ltac:(lia)). lia. }
  assert (N : n = 1%nat).
  { destruct (es_pairs _ _ _ _ _ _ _ _ ES) as [Pm Pn]. destruct (Nat.eq_dec n 1) as [|Hn]; [assumption|]. pose proof (es_nz _ _ _ _ _ _ _ _ ES ltac:(lia)) as Q. exfalso. unfold nz_pair in Q.
    assert (Z0 : forall i, 2 <= i < 80 -> nth (Z.to_nat i) q 0 = 0).
    { intros i Hi. unfold q. replace (Z.to_nat i) with (S (S (Z.to_nat (i - 2)))) by lia. cbn [nth]. apply nth_repeat. }
    rewrite !Z0 in Q by lia. discriminate. }
  subst n. destruct (es_pairs _ _ _ _ _ _ _ _ ES) as [Pm Pn]. assert (m = 1%nat) by lia. subst m.
  rewrite (es_trunc _ _ _ _ _ _ _ _ ES), (es_last _ _ _ _ _ _ _ _ ES). split; [reflexivity|]. split; [reflexivity|]. split; [|exact C].
  destruct (es_cut _ _ _ _ _ _ _ _ ES) as [(_ & D & _)|(_ & D & _)]; [|exact D]. unfold spec_cost_of in D. pose proof (spec_moved_range false q 1 0) as [SM _]. lia.
Qed.
Print Assumptions C22_truncated_cost_refuted.

(* ---- C23 ---- *)
(* The estimator against the writer. `spec_evs` lists the head symbols and tail bits the writer emits for the first n pairs,
   `spec_lsbs` the bits of the lsb part (enc_pairs_ok); ev_cost counts 2048 per bit and 2048 log2 (1024 / f), rounded up, per symbol.
   The charge is exactly that cost, rounded up to whole bits, plus one bit for each sign that moves to the lsb part (spec_moved),
   which is charged in both places. Without lsb mode nothing moves: C23_exact_without_lsb_mode. *)
Theorem C23_estimator_partial :
  forall (F : Type) (o : ops F) (e : eops F), elaws o e -> forall h fs_ind nbits B xq, (1 <= h <= 200)%nat -> let ne := 2 * Z.of_nat h in
    len xq = ne -> Forall bits_ok xq -> 0 <= B < 4096 ->
    exists b n, bit_consumption o e ne fs_ind nbits B xq = Ok b /\ cn_last b = 2 * Z.of_nat n /\ 2 * Z.of_nat n <= ne /\ (forall i, 2 * Z.of_nat n <= i < ne -> getz 0 xq i = 0) /\
      let rate := cn_rate b in let mode := cn_mode b in
      (* the writer emits these events, whether it then works in lsb mode or not *)
      (forall lsb L st w l nbl, (lsb = true -> mode = true) -> (lsb = true -> cn_lsb b <= nbl) -> est L st w l -> fits L (l ++ spec_evs n lsb ne 0 0 rate xq) ->
        exists st' w' lsbs, enc_pairs n ne 0 0 rate lsb nbl xq [] st w = Ok (lsbs, st', w') /\ est L st' w' (l ++ spec_evs n lsb ne 0 0 rate xq) /\
          len lsbs = (if lsb then cn_lsb b else 0) /\
          (* and both modes cost the same *)
          ev_cost (spec_evs n lsb ne 0 0 rate xq) + 2048 * len lsbs = ev_cost (spec_evs n false ne 0 0 rate xq)) /\
      (ev_cost (spec_evs n false ne 0 0 rate xq) + 2048 * spec_moved n mode 0 xq <= 2048 * 8191 ->
        cn_est b = whole_bits (ev_cost (spec_evs n false ne 0 0 rate xq) + 2048 * spec_moved n mode 0 xq)).
Proof.
  intros F o e EL h fs_ind nbits B xq Hh ne Lq Fq HB. destruct (bit_consumption_spec o e EL h fs_ind nbits B xq Hh Lq Fq HB) as (b & n & m & E & ES). exists b, n. split; [exact E|].
  destruct (es_pairs _ _ _ _ _ _ _ _ ES) as [Pm Pn]. split; [exact (es_last _ _ _ _ _ _ _ _ ES)|]. split; [exact Pn|]. split; [exact (es_zero _ _ _ _ _ _ _ _ ES)|]. cbv zeta.
  rewrite (es_rate _ _ _ _ _ _ _ _ ES), (es_mode _ _ _ _ _ _ _ _ ES). set (rate := if _ <? _ then 512 else 0) in *. set (mode := _ <=? nbits) in *.
  assert (Hr : rate = 0 \/ rate = 512) by (unfold rate; destruct (_ <? _); auto). pose proof (es_lsb _ _ _ _ _ _ _ _ ES) as LS.
  assert (Modes : ev_cost (spec_evs n false ne 0 0 rate xq) = ev_cost (spec_evs n mode ne 0 0 rate xq) + 2048 * len (spec_lsbs n mode 0 xq)).
  { destruct mode; [apply spec_cost_modes; [exact Fq|lia|lia]|rewrite spec_lsbs_off; change (len (@nil Z)) with 0; lia]. }
  split.
  - intros lsb L st w l nbl H1 H2 Es Fi. destruct (enc_pairs_ok L ne rate lsb nbl xq n Hr 0 0 [] st w l ltac:(lia) ltac:(lia) ltac:(lia)) as (st' & w' & E1 & E2); [| |exact Es|exact Fi|].
    + intros i Hi. apply (Forall_nth_range bits_ok); [exact Fq|lia].
    + intros Hl. change (len (@nil Z)) with 0. rewrite Hl. rewrite <- (H1 Hl), <- LS. specialize (H2 Hl). lia.
    + exists st', w', (spec_lsbs n lsb 0 xq). split; [exact E1|]. split; [exact E2|]. destruct lsb; [rewrite <- (H1 eq_refl); split; [now rewrite LS|symmetry; exact Modes]|].
      rewrite spec_lsbs_off. change (len (@nil Z)) with 0. split; [reflexivity|lia].
  - intros Hc. pose proof (es_est _ _ _ _ _ _ _ _ ES) as EE. unfold spec_cost_of in EE. pose proof (len_nonneg (spec_lsbs n mode 0 xq)). fold ne in EE. rewrite EE by lia. rewrite LS, Modes. unfold whole_bits.
    set (u := ev_cost (spec_evs n mode ne 0 0 rate xq)). set (v := spec_moved n mode 0 xq). set (k := len (spec_lsbs n mode 0 xq)). clearbody u v k. Z.div_mod_to_equations. lia.
Qed.
Print Assumptions C23_estimator_partial.

(* Below 480 + 160 fs_ind bits there is no lsb mode and the estimate is the exact cost. *)
Theorem C23_exact_without_lsb_mode :
  forall (F : Type) (o : ops F) (e : eops F), elaws o e -> forall h fs_ind nbits B xq, (1 <= h <= 200)%nat -> let ne := 2 * Z.of_nat h in
    len xq = ne -> Forall bits_ok xq -> 0 <= B < 4096 -> nbits < 480 + fs_ind * 160 ->
    exists b n, bit_consumption o e ne fs_ind nbits B xq = Ok b /\ cn_last b = 2 * Z.of_nat n /\ cn_lsb b = 0 /\ cn_mode b = false /\
      (ev_cost (spec_evs n false ne 0 0 (cn_rate b) xq) <= 2048 * 8191 -> cn_est b = whole_bits (ev_cost (spec_evs n false ne 0 0 (cn_rate b) xq))).
Proof.
  intros F o e EL h fs_ind nbits B xq Hh ne Lq Fq HB Hn. destruct (bit_consumption_spec o e EL h fs_ind nbits B xq Hh Lq Fq HB) as (b & n & m & E & ES). exists b, n. split; [exact E|].
  replace (480 + fs_ind * 160 <=? nbits) with false in ES by lia. split; [exact (es_last _ _ _ _ _ _ _ _ ES)|]. rewrite (es_mode _ _ _ _ _ _ _ _ ES), (es_lsb _ _ _ _ _ _ _ _ ES), (es_rate _ _ _ _ _ _ _ _ ES), spec_lsbs_off.
  split; [reflexivity|]. split; [reflexivity|]. intros Hc. pose proof (es_est _ _ _ _ _ _ _ _ ES) as EE. pose proof (es_lsb _ _ _ _ _ _ _ _ ES) as LS. rewrite spec_lsbs_off in LS. change (len (@nil Z)) with 0 in LS. rewrite LS in EE.
  unfold spec_cost_of in EE. rewrite (proj2 (spec_moved_range false xq n 0) eq_refl), Z.mul_0_r, Z.add_0_r in EE. fold ne in EE. rewrite EE by lia. lia.
Qed.
Print Assumptions C23_exact_without_lsb_mode.

(* With lsb mode allowed the two differ: the pair (1, 4) is charged one bit more than either way of writing it costs. *)
Theorem C23_estimator_refuted :
  forall (F : Type) (o : ops F) (e : eops F), elaws o e ->
    let xq := 1 :: 4 :: repeat 0 78 in
    exists b, bit_consumption o e 80 0 480 400 xq = Ok b /\ cn_last b = 2 /\ cn_mode b = true /\
      cn_est b = whole_bits (ev_cost (spec_evs 1 false 80 0 0 (cn_rate b) xq)) + 1 /\
      cn_est b = whole_bits (ev_cost (spec_evs 1 true 80 0 0 (cn_rate b) xq) + 2048 * len (spec_lsbs 1 true 0 xq)) + 1.
Proof.
  intros F o e EL q. assert (Fq : Forall bits_ok q) by (apply Forall_forall; intros v Hv; cbn [In repeat q] in Hv; unfold bits_ok; repeat destruct Hv as [Hv|Hv]; try (subst; lia); contradiction).
  destruct (bit_consumption_spec o e EL 40 0 480 400 q ltac:(lia) ltac:(vm_compute; reflexivity) Fq ltac:(lia)) as (b & n & m & E & ES). change (estimate 80 512 400 true q n m b) in ES. change (2 * Z.of_nat 40) with 80 in E.
  assert (N : n = 1%nat).
  { destruct (es_pairs _ _ _ _ _ _ _ _ ES) as [Pm Pn]. destruct (Nat.eq_dec n 1) as [|Hn]; [assumption|]. pose proof (es_nz _ _ _ _ _ _ _ _ ES ltac:(lia)) as Q. exfalso. unfold nz_pair in Q.
    assert (Z0 : forall i, 2 <= i < 80 -> nth (Z.to_nat i) q 0 = 0).
    { intros i Hi. unfold q. replace (Z.to_nat i) with (S (S (Z.to_nat (i - 2)))) by lia. cbn [nth]. apply nth_repeat. }
    rewrite !Z0 in Q by lia. discriminate. }
  subst n. exists b. split; [exact E|]. rewrite (es_last _ _ _ _ _ _ _ _ ES), (es_mode _ _ _ _ _ _ _ _ ES), (es_rate _ _ _ _ _ _ _ _ ES). split; [reflexivity|]. split; [reflexivity|].
  pose proof (spec_cost_modes 80 512 q 1 Fq 0 0 ltac:(lia) ltac:(vm_compute; congruence)) as M. rewrite <- M.
  assert (G : cn_est b = whole_bits (ev_cost (spec_evs 1 false 80 0 0 512 q)) + 1); [|split; exact G].
  pose proof (es_est _ _ _ _ _ _ _ _ ES) as EE. rewrite (es_lsb _ _ _ _ _ _ _ _ ES) in EE. pose proof (spec_cost_range true 80 512 q 1 (or_intror eq_refl) Fq 0 0 ltac:(lia) ltac:(vm_compute; congruence) ltac:(lia)) as R. change (420000 * Z.of_nat 1) with 420000 in R.
  rewrite EE by (clear - R; lia). rewrite M. unfold spec_cost_of. assert (SM : spec_moved 1 true 0 q = 1) by reflexivity. rewrite SM. assert (SL : len (spec_lsbs 1 true 0 q) = 3) by (vm_compute; reflexivity). rewrite SL.
  unfold whole_bits. generalize (ev_cost (spec_evs 1 true 80 0 0 512 q)). clear. intros u. Z.div_mod_to_equations. lia.
Qed.
Print Assumptions C23_estimator_refuted.

(* The noise shaping filters: the bits charged are those of the flag and of the symbols the writer emits, rounded up per filter. *)
Theorem C23_tns_bits :
  forall (F : Type) (o : ops F) (e : eops F), elaws o e -> forall w rc_i ord num, 0 <= w < 2 -> tns_params_ok ord rc_i -> num = 1 \/ num = 2 ->
    exists n, for_range 0 num (fun f n => b <- tns_filter_bits o e w rc_i ord f ;; Ok (n + b)) 0 = Ok n /\
      2048 * num + ev_cost (tns_evs num w ord rc_i) <= 2048 * n < 2048 * num + ev_cost (tns_evs num w ord rc_i) + 2048 * num /\
      (num = 1 -> n = whole_bits (2048 + ev_cost (tns_evs num w ord rc_i))) /\
      (forall L st o l, est L st o l -> fits L (l ++ tns_evs num w ord rc_i) ->
        exists st' o', enc_tns_filters (Z.to_nat num) 0 w ord rc_i st o = Ok (st', o') /\ est L st' o' (l ++ tns_evs num w ord rc_i)).
Proof.
  intros F o e EL w rc_i ord num Hw TP Hn. destruct (tns_bits_spec o e EL w rc_i ord num Hw TP Hn) as [E _]. eexists. split; [exact E|].
  assert (C : ev_cost (tns_evs num w ord rc_i) = (filter_cost w rc_i ord 0 - 2048) + (if num =? 2 then filter_cost w rc_i ord 1 - 2048 else 0)).
  { unfold filter_cost, tns_evs. destruct Hn as [-> | ->]; [change (zseq (Z.to_nat 1)) with [0]|change (zseq (Z.to_nat 2)) with [0; 1]]; cbn [flat_map Z.eqb Pos.eqb]; rewrite ?ev_cost_app, ev_cost_nil; lia. }
  split; [|split].
  - rewrite C. unfold whole_bits. set (u := filter_cost w rc_i ord 0). set (v := filter_cost w rc_i ord 1). clearbody u v. destruct Hn as [-> | ->]; cbn [Z.eqb Pos.eqb]; Z.div_mod_to_equations; lia.
  - intros ->. rewrite C. cbn [Z.eqb Pos.eqb]. rewrite Z.add_0_r. f_equal. lia.
  - intros L st w0 l Es Fi. rewrite tns_evs_filters in *. exact (enc_tns_filters_ok L w ord rc_i (Z.to_nat num) TP Hw 0%nat st w0 l ltac:(destruct Hn; lia) Es Fi).
Qed.
Print Assumptions C23_tns_bits.
Example C23_case : Forall bits_ok (repeat 3 400) /\ len (repeat 3 400) = 2 * Z.of_nat 200 /\ 320 < 480 + 4 * 160 /\ tns_params_ok [8; 3] (repeat 5 16).
Proof.
  split; [apply Forall_forall; intros v Hv; apply repeat_spec in Hv; subst; unfold bits_ok; lia|]. split; [reflexivity|]. split; [lia|].
  split; [reflexivity|]. split; [reflexivity|]. split; [repeat constructor; lia|]. apply Forall_forall; intros v Hv; apply repeat_spec in Hv; subst; lia.
Qed.

(* ---- C24 ---- *)
(* The budget, from the side information the stages charge for: bandwidth bits of the configuration, the filters as charged by
   the code, one bit or eleven for the pitch. One filter: every frame size; two filters: from 31 bytes. *)
Theorem C24_budget_partial :
  forall (F : Type) (o : ops F) (e : eops F), elaws o e -> forall c bytes_n nbw w rc_i ord num ltpf, legal_config c -> 20 <= bytes_n <= 400 ->
    idx NBITS_BW (fs_ind c) = Ok nbw -> 0 <= w < 2 -> tns_params_ok ord rc_i -> ltpf = 1 \/ ltpf = 11 -> num = 1 \/ (num = 2 /\ 31 <= bytes_n) ->
    exists tns B, for_range 0 num (fun f n => b <- tns_filter_bits o e w rc_i ord f ;; Ok (n + b)) 0 = Ok tns /\
      bit_budget (ne c) (8 * bytes_n) nbw tns ltpf = Ok B /\ 0 <= B < 3200.
Proof.
  intros F o e EL c N nbw w rc_i ord num ltpf Lc HN Hbw Hw TP Hl Hn. destruct (tns_bits_spec o e EL w rc_i ord num Hw TP ltac:(lia)) as [E Q].
  assert (Bw : 0 <= nbw <= 3 /\ 0 <= log2_ceil (ne c / 2) <= 8) by (destruct Lc as (f & d & ->); destruct f, d; cbn in Hbw; injection Hbw as <-; split; try lia; vm_compute; split; congruence).
  pose proof (Q 0 ltac:(lia)) as Q0. pose proof (Q 1) as Q1. set (t := whole_bits (filter_cost w rc_i ord 0) + _) in *. assert (Ht : 1 <= t <= 84 \/ (31 <= N /\ 2 <= t <= 168)) by (unfold t; destruct Hn as [-> | [-> Hm]]; cbn [Z.eqb Pos.eqb]; lia).
  clearbody t. exists t. enough (G : exists B, bit_budget (ne c) (8 * N) nbw t ltpf = Ok B /\ 0 <= B < 3200) by (destruct G as (B & G); exists B; split; [exact E|exact G]).
  unfold bit_budget, ari_bits_reserved, usub. set (r := if 8 * N <=? 1280 then 3 else if 8 * N <=? 2560 then 4 else 5).
  assert (Hr : (r = 3 /\ 8 * N <= 1280) \/ (3 <= r <= 5 /\ 1280 < 8 * N)) by (unfold r; destruct (Z.leb_spec (8 * N) 1280); [lia|]; destruct (8 * N <=? 2560); lia). clearbody r.
  destruct (Z.ltb_spec (8 * N) (nbw + t + ltpf + 38 + 8 + 3 + (log2_ceil (ne c / 2) + r))); [exfalso; lia|]. eexists. split; [reflexivity|]. lia.
Qed.
Print Assumptions C24_budget_partial.
Example C24_case : legal_config (config_new Hz16000 TenMs) /\ idx NBITS_BW (fs_ind (config_new Hz16000 TenMs)) = Ok 1 /\ tns_params_ok [8; 8] (repeat 0 16).
Proof.
  split; [now exists Hz16000, TenMs|]. split; [reflexivity|]. split; [reflexivity|]. split; [reflexivity|]. split; [repeat constructor; lia|]. apply Forall_forall; intros v Hv; apply repeat_spec in Hv; subst; lia.
Qed.

Lemma idx_val {A} (d : A) l i a : idx l i = Ok a -> nth (Z.to_nat i) l d = a.
Proof. unfold idx. destruct (i <? 0); [discriminate|]. destruct (nth_error l (Z.to_nat i)) eqn:N; [|discriminate]. intros H. apply (nth_error_nth _ _ d) in N. congruence. Qed.
(* The full statement is false: two filters of order eight with the dearest coefficients cost 168 bits, and a frame of 30 bytes
   at 48 kHz has 240 bits of which 74 are fixed. *)
Theorem C24_budget_refuted :
  forall (F : Type) (o : ops F) (e : eops F), elaws o e ->
    let c := config_new Hz48000 TenMs in
    exists rc_i ord tns, tns_params_ok ord rc_i /\ idx NBITS_BW (fs_ind c) = Ok 3 /\ tns_weighting (n_ms c) (8 * 30) = 1 /\
      for_range 0 2 (fun f n => b <- tns_filter_bits o e 1 rc_i ord f ;; Ok (n + b)) 0 = Ok tns /\ bit_budget (ne c) (8 * 30) 3 tns 11 = Panic.
Proof.
  intros F o e EL c. exists (repeat 0 16), [8; 8], 168. pose proof (proj2 (proj2 C24_case)) as TP. split; [exact TP|]. split; [reflexivity|]. split; [reflexivity|].
  destruct (tns_bits_spec o e EL 1 (repeat 0 16) [8; 8] 2 ltac:(lia) TP (or_intror eq_refl)) as [E _]. split; [|vm_compute; reflexivity]. rewrite E. cbn [Z.eqb Pos.eqb].
  assert (P : forall k, 0 <= k < 8 -> price (snd (msym (tns_coef_model k) 0)) = nth 0 (nth (Z.to_nat k) AC_TNS_COEF_BITS []) 0).
  { intros k Hk. destruct (tns_coef_bits k 0 Hk ltac:(lia)) as [Q _]. unfold idx2 in Q. rewrite (idx_nth AC_TNS_COEF_BITS k []) in Q by (change (len AC_TNS_COEF_BITS) with 8; lia). cbn [bind] in Q.
    apply (idx_val 0) in Q. symmetry. exact Q. }
  assert (O : price (snd (msym (tns_order_model 1) 7)) = nth 7 (nth 1 AC_TNS_ORDER_BITS []) 0).
  { destruct (tns_order_bits 1 7 ltac:(lia) ltac:(lia)) as [Q _]. unfold idx2 in Q. rewrite (idx_nth AC_TNS_ORDER_BITS 1 []) in Q by (change (len AC_TNS_ORDER_BITS) with 2; lia). cbn [bind] in Q.
    apply (idx_val 0) in Q. symmetry. exact Q. }
  assert (FC : forall f, f = 0 \/ f = 1 -> filter_cost 1 (repeat 0 16) [8; 8] f = 2048 + (nth 7 (nth 1 AC_TNS_ORDER_BITS []) 0 + (nth 0 (nth 0 AC_TNS_COEF_BITS []) 0 + (nth 0 (nth 1 AC_TNS_COEF_BITS []) 0 + (nth 0 (nth 2 AC_TNS_COEF_BITS []) 0 + (nth 0 (nth 3 AC_TNS_COEF_BITS []) 0 +
     (nth 0 (nth 4 AC_TNS_COEF_BITS []) 0 + (nth 0 (nth 5 AC_TNS_COEF_BITS []) 0 + (nth 0 (nth 6 AC_TNS_COEF_BITS []) 0 + (nth 0 (nth 7 AC_TNS_COEF_BITS []) 0 + 0)))))))))).
  { intros f [-> | ->]; unfold filter_cost, tns_filter_evs.
    - change (nth (Z.to_nat 0) [8; 8] 0) with 8. change (0 <? 8) with true. cbv iota. change (zseq (Z.to_nat 8)) with [0; 1; 2; 3; 4; 5; 6; 7]. change (8 - 1) with 7. cbn [map]. rewrite !ev_cost_sym, ev_cost_nil.
      rewrite O.
      repeat match goal with |- context [nth ?n (skipn ?k (repeat 0 16)) 0] => change (nth n (skipn k (repeat 0 16)) 0) with 0 end.
      rewrite (P 0), (P 1), (P 2), (P 3), (P 4), (P 5), (P 6), (P 7) by lia. reflexivity.
    - change (nth (Z.to_nat 1) [8; 8] 0) with 8. change (0 <? 8) with true. cbv iota. change (zseq (Z.to_nat 8)) with [0; 1; 2; 3; 4; 5; 6; 7]. change (8 - 1) with 7. cbn [map]. rewrite !ev_cost_sym, ev_cost_nil.
      rewrite O.
      repeat match goal with |- context [nth ?n (skipn ?k (repeat 0 16)) 0] => change (nth n (skipn k (repeat 0 16)) 0) with 0 end.
      rewrite (P 0), (P 1), (P 2), (P 3), (P 4), (P 5), (P 6), (P 7) by lia. reflexivity. }
  rewrite !FC by auto. vm_compute. reflexivity.
Qed.
Print Assumptions C24_budget_refuted.

(* ---- C25 ---- *)
(* One run of the quantiser in any arithmetic: the index returned is the one whose gain the lines were divided by, and it is between
   zero and 255 or the gain floor (the smallest index at which the loudest line still fits the quantiser), whichever is larger. *)
Theorem C25_gain_index_used :
  forall (F : Type) (o : ops F) (e : eops F), elaws o e -> forall chk h fs_ind q x xq nbits bw tns ltpf B, (1 <= h <= 200)%nat -> let ne := 2 * Z.of_nat h in
    len x = ne -> len xq = ne -> 0 <= fs_ind <= 4 -> 0 <= nbits < 32768 -> bit_budget ne nbits bw tns ltpf = Ok B -> 0 <= B < 4096 ->
    let off := gg_off fs_ind nbits in gain_floor o e x off <= 32767 ->
    exists r xq' q', quant_run o e chk ne fs_ind q x xq nbits bw tns ltpf = Ok (r, xq', q') /\
      (forall i, 0 <= i < qr_last r -> getz 0 xq' i = quantise_line o (fgain o (qr_gg_ind r + off)) (getz (fz o 0) x i)) /\
      (forall i, qr_last r <= i < ne -> getz 0 xq' i = 0) /\ 2 <= qr_last r <= ne /\
      0 <= qr_gg_ind r <= Z.max 255 (gain_floor o e x off) /\ gain_floor o e x off <= qr_gg_ind r.
Proof.
  intros F o e EL chk h fs_ind q x xq nbits bw tns ltpf B Hh ne Lx Lq Hf Hn HB B4 off GF.
  destruct (quant_run_spec o e EL chk h fs_ind q x xq nbits bw tns ltpf B Hh Lx Lq Hf Hn HB B4 GF) as (r & xq' & q' & n & m & b & E & RO). exists r, xq', q'. split; [exact E|].
  pose proof (ro_gain _ _ _ _ _ _ _ _ _ _ _ _ RO) as G. pose proof (ro_lines _ _ _ _ _ _ _ _ _ _ _ _ RO) as P. pose proof (ro_ind _ _ _ _ _ _ _ _ _ _ _ _ RO) as I. pose proof (ro_last _ _ _ _ _ _ _ _ _ _ _ _ RO) as La.
  destruct (es_pairs _ _ _ _ _ _ _ _ (ro_est _ _ _ _ _ _ _ _ _ _ _ _ RO)) as [Pm Pn]. rewrite G in P. fold off in P, I. fold ne in Pn. rewrite La in *.
  split; [intros i Hi; rewrite P by lia; destruct (Z.ltb_spec i (2 * Z.of_nat m)); [reflexivity|lia]|]. split; [intros i Hi; unfold ne in Hi; rewrite P by lia; destruct (Z.ltb_spec i (2 * Z.of_nat m)); [lia|reflexivity]|].
  split; [lia|]. lia.
Qed.
Print Assumptions C25_gain_index_used.
(* The decoder's gain for the transmitted index is that gain. *)
Theorem C25_decoder_has_the_same_gain :
  forall (F : Type) (o : ops F) fs_ind nbits gg lines, 0 <= fs_ind <= 4 -> 0 <= nbits < 32768 ->
    global_gain o nbits fs_ind gg lines = map (fun v => fmul o v (fgain o (gg + gg_off fs_ind nbits))) lines.
Proof.
  intros F o fs nbits gg lines Hf Hn. unfold global_gain. replace (gain_off nbits fs) with (gg_off fs nbits); [reflexivity|]. unfold gg_off, gain_off.
  assert (W : wrap 16 nbits = nbits) by (unfold wrap; change (2 ^ (16 - 1)) with 32768; change (2 ^ 16) with 65536; rewrite Z.mod_small; lia). rewrite W, Z.quot_div_nonneg by lia. lia.
Qed.
Print Assumptions C25_decoder_has_the_same_gain.
(* In exact arithmetic the index fits its eight bits unless a line exceeds the quantiser's range at index 255. *)
Theorem C25_index_range_partial :
  forall chk h fs_ind q x xq nbits bw tns ltpf B, (1 <= h <= 200)%nat -> let ne := 2 * Z.of_nat h in
    len x = ne -> len xq = ne -> 0 <= fs_ind <= 4 -> 0 <= nbits < 32768 -> bit_budget ne nbits bw tns ltpf = Ok B -> 0 <= B < 4096 ->
    Forall (fun v => (Rabs v <= (32768 - 3 / 8) * Rpower 10 (IZR (255 + gg_off fs_ind nbits) / 28))%R) x ->
    exists r xq' q', quant_run R_ops R_eops chk ne fs_ind q x xq nbits bw tns ltpf = Ok (r, xq', q') /\ 0 <= qr_gg_ind r <= 255.
Proof.
  intros chk h fs_ind q x xq nbits bw tns ltpf B Hh ne Lx Lq Hf Hn HB B4 HF. pose proof (gg_off_range fs_ind nbits Hf Hn) as GO.
  pose proof (gain_floor_le x (gg_off fs_ind nbits) 255 ltac:(lia) ltac:(lia) HF) as GF.
  destruct (C25_gain_index_used R R_ops R_eops R_elaws chk h fs_ind q x xq nbits bw tns ltpf B Hh Lx Lq Hf Hn HB B4 ltac:(lia)) as (r & xq' & q' & E & _ & _ & _ & I & _). exists r, xq', q'. split; [exact E|lia].
Qed.
Print Assumptions C25_index_range_partial.
Example C25_case : Forall (fun v => (Rabs v <= (32768 - 3 / 8) * Rpower 10 (IZR (255 + gg_off 1 640) / 28))%R) (repeat 30000%R 160) /\ bit_budget 160 640 1 2 1 = Ok 577 /\ gg_off 1 640 = -147.
Proof.
  split; [|split; reflexivity]. apply Forall_forall. intros v Hv. apply repeat_spec in Hv. subst v. rewrite Rabs_pos_eq by lra. replace (255 + gg_off 1 640)%Z with 108%Z by reflexivity.
  assert (1 <= Rpower 10 (108 / 28))%R; [|lra]. rewrite <- (Rpower_O 10) by lra. apply Rle_Rpower; lra.
Qed.
(* The full statement is false: at 16 kHz with 400 byte frames a line of 3276762.5 needs index 286, which the eight bit field truncates to 30. *)
Theorem C25_index_range_refuted :
  exists r xq' q', let x := ((32768 - 3 / 8) * 100 :: repeat 0 159)%R in
    quant_run R_ops R_eops true 160 1 (equant_new R_ops) x (repeat 0 160) 3200 1 2 1 = Ok (r, xq', q') /\ qr_gg_ind r = 286.
Proof.
  pose (x := ((32768 - 3 / 8) * 100 :: repeat 0 159)%R).
  assert (PK : peak R_ops R_eops x = (top * 100)%R).
  { destruct (R_peak x) as (P0 & P1 & P2). apply Rle_antisym.
    - apply P2; [unfold top; lra|]. unfold x. constructor; [rewrite Rabs_pos_eq by lra; unfold top; lra|]. apply Forall_forall. intros v Hv. apply repeat_spec in Hv. subst v. rewrite Rabs_R0. unfold top; lra.
    - unfold x in P1. apply Forall_cons_iff in P1. destruct P1 as [P1 _]. rewrite Rabs_pos_eq in P1 by lra. unfold top. exact P1. }
  assert (GO : gg_off 1 3200 = -230) by reflexivity.
  assert (GF : gain_floor R_ops R_eops x (gg_off 1 3200) = 286).
  { unfold gain_floor. rewrite PK, GO, R_375. change (flt R_ops (fz R_ops 0) (top * 100)%R) with (Rlt_bool 0 (top * 100)). rewrite Rlt_bool_true by (unfold top; lra). cbn [R_ops R_eops fz fsub fdiv fmul e_log10 e_ceil]. fold top. unfold as_i16. cbn [f_i32 R_ops]. rewrite Ztrunc_IZR.
    replace (top * 100 / top)%R with (10 * 10)%R by (unfold top; field). assert (L : (0 < ln 10)%R) by (rewrite <- ln_1; apply ln_increasing; lra). rewrite ln_mult by lra. replace (28 * ((ln 10 + ln 10) / ln 10))%R with 56%R by (field; lra).
    rewrite Zceil_IZR. reflexivity. }
  destruct (C25_gain_index_used R R_ops R_eops R_elaws true 80 1 (equant_new R_ops) x (repeat 0 160) 3200 1 2 1 3135 ltac:(lia) ltac:(reflexivity) ltac:(reflexivity) ltac:(lia) ltac:(lia) ltac:(reflexivity) ltac:(lia) ltac:(rewrite GF; lia)) as (r & xq' & q' & E & _ & _ & _ & I & J).
  rewrite GF in I, J. exists r, xq', q'. cbv zeta. split; [exact E|lia].
Qed.
Print Assumptions C25_index_range_refuted.

(* ---- C47 ---- *)
(* In exact arithmetic a run never clips: each line kept is within five eighths of a quantiser step, and decoding it with the
   transmitted index (C25_decoder_has_the_same_gain) restores it to that precision. *)
Theorem C47_quantisation_error :
  forall chk h fs_ind q x xq nbits bw tns ltpf B, (1 <= h <= 200)%nat -> let ne := 2 * Z.of_nat h in
    len x = ne -> len xq = ne -> 0 <= fs_ind <= 4 -> 0 <= nbits < 32768 -> bit_budget ne nbits bw tns ltpf = Ok B -> 0 <= B < 4096 ->
    Forall (fun v => (Rabs v <= 10 ^ 100)%R) x ->
    exists r xq' q', quant_run R_ops R_eops chk ne fs_ind q x xq nbits bw tns ltpf = Ok (r, xq', q') /\
      let y := global_gain R_ops nbits fs_ind (qr_gg_ind r) (map IZR xq') in
      forall i, 0 <= i < qr_last r -> (Rabs (getz 0 x i - getz 0 y i) <= 5 / 8 * Rpower 10 (IZR (qr_gg_ind r + gg_off fs_ind nbits) / 28))%R.
Proof.
  intros chk h fs_ind q x xq nbits bw tns ltpf B Hh ne Lx Lq Hf Hn HB B4 HF. pose proof (gg_off_range fs_ind nbits Hf Hn) as GO.
  assert (GF : gain_floor R_ops R_eops x (gg_off fs_ind nbits) <= 32000).
  { apply gain_floor_le; [lia|lia|]. eapply Forall_impl; [|exact HF]. intros v Hv. refine (Rle_trans _ _ _ Hv _). rewrite <- Rpower_pow by lra. apply Rle_trans with (1 * Rpower 10 (IZR (32000 + gg_off fs_ind nbits) / 28))%R; [|apply Rmult_le_compat_r; [apply Rlt_le, exp_pos|unfold top; lra]].
    rewrite Rmult_1_l. apply Rle_Rpower; [lra|]. assert (I : (IZR 31000 <= IZR (32000 + gg_off fs_ind nbits))%R) by (apply IZR_le; lia). rewrite INR_IZR_INZ. change (Z.of_nat 100) with 100. lra. }
  destruct (C25_gain_index_used R R_ops R_eops R_elaws chk h fs_ind q x xq nbits bw tns ltpf B Hh Lx Lq Hf Hn HB B4 ltac:(lia)) as (r & xq' & q' & E & P & Z0 & La & I & J). exists r, xq', q'. split; [exact E|]. intros y i Hi.
  unfold y. rewrite C25_decoder_has_the_same_gain by assumption. set (g := fgain R_ops (qr_gg_ind r + gg_off fs_ind nbits)). change (Rpower 10 (IZR (qr_gg_ind r + gg_off fs_ind nbits) / 28)) with g.
  assert (Lq' : len xq' = ne). { destruct (quant_run_spec R_ops R_eops R_elaws chk h fs_ind q x xq nbits bw tns ltpf B Hh Lx Lq Hf Hn HB B4 ltac:(lia)) as (r2 & xq2 & q2 & n2 & m2 & b2 & E2 & RO). rewrite E in E2. injection E2 as _ <- _. exact (ro_len _ _ _ _ _ _ _ _ _ _ _ _ RO). }
  rewrite (getz_map (fun v => fmul R_ops v g) 0%R 0%R) by (unfold len in *; rewrite map_length; lia). rewrite (getz_map IZR 0 0%R) by lia. rewrite P by exact Hi. fold g. cbn [R_ops fz fmul]. fold R_ops.
  apply R_quantise_error; [unfold g; cbn [R_ops fgain]; apply exp_pos|]. change g with (Rpower 10 (IZR (qr_gg_ind r + gg_off fs_ind nbits) / 28)).
  pose proof (gain_floor_enough x (gg_off fs_ind nbits) (qr_gg_ind r) ltac:(lia) ltac:(lia) J) as GE. refine (Rle_trans _ _ _ _ GE).
  destruct (R_peak x) as (_ & PF & _). rewrite Forall_forall in PF. apply PF. unfold getz. apply nth_In. unfold len in Lx. lia.
Qed.
Print Assumptions C47_quantisation_error.
Example C47_case : Forall (fun v => (Rabs v <= 10 ^ 100)%R) (repeat (-30000)%R 160) /\ bit_budget 160 640 1 2 1 = Ok 577 /\ len (repeat (-30000)%R 160) = 2 * Z.of_nat 80.
Proof.
  split; [|split; reflexivity]. apply Forall_forall. intros v Hv. apply repeat_spec in Hv. subst v. rewrite Rabs_left by lra. apply Rle_trans with (10 ^ 5)%R; [lra|]. apply Rle_pow; [lra|lia].
Qed.
