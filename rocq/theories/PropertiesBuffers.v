(* Final theorems: configuration, working buffers and transform lengths (C13, C14, C15, C36, C42). *)
From Coq Require Import ZArith List Bool Lia.
From Verif Require Import Base Config DecMdct Loops TablesBand FftFactor Buffers BuffersProofs FactorProofs.
Import ListNotations.
Local Open Scope Z_scope.

(* ---- C42 ---- *)
Theorem C42_config_invariants :
  forall f d, let c := config_new f d in
  0 < ne c <= nf c /\ nf c <= MAX_LEN_FREQUENCY /\ ne c <= MAX_LEN_SPECTRAL /\ 0 < zlead c < nf c /\ 0 < nb c <= 64 /\ 0 <= fs_ind c <= 4 /\
  Z.even (nf c) = true /\ Z.even (ne c) = true /\
  (* frame length in samples for the duration; 44.1 kHz uses the 48 kHz frame length *)
  nf c = (if fs c =? 44100 then 48000 else fs c) * (match d with TenMs => 4 | SevenPointFiveMs => 3 end) / 400.
Proof. intros [] []; vm_compute; repeat split; congruence. Qed.
Print Assumptions C42_config_invariants.
(* the overlap size is the number of zeros at the end of the window: the transform reads nothing there and everything before *)
Theorem C42_overlap_of_the_window : forall f d, let c := config_new f d in exists w, mdct_window c = Ok w /\ len w = 2 * nf c /\
  (forall i, 2 * nf c - zlead c <= i < 2 * nf c -> fst (getz (0, 0) w i) = 0) /\ (forall i, 0 <= i < 2 * nf c - zlead c -> fst (getz (0, 0) w i) <> 0).
Proof.
  intros f d. assert (C : forall w z, forallb (fun i => Bool.eqb (fst (getz (0, 0) w (Z.of_nat i)) =? 0) (z <=? Z.of_nat i)) (seq 0 (length w)) = true -> forall i, 0 <= i < len w -> (fst (getz (0, 0) w i) =? 0) = (z <=? i)).
  { intros w z H i Hi. rewrite forallb_forall in H. specialize (H (Z.to_nat i)). rewrite Z2Nat.id in H by lia. apply Bool.eqb_prop, H. apply in_seq. unfold len in Hi. lia. }
  assert (D : exists w, mdct_window (config_new f d) = Ok w /\ len w = 2 * nf (config_new f d) /\ forallb (fun i => Bool.eqb (fst (getz (0, 0) w (Z.of_nat i)) =? 0) (2 * nf (config_new f d) - zlead (config_new f d) <=? Z.of_nat i)) (seq 0 (length w)) = true)
    by (destruct f, d; eexists; (split; [reflexivity|]); (split; [reflexivity|]); vm_compute; reflexivity).
  destruct (C42_config_invariants f d) as (V1 & V2 & V3 & V4 & _). destruct D as (w & E & L & B). exists w. split; [exact E|]. split; [exact L|]. specialize (C w _ B). cbv zeta in *. split; intros i Hi; specialize (C i ltac:(lia)).
  - destruct (Z.leb_spec (2 * nf (config_new f d) - zlead (config_new f d)) i); [|lia]. now apply Z.eqb_eq.
  - destruct (Z.leb_spec (2 * nf (config_new f d) - zlead (config_new f d)) i); [lia|]. now apply Z.eqb_neq.
Qed.
Print Assumptions C42_overlap_of_the_window.

(* ---- C13 ---- *)
(* Any buffers at least as long as reported are enough for any number of channels. The parts handed to the channels, in order, followed by what is
   left over are exactly the caller's buffers: so the parts are disjoint and the reported lengths are what is used, no more and no less. *)
Theorem C13_decoder_buffers :
  forall (A B : Type) f d k (s : list A) (x : list B) ns nx,
  0 <= k -> dec_lens k d f = Ok (ns, nx) -> ns <= len s -> nx <= len x ->
  exists chs s' x', dec_new k d f s x = Ok (chs, s', x') /\ len chs = k /\ concat (dec_parts chs) ++ s' = s /\ concat (dec_cparts chs) ++ x' = x /\
    len s' = len s - ns /\ len x' = len x - nx.
Proof. intros A B. exact (@dec_new_ok A B). Qed.
Print Assumptions C13_decoder_buffers.
Theorem C13_lengths_defined : forall k d f, exists p, dec_lens k d f = Ok p.
Proof. exact dec_lens_ok. Qed.
Example C13_case : dec_lens 2 TenMs Hz48000 = Ok (2 * 4971, 2 * 960) /\
  (forall chs s' x', dec_new 2 TenMs Hz48000 (repeat 0 (2 * 4971)) (repeat 0 (2 * 960)) = Ok (chs, s', x') -> s' = [] /\ x' = []).
Proof.
  split; [reflexivity|]. intros chs s' x' H.
  destruct (dec_new_ok Hz48000 TenMs 2 (repeat 0 (2 * 4971)) (repeat 0 (2 * 960)) (2 * 4971) (2 * 960) ltac:(lia) eq_refl) as (c & a & b & E & _ & _ & _ & L1 & L2);
   [unfold len; rewrite repeat_length; lia..|].
  rewrite H in E. injection E as -> -> ->. unfold len in L1, L2. rewrite repeat_length in L1, L2.
  split; [destruct a; [reflexivity|cbn [length] in L1; lia]|destruct b; [reflexivity|cbn [length] in L2; lia]].
Qed.
(* one scalar less is too little *)
Example C13_sharp : dec_new 1 SevenPointFiveMs Hz8000 (repeat 0 (779 - 1)) (repeat 0 120) = Panic /\ dec_lens 1 SevenPointFiveMs Hz8000 = Ok (779, 120).
Proof. split; vm_compute; reflexivity. Qed.

(* ---- C14, C15 ---- *)
Theorem C14_encoder_buffers_partial :
  forall (I A B : Type) f d k (i : list I) (s : list A) (x : list B) ni ns nx,
  f <> Hz8000 -> 0 <= k -> enc_lens k d f = Ok (ni, ns, nx) -> ni <= len i -> ns <= len s -> nx <= len x ->
  exists chs i' s' x', enc_new k d f i s x = Ok (chs, i', s', x') /\ len chs = k /\
    concat (enc_iparts chs) ++ i' = i /\ concat (enc_sparts chs) ++ s' = s /\ concat (enc_cparts chs) ++ x' = x /\
    len i' = len i - ni /\ len s' = len s - ns /\ len x' = len x - nx.
Proof. intros I A B. exact (@enc_new_ok I A B). Qed.
Print Assumptions C14_encoder_buffers_partial.
Example C14_case : enc_lens 3 TenMs Hz32000 = Ok (3 * 1320, 3 * 946, 3 * 640).
Proof. reflexivity. Qed.

(* at 8 kHz no buffer is large enough: the bandwidth detector's constructor computes `sample_freq_ind - 1` with index 0 *)
Theorem C14_encoder_8khz_refuted :
  forall (I A B : Type) d k (i : list I) (s : list A) (x : list B), 1 <= k -> enc_new k d Hz8000 i s x = Panic.
Proof. intros I A B. exact (@enc_new_8k I A B). Qed.
Print Assumptions C14_encoder_8khz_refuted.

(* an encoder can be constructed exactly for the sampling frequencies other than 8 kHz *)
Theorem C15_constructible_iff_not_8khz_partial :
  forall f d, f <> Hz8000 <-> exists (i s x : list Z) r, enc_new 1 d f i s x = Ok r.
Proof.
  intros f d. split.
  - intros H. destruct (enc_lens 1 d f) as [[[ni ns] nx]| |] eqn:E; [|destruct f, d; discriminate..].
    destruct (enc_new_ok f d 1 (repeat 0 (Z.to_nat ni)) (repeat 0 (Z.to_nat ns)) (repeat 0 (Z.to_nat nx)) ni ns nx H ltac:(lia) E) as (chs & i' & s' & x' & R & _);
     [unfold len; rewrite repeat_length; lia..|]. eauto.
  - intros (i & s & x & r & E) ->. rewrite enc_new_8k in E; [discriminate|lia].
Qed.
Print Assumptions C15_constructible_iff_not_8khz_partial.
Theorem C15_all_frequencies_refuted :
  ~ (forall f d, exists (i s x : list Z) r, enc_new 1 d f i s x = Ok r).
Proof. intros H. apply (proj2 (C15_constructible_iff_not_8khz_partial Hz8000 TenMs) (H Hz8000 TenMs)). reflexivity. Qed.
Print Assumptions C15_all_frequencies_refuted.

(* ---- C36 ---- *)
(* `gt p` is the f32 comparison `p > floor(sqrt n)`: any comparison that is eventually true will do, so rounding plays no role *)
Theorem C36_factor_partial :
  forall gt B n fuel, (forall p, B <= p -> gt p = true) -> 1 <= n < 2 * 3 ^ 32 -> (Z.to_nat B + 40 <= fuel)%nat ->
  exists fl, kf_factor gt fuel n = Ok fl /\ chain n fl /\ prod (factors_of fl) = n.
Proof.
  intros gt B n fuel H Hn Hf. destruct (kf_factor_ok gt B H n fuel Hn Hf) as (fl & E & C). exists fl. split; [assumption|]. split; [assumption|].
  apply (chain_prod (length fl)); [lia|assumption].
Qed.
Print Assumptions C36_factor_partial.
(* the 64 entries do not suffice for every usize *)
Theorem C36_every_length_refuted : ~ (forall n, 1 <= n < 2 ^ 64 -> exists fuel fl, kf_factor (gt_sqrt n) fuel n = Ok fl).
Proof. intros H. destruct (H (3 ^ 33) ltac:(split; vm_compute; congruence)) as (fuel & fl & E). rewrite kf_factor_too_long in E. discriminate. Qed.
Print Assumptions C36_every_length_refuted.
Example C36_case : kf_factor (gt_sqrt 240) 60 240 = Ok [4; 60; 4; 15; 3; 5; 5; 1] /\ kf_factor (gt_sqrt 1) 60 1 = Ok [1; 1] /\
  kf_factor (gt_sqrt 94) 60 94 = Ok [2; 47; 47; 1].
Proof. repeat split; vm_compute; reflexivity. Qed.
