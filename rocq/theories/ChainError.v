(* From an error in the lines that the decoder reconstructs before its noise shaping to an error in the spectrum, on the real numbers. *)
From Coq Require Import ZArith Lia List Bool Reals Lra.
From Verif Require Import Base Config Buffers SideInfo Mpvq SnsIndex Loops ParseBase EncPayload FrameSpec Scalar EncScalar RealOps EncF32 DecSignal DecTotal EncSns EncTns TnsOk TnsInverse MdctSpec SnsShape EncShape Lpc TnsStable TnsLinear
  PropertiesShaping PropertiesShape PropertiesStable.
From Coq Require Import List.
Import ListNotations.
Local Open Scope Z_scope.

(* the square sum of x - y up to line n *)
Definition gap (x y : list R) (n : Z) : R := sm (S (Z.to_nat n)) (fun m => (getz 0 x (Z.of_nat m) - getz 0 y (Z.of_nat m)) * (getz 0 x (Z.of_nat m) - getz 0 y (Z.of_nat m)))%R.
Definition minus (x y : list R) : list R := map (fun ab => (fst ab - snd ab)%R) (combine x y).
Lemma minus_dif x y : len x = len y -> dif x y (minus x y).
Proof.
  intros H. unfold minus, dif. assert (L : length x = length y) by (unfold len in H; lia). unfold len. rewrite map_length, combine_length, L, Nat.min_id. split; [reflexivity|]. split; [reflexivity|].
  intros i Hi. unfold getz.
  destruct (Nat.lt_ge_cases (Z.to_nat i) (length y)) as [K|K].
  - rewrite (nth_indep _ _ ((fun ab : R * R => (fst ab - snd ab)%R) (0%R, 0%R))) by (rewrite map_length, combine_length; lia). rewrite (map_nth (fun ab : R * R => (fst ab - snd ab)%R)). rewrite combine_nth by exact L. reflexivity.
  - rewrite !nth_overflow by (rewrite ?map_length, ?combine_length; lia). ring.
Qed.
Lemma sub_prefix (l l' : list Z) n : 0 <= n <= len l -> n <= len l' -> (forall i, 0 <= i < n -> getz 0 l i = getz 0 l' i) -> sub l 0 n = sub l' 0 n.
Proof.
  intros H H' K. destruct (sub_ok l 0 n) as (a & -> & La & Ka); [lia|lia|]. destruct (sub_ok l' 0 n) as (b & -> & Lb & Kb); [lia|lia|]. f_equal. apply (list_eq_getz 0); [lia|]. intros i Hi. rewrite Ka, Kb by lia. rewrite Z.add_0_l. apply K. lia.
Qed.

Theorem tns_error chk c x bw nbits nn : legal_config c -> len x = ne c -> 0 <= bw <= fs_ind c -> coefs_in_range R_ops R_eops c x bw nbits nn -> ~ (n_ms c = TenMs /\ bw = 2) ->
  exists r y, tns_encode R_ops R_eops chk c x bw nbits nn = Ok (r, y) /\ len y = ne c /\ tns_params_ok (tr_order r) (tr_rc_i r) /\ tr_num r = len (spec_bands (n_ms c) bw) /\
    forall orders di z, len orders = 2 -> Forall (fun p => 0 <= p <= 8) orders -> (forall f, 0 <= f < tr_num r -> getz 0 orders f = getz 0 (tr_order r) f) -> len di = 16 -> Forall (fun i => 0 <= i <= 16) di ->
      (forall f k, 0 <= f < tr_num r -> 0 <= k < getz 0 (tr_order r) f -> getz 0 di (f * 8 + k) = getz 0 (tr_rc_i r) (f * 8 + k) /\ getz 0 di (f * 8 + k) <> 0) -> len z = ne c ->
      exists out, tns_decode R_ops (n_ms c) bw (tr_num r) orders di z = Ok out /\ len out = ne c /\
        forall n, 0 <= n < ne c -> ((getz 0 out n - getz 0 x n) * (getz 0 out n - getz 0 x n) <= frame_gain (tr_num r) orders di * gap z y n)%R.
Proof.
  intros Hc Lx Hb CR NB. destruct (C28_transmitted_filter_partial chk c x bw nbits nn Hc Lx Hb CR NB) as (r & y & E & TP & Back). destruct (tns_encode_ok R_ops R_eops chk c x bw nbits nn R_elaws Hc Lx Hb CR) as ([r' y'] & E' & TL). rewrite E in E'.
  apply Ok_inj in E'. assert (r' = r /\ y' = y) by (split; congruence). destruct H as [-> ->]. exists r, y. pose proof (tl_len _ _ _ _ _ _ _ _ TL) as Ly. pose proof (tl_num _ _ _ _ _ _ _ _ TL) as TN.
  split; [exact E|]. split; [lia|]. split; [exact TP|]. split; [exact TN|]. intros orders di z Lo FO HO Ld FD HD Lz. specialize (Back di Ld HD).
  destruct (coded_ne c bw Hc Hb) as [Hb4 Hn].
  assert (N12 : 1 <= tr_num r <= 2) by (rewrite TN; destruct (n_ms c), (bw_cases bw Hb4) as [->|[->|[->|[->| ->]]]]; cbn; lia).
  assert (SP : sub (tr_order r) 0 (tr_num r) = sub orders 0 (tr_num r)) by (destruct TP as (P1 & _); apply sub_prefix; [lia|lia|]; intros i Hi; symmetry; now apply HO).
  assert (Same : forall l, tns_decode R_ops (n_ms c) bw (tr_num r) (tr_order r) di l = tns_decode R_ops (n_ms c) bw (tr_num r) orders di l) by (intros l; unfold tns_decode; rewrite SP; reflexivity).
  rewrite Same in Back.
  assert (FB : forall l : list R, len l = ne c -> Forall (fun ab => snd ab <= len l) (spec_bands (n_ms c) bw)).
  { intros l Ll. rewrite Ll. clear -Hn Hb4. unfold coded in Hn. unfold spec_bands. apply Forall_forall. intros [a b] Hin. cbn [snd].
    destruct (n_ms c), (bw_cases bw Hb4) as [->|[->|[->|[->| ->]]]]; cbn in Hin; repeat (destruct Hin as [Hin|Hin]; [injection Hin; intros; subst; lia|]); contradiction. }
  pose proof (minus_dif z y ltac:(lia)) as D. assert (Lm : len (minus z y) = ne c) by (destruct D as (D1 & _); lia).
  destruct (C52_lines_bounded (n_ms c) bw orders di z Hb4 Lo FO Ld FD (FB z Lz)) as (out & Eo & Lout & _). destruct (C52_lines_bounded (n_ms c) bw orders di (minus z y) Hb4 Lo FO Ld FD (FB _ Lm)) as (em & Em & Le & Be).
  rewrite <- TN in *. exists out. split; [exact Eo|]. split; [lia|]. intros n Hnn.
  destruct (tns_linear (n_ms c) bw (tr_num r) orders di z y (minus z y) D out x em Eo Back Em) as (_ & _ & DD). rewrite <- DD by lia. specialize (Be n ltac:(lia)). eapply Rle_trans; [exact Be|]. right. f_equal.
  apply sm_ext. intros m Hm. destruct D as (_ & _ & D). rewrite D by lia. reflexivity.
Qed.

Lemma gap_nonneg x y n : (0 <= gap x y n)%R.
Proof. apply sm_nonneg. intros. apply Rle_0_sqr. Qed.

(* with the scale factors: the decoder's spectrum `out` against the encoder's spectrum `x` *)
Theorem shaping_error c x eb attack scf : legal_config c -> nb c = 64 -> len x = ne c -> len eb = 64 -> Forall (fun v => 0 <= v)%R eb ->
  sns_scale_factors R_ops R_eops c eb attack = Ok scf -> set_b_alive scf ->
  exists s l1 q v edges, sns_encode R_ops R_eops c x eb attack = Ok (s, l1) /\ len l1 = ne c /\ describes q s /\ sns_legal q /\ sns_vector q = Ok v /\ band_table c = Ok edges /\
    (forall j, 0 <= j < ne c -> exists! b, 0 <= b < 64 /\ getz 0 edges b <= j < getz 0 edges (b + 1)) /\
    (forall b j, 0 <= b < 64 -> getz 0 edges b <= j < getz 0 edges (b + 1) -> getz 0%R l1 j = (getz 0 x j * Rpower 2 (- curve (scale_factor q v) b))%R) /\
    forall z, len z = ne c -> exists out, sns_decode R_ops c q z = Ok out /\ len out = ne c /\
      forall b j, 0 <= b < 64 -> getz 0 edges b <= j < getz 0 edges (b + 1) -> 0 <= j < ne c -> (getz 0 out j - getz 0 x j = (getz 0 z j - getz 0 l1 j) * Rpower 2 (curve (scale_factor q v) b))%R.
Proof.
  intros Lc Nb Lx Le He Es A. destruct (C48_encoder c x eb attack scf Lc Nb Lx Le He Es A) as (s & l1 & q & v & edges & E & Dq & Q & Ev & Eb & Ll & T1 & Back & _).
  exists s, l1, q, v, edges. split; [exact E|]. split; [exact Ll|]. split; [exact Dq|]. split; [exact Q|]. split; [exact Ev|]. split; [exact Eb|].
  destruct (C48_decoder c q l1 Lc Q ltac:(lia)) as (v0 & e0 & x0 & Ev0 & Eb0 & Ed0 & _ & Td0 & U & _). rewrite Ev in Ev0. apply Ok_inj in Ev0. subst v0. rewrite Eb in Eb0. apply Ok_inj in Eb0. subst e0. rewrite Back in Ed0. apply Ok_inj in Ed0. subst x0. rewrite Nb in U, Td0.
  split; [exact U|]. split; [exact T1|]. intros z Lz.
  destruct (C48_decoder c q z Lc Q ltac:(lia)) as (v1 & e1 & out & Ev1 & Eb1 & Ed1 & Lo & Td1 & _ & _). rewrite Ev in Ev1. apply Ok_inj in Ev1. subst v1. rewrite Eb in Eb1. apply Ok_inj in Eb1. subst e1. rewrite Nb in Td1.
  exists out. split; [exact Ed1|]. split; [lia|]. intros b j Hb Hj Hn. rewrite (Td1 b j Hb Hj), (Td0 b j Hb Hj). unfold band_curve. cbn [Z.eqb Pos.eqb]. ring.
Qed.
