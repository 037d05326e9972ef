(* Temporal noise shaping of the encoder: it succeeds when the quantised coefficients are in range, sends legal parameters,
   and the decoder undoes it *)
From Coq Require Import ZArith Lia List Bool.
From Verif Require Import Base Config Loops Scalar EncScalar EncF32 BufLemmas DecSignal DecTotal DetectSpec EncTns EncPayload TnsBits TnsInverse EncFrame EstimateSpec QuantSpec FrameSpec.
Import ListNotations.
Local Open Scope Z_scope.

(* the bands LC3 prescribes: one filter below 3, else two that split the coded lines in half *)
Definition spec_bands (d : duration) (bw : Z) : list (Z * Z) :=
  let '(first, width) := match d with TenMs => (12, 80) | SevenPointFiveMs => (9, 60) end in
  let stop := width * (bw + 1) in
  if bw <? 3 then [(first, stop)] else [(first, stop / 2); (stop / 2, stop)].
Lemma bw_cases bw : 0 <= bw <= 4 -> bw = 0 \/ bw = 1 \/ bw = 2 \/ bw = 3 \/ bw = 4.
Proof. lia. Qed.
Lemma dec_bands_spec d bw : 0 <= bw <= 4 -> tns_dec_bands d bw = Ok (spec_bands d bw).
Proof. intros H. destruct d, (bw_cases bw H) as [->|[->|[->|[->| ->]]]]; reflexivity. Qed.
(* sub bands follow each other from the start of the filter to its end *)
Fixpoint tiles (lo hi : Z) (l : list (Z * Z)) : Prop :=
  match l with [] => lo = hi | (a, b) :: l => a = lo /\ a < b /\ tiles b hi l end.

(* the lines a configuration codes *)
Definition coded (d : duration) (bw : Z) : Z := match d with TenMs => 80 | SevenPointFiveMs => 60 end * (bw + 1).
Lemma coded_ne c bw : legal_config c -> 0 <= bw <= fs_ind c -> 0 <= bw <= 4 /\ coded (n_ms c) bw <= ne c <= 400.
Proof. intros (f & d & ->) H. destruct f, d; unfold coded, config_new, cfg_fs_ind in *; cbn [fs_ind n_ms ne Z.eqb Pos.eqb] in *; lia. Qed.

Definition params_fit (n : Z) (p : Z * Z * list (Z * Z)) : Prop := let '(from, to, subs) := p in 0 <= from <= to /\ to <= n /\ Forall (fun '(a, b) => 0 <= a <= b /\ b <= n) subs.
Lemma enc_params d bw : 0 <= bw <= 4 -> exists params, tns_enc_params d bw = Ok params /\ len params = len (spec_bands d bw) /\ (len params = 1 \/ len params = 2) /\
  Forall (params_fit (coded d bw)) params /\ ordered 0 (coded d bw) (bands_of params) /\
  (d = TenMs /\ bw = 2 \/ bands_of params = spec_bands d bw /\ Forall (fun '(a, b, subs) => tiles a b subs) params).
Proof.
  intros H. destruct d, (bw_cases bw H) as [->|[->|[->|[->| ->]]]]; eexists; (split; [reflexivity|]); (split; [reflexivity|]); cbn;
  (split; [tauto|]); (split; [repeat constructor; cbn; lia|]); (split; [lia|]); try (right; split; [reflexivity|repeat constructor; cbn; lia]); left; split; reflexivity.
Qed.
Lemma ordered_weaken : forall bands lo n m, ordered lo n bands -> n <= m -> ordered lo m bands.
Proof. induction bands as [|[a b] t IH]; intros lo n m H L; cbn [ordered] in *; [lia|]. destruct H as [H1 H2]. split; [assumption|]. eauto. Qed.

Section TnsOk.
Context {F : Type} (o : ops F) (e : eops F).
Let f0 := fz o 0.

Lemma autocorr_sub_ok x k s a b : 0 <= k -> 0 <= a <= b -> b <= len x -> okp (autocorr_sub o x k s (a, b)) (fun _ => True).
Proof.
  intros Hk H1 H2. unfold autocorr_sub. eapply okp_bind; [apply okp_sub; lia|]. intros w _. cbv zeta.
  eapply okp_bind with (P := fun _ => True); [|intros ac _; now apply okp_ok].
  destruct (Z.ltb_spec (a + k) (len x)); [|now apply okp_ok]. destruct (Z.ltb_spec (a + k) b); [|now apply okp_ok]. cbn [andb].
  eapply okp_bind; [apply okp_sub; lia|]. intros wk _. now apply okp_ok.
Qed.
Lemma autocorr_ok x bs : Forall (fun '(a, b) => 0 <= a <= b /\ b <= len x) bs -> okp (autocorr o x bs) (fun r => len r = 9).
Proof.
  intros H. unfold autocorr. apply (okp_for (fun r => len r = 9)); [reflexivity|]. intros k r Hk Lr.
  eapply okp_bind; [apply okp_idx; change (len LAG_WINDOW) with 9; lia|]. intros lw _.
  eapply okp_bind with (P := fun _ => True).
  - generalize (fz o 0, fz o 1). induction bs as [|[a b] bs IH]; intros s; cbn [autocorr_subs]; [now apply okp_ok|].
    inversion H as [|? ? H1 H2]; subst. eapply okp_bind; [apply autocorr_sub_ok; lia|]. intros s' _. now apply IH.
  - intros [rk prod] _. eapply okp_weaken; [apply okp_put; lia|]. intros; liab.
Qed.
Lemma levinson_step_ok r k a al er : 1 <= k <= 8 -> len r = 9 -> len a = 9 -> len al = 9 -> okp (levinson_step o r k (a, al, er)) (fun '(a, al, _) => len a = 9 /\ len al = 9).
Proof.
  intros Hk Lr La Ll. unfold levinson_step. eapply okp_bind with (P := fun _ => True).
  - apply (okp_for (fun _ => True)); [exact I|]. intros n rc Hn _. eapply okp_bind; [apply okp_idx; lia|]. intros x _. eapply okp_bind; [apply okp_idx; lia|]. intros y _. now apply okp_ok.
  - intros rc _. cbv zeta. eapply okp_bind; [apply okp_put; lia|]. intros a1 L1. cbv beta in L1.
    eapply okp_bind with (P := fun a => len a = 9).
    + apply (okp_for (fun a => len a = 9)); [lia|]. intros n a2 Hn L2. eapply okp_bind; [apply okp_idx; lia|]. intros x _. eapply okp_bind; [apply okp_idx; lia|]. intros y _.
      eapply okp_weaken; [apply okp_put; lia|]. intros; liab.
    + intros a2 L2. cbv beta in L2. eapply okp_bind; [apply okp_put; lia|]. intros a3 L3. cbv beta in L3. apply okp_ok. lia.
Qed.
Lemma stepdown_ok f k ak am rc : 0 <= f < 2 -> 1 <= k <= 8 -> len ak = 9 -> len am = 9 -> len rc = 16 -> okp (stepdown o f k (ak, am, rc)) (fun '(ak, am, rc) => len ak = 9 /\ len am = 9 /\ len rc = 16).
Proof.
  intros Hf Hk La Lm Lr. unfold stepdown. eapply okp_bind; [apply okp_idx; lia|]. intros r _. eapply okp_bind; [apply okp_put; lia|]. intros rc1 L1. cbv beta in L1. cbv zeta.
  eapply okp_bind with (P := fun a => len a = 9).
  - apply (okp_for (fun a => len a = 9)); [lia|]. intros n a2 Hn L2. eapply okp_bind; [apply okp_idx; lia|]. intros x _. eapply okp_bind; [apply okp_idx; lia|]. intros y _.
    eapply okp_weaken; [apply okp_put; lia|]. intros; liab.
  - intros am1 L2. cbv beta in L2. apply okp_ok. lia.
Qed.
Lemma tns_analysis_ok r f nn w rc_q : 0 <= f < 2 -> len r = 9 -> len rc_q = 16 -> okp (tns_analysis o e r f nn w rc_q) (fun rc => len rc = 16).
Proof.
  intros Hf Lr Lq. unfold tns_analysis. eapply okp_bind; [apply okp_idx; lia|]. intros r0 _. eapply okp_bind; [apply okp_put; change (len (repeat (fz o 0) 9)) with 9; lia|].
  intros a La. cbv beta in La. change (len (repeat (fz o 0) 9)) with 9 in La.
  eapply okp_bind with (P := fun '(a, al, _) => len a = 9 /\ len al = 9).
  - apply (okp_for (fun '(a, al, _) => len a = 9 /\ len al = 9)); [split; [assumption|reflexivity]|]. intros k [[a1 al] er] Hk [L1 L2]. apply levinson_step_ok; lia.
  - intros [[a1 al] er] [L1 L2]. cbv zeta. destruct (flt o _ _ && negb nn).
    + eapply okp_bind with (P := fun a => len a = 9).
      * apply (okp_for (fun a => len a = 9)); [assumption|]. intros k a2 Hk L3. eapply okp_bind; [apply okp_idx; lia|]. intros x _. eapply okp_weaken; [apply okp_put; lia|]. intros; liab.
      * intros a2 L3. cbv beta in L3. eapply okp_bind with (P := fun '(ak, am, rc) => len ak = 9 /\ len am = 9 /\ len rc = 16).
        -- apply (okp_for_rev (fun '(ak, am, rc) => len ak = 9 /\ len am = 9 /\ len rc = 16)); [lia|lia|]. intros k [[ak am] rc] Hk (A & B & C). apply stepdown_ok; lia.
        -- intros [[ak am] rc] (A & B & C). apply okp_ok. assumption.
    + eapply okp_bind; [apply okp_sub; lia|]. intros _ _. apply (okp_for (fun rc => len rc = 16)); [assumption|]. intros k rc Hk L. eapply okp_weaken; [apply okp_put; lia|]. intros; liab.
Qed.
(* the coefficients before quantisation *)
Definition tns_coefs (c : config) (x : list F) (bw nbits : Z) (nn : bool) : res (list F) :=
  params <- tns_enc_params (n_ms c) bw ;;
  for_range 0 (len params) (fun f rc_q => p <- idx params f ;; r <- autocorr o x (snd p) ;; tns_analysis o e r f nn (tns_weighting (n_ms c) nbits) rc_q) (repeat f0 16).
Definition coef_index (x : F) : Z := to_int o (fdiv o (e_asin e x) (e_step17 e)) + 8.
(* every coefficient found has an index the tables know *)
Definition coefs_in_range (c : config) (x : list F) (bw nbits : Z) (nn : bool) : Prop :=
  forall rc, tns_coefs c x bw nbits nn = Ok rc -> Forall (fun v => 0 <= coef_index v <= 16) rc.

(* what quantisation establishes for the filters up to f, of which the first q are in use *)
Definition quantised (q f : Z) (s : list F * list Z * list Z) : Prop :=
  let '(rc_q, rc_i, ord) := s in
  len rc_q = 16 /\ len rc_i = 16 /\ len ord = 2 /\ (forall j, 0 <= j < 16 -> 0 <= getz 0 rc_i j <= 16) /\ (forall j, 0 <= j < 2 -> 0 <= getz 0 ord j <= 8) /\
  (forall j, 0 <= j < q * 8 -> getz f0 rc_q j = fsin17 o (getz 0 rc_i j - 8)) /\
  (forall g k, 0 <= g < f -> getz 0 ord g <= k < 8 -> getz 0 rc_i (g * 8 + k) = 8) /\
  (forall g, 0 <= g < f -> 0 < getz 0 ord g -> getz 0 rc_i (g * 8 + getz 0 ord g - 1) <> 8).
Lemma tns_order_ok f rc_i : 0 <= f < 2 -> len rc_i = 16 -> forall n, (n <= 8)%nat -> okp (tns_order n f rc_i) (fun m => 0 <= m <= Z.of_nat n /\
  (forall k, m <= k < Z.of_nat n -> getz 0 rc_i (f * 8 + k) = 8) /\ (0 < m -> getz 0 rc_i (f * 8 + m - 1) <> 8)).
Proof.
  intros Hf L. induction n as [|n IH]; intros Hn; cbn [tns_order]; [apply okp_ok; split; [lia|split; lia]|].
  rewrite (idx_get 0 rc_i) by lia. cbn [bind]. destruct (Z.eqb_spec (getz 0 rc_i (f * 8 + Z.of_nat n)) 8) as [E|N].
  - eapply okp_weaken; [apply IH; lia|]. intros m (A & B & C). split; [lia|]. split; [|assumption]. intros k Hk. destruct (Z.eq_dec k (Z.of_nat n)) as [->|]; [assumption|apply B; lia].
  - apply okp_ok. split; [lia|]. split; [lia|]. intros _. replace (f * 8 + Z.of_nat (Datatypes.S n) - 1) with (f * 8 + Z.of_nat n) by lia. assumption.
Qed.
Lemma tns_quantise_ok chk f rc0 s : 0 <= f < 2 -> Forall (fun v => 0 <= coef_index v <= 16) rc0 -> len rc0 = 16 ->
  quantised f f s -> (forall j, f * 8 <= j < 16 -> getz f0 (fst (fst s)) j = getz f0 rc0 j) -> (forall j, 0 <= j < f * 8 -> getz 0 (snd (fst s)) j = coef_index (getz f0 rc0 j)) ->
  okp (tns_quantise o e chk f s) (fun s' => quantised (f + 1) (f + 1) s' /\ (forall j, (f + 1) * 8 <= j < 16 -> getz f0 (fst (fst s')) j = getz f0 rc0 j) /\
    forall j, 0 <= j < (f + 1) * 8 -> getz 0 (snd (fst s')) j = coef_index (getz f0 rc0 j)).
Proof.
  intros Hf HR LR. destruct s as [[rc_q rc_i] ord]. intros (L1 & L2 & L3 & B1 & B2 & Q & O1 & O2) K KI. cbn [fst snd] in K, KI. unfold tns_quantise.
  eapply okp_bind with (P := fun '(q, i) => len q = 16 /\ len i = 16 /\ (forall j, 0 <= j < 16 -> 0 <= getz 0 i j <= 16) /\
    (forall j, 0 <= j < (f + 1) * 8 -> getz f0 q j = fsin17 o (getz 0 i j - 8)) /\ (forall j, (f + 1) * 8 <= j < 16 -> getz f0 q j = getz f0 rc0 j) /\
    (forall j, 0 <= j < f * 8 -> getz 0 i j = getz 0 rc_i j) /\ (forall j, 0 <= j < (f + 1) * 8 -> getz 0 i j = coef_index (getz f0 rc0 j))).
  { match goal with |- okp (for_range _ _ ?B _) _ => set (body := B) end.
    destruct (for_inv (fun k '(q, i) => len q = 16 /\ len i = 16 /\ (forall j, 0 <= j < 16 -> 0 <= getz 0 i j <= 16) /\ (forall j, 0 <= j < k -> getz f0 q j = fsin17 o (getz 0 i j - 8)) /\
      (forall j, k <= j < 16 -> getz f0 q j = getz f0 rc0 j) /\ (forall j, 0 <= j < f * 8 -> getz 0 i j = getz 0 rc_i j) /\ (forall j, 0 <= j < k -> getz 0 i j = coef_index (getz f0 rc0 j))) (f * 8) (f * 8 + 8) body (rc_q, rc_i))
      as ([q i] & E & P); [lia| | |].
    - repeat (split; [assumption|]). split; [reflexivity|assumption].
    - intros k [q i] Hk (M1 & M2 & M3 & M4 & M5 & M6 & M7). unfold body. rewrite (idx_get f0 q) by lia. cbn [bind]. rewrite M5 by lia.
      assert (R : 0 <= coef_index (getz f0 rc0 k) <= 16).
      { rewrite Forall_forall in HR. apply HR. unfold getz. apply nth_In. unfold len in LR. lia. }
      fold (coef_index (getz f0 rc0 k)). unfold i8c. remember (coef_index (getz f0 rc0 k)) as v eqn:Ev.
      assert (EB : (-128 <=? v) && (v <=? 127) = true) by (apply andb_true_iff; split; apply Z.leb_le; lia). rewrite EB. cbn [bind].
      rewrite Z.mod_small by lia. destruct (put_ok 0 i k v) as (i1 & -> & N1 & N2); [lia|]. cbn [bind].
      destruct (put_ok f0 q k (fsin17 o (v - 8))) as (q1 & -> & N3 & N4); [lia|]. cbn [bind]. eexists. split; [reflexivity|].
      split; [lia|]. split; [lia|]. split; [intros j Hj; rewrite N2 by lia; destruct (j =? k); [lia|apply M3; lia]|].
      split; [intros j Hj; rewrite N2, N4 by lia; destruct (Z.eqb_spec j k); [reflexivity|apply M4; lia]|].
      split; [intros j Hj; rewrite N4 by lia; destruct (Z.eqb_spec j k); [lia|apply M5; lia]|].
      split; [intros j Hj; rewrite N2 by lia; destruct (Z.eqb_spec j k); [lia|apply M6; lia]|].
      intros j Hj. rewrite N2 by lia. destruct (Z.eqb_spec j k) as [->|]; [exact Ev|apply M7; lia].
    - rewrite E. apply okp_ok. destruct P as (P1 & P2 & P3 & P4 & P5 & P6 & P7). split; [assumption|]. split; [assumption|]. split; [assumption|].
      split; [intros j Hj; apply P4; lia|]. split; [intros j Hj; apply P5; lia|]. split; [assumption|]. intros j Hj. apply P7. lia. }
  intros [q i] (P1 & P2 & P3 & P4 & P5 & P6 & P7). eapply okp_bind; [apply (tns_order_ok f i); lia|]. intros n (Hn & N8 & N0). change (Z.of_nat 8) with 8 in *.
  destruct (put_ok 0 ord f n) as (ord1 & -> & LO & KO); [lia|]. cbn [bind]. apply okp_ok. cbn [fst snd]. split; [|split; assumption].
  unfold quantised. split; [assumption|]. split; [assumption|]. split; [lia|]. split; [assumption|]. split; [intros j Hj; rewrite KO by lia; destruct (j =? f); [lia|apply B2; lia]|].
  split; [assumption|]. split.
  - intros g k Hg. rewrite KO by lia. destruct (Z.eqb_spec g f) as [->|N]; [apply N8|]. intros Hk. rewrite P6 by (specialize (B2 g ltac:(lia)); lia). apply O1; lia.
  - intros g Hg. rewrite KO by lia. destruct (Z.eqb_spec g f) as [->|N]; [apply N0|]. intros Hk. rewrite P6 by (specialize (B2 g ltac:(lia)); lia). apply O2; lia.
Qed.
Lemma tns_unused_ok q f s : 0 <= f < 2 -> q <= f -> quantised q f s -> okp (tns_unused o f s) (fun s' => quantised q (f + 1) s' /\ forall j, 0 <= j < f * 8 -> getz 0 (snd (fst s')) j = getz 0 (snd (fst s)) j).
Proof.
  intros Hf Hq. destruct s as [[rc_q rc_i] ord]. intros (L1 & L2 & L3 & B1 & B2 & Q & O1 & O2). unfold tns_unused.
  destruct (for_put 0 (f * 8) (f * 8 + 8) (fun k l => put l k 8) (fun _ => 8) rc_i) as (i & -> & M1 & M2); [lia|lia|reflexivity|]. cbn [bind].
  destruct (for_put f0 (f * 8) (f * 8 + 8) (fun k l => put l k (fz o 0)) (fun _ => fz o 0) rc_q) as (qq & -> & N1 & N2); [lia|lia|reflexivity|]. cbn [bind].
  destruct (put_ok 0 ord f 0) as (ord1 & -> & LO & KO); [lia|]. cbn [bind]. apply okp_ok.
  split; [|cbn [fst snd]; intros j Hj; rewrite M2 by lia; destruct (Z.leb_spec (f * 8) j); [lia|reflexivity]].
  unfold quantised. split; [lia|]. split; [lia|]. split; [lia|]. split; [intros j Hj; rewrite M2 by lia; destruct (_ && _); [lia|apply B1; lia]|].
  split; [intros j Hj; rewrite KO by lia; destruct (j =? f); [lia|apply B2; lia]|].
  split; [intros j Hj; rewrite M2, N2 by lia; destruct (Z.leb_spec (f * 8) j); cbn [andb]; [lia|apply Q; lia]|].
  split.
  - intros g k Hg. rewrite KO by lia. destruct (Z.eqb_spec g f) as [->|N]; intros Hk.
    + rewrite M2 by lia. destruct (Z.leb_spec (f * 8) (f * 8 + k)); [|lia]. destruct (Z.ltb_spec (f * 8 + k) (f * 8 + 8)); [reflexivity|lia].
    + assert (0 <= getz 0 ord g <= 8) by (apply B2; lia). rewrite M2 by lia. destruct (Z.leb_spec (f * 8) (g * 8 + k)); [lia|]. cbn [andb]. apply O1; lia.
  - intros g Hg. rewrite KO by lia. destruct (Z.eqb_spec g f) as [->|N]; intros Hk; [lia|].
    assert (0 <= getz 0 ord g <= 8) by (apply B2; lia). rewrite M2 by lia. destruct (Z.leb_spec (f * 8) (g * 8 + getz 0 ord g - 1)); [lia|]. cbn [andb]. apply O2; lia.
Qed.

Lemma tns_coefs_ok c x bw nbits nn : legal_config c -> len x = ne c -> 0 <= bw <= fs_ind c -> okp (tns_coefs c x bw nbits nn) (fun rc => len rc = 16).
Proof.
  intros Hc Lx Hb. destruct (coded_ne c bw Hc Hb) as [Hb4 Hn]. destruct (enc_params (n_ms c) bw Hb4) as (params & E & _ & LP & Fit & _). unfold tns_coefs. rewrite E. cbn [bind].
  apply (okp_for (fun rc => len rc = 16)); [reflexivity|]. intros f rc Hf L. cbv beta in L. destruct (Loops.idx_ok params f Hf) as (p & Ep). rewrite Ep. cbn [bind].
  assert (Fp : params_fit (coded (n_ms c) bw) p).
  { rewrite Forall_forall in Fit. apply Fit. unfold idx in Ep. destruct (f <? 0); [discriminate|]. destruct (nth_error params (Z.to_nat f)) eqn:En; [|discriminate]. apply nth_error_In in En. congruence. }
  destruct p as [[a b] subs]. destruct Fp as (_ & _ & Fs). cbn [snd]. eapply okp_bind; [apply autocorr_ok|].
  - eapply Forall_impl; [|exact Fs]. intros [u v] H. lia.
  - intros r Lr. apply tns_analysis_ok; [lia|exact Lr|exact L].
Qed.
Lemma enc_filters_ok rc orders : len rc = 16 -> len orders = 2 -> (forall i, 0 <= i < 2 -> 0 <= getz 0 orders i <= 8) ->
  forall params f st lines, 0 <= f -> f + len params <= 2 -> len st = 8 -> Forall (params_fit (len lines)) params -> okp (tns_enc_filters o rc f params orders st lines) (fun l => len l = len lines).
Proof.
  intros LR LO HO. induction params as [|[[a b] subs] params IH]; intros f st lines Hf Hp Hs Fit; cbn [tns_enc_filters]; [now apply okp_ok|].
  rewrite len_cons in Hp. assert (0 <= len params) by (unfold len; lia). inversion Fit as [|? ? F1 F2]; subst. destruct F1 as (G1 & G2 & _).
  rewrite (idx_get 0 orders) by lia. cbn [bind]. specialize (HO f ltac:(lia)) as Hof. set (order := getz 0 orders f) in *. clearbody order.
  eapply okp_bind with (P := fun '(st', l) => len st' = 8 /\ len l = len lines).
  - destruct (Z.eqb_spec order 0) as [EE|EE]; [now apply okp_ok|]. eapply okp_bind; [apply okp_sub; lia|]. intros _ _.
    apply (okp_for (fun '(st', l) => len st' = 8 /\ len l = len lines)); [now split|]. intros n [st' l] Hn [A B]. eapply okp_bind; [apply okp_idx; lia|]. intros v _.
    destruct (enc_line o rc f order v st') as (st2 & -> & L2 & _); [lia|lia|lia|lia|]. cbn [bind]. eapply okp_bind; [apply okp_put; lia|]. intros l2 Ll2. cbv beta in Ll2. apply okp_ok. lia.
  - intros [st' l] [A B]. eapply okp_weaken; [apply IH; [lia|lia|assumption|now rewrite B]|]. intros; liab.
Qed.

(* what temporal noise shaping sends and leaves *)
Record tns_legal (c : config) (x : list F) (bw nbits : Z) (r : tns_result F) (y : list F) : Prop := mkTnsLegal {
  tl_params : tns_params_ok (tr_order r) (tr_rc_i r);
  tl_num : tr_num r = len (spec_bands (n_ms c) bw);
  tl_w : tr_weighting r = tns_weighting (n_ms c) nbits;
  tl_len : len y = len x;
  (* trailing coefficients that quantise to zero are dropped, and no others *)
  tl_tail : forall f k, 0 <= f < 2 -> getz 0 (tr_order r) f <= k < 8 -> getz 0 (tr_rc_i r) (f * 8 + k) = 8;
  tl_last : forall f, 0 <= f < 2 -> 0 < getz 0 (tr_order r) f -> getz 0 (tr_rc_i r) (f * 8 + getz 0 (tr_order r) f - 1) <> 8;
  tl_rc : len (tr_rc_q r) = 16;
  tl_coef : forall j, 0 <= j < tr_num r * 8 -> getz f0 (tr_rc_q r) j = fsin17 o (getz 0 (tr_rc_i r) j - 8);
  tl_bits : for_range 0 (tr_num r) (fun f n => b <- tns_filter_bits o e (tr_weighting r) (tr_rc_i r) (tr_order r) f ;; Ok (n + b)) 0 = Ok (tr_nbits r);
  tl_filter : exists params, tns_enc_params (n_ms c) bw = Ok params /\ tns_enc_filters o (tr_rc_q r) 0 params (tr_order r) (repeat f0 8) x = Ok y
}.
Theorem tns_encode_full chk c x bw nbits nn : elaws o e -> legal_config c -> len x = ne c -> 0 <= bw <= fs_ind c -> coefs_in_range c x bw nbits nn ->
  okp (tns_encode o e chk c x bw nbits nn) (fun '(r, y) => tns_legal c x bw nbits r y /\ forall rc, tns_coefs c x bw nbits nn = Ok rc -> forall j, 0 <= j < tr_num r * 8 -> getz 0 (tr_rc_i r) j = coef_index (getz f0 rc j)).
Proof.
  intros EL Hc Lx Hb CR. destruct (coded_ne c bw Hc Hb) as [Hb4 Hn]. destruct (enc_params (n_ms c) bw Hb4) as (params & E & LS & LP & Fit & _ & _).
  destruct (tns_coefs_ok c x bw nbits nn Hc Lx Hb) as (rc0 & E0 & L0). specialize (CR rc0 E0). pose proof E0 as E0'. unfold tns_coefs in E0. rewrite E in E0. cbn [bind] in E0.
  unfold tns_encode. rewrite Lx, Z.eqb_refl. cbn [assert bind]. rewrite E. cbn [bind]. cbv zeta. fold f0. rewrite E0. cbn [bind].
  eapply okp_bind with (P := fun s => quantised (len params) (len params) s /\ (forall j, len params * 8 <= j < 16 -> getz f0 (fst (fst s)) j = getz f0 rc0 j) /\ forall j, 0 <= j < len params * 8 -> getz 0 (snd (fst s)) j = coef_index (getz f0 rc0 j)).
  { destruct (for_inv (fun f s => quantised f f s /\ (forall j, f * 8 <= j < 16 -> getz f0 (fst (fst s)) j = getz f0 rc0 j) /\ forall j, 0 <= j < f * 8 -> getz 0 (snd (fst s)) j = coef_index (getz f0 rc0 j)) 0 (len params) (tns_quantise o e chk) (rc0, repeat 0 16, [0; 0]))
      as (s & Es & Hs); [lia| | |exists s; split; [exact Es|exact Hs]].
    - split; [|split; [reflexivity|intros; lia]]. unfold quantised. split; [exact L0|]. split; [reflexivity|]. split; [reflexivity|].
      split; [intros j Hj; change (repeat 0 16) with (repeat 0 (16%nat)); unfold getz; rewrite nth_repeat; lia|].
      split; [intros j Hj; assert (j = 0 \/ j = 1) as [-> | ->] by lia; vm_compute; split; discriminate|]. split; [lia|]. split; lia.
    - intros f s Hf (Q & K & KI). destruct (tns_quantise_ok chk f rc0 s ltac:(lia) CR L0 Q K KI) as (s' & Es & Q'). exists s'. split; assumption. }
  intros s1 (Q1 & _ & I1).
  eapply okp_bind with (P := fun s => quantised (len params) 2 s /\ forall j, 0 <= j < len params * 8 -> getz 0 (snd (fst s)) j = coef_index (getz f0 rc0 j)).
  { destruct (for_inv (fun f s => quantised (len params) f s /\ forall j, 0 <= j < len params * 8 -> getz 0 (snd (fst s)) j = coef_index (getz f0 rc0 j)) (len params) 2 (tns_unused o) s1) as (s & Es & Hs); [lia|now split| |exists s; split; [exact Es|exact Hs]].
    intros f s Hf [Q KI]. destruct (tns_unused_ok (len params) f s ltac:(lia) ltac:(lia) Q) as (s' & Es & Q' & KU). exists s'. split; [assumption|]. split; [assumption|]. intros j Hj. rewrite KU by lia. now apply KI. }
  intros [[rc_q rc_i] ord] [(L1 & L2 & L3 & B1 & B2 & Q & O1 & O2) KI]. cbn [fst snd] in KI.
  assert (TP : tns_params_ok ord rc_i).
  { split; [assumption|]. split; [assumption|]. split; apply Forall_forall; intros v Hv; apply (In_nth _ _ 0) in Hv; destruct Hv as (n & Hv & <-).
    - specialize (B2 (Z.of_nat n)). unfold getz in B2. rewrite Nat2Z.id in B2. apply B2. unfold len in L3. lia.
    - specialize (B1 (Z.of_nat n)). unfold getz in B1. rewrite Nat2Z.id in B1. apply B1. unfold len in L2. lia. }
  assert (Hw : 0 <= tns_weighting (n_ms c) nbits < 2) by (unfold tns_weighting; destruct (n_ms c); destruct (_ <? _); lia).
  destruct (tns_bits_spec o e EL (tns_weighting (n_ms c) nbits) rc_i ord (len params) Hw TP LP) as [EB _].
  rewrite EB. cbn [bind].
  destruct (enc_filters_ok rc_q ord L1 L3 B2 params 0 (repeat f0 8) x ltac:(lia) ltac:(lia) eq_refl) as (y & Ey & Ly).
  { eapply Forall_impl; [|exact Fit]. intros [[a b] subs] (F1 & F2 & F3). split; [lia|]. split; [lia|]. eapply Forall_impl; [|exact F3]. intros [u v] H. lia. }
  rewrite Ey. cbn [bind]. apply okp_ok. split; [|cbn [tr_rc_i tr_num]; intros rc Erc; rewrite E0' in Erc; apply ParseBase.Ok_inj in Erc; now subst rc]. constructor; cbn [tr_order tr_rc_i tr_num tr_weighting tr_rc_q tr_nbits]; try assumption; try reflexivity.
  exists params. split; assumption.
Qed.
Theorem tns_encode_ok chk c x bw nbits nn : elaws o e -> legal_config c -> len x = ne c -> 0 <= bw <= fs_ind c -> coefs_in_range c x bw nbits nn ->
  okp (tns_encode o e chk c x bw nbits nn) (fun '(r, y) => tns_legal c x bw nbits r y).
Proof. intros EL Hc Lx Hb CR. eapply okp_weaken; [exact (tns_encode_full chk c x bw nbits nn EL Hc Lx Hb CR)|]. intros [r y] [H _]. exact H. Qed.
End TnsOk.
