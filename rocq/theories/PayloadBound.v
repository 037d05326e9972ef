(* How many bits the range coder needs for a list of symbols, against the sum of the symbols' prices; and what that means for the
   frames the encoder stages of EncOk produce. *)
From Coq Require Import ZArith List Bool Lia ZifyBool.
From Verif Require Import Base Config Loops Scalar EncScalar EncF32 AcSpec AcSpecProofs AcDecProofs AcStreamProofs BufLemmas TablesProofs TablesSpec TailSpec TailProofs ParseBase DetectSpec FrameEnc PayloadSpec Events EncPayload
  EncFrame DecSide EncQuant EstimateSpec QuantSpec TnsBits EncTns TnsOk EncLtpf EncLtpfOk EncSns EncSnsOk Encoder EncOk DecState WriterTotal FrameSpec ArithDec Decoder PropertiesQuant.
Import ListNotations.
Local Open Scope Z_scope.

(* ---- the width of the code interval ---- *)
(* after symbols of total price P (in 1/K bit) the interval is not narrower than 2^(-P/K) of the first one *)
Definition wide (K : Z) (s : ival) (P : Z) : Prop := 16777215 ^ K * 2 ^ (8 * K * iN s) <= iR s ^ K * 2 ^ P.

Lemma wide_step K s y P p a : 0 <= K -> iwf s -> valid_sym y -> 0 <= P -> 0 <= p -> 0 <= a ->
  1024 ^ K <= 2 ^ p * snd y ^ K -> 66559 ^ K <= 2 ^ a * 65536 ^ K -> wide K s P -> wide K (istep s y) (P + p + a).
Proof.
  intros HK W (Y1 & Y2 & Y3) HP Hp Ha A1 A2 H. unfold wide, istep in *. set (r := iR s / 1024). pose proof (iw_R _ W) as HR. pose proof (iw_N _ W) as HN.
  destruct (inorm_scale 4 (mkIval (iF s + r * fst y) (r * snd y) (iN s)) HN) as (k & Hk & E). rewrite E. cbn [iF iR iN].
  assert (Rr : 64 <= r /\ 65536 * iR s <= 66559 * 1024 * r) by (unfold r; clear -HR; Z.div_mod_to_equations; lia). destruct Rr as [R1 R2].
  assert (Q : 65536 ^ K * iR s ^ K <= 66559 ^ K * (1024 ^ K * r ^ K)).
  { rewrite <- !Z.pow_mul_l. rewrite Z.mul_assoc. apply Z.pow_le_mono_l. lia. }
  replace (r * snd y * 256 ^ k) with (r * snd y * 2 ^ (8 * k)) by (rewrite Z.pow_mul_r by lia; reflexivity).
  rewrite !Z.pow_mul_l, <- Z.pow_mul_r by lia. replace (8 * K * (iN s + k)) with (8 * K * iN s + 8 * k * K) by ring. rewrite !Z.pow_add_r by nia. rewrite (Z.mul_assoc (16777215 ^ K)).
  assert (G0 : 0 < 65536 ^ K) by (apply Z.pow_pos_nonneg; lia). assert (G1 : 0 <= r ^ K) by (apply Z.pow_nonneg; lia). assert (G2 : 0 <= snd y ^ K) by (apply Z.pow_nonneg; lia).
  assert (G3 : 0 < 2 ^ P) by (apply Z.pow_pos_nonneg; lia). assert (G4 : 0 < 2 ^ p) by (apply Z.pow_pos_nonneg; lia). assert (G5 : 0 < 2 ^ a) by (apply Z.pow_pos_nonneg; lia). assert (G6 : 0 < 2 ^ (8 * k * K)) by (apply Z.pow_pos_nonneg; nia).
  assert (G7 : 0 <= 1024 ^ K) by (apply Z.pow_nonneg; lia). assert (G8 : 0 <= 66559 ^ K) by (apply Z.pow_nonneg; lia).
  generalize dependent (65536 ^ K). generalize dependent (66559 ^ K). generalize dependent (1024 ^ K). generalize dependent (2 ^ (8 * k * K)). generalize dependent (2 ^ a). generalize dependent (2 ^ p). generalize dependent (2 ^ P).
  generalize dependent (snd y ^ K). generalize dependent (r ^ K). generalize dependent (iR s ^ K). generalize (16777215 ^ K * 2 ^ (8 * K * iN s)).
  clear. intros X RK rK R1 fK F1 gP HX GP gp Gp ga Ga gk Gk c A1 Cc d Dd e A2 Q E0.
  assert (RK <= rK * fK * gp * ga).
  { apply (Z.mul_le_mono_pos_l _ _ e E0). transitivity (d * (c * rK)); [exact Q|]. transitivity (ga * e * (gp * fK * rK)); [|lia]. apply Z.mul_le_mono_nonneg; try nia. }
  replace (X * gk) with (gk * X) by ring. replace (rK * fK * gk * (gP * gp * ga)) with (gk * (rK * fK * gp * ga * gP)) by ring. apply Z.mul_le_mono_nonneg_l; [lia|]. nia.
Qed.
(* powers of a ratio x / y by repeated squaring: x^(2^k) <= c / 2^30 y^(2^k), with c rounded up at every step *)
Fixpoint ratio_pow (k : nat) (c : Z) : Z := match k with O => c | S k => ratio_pow k (- (- (c * c) / 2 ^ 30)) end.
Lemma ratio_pow_spec x y : 0 <= x -> 0 <= y -> forall k n c, 0 <= n -> x ^ n * 2 ^ 30 <= c * y ^ n -> x ^ (n * 2 ^ Z.of_nat k) * 2 ^ 30 <= ratio_pow k c * y ^ (n * 2 ^ Z.of_nat k).
Proof.
  intros Hx Hy. induction k as [|k IH]; intros n c Hn H.
  - change (2 ^ Z.of_nat 0) with 1. rewrite !Z.mul_1_r. exact H.
  - cbn [ratio_pow]. replace (n * 2 ^ Z.of_nat (S k)) with ((2 * n) * 2 ^ Z.of_nat k) by (rewrite Nat2Z.inj_succ, Z.pow_succ_r by lia; ring). apply IH; [lia|].
    replace (2 * n) with (n + n) by ring. rewrite !Z.pow_add_r by exact Hn. assert (X : 0 <= x ^ n) by (apply Z.pow_nonneg; exact Hx). assert (Y : 0 <= y ^ n) by (apply Z.pow_nonneg; exact Hy).
    revert H X Y. generalize (x ^ n), (y ^ n). intros u v H X Y. change (2 ^ 30) with 1073741824 in *. assert (D : c * c <= - (- (c * c) / 1073741824) * 1073741824) by (clear; pose proof (Z.div_mod (- (c * c)) 1073741824 ltac:(lia)); pose proof (Z.mod_pos_bound (- (c * c)) 1073741824 ltac:(lia)); lia).
    revert D. generalize (- (- (c * c) / 1073741824)). intros d D. clear -H X Y D.
    assert (A : (u * 1073741824) * (u * 1073741824) <= (c * v) * (c * v)) by (apply Z.mul_le_mono_nonneg; lia).
    assert (B : (c * v) * (c * v) <= d * 1073741824 * (v * v)) by (replace ((c * v) * (c * v)) with (c * c * (v * v)) by ring; apply Z.mul_le_mono_nonneg_r; [nia|exact D]). lia.
Qed.
Lemma ratio_46 : 66559 ^ 2048 <= 2 ^ 46 * 65536 ^ 2048.
Proof.
  pose proof (ratio_pow_spec 66559 65536 ltac:(lia) ltac:(lia) 11 1 (1090502656) ltac:(lia) ltac:(rewrite !Z.pow_1_r; vm_compute; discriminate)) as H.
  change (1 * 2 ^ Z.of_nat 11) with 2048 in H. assert (C : ratio_pow 11 1090502656 <= 2 ^ 46 * 2 ^ 30) by (vm_compute; discriminate). assert (P : 0 <= 65536 ^ 2048) by (apply Z.pow_nonneg; lia).
  revert H C P. generalize (66559 ^ 2048), (65536 ^ 2048), (ratio_pow 11 1090502656). intros u v d H C P. change (2 ^ 46 * 2 ^ 30) with (70368744177664 * 1073741824) in C. change (2 ^ 30) with 1073741824 in H. change (2 ^ 46) with 70368744177664 in *. clear -H C P. nia.
Qed.
Lemma ratio_24 : 2 ^ (24 * 2048) <= 2 * 16777215 ^ 2048.
Proof.
  pose proof (ratio_pow_spec 16777216 16777215 ltac:(lia) ltac:(lia) 11 1 (1073741889) ltac:(lia) ltac:(rewrite !Z.pow_1_r; vm_compute; discriminate)) as H.
  change (1 * 2 ^ Z.of_nat 11) with 2048 in H. assert (C : ratio_pow 11 1073741889 <= 2 * 2 ^ 30) by (vm_compute; discriminate). assert (P : 0 <= 16777215 ^ 2048) by (apply Z.pow_nonneg; lia).
  rewrite (Z.pow_mul_r 2 24 2048) by lia. change (2 ^ 24) with 16777216.
  revert H C P. generalize (16777216 ^ 2048), (16777215 ^ 2048), (ratio_pow 11 1073741889). intros u v d H C P. change (2 ^ 30) with 1073741824 in *. clear -H C P. nia.
Qed.
Lemma wide_run l : forall s P, iwf s -> Forall valid_sym l -> 0 <= P -> wide 2048 s P -> wide 2048 (irun s l) (P + prices l + 46 * len l).
Proof.
  induction l as [|y l IH]; intros s P W V HP H; cbn [irun fold_left prices].
  - change (len (@nil sym)) with 0. replace (P + 0 + 46 * 0) with P by ring. exact H.
  - inversion V as [|? ? Vy Vl]; subst. pose proof Vy as (V1 & V2 & V3). pose proof (price_range (snd y) ltac:(lia)) as Pr. rewrite len_cons.
    replace (P + (price (snd y) + prices l) + 46 * (len l + 1)) with ((P + price (snd y) + 46) + prices l + 46 * len l) by ring.
    change (fold_left istep l (istep s y)) with (irun (istep s y) l). apply IH; [now apply istep_wf|exact Vl|lia|]. apply wide_step; [lia|exact W|exact Vy|exact HP|lia|lia|apply price_ge; exact V2|exact ratio_46|exact H].
Qed.

Lemma wide_bits K s P : 0 < K -> 0 <= P -> iwf s -> 2 ^ (24 * K) <= 2 * 16777215 ^ K -> wide K s P -> K * ari_bits s < P + 1 + 2 * K.
Proof.
  intros HK HP W C H. unfold wide, ari_bits in *. pose proof (iw_R _ W) as HR. pose proof (iw_N _ W) as HN. set (k := Z.log2 (iR s)). pose proof (Z.log2_spec (iR s) ltac:(lia)) as [_ L]. fold k in L.
  assert (Hk : 0 <= k) by apply Z.log2_nonneg. apply Z.nle_gt. intros G.
  assert (A : iR s ^ K < 2 ^ (Z.succ k * K)) by (rewrite Z.pow_mul_r by lia; apply Z.pow_lt_mono_l; lia).
  assert (B : 2 ^ (Z.succ k * K + P + 1) <= 2 ^ (24 * K + 8 * K * iN s)) by (apply Z.pow_le_mono_r; nia).
  rewrite !Z.pow_add_r in B by nia. change (2 ^ 1) with 2 in B. assert (G3 : 0 < 2 ^ P) by (apply Z.pow_pos_nonneg; lia). assert (G4 : 0 < 2 ^ (8 * K * iN s)) by (apply Z.pow_pos_nonneg; nia).
  generalize dependent (2 ^ (8 * K * iN s)). generalize dependent (2 ^ P). generalize dependent (2 ^ (Z.succ k * K)). generalize dependent (iR s ^ K). generalize dependent (16777215 ^ K). generalize dependent (2 ^ (24 * K)).
  clear. intros. nia.
Qed.
Lemma prices_nonneg l : Forall valid_sym l -> 0 <= prices l.
Proof. induction 1 as [|y l (V1 & V2 & V3) V IH]; cbn [prices]; [lia|]. pose proof (price_range (snd y) ltac:(lia)). lia. Qed.
(* The bits the range coder charges for symbols: their prices, a loss of at most 46/2048 bit per symbol, and less than 2 + 1/2048. *)
Lemma ari_price l : evalid l -> 2048 * ari_bits (fin l) < prices (ev_syms l) + 46 * len (ev_syms l) + 4097.
Proof.
  intros V. pose proof (prices_nonneg _ V) as Pn. pose proof (len_nonneg (ev_syms l)) as Ln.
  assert (W0 : wide 2048 ival0 0) by (unfold wide; cbn [iR iN ival0]; change (8 * 2048 * 0) with 0; apply Z.le_refl).
  pose proof (wide_run (ev_syms l) ival0 0 iwf0 V ltac:(lia) W0) as W. fold (fin l) in W.
  pose proof (wide_bits 2048 (fin l) (0 + prices (ev_syms l) + 46 * len (ev_syms l)) ltac:(lia) ltac:(lia) (fin_wf l V) ratio_24 W). lia.
Qed.
Theorem payload_price l : evalid l -> 2048 * payload_bits l < ev_cost l + 46 * len (ev_syms l) + 4097.
Proof. intros V. pose proof (ari_price l V). unfold payload_bits, ev_cost. lia. Qed.

(* ---- counting symbols ---- *)
Lemma syms_bit b l : ev_syms (EBit b :: l) = ev_syms l.
Proof. reflexivity. Qed.
Lemma syms_sym y l : ev_syms (ESym y :: l) = y :: ev_syms l.
Proof. reflexivity. Qed.
Lemma tbits_bit b l : tbits (EBit b :: l) = 1 + tbits l.
Proof. unfold tbits. cbn [ev_bits flat_map app]. rewrite len_cons. fold (ev_bits l). lia. Qed.
Lemma tbits_sym y l : tbits (ESym y :: l) = tbits l.
Proof. reflexivity. Qed.
Lemma sign_syms mag x : ev_syms (sign_evs mag x) = [].
Proof. unfold sign_evs. destruct (0 <? mag); reflexivity. Qed.
Lemma sign_tbits mag x : 0 <= tbits (sign_evs mag x) <= 1.
Proof. unfold sign_evs. destruct (0 <? mag); [rewrite tbits_bit|]; cbn; lia. Qed.
(* every halving but the first sends two bits *)
Lemma esc_syms mode t fuel : forall a b lev, 0 <= lev -> 2 * len (ev_syms (esc_evs fuel mode t a b lev)) <= 4 + tbits (esc_evs fuel mode t a b lev) - (if 0 <? lev then 2 else 0).
Proof.
  induction fuel as [|f IH]; intros a b lev Hl; cbn [esc_evs]; destruct (4 <=? Z.max a b); rewrite ?syms_sym, ?tbits_sym, ?len_cons; try (change (len (ev_syms [])) with 0; change (tbits []) with 0; destruct (0 <? lev); lia).
  specialize (IH (a / 2) (b / 2) (lev + 1) ltac:(lia)). destruct (Z.ltb_spec 0 (lev + 1)); [|lia].
  destruct (mode && (lev =? 0)) eqn:M; cbn [app]; rewrite ?syms_bit, ?tbits_bit; [|destruct (0 <? lev); lia].
  apply andb_true_iff in M. destruct M as [_ M]. apply Z.eqb_eq in M. destruct (Z.ltb_spec 0 lev); lia.
Qed.
Lemma spec_syms mode ne rate xq n : forall k c, 2 * len (ev_syms (spec_evs n mode ne k c rate xq)) <= 4 * Z.of_nat n + tbits (spec_evs n mode ne k c rate xq).
Proof.
  induction n as [|n IH]; intros k c; cbn [spec_evs]; [change (len (ev_syms [])) with 0; change (tbits []) with 0; lia|]. cbv zeta. rewrite ev_syms_app, len_app, tbits_app.
  specialize (IH (k + 2) (pair_next c (nth (Z.to_nat k) xq 0) (nth (Z.to_nat (k + 1)) xq 0))). unfold pair_evs. rewrite !ev_syms_app, !tbits_app, !len_app, !sign_syms. change (len (@nil sym)) with 0.
  match goal with |- context [esc_evs 16 ?m ?t ?a ?b 0] => pose proof (esc_syms m t 16 a b 0 ltac:(lia)) as Q end. change (0 <? 0) with false in Q. cbn [andb] in Q.
  repeat match goal with |- context [tbits (sign_evs ?a ?b)] => pose proof (sign_tbits a b); generalize dependent (tbits (sign_evs a b)); intros end. lia.
Qed.
Lemma tns_filter_syms w order coefs : 0 <= order <= 8 -> len (ev_syms (tns_filter_evs w order coefs)) <= 9 /\ tbits (tns_filter_evs w order coefs) = 0.
Proof.
  intros H. unfold tns_filter_evs. destruct (0 <? order); [|split; [change (len (ev_syms [])) with 0; lia|reflexivity]]. rewrite syms_sym, tbits_sym, len_cons. unfold zseq.
  assert (G : forall (l : list Z) (f : Z -> sym), len (ev_syms (map (fun k => ESym (f k)) l)) = len l /\ tbits (map (fun k => ESym (f k)) l) = 0).
  { induction l as [|x l IH]; intros f; cbn [map]; [split; reflexivity|]. rewrite syms_sym, tbits_sym, !len_cons. destruct (IH f) as [-> ->]. split; reflexivity. }
  destruct (G (zseq (Z.to_nat order)) (fun k => msym (tns_coef_model k) (nth (Z.to_nat k) coefs 0))) as [E1 E2]. unfold zseq in E1, E2. rewrite E1, E2. split; [|reflexivity]. unfold len. rewrite map_length, seq_length. lia.
Qed.

(* ---- the frames of the encoder ---- *)
(* the data written fits the budget, unless only the first pair is written *)
Lemma data_cost h rate B mode q xq' n m b : (1 <= h <= 200)%nat -> rate = 0 \/ rate = 512 -> len q = 2 * Z.of_nat h -> Forall bits_ok q -> 0 <= B < 4096 ->
  estimate (2 * Z.of_nat h) rate B mode q n m b ->
  (forall i, 0 <= i < 2 * Z.of_nat h -> getz 0 xq' i = if i <? 2 * Z.of_nat m then getz 0 q i else 0) ->
  let data := spec_evs m (mode && (B <? cn_est b)) (2 * Z.of_nat h) 0 0 rate xq' in
  ev_cost data <= 2048 * B \/ (m = 1%nat /\ cn_trunc b = 0).
Proof.
  intros Hh Hr Lq Fq HB ES G data. set (lsb := mode && (B <? cn_est b)) in *. destruct (es_pairs _ _ _ _ _ _ _ _ ES) as [Hm Hn].
  assert (ED : data = spec_evs m lsb (2 * Z.of_nat h) 0 0 rate q).
  { apply spec_evs_ext. intros i Hi. specialize (G i ltac:(lia)). unfold getz in G. destruct (Z.ltb_spec i (2 * Z.of_nat m)); [exact G|lia]. }
  rewrite ED. clear data ED G xq'. pose proof (es_over _ _ _ _ _ _ _ _ ES) as OV. pose proof (es_lsb _ _ _ _ _ _ _ _ ES) as EB.
  set (ne := 2 * Z.of_nat h) in *. set (cost := fun j => spec_cost_of j mode ne 0 0 rate q) in *.
  assert (NN : forall j, 0 <= spec_moved j mode 0 q) by (intros; apply spec_moved_range).
  assert (UC : forall j, ev_cost (spec_evs j mode ne 0 0 rate q) = cost j - 2048 * spec_moved j mode 0 q) by (intros; unfold cost, spec_cost_of; ring).
  assert (LN : 0 <= cn_lsb b) by (rewrite EB; apply len_nonneg).
  destruct (Z.leb_spec (cn_est b) B) as [Le|Gt].
  - left. assert (Hmn : m = n).
    { destruct (es_cut _ _ _ _ _ _ _ _ ES) as [(_ & _ & _ & K)|(-> & _ & K)].
      - destruct (Nat.eq_dec m n) as [|N]; [assumption|]. specialize (K n ltac:(lia) (es_nz _ _ _ _ _ _ _ _ ES ltac:(lia))). fold (cost n) in *. lia.
      - destruct (Nat.eq_dec 1 n) as [|N]; [assumption|]. specialize (K n ltac:(lia) (es_nz _ _ _ _ _ _ _ _ ES ltac:(lia))). fold (cost n) in *. lia. }
    assert (El : lsb = false) by (unfold lsb; destruct (Z.ltb_spec B (cn_est b)); [lia|apply andb_false_r]). rewrite El, Hmn. fold (cost n) in OV.
    destruct mode.
    + rewrite spec_cost_modes by (assumption || lia). rewrite UC. specialize (NN n). lia.
    + rewrite UC. specialize (NN n). lia.
  - assert (El : lsb = mode) by (unfold lsb; destruct (Z.ltb_spec B (cn_est b)); [apply andb_true_r|lia]). rewrite El, UC. specialize (NN m).
    destruct (es_cut _ _ _ _ _ _ _ _ ES) as [(_ & K & _)|(-> & T & K)]; [left; fold (cost m) in K; lia|right; auto].
Qed.

(* the first pair on its own: at most sixteen cheap escapes and one more symbol *)
Lemma first_esc t lev : t = 0 \/ t = 512 -> 0 <= lev -> 0 <= price (snd (msym (lk t lev) 16)) <= 4977.
Proof.
  intros Ht Hl. destruct (lk_bits t lev 16 ltac:(lia) Hl ltac:(lia)) as (pk & E1 & E2 & P). split; [lia|].
  assert (C : Z.min lev 3 = 0 \/ Z.min lev 3 = 1 \/ Z.min lev 3 = 2 \/ Z.min lev 3 = 3) by lia. generalize dependent (Z.min lev 3). intros v E1 C. generalize dependent (price (snd (msym (lk t lev) 16))). intros p E2 P.
  destruct Ht as [-> | ->], C as [-> | [-> | [-> | ->]]]; vm_compute in E1; apply Ok_inj in E1; subst pk; vm_compute in E2; apply Ok_inj in E2; lia.
Qed.
Lemma first_pre mode t : t = 0 \/ t = 512 -> forall fuel a b lev, 0 <= lev ->
  let l := esc_pre fuel mode t a b lev in 0 <= prices (ev_syms l) <= 4977 * Z.of_nat fuel /\ len (ev_syms l) <= Z.of_nat fuel /\ tbits l <= 2 * Z.of_nat fuel.
Proof.
  intros Ht. induction fuel as [|f IH]; intros a b lev Hl; cbn [esc_pre]; destruct (4 <=? Z.max a b); cbv zeta; try (change (ev_syms []) with (@nil sym); change (tbits []) with 0; change (len (@nil sym)) with 0; cbn [prices]; lia).
  specialize (IH (a / 2) (b / 2) (lev + 1) ltac:(lia)). cbv zeta in IH. pose proof (first_esc t lev Ht Hl) as P.
  destruct (mode && (lev =? 0)); cbn [app]; rewrite ?syms_sym, ?syms_bit, ?tbits_sym, ?tbits_bit, ?len_cons; cbn [prices]; lia.
Qed.
Lemma first_pair mode ne rate xq : rate = 0 \/ rate = 512 -> 0 < ne -> Forall bits_ok xq ->
  let l := spec_evs 1 mode ne 0 0 rate xq in prices (ev_syms l) <= 100112 /\ len (ev_syms l) <= 17 /\ tbits l <= 34.
Proof.
  intros Hr Hne FX l. unfold l. cbn [spec_evs]. cbv zeta. rewrite app_nil_r. set (x0 := nth _ xq 0). set (x1 := nth _ xq 0).
  assert (B0 : bits_ok x0) by (unfold x0; destruct (Nat.lt_ge_cases (Z.to_nat 0) (length xq)); [apply (proj1 (Forall_forall _ _) FX), nth_In; assumption|rewrite nth_overflow by assumption; unfold bits_ok; lia]).
  assert (B1 : bits_ok x1) by (unfold x1; destruct (Nat.lt_ge_cases (Z.to_nat (0 + 1)) (length xq)); [apply (proj1 (Forall_forall _ _) FX), nth_In; assumption|rewrite nth_overflow by assumption; unfold bits_ok; lia]).
  unfold pair_evs. assert (T : pair_ctx ne 0 0 rate = 0 \/ pair_ctx ne 0 0 rate = 512).
  { unfold pair_ctx. destruct (Z.ltb_spec (ne / 2) 0); [|lia]. exfalso. clear -H Hne. Z.div_mod_to_equations; lia. }
  set (t := pair_ctx ne 0 0 rate) in *. pose proof (pair_mag _ B0) as M0. pose proof (pair_mag _ B1) as M1. destruct (esc_evs_split 16 mode t (Z.abs x0) (Z.abs x1) 0 M0 M1) as (Es & _). cbv zeta in Es. rewrite Es. clear Es.
  destruct (esc_div_range _ _ M0 M1) as [A Bd]. pose proof (esc_lev_nonneg 16 (Z.abs x0) (Z.abs x1)) as He. set (lv := esc_lev 16 (Z.abs x0) (Z.abs x1)) in *. rewrite Z.add_0_l.
  destruct (lk_bits t lv (Z.abs x0 / 2 ^ lv + 4 * (Z.abs x1 / 2 ^ lv)) ltac:(lia) He ltac:(lia)) as (_ & _ & _ & P).
  pose proof (first_pre mode t T 16 (Z.abs x0) (Z.abs x1) 0 ltac:(lia)) as Q. cbv zeta in Q. change (Z.of_nat 16) with 16 in Q.
  rewrite !ev_syms_app, !prices_app, !tbits_app, !len_app, !sign_syms, syms_sym, tbits_sym. cbn [prices]. change (ev_syms []) with (@nil sym). cbn [prices]. rewrite len_cons. change (len (@nil sym)) with 0. change (tbits []) with 0.
  repeat match goal with |- context [tbits (sign_evs ?a ?b)] => pose proof (sign_tbits a b); generalize dependent (tbits (sign_evs a b)); intros end. lia.
Qed.

Lemma side_bits_count ne p : 0 <= p_nbits_bw p -> 0 <= p_num_tns p <= len (p_rc_order p) ->
  len (side_bits ne p) = p_nbits_bw p + Z.log2_up (ne / 2) + p_num_tns p + 51 + (if p_pitch_present p then 10 else 0).
Proof.
  intros H1 H2. unfold side_bits, sns_bits, flag_bits. rewrite !len_app, !bits_of_len.
  assert (len (map (fun x => negb (x =? 0)) (firstn (Z.to_nat (p_num_tns p)) (p_rc_order p))) = p_num_tns p) as -> by (unfold len in *; rewrite map_length, firstn_length; lia).
  assert (len (if p_pitch_present p then p_ltpf_active p :: bits_of (p_pitch_index p) 9 else []) = if p_pitch_present p then 10 else 0) as -> by (destruct (p_pitch_present p); [rewrite len_cons, bits_of_len|]; reflexivity).
  rewrite Z2Nat.id by lia. rewrite Z2Nat.id by apply Z.log2_up_nonneg. unfold len; cbn [length]. destruct (2 <=? p_shape_j p); lia.
Qed.

Section Fit.
Context {F : Type} (o : ops F) (e : eops F) (EL : elaws o e).

Lemma tns_cost w rc_i ord num nb : 0 <= w < 2 -> tns_params_ok ord rc_i -> num = 1 \/ num = 2 ->
  for_range 0 num (fun f n => b <- tns_filter_bits o e w rc_i ord f ;; Ok (n + b)) 0 = Ok nb ->
  let l := tns_evs num w ord rc_i in 2048 * num + ev_cost l <= 2048 * nb /\ nb <= 84 * num /\ len (ev_syms l) <= 18 /\ tbits l = 0.
Proof.
  intros Hw TP Hn E l. destruct (tns_bits_spec o e EL w rc_i ord num Hw TP Hn) as [E' Q]. rewrite E in E'. apply Ok_inj in E'.
  assert (C : ev_cost l = (filter_cost w rc_i ord 0 - 2048) + (if num =? 2 then filter_cost w rc_i ord 1 - 2048 else 0)).
  { unfold l, filter_cost, tns_evs. destruct Hn as [-> | ->]; [change (zseq (Z.to_nat 1)) with [0]|change (zseq (Z.to_nat 2)) with [0; 1]]; cbn [flat_map Z.eqb Pos.eqb]; rewrite ?ev_cost_app, ev_cost_nil; lia. }
  pose proof (Q 0 ltac:(lia)) as Q0. pose proof (Q 1) as Q1. rewrite C, E'. destruct TP as (T1 & T2 & T3 & T4).
  assert (O : forall f, 0 <= nth f ord 0 <= 8).
  { intros f. destruct (Nat.lt_ge_cases f (length ord)); [apply (proj1 (Forall_forall _ _) T3), nth_In; assumption|rewrite nth_overflow by assumption; lia]. }
  split; [|split; [|]].
  - unfold whole_bits in *. set (u := filter_cost w rc_i ord 0) in *. set (v := filter_cost w rc_i ord 1) in *. clearbody u v. clear -Hn. destruct Hn as [-> | ->]; cbn [Z.eqb Pos.eqb]; Z.div_mod_to_equations; lia.
  - destruct Hn as [-> | ->]; cbn [Z.eqb Pos.eqb] in *; lia.
  - unfold l, tns_evs. destruct Hn as [-> | ->]; [change (zseq (Z.to_nat 1)) with [0]|change (zseq (Z.to_nat 2)) with [0; 1]]; cbn [flat_map]; rewrite ?ev_syms_app, ?tbits_app, ?len_app;
      change (ev_syms []) with (@nil sym); change (tbits []) with 0; change (len (@nil sym)) with 0;
      repeat match goal with |- context [tns_filter_evs ?w ?a ?b] => destruct (tns_filter_syms w a b (O _)); generalize dependent (tns_filter_evs w a b); intros end; lia.
Qed.

(* what the reserve of the budget is, beside the bits of the last position *)
Definition slack (nbits : Z) : Z := if nbits <=? 1280 then 3 else if nbits <=? 2560 then 4 else 5.

Theorem stages_fit c N bw nbw s tr lp q xq rb nfv l1 l2 h n m b B :
  legal_config c -> 20 <= N <= 400 -> fs_ind c < 3 \/ 31 <= N -> stages o e c N bw nbw s tr lp q xq rb nfv l1 l2 h n m b B ->
  let l := payload (ne c) (frame_params bw nbw s tr lp q rb nfv xq) in
  evalid l /\ tbits l < 8 * N /\ iN (fin l) + 3 <= N /\
  ((qr_last q = 2 /\ qr_trunc q = 0) \/ (ev_cost l <= 2048 * (8 * N + 1 - slack (8 * N)) /\ 2048 * payload_bits l <= 2048 * (8 * N + 3 - slack (8 * N)) + 46 * len (ev_syms l))).
Proof.
  intros L HN HF ST l. pose proof (stages_writable o e c N bw nbw s tr lp q xq rb nfv l1 l2 h n m b B L ST) as W. pose proof (payload_valid (ne c) _ W) as V. fold l in V.
  split; [exact V|]. pose proof (ari_price l V) as AP. pose proof (fin_wf l V) as Wf. pose proof (iw_R _ Wf) as WR.
  destruct ST as [S1 Ll S2 S3 S4 S5 S6 S7 S8 S9 S10 S11]. destruct (ne_half c L) as (h' & Hh & Eh). assert (h' = h) by lia. subst h'.
  pose proof (ro_est _ _ _ _ _ _ _ _ _ _ _ _ S9) as ES. destruct (es_pairs _ _ _ _ _ _ _ _ ES) as [Hm Hn]. pose proof (ro_last _ _ _ _ _ _ _ _ _ _ _ _ S9) as La. pose proof (ro_len _ _ _ _ _ _ _ _ _ _ _ _ S9) as Lq.
  pose proof (wp_nbw _ W) as Wb. pose proof (wp_num _ W) as Wn. pose proof (wp_tns _ W) as Wt. pose proof (wp_w _ W) as Ww. pose proof (wp_rate _ W) as Wr.
  cbn [frame_params p_nbits_bw p_num_tns p_rc_order p_rc_i p_lpc_weighting p_rate_flag] in Wb, Wn, Wt, Ww, Wr.
  assert (Num : (tr_num tr = 1 /\ bw < 3) \/ (tr_num tr = 2 /\ 3 <= bw)).
  { rewrite (tl_num _ _ _ _ _ _ _ _ S5). unfold spec_bands. destruct (match n_ms c with TenMs => _ | _ => _ end) as [u v]. destruct (Z.ltb_spec bw 3); [left|right]; split; try reflexivity; lia. }
  pose proof (tns_cost (tr_weighting tr) (tr_rc_i tr) (tr_order tr) (tr_num tr) (tr_nbits tr) Ww Wt ltac:(lia) (tl_bits _ _ _ _ _ _ _ _ S5)) as (T1 & T2 & T3 & T4).
  assert (SB := side_bits_count (ne c) (frame_params bw nbw s tr lp q rb nfv xq)). cbn [frame_params p_nbits_bw p_num_tns p_rc_order p_pitch_present] in SB. specialize (SB Wb ltac:(destruct Wt as (-> & _); lia)).
  assert (LT : lr_nbits lp = if lr_present lp then 11 else 1) by (destruct S6 as (pitch & S6); unfold lr_legal in S6; destruct (lr_present lp); apply S6).
  assert (LC : 0 <= Z.log2_up (ne c / 2) <= 8) by (clear -L; destruct L as (f & d & ->); destruct f, d; vm_compute; split; discriminate).
  assert (NB : nbw <= 3) by (clear -L S3; destruct L as (f & d & ->); destruct f, d; vm_compute in S3; apply Ok_inj in S3; lia).
  unfold bit_budget, ari_bits_reserved, usub, log2_ceil in S7. change (if N * 8 <=? 1280 then 3 else if N * 8 <=? 2560 then 4 else 5) with (slack (N * 8)) in S7. rewrite (Z.mul_comm N 8) in S7.
  assert (SL : 3 <= slack (8 * N) <= 5) by (unfold slack; destruct (8 * N <=? 1280), (8 * N <=? 2560); lia).
  match type of S7 with (if ?a <? ?b then _ else _) = _ => destruct (Z.ltb_spec a b); [discriminate|] end. apply Ok_inj in S7.
  set (tn := tns_evs (tr_num tr) (tr_weighting tr) (tr_order tr) (tr_rc_i tr)) in *. set (data := spec_evs m (qr_lsb_mode q) (ne c) 0 0 (qr_rate q) xq).
  assert (El : l = map EBit (side_bits (ne c) (frame_params bw nbw s tr lp q rb nfv xq)) ++ tn ++ data).
  { unfold l, payload. cbn [frame_params p_num_tns p_rc_order p_rc_i p_lpc_weighting p_rate_flag p_lastnz p_lsb_mode p_xq]. rewrite La. replace (Z.to_nat (2 * Z.of_nat m / 2)) with m by (rewrite (Z.mul_comm 2), Z.div_mul by lia; lia). reflexivity. }
  set (sb := side_bits (ne c) (frame_params bw nbw s tr lp q rb nfv xq)) in *.
  assert (Et : tbits l = len sb + tbits data) by (rewrite El, !tbits_app, tbits_map, T4; lia).
  assert (Ey : ev_syms l = ev_syms tn ++ ev_syms data) by (rewrite El, !ev_syms_app, ev_syms_map; reflexivity).
  assert (Ec : ev_cost l = 2048 * len sb + ev_cost tn + ev_cost data) by (rewrite El, !ev_cost_app; unfold ev_cost at 1; rewrite tbits_map, ev_syms_map; cbn [prices]; lia).
  assert (Ct : ev_cost tn = prices (ev_syms tn)) by (unfold ev_cost; rewrite T4; lia). assert (Cd : ev_cost data = 2048 * tbits data + prices (ev_syms data)) by reflexivity.
  assert (Vy : Forall valid_sym (ev_syms tn) /\ Forall valid_sym (ev_syms data)) by (unfold evalid in V; rewrite Ey in V; apply Forall_app in V; exact V). destruct Vy as [Vt Vd].
  pose proof (prices_nonneg _ Vt) as Pt. pose proof (prices_nonneg _ Vd) as Pd. pose proof (tbits_nonneg data) as Td. pose proof (len_nonneg (ev_syms data)) as Nd. pose proof (len_nonneg (ev_syms tn)) as Nt.
  rewrite Ey, prices_app, len_app in AP. rewrite Ey, len_app.
  assert (IN : 8 * iN (fin l) + 2 <= ari_bits (fin l)) by (unfold ari_bits; assert (Z.log2 (iR (fin l)) < 24) by (apply Z.log2_lt_pow2; lia); lia).
  assert (PB : payload_bits l = tbits l + ari_bits (fin l)) by reflexivity.
  pose proof (spec_syms (qr_lsb_mode q) (ne c) (qr_rate q) xq m 0 0) as Sy. fold data in Sy.
  assert (Lx : len (map (quantise_line o (qr_gg q)) l2) = 2 * Z.of_nat h) by (unfold len; rewrite map_length; change (len l2 = 2 * Z.of_nat h); rewrite (tl_len _ _ _ _ _ _ _ _ S5); lia).
  assert (Fx : Forall bits_ok (map (quantise_line o (qr_gg q)) l2)) by (apply Forall_forall; intros v Hv; apply in_map_iff in Hv; destruct Hv as (z & <- & _); apply quantise_line_ok).
  assert (Gx : forall i, 0 <= i < 2 * Z.of_nat h -> getz 0 xq i = if i <? 2 * Z.of_nat m then getz 0 (map (quantise_line o (qr_gg q)) l2) i else 0).
  { intros i Hi. rewrite (ro_lines _ _ _ _ _ _ _ _ _ _ _ _ S9 i Hi), La. destruct (i <? 2 * Z.of_nat m); [|reflexivity]. symmetry. apply (getz_map _ (fz o 0) 0). unfold len in Lx. rewrite map_length in Lx. unfold len. lia. }
  assert (DC := data_cost h (qr_rate q) B (480 + fs_ind c * 160 <=? N * 8) _ xq n m b Hh Wr Lx Fx ltac:(lia)).
  rewrite (ro_rate _ _ _ _ _ _ _ _ _ _ _ _ S9) in DC at 1. specialize (DC ES Gx). rewrite <- (ro_mode _ _ _ _ _ _ _ _ _ _ _ _ S9), <- S1 in DC. cbv zeta in DC. fold data in DC.
  rewrite (ro_trunc _ _ _ _ _ _ _ _ _ _ _ _ S9).
  destruct DC as [D|[Dm D]].
  - destruct (lr_present lp); (split; [lia|]; split; [lia|]; right; lia).
  - assert (FQ : Forall bits_ok xq).
    { apply Forall_forall. intros v Hv. apply (In_nth _ _ 0) in Hv. destruct Hv as (i & Hi & <-). specialize (Gx (Z.of_nat i) ltac:(clear -Hi Lq; unfold len in Lq; lia)). unfold getz in Gx. rewrite Nat2Z.id in Gx. rewrite Gx.
      destruct (Z.of_nat i <? 2 * Z.of_nat m); [|unfold bits_ok; clear; lia]. destruct (Nat.lt_ge_cases i (length (map (quantise_line o (qr_gg q)) l2))); [apply (proj1 (Forall_forall _ _) Fx), nth_In; assumption|rewrite nth_overflow by assumption; unfold bits_ok; clear; lia]. }
    pose proof (first_pair (qr_lsb_mode q) (ne c) (qr_rate q) xq Wr ltac:(lia) FQ) as FP. cbv zeta in FP. unfold data in *. rewrite Dm in *.
    destruct (lr_present lp); (split; [lia|]; split; [lia|]; left; split; [lia|exact D]).
Qed.

Theorem stages_written c N bw nbw s tr lp q xq rb nfv l1 l2 h n m b B buf0 :
  legal_config c -> 20 <= N <= 400 -> fs_ind c < 3 \/ 31 <= N -> stages o e c N bw nbw s tr lp q xq rb nfv l1 l2 h n m b B -> len buf0 = N ->
  exists buf, encode_frame (ne c) (frame_params bw nbw s tr lp q rb nfv xq) buf0 = Ok buf /\ len buf = N.
Proof.
  intros L HN HF ST Lb. destruct (stages_fit _ _ _ _ _ _ _ _ _ _ _ _ _ _ _ _ _ _ L HN HF ST) as (_ & A & B1 & _). rewrite <- Lb in *. apply encode_frame_total; try assumption; try lia.
  eapply stages_writable; eassumption.
Qed.
End Fit.
