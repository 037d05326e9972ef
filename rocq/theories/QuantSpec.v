(* The spectral quantiser of the encoder against EstimateSpec. *)
From Coq Require Import ZArith List Bool Lia ZifyBool.
From Verif Require Import Base Config Loops Scalar EncScalar EncF32 AcSpec BufLemmas DecSignal DecTotal DetectSpec TablesSpec FrameEnc PayloadSpec Events EncPayload EncQuant EstimateSpec MdctSpec.
Import ListNotations.
Local Open Scope Z_scope.

(* bits from a cost in units of 1/2048 bit *)
Definition whole_bits (n : Z) : Z := - (- n / 2048).

Section QuantSpec.
Context {F : Type} (o : ops F) (e : eops F) (EL : elaws o e).

Lemma cost_fits n B : 0 <= n < 2 ^ 31 -> 0 <= B < 8192 -> (cost_bits o e n <=? B) = (n <=? 2048 * B).
Proof.
  intros Hn HB. destruct (Z_lt_le_dec n (2 ^ 24)) as [G|G].
  - rewrite (el_cost o e EL) by lia. dml.
  - pose proof (el_cost_big o e EL n ltac:(lia)). change (2 ^ 24) with 16777216 in G. lia.
Qed.
Lemma cost_exact n B : 0 <= n < 2 ^ 31 -> 0 <= B < 8192 -> n <= 2048 * B -> cost_bits o e n = whole_bits n.
Proof. intros Hn HB H. apply (el_cost o e EL). change (2 ^ 24) with 16777216. lia. Qed.

(* what the estimator has to say about lines xq: the data of n pairs is not all zero from pair n - 1 on, and is cut after m *)
Record estimate (ne rate B : Z) (mode : bool) (xq : list Z) (n m : nat) (b : consumption) : Prop := mkEstimate {
  es_rate : cn_rate b = rate;
  es_mode : cn_mode b = mode;
  es_last : cn_last b = 2 * Z.of_nat n;
  es_pairs : (1 <= m <= n)%nat /\ 2 * Z.of_nat n <= ne;
  es_zero : forall i, 2 * Z.of_nat n <= i < ne -> nth (Z.to_nat i) xq 0 = 0;
  es_nz : (1 < n)%nat -> nz_pair xq (2 * Z.of_nat n - 2) = true;
  es_lsb : cn_lsb b = len (spec_lsbs n mode 0 xq);
  es_est : spec_cost_of n mode ne 0 0 rate xq <= 2048 * 8191 -> cn_est b = whole_bits (spec_cost_of n mode ne 0 0 rate xq) + cn_lsb b;
  es_range : 0 <= cn_est b < 2 ^ 31;
  es_over : (cn_est b <=? B) = (spec_cost_of n mode ne 0 0 rate xq + 2048 * cn_lsb b <=? 2048 * B);
  es_trunc : cn_last_trunc b = 2 * Z.of_nat m;
  es_cut :
    (* the first m pairs, the last of them not zero, fit in B bits, and no longer run of pairs ending in a non-zero pair does *)
    (nz_pair xq (2 * Z.of_nat m - 2) = true /\ spec_cost_of m mode ne 0 0 rate xq <= 2048 * B /\ cn_trunc b = whole_bits (spec_cost_of m mode ne 0 0 rate xq) /\
      (forall j, (m < j <= n)%nat -> nz_pair xq (2 * Z.of_nat j - 2) = true -> 2048 * B < spec_cost_of j mode ne 0 0 rate xq)) \/
    (* or no run ending in a non-zero pair fits *)
    (m = 1%nat /\ cn_trunc b = 0 /\ forall j, (1 <= j <= n)%nat -> nz_pair xq (2 * Z.of_nat j - 2) = true -> 2048 * B < spec_cost_of j mode ne 0 0 rate xq)
}.

Lemma bit_consumption_spec h fs_ind nbits B xq : (1 <= h <= 200)%nat -> len xq = 2 * Z.of_nat h -> Forall bits_ok xq -> 0 <= B < 4096 ->
  let rate := if 160 + fs_ind * 160 <? nbits then 512 else 0 in
  let mode := 480 + fs_ind * 160 <=? nbits in
  exists b n m, bit_consumption o e (2 * Z.of_nat h) fs_ind nbits B xq = Ok b /\ estimate (2 * Z.of_nat h) rate B mode xq n m b.
Proof.
  intros Hh Lx FX HB rate mode. unfold bit_consumption. fold rate mode. set (ne := 2 * Z.of_nat h) in *.
  assert (Hr : rate = 0 \/ rate = 512) by (unfold rate; destruct (_ <? _); auto). clearbody rate mode.
  destruct (last_nz_spec xq (length xq) (h - 1)) as (m0 & E0 & Hm0 & Hz & Hp); [unfold len in Lx; lia|lia|].
  replace (2 * Z.of_nat (h - 1) + 2) with ne in * by lia. rewrite E0. cbn [bind].
  replace (Z.to_nat ((2 * Z.of_nat m0 + 2 + 1) / 2)) with (S m0) by dml. set (n := S m0) in *.
  replace (2 * Z.of_nat m0 + 2) with (2 * Z.of_nat n) in * by lia.
  assert (CR : forall j, (j <= n)%nat -> 0 <= spec_cost_of j mode ne 0 0 rate xq < 2 ^ 31).
  { intros j Hj. pose proof (spec_cost_range mode ne rate xq j Hr FX 0 0 ltac:(lia) ltac:(lia) ltac:(lia)). change (2 ^ 31) with 2147483648. lia. }
  destruct (bc_pairs_spec o e ne rate B mode xq n Hr FX 0 (mkBc 0 0 0 2 0)) as (c & last & trunc & E1 & D); [lia|lia|cbn [bc_c]; lia|]. rewrite E1. clear E1. cbn [bind bc_lsb bc_est bc_last bc_trunc bc_c] in *.
  rewrite !Z.add_0_l in *. cbv zeta in D.
  assert (LL : 0 <= len (spec_lsbs n mode 0 xq) <= 4 * Z.of_nat n).
  { split; [apply len_nonneg|]. clear. generalize 0. induction n as [|n IH]; intros k; cbn [spec_lsbs]; [change (len (@nil Z)) with 0; lia|]. rewrite len_app. specialize (IH (k + 2)). unfold pair_lsbs. destruct (mode && _); [rewrite len_app, !lsb_one_len; unfold moved; destruct (_ =? 1), (_ =? 1)|change (len (@nil Z)) with 0]; lia. }
  assert (KF : forall j, (1 <= j <= n)%nat -> nz_pair xq (0 + 2 * Z.of_nat (j - 1)) && (cost_bits o e (0 + spec_cost_of (S (j - 1)) mode ne 0 0 rate xq) <=? B) = nz_pair xq (2 * Z.of_nat j - 2) && (spec_cost_of j mode ne 0 0 rate xq <=? 2048 * B)).
  { intros j Hj. replace (S (j - 1)) with j by lia. rewrite !Z.add_0_l, cost_fits; [|apply CR; lia|lia]. replace (2 * Z.of_nat (j - 1)) with (2 * Z.of_nat j - 2) by lia. reflexivity. }
  set (l := len (spec_lsbs n mode 0 xq)) in *. set (En := spec_cost_of n mode ne 0 0 rate xq) in *.
  pose proof (CR n ltac:(lia)) as CRn. fold En in CRn.
  assert (Over : (cost_bits o e En + l <=? B) = (En + 2048 * l <=? 2048 * B)).
  { destruct (Z.leb_spec (En + 2048 * l) (2048 * B)) as [G|G].
    - assert (Q : (cost_bits o e En <=? B - l) = true) by (rewrite cost_fits; [lia|apply CR; lia|lia]). lia.
    - destruct (Z_lt_le_dec B l) as [G2|G2].
      + assert (Q : 0 <= cost_bits o e En) by (unfold cost_bits, as_usize; lia). lia.
      + assert (Q : (cost_bits o e En <=? B - l) = false) by (rewrite cost_fits; [lia|apply CR; lia|lia]). lia. }
  assert (Exact : En <= 2048 * 8191 -> cost_bits o e En + l = whole_bits En + l) by (intros; rewrite (cost_exact En 8191); [reflexivity|apply CR; lia|lia|lia]).
  assert (Rng : 0 <= cost_bits o e En + l < 2 ^ 31).
  { change (2 ^ 31) with 2147483648. destruct (Z_lt_le_dec En (2 ^ 24)) as [G|G]; [rewrite (el_cost o e EL) by lia; change (2 ^ 24) with 16777216 in G; dml|pose proof (el_cost_big o e EL En ltac:(lia)) as Q; change (2 ^ 20) with 1048576 in Q; lia]. }
  destruct D as [(m & Hm & Om & Lm & Tm & Rm)|(Ll & Lt & R)].
  - exists (mkCons rate (2 * Z.of_nat n) l last (cost_bits o e En + l) (cost_bits o e trunc) mode), n, (S m). split; [reflexivity|].
    specialize (KF (S m) ltac:(lia)) as K. replace (S m - 1)%nat with m in K by lia. rewrite !Z.add_0_l in Om, K. rewrite Om in K. symmetry in K. apply andb_true_iff in K. destruct K as [K1 K2].
    constructor; cbn [cn_rate cn_mode cn_last cn_lsb cn_est cn_last_trunc cn_trunc]; try reflexivity; auto; try lia.
    + intros Hn. replace (2 * Z.of_nat n - 2) with (2 * Z.of_nat m0) by lia. apply Hp. lia.
    + left. split; [exact K1|]. split; [lia|]. split; [rewrite Tm, Z.add_0_l; apply (cost_exact _ B); [apply CR; lia|lia|lia]|].
      intros j Hj Nz. specialize (Rm (j - 1)%nat ltac:(lia)). rewrite (KF j) in Rm by lia. rewrite Nz in Rm. cbn [andb] in Rm. lia.
  - exists (mkCons rate (2 * Z.of_nat n) l last (cost_bits o e En + l) (cost_bits o e trunc) mode), n, 1%nat. split; [reflexivity|].
    constructor; cbn [cn_rate cn_mode cn_last cn_lsb cn_est cn_last_trunc cn_trunc]; try reflexivity; auto; try lia.
    + intros Hn. replace (2 * Z.of_nat n - 2) with (2 * Z.of_nat m0) by lia. apply Hp. lia.
    + right. split; [reflexivity|]. split; [rewrite Lt; rewrite (cost_exact 0 0) by lia; reflexivity|].
      intros j Hj Nz. specialize (R (j - 1)%nat ltac:(lia)). rewrite (KF j) in R by lia. rewrite Nz in R. cbn [andb] in R. lia.
Qed.

(* ---- quantisation and truncation ---- *)
Lemma quantise_line_ok gg x : bits_ok (quantise_line o gg x).
Proof. unfold quantise_line, as_i16, bits_ok. destruct (fge o x (fz o 0)); lia. Qed.

Lemma zero_tail (a b : Z) l : 0 <= a <= b -> b <= len l ->
  exists l', for_range a b (fun i l => put l i 0) l = Ok l' /\ len l' = len l /\ forall i, 0 <= i -> getz 0 l' i = if (a <=? i) && (i <? b) then 0 else getz 0 l i.
Proof. intros Ha Hb. apply (for_put 0 a b (fun i l => put l i 0) (fun _ => 0) l Ha Hb). intros. reflexivity. Qed.

Lemma quantise_spec h fs_ind nbits off gg_ind B x xq : (1 <= h <= 200)%nat -> len x = 2 * Z.of_nat h -> len xq = 2 * Z.of_nat h -> 0 <= B < 4096 ->
  let rate := if 160 + fs_ind * 160 <? nbits then 512 else 0 in
  let mode := 480 + fs_ind * 160 <=? nbits in
  let q := map (quantise_line o (fgain o (gg_ind + off))) x in
  exists xq' b n m, quantise o e (2 * Z.of_nat h) fs_ind nbits off gg_ind B x xq = Ok (xq', mode && (B <? cn_est b), b, fgain o (gg_ind + off)) /\
    estimate (2 * Z.of_nat h) rate B mode q n m b /\ len q = 2 * Z.of_nat h /\ Forall bits_ok q /\ len xq' = 2 * Z.of_nat h /\
    forall i, 0 <= i < 2 * Z.of_nat h -> getz 0 xq' i = if i <? 2 * Z.of_nat m then getz 0 q i else 0.
Proof.
  intros Hh Lx Lxq HB rate mode q. unfold quantise. cbv zeta.
  assert (Eq : zipmod (fun _ v => quantise_line o (fgain o (gg_ind + off)) v) xq x = q).
  { unfold q. apply (list_eq_getz 0); [unfold len in *; rewrite map_length; pose proof (len_zipmod (fun _ v => quantise_line o (fgain o (gg_ind + off)) v) xq x); unfold len in *; lia|].
    intros j Hj. rewrite len_zipmod in Hj. rewrite (zipmod_get _ 0 (fz o 0)) by lia. rewrite (getz_map _ (fz o 0)) by lia. reflexivity. }
  rewrite Eq. assert (Lq : len q = 2 * Z.of_nat h) by (unfold q, len in *; rewrite map_length; lia).
  assert (Fq : Forall bits_ok q) by (unfold q; rewrite Forall_map; apply Forall_forall; intros; apply quantise_line_ok).
  destruct (bit_consumption_spec h fs_ind nbits B q Hh Lq Fq HB) as (b & n & m & E & ES). fold rate mode in ES. rewrite E. cbn [bind].
  destruct (es_pairs _ _ _ _ _ _ _ _ ES) as [Hm Hn]. rewrite (es_last _ _ _ _ _ _ _ _ ES), (es_trunc _ _ _ _ _ _ _ _ ES).
  rewrite (sub_map 0) by lia. cbn [bind].
  destruct (zero_tail (2 * Z.of_nat m) (2 * Z.of_nat n) q) as (xq' & E2 & L2 & G2); [lia|lia|]. rewrite E2. cbn [bind].
  exists xq', b, n, m. rewrite (es_mode _ _ _ _ _ _ _ _ ES). split; [reflexivity|]. split; [exact ES|]. split; [exact Lq|]. split; [exact Fq|]. split; [lia|].
  intros i Hi. rewrite G2 by lia. destruct (Z.ltb_spec i (2 * Z.of_nat m)), (Z.leb_spec (2 * Z.of_nat m) i), (Z.ltb_spec i (2 * Z.of_nat n)); cbn [andb]; try lia.
  apply (es_zero _ _ _ _ _ _ _ _ ES). lia.
Qed.

(* the spectral data written for the truncated lines, in the mode chosen *)
Lemma written_cost h rate B mode q xq' n m b : (1 <= h <= 200)%nat -> rate = 0 \/ rate = 512 -> len q = 2 * Z.of_nat h -> Forall bits_ok q -> 10 <= B < 4096 ->
  estimate (2 * Z.of_nat h) rate B mode q n m b ->
  (forall i, 0 <= i < 2 * Z.of_nat h -> getz 0 xq' i = if i <? 2 * Z.of_nat m then getz 0 q i else 0) ->
  let lsb := mode && (B <? cn_est b) in
  let data := spec_evs m lsb (2 * Z.of_nat h) 0 0 rate xq' in
  ev_cost data <= 2048 * B \/ (m = 1%nat /\ nz_pair q 0 = true /\ 2048 * B < spec_cost_of 1 mode (2 * Z.of_nat h) 0 0 rate q /\ cn_trunc b = 0).
Proof.
  intros Hh Hr Lq Fq HB ES G lsb data. destruct (es_pairs _ _ _ _ _ _ _ _ ES) as [Hm Hn].
  assert (ED : data = spec_evs m lsb (2 * Z.of_nat h) 0 0 rate q).
  { apply spec_evs_ext. intros i Hi. specialize (G i ltac:(lia)). unfold getz in G. destruct (Z.ltb_spec i (2 * Z.of_nat m)); [exact G|lia]. }
  rewrite ED. clear data ED G xq'. pose proof (es_over _ _ _ _ _ _ _ _ ES) as OV. pose proof (es_lsb _ _ _ _ _ _ _ _ ES) as EB.
  set (ne := 2 * Z.of_nat h) in *. set (cost := fun j => spec_cost_of j mode ne 0 0 rate q) in *.
  assert (NN : forall j, 0 <= spec_moved j mode 0 q) by (intros; apply spec_moved_range).
  assert (UC : forall j, ev_cost (spec_evs j mode ne 0 0 rate q) = cost j - 2048 * spec_moved j mode 0 q) by (intros; unfold cost, spec_cost_of; ring).
  assert (LN : 0 <= cn_lsb b) by (rewrite EB; apply len_nonneg).
  destruct (Z.leb_spec (cn_est b) B) as [Le|Gt].
  - (* everything fits, nothing is cut *)
    left. assert (Hmn : m = n).
    { destruct (es_cut _ _ _ _ _ _ _ _ ES) as [(_ & _ & _ & K)|(-> & _ & K)].
      - destruct (Nat.eq_dec m n) as [|N]; [assumption|]. specialize (K n ltac:(lia) (es_nz _ _ _ _ _ _ _ _ ES ltac:(lia))). fold (cost n) in *. lia.
      - destruct (Nat.eq_dec 1 n) as [|N]; [assumption|]. specialize (K n ltac:(lia) (es_nz _ _ _ _ _ _ _ _ ES ltac:(lia))). fold (cost n) in *. lia. }
    assert (El : lsb = false) by (unfold lsb; destruct (Z.ltb_spec B (cn_est b)); [lia|apply andb_false_r]). rewrite El, Hmn. fold (cost n) in OV.
    destruct mode.
    + rewrite spec_cost_modes by (assumption || lia). rewrite UC. specialize (NN n). lia.
    + rewrite UC. specialize (NN n). lia.
  - assert (El : lsb = mode) by (unfold lsb; destruct (Z.ltb_spec B (cn_est b)); [apply andb_true_r|lia]). rewrite El, UC. specialize (NN m).
    destruct (es_cut _ _ _ _ _ _ _ _ ES) as [(_ & K & _)|(-> & T & K)]; [left; fold (cost m) in K; lia|].
    destruct (nz_pair q 0) eqn:NZ; [right|left].
    + split; [reflexivity|]. split; [reflexivity|]. split; [|exact T]. apply (K 1%nat); [lia|exact NZ].
    + unfold nz_pair in NZ. apply orb_false_iff in NZ. destruct NZ as [N0 N1]. apply negb_false_iff in N0, N1. apply Z.eqb_eq in N0, N1.
      assert (cost 1%nat <= 20480); [|lia]. unfold cost. rewrite spec_cost_S. cbv zeta. rewrite N0, N1.
      destruct (lk_bits (pair_ctx ne 0 0 rate) 0 0 ltac:(apply pair_ctx_range; lia) ltac:(lia) ltac:(lia)) as (_ & _ & _ & P).
      unfold pair_evs. change (esc_lev 16 (Z.abs 0) (Z.abs 0)) with 0. cbv zeta.
      change (esc_evs 16 mode (pair_ctx ne 0 0 rate) (Z.abs 0) (Z.abs 0) 0) with [ESym (msym (lk (pair_ctx ne 0 0 rate) 0) 0)].
      assert (S0 : sign_evs (sent_mag mode 0 0) 0 = []) by (unfold sent_mag; rewrite andb_false_r; reflexivity). rewrite S0. rewrite !app_nil_r, ev_cost_sym, ev_cost_nil.
      unfold pair_moved. change (4 <=? Z.max (Z.abs 0) (Z.abs 0)) with false. rewrite andb_false_r. unfold spec_cost_of. cbn [spec_evs spec_moved]. rewrite ev_cost_nil. lia.
Qed.

(* ---- the global gain ---- *)
Lemma gain_search_range off adj en n : forall gg, gg - (2 ^ Z.of_nat n - 1) <= gain_search o n (2 ^ Z.of_nat n) gg off adj en <= gg.
Proof.
  induction n as [|n IH]; intros gg; cbn [gain_search]; [change (2 ^ Z.of_nat 0) with 1; lia|].
  assert (P : 2 ^ Z.of_nat (S n) = 2 * 2 ^ Z.of_nat n) by (rewrite Nat2Z.inj_succ, Z.pow_succ_r by lia; reflexivity). assert (P2 : 0 < 2 ^ Z.of_nat n) by (apply Z.pow_pos_nonneg; lia).
  rewrite P. replace (2 * 2 ^ Z.of_nat n / 2) with (2 ^ Z.of_nat n) by (rewrite Z.mul_comm, Z.div_mul by lia; reflexivity). cbv zeta.
  destruct (gain_cost _ _) as [tmp z]. match goal with |- context [gain_search o n _ ?g off adj en] => pose proof (IH g) as Q; destruct (flt o _ tmp && negb z) end; lia.
Qed.
(* the largest magnitude and the gain index below which it would not fit *)
Definition peak (x : list F) : F := fold_left (fun m v => fmax o m (e_abs e v)) x (fz o 0).
Definition gain_floor (x : list F) (off : Z) : Z :=
  if flt o (fz o 0) (peak x) then as_i16 o (e_ceil e (fmul o (fz o 28) (e_log10 e (fdiv o (peak x) (fsub o (fz o 32768) (flit o (375, -3))))))) - off else 0.
Lemma gg_off_range fs nbits : 0 <= fs <= 4 -> 0 <= nbits < 32768 -> -245 <= gg_off fs nbits <= -110.
Proof.
  intros Hf Hn. unfold gg_off. assert (W : wrap 16 nbits = nbits) by (unfold wrap; change (2 ^ (16 - 1)) with 32768; change (2 ^ 16) with 65536; rewrite Z.mod_small; lia). rewrite W.
  rewrite Z.quot_div_nonneg by lia. assert (0 <= nbits / (10 * (fs + 1))) by (apply Z.div_pos; lia). lia.
Qed.
Lemma gain_limit_spec chk x off gg : -245 <= off <= 0 -> 0 <= gg <= 255 -> gain_floor x off <= 32767 ->
  exists rs g, gain_limit o e chk x off gg = Ok (rs, gain_floor x off, g) /\ 0 <= g /\ gain_floor x off <= g <= Z.max 255 (gain_floor x off).
Proof.
  intros Ho Hg Hf. unfold gain_limit. fold (peak x). unfold gain_floor in *. pose proof (el_pos o e EL (peak x)) as Q. revert Hf Q. destruct (flt o (fz o 0) (peak x)); intros Hf Q.
  - set (v := as_i16 _ _) in *. assert (V : -32768 <= v) by (unfold v, as_i16; lia). unfold i16c.
    destruct (Z.leb_spec (-32768) (v - off)); [|lia]. destruct (Z.leb_spec (v - off) 32767); [|lia]. cbn [andb bind]. rewrite (Q eq_refl), orb_false_r.
    destruct (Z.ltb_spec gg (v - off)); eexists _, _; (split; [reflexivity|]); lia.
  - cbn [bind]. destruct ((gg <? 0) || feq o (peak x) (fz o 0)); eexists _, _; (split; [reflexivity|]); lia.
Qed.
Lemma gain_adjust_spec fs gg gmin spec est : 0 <= fs <= 4 -> 0 <= gg -> gmin <= gg <= Z.max 255 gmin -> 0 <= spec < 2 ^ 20 -> 0 <= est < 2 ^ 31 ->
  exists g, gain_adjust o e fs gg gmin spec est = Ok (g, negb (gg =? g)) /\ 0 <= g /\ gmin <= g <= Z.max 255 gmin.
Proof.
  intros Hf Hg Hb Hs He. unfold gain_adjust. rewrite (idx_nth T1 fs 0), (idx_nth T2 fs 0), (idx_nth T3 fs 0) by (change (len T1) with 5; change (len T2) with 5; change (len T3) with 5; lia). cbn [bind]. cbv zeta.
  pose proof (el_low o e EL fs _ _ _ est spec (idx_nth T1 fs 0 ltac:(change (len T1) with 5; lia)) (idx_nth T2 fs 0 ltac:(change (len T2) with 5; lia)) (idx_nth T3 fs 0 ltac:(change (len T3) with 5; lia))) as Low.
  set (low := flt o _ (fsub o _ _)) in *. clearbody low. match goal with |- context [flt o ?a ?b] => set (near := flt o a b) end. clearbody near. eexists. split; [reflexivity|]. destruct (Z.ltb_spec spec est) as [Q|Q].
  - rewrite Low by lia. rewrite andb_false_r, orb_false_r, andb_true_r. destruct (Z.ltb_spec gg 255); [|lia]. destruct (Z.eqb_spec gg 254); cbn [orb]; [lia|]. destruct near; lia.
  - rewrite andb_false_r. cbn [orb]. destruct (Z.ltb_spec 0 gg); cbn [andb]; [|lia]. destruct low; [|lia]. lia.
Qed.

(* ---- one run ---- *)
Record run_ok (h : nat) (fs_ind nbits B : Z) (x : list F) (r : quant_result F) (xq : list Z) (n m : nat) (b : consumption) : Prop := mkRunOk {
  ro_est : estimate (2 * Z.of_nat h) (if 160 + fs_ind * 160 <? nbits then 512 else 0) B (480 + fs_ind * 160 <=? nbits) (map (quantise_line o (qr_gg r)) x) n m b;
  ro_gain : qr_gg r = fgain o (qr_gg_ind r + gg_off fs_ind nbits);
  ro_ind : 0 <= qr_gg_ind r /\ gain_floor x (gg_off fs_ind nbits) <= qr_gg_ind r <= Z.max 255 (gain_floor x (gg_off fs_ind nbits));
  ro_spec : qr_spec r = B;
  ro_lsb : qr_lsb r = cn_lsb b;
  ro_trunc : qr_trunc r = cn_trunc b;
  ro_mode : qr_lsb_mode r = (480 + fs_ind * 160 <=? nbits) && (B <? cn_est b);
  ro_rate : qr_rate r = if 160 + fs_ind * 160 <? nbits then 512 else 0;
  ro_last : qr_last r = 2 * Z.of_nat m;
  ro_len : len xq = 2 * Z.of_nat h;
  ro_lines : forall i, 0 <= i < 2 * Z.of_nat h -> getz 0 xq i = if i <? qr_last r then quantise_line o (qr_gg r) (getz (fz o 0) x i) else 0
}.
Lemma quant_run_spec chk h fs_ind q x xq nbits bw tns ltpf B : (1 <= h <= 200)%nat -> len x = 2 * Z.of_nat h -> len xq = 2 * Z.of_nat h -> 0 <= fs_ind <= 4 -> 0 <= nbits < 32768 ->
  bit_budget (2 * Z.of_nat h) nbits bw tns ltpf = Ok B -> 0 <= B < 4096 -> gain_floor x (gg_off fs_ind nbits) <= 32767 ->
  exists r xq' q' n m b, quant_run o e chk (2 * Z.of_nat h) fs_ind q x xq nbits bw tns ltpf = Ok (r, xq', q') /\ run_ok h fs_ind nbits B x r xq' n m b.
Proof.
  intros Hh Lx Lxq Hf Hn HB B4 GF. unfold quant_run. rewrite Lx, Lxq, !Z.eqb_refl. cbn [assert bind]. rewrite HB. cbn [bind]. destruct (gain_params o q B) as [offset adj].
  pose proof (gg_off_range fs_ind nbits Hf Hn) as GO. set (off := gg_off fs_ind nbits) in *. cbv zeta. rewrite (sub_map (fz o 0)) by (try dml; change (len (repeat (fz o 0) 100)) with 100; dml). cbn [bind].
  match goal with |- context [gain_limit _ _ _ _ _ (gain_search o 8 256 255 off adj ?en)] => pose proof (gain_search_range off adj en 8 255) as GS; change (2 ^ Z.of_nat 8) with 256 in GS; set (g0 := gain_search o 8 256 255 off adj en) in * end.
  destruct (gain_limit_spec chk x off g0 ltac:(lia) ltac:(lia) GF) as (rs & g & E1 & G1 & G2). rewrite E1. cbn [bind].
  destruct (quantise_spec h fs_ind nbits off g B x xq Hh Lx Lxq B4) as (xq1 & b1 & n1 & m1 & E2 & ES1 & Lq1 & Fq1 & Lx1 & P1). rewrite E2. cbn [bind].
  destruct (gain_adjust_spec fs_ind g (gain_floor x off) B (cn_est b1) Hf G1 G2 ltac:(change (2 ^ 20) with 1048576; lia) (es_range _ _ _ _ _ _ _ _ ES1)) as (g' & E3 & G3 & G4). rewrite E3. cbn [bind].
  destruct (Z.eqb_spec g g') as [EQ|NE]; cbn [negb].
  - rewrite <- EQ in G3, G4 |- *. cbn [bind]. eexists _, xq1, _, n1, m1, b1. split; [reflexivity|]. constructor; cbn [qr_gg_ind qr_spec qr_lsb qr_trunc qr_lsb_mode qr_rate qr_last qr_gg]; try reflexivity; try assumption; try lia.
    + split; [exact G3|exact G4].
    + exact (es_rate _ _ _ _ _ _ _ _ ES1).
    + exact (es_trunc _ _ _ _ _ _ _ _ ES1).
    + intros i Hi. rewrite P1 by exact Hi. rewrite (es_trunc _ _ _ _ _ _ _ _ ES1). destruct (i <? 2 * Z.of_nat m1); [|reflexivity]. rewrite (getz_map _ (fz o 0)) by lia. reflexivity.
  - destruct (quantise_spec h fs_ind nbits off g' B x xq1 Hh Lx Lx1 B4) as (xq2 & b2 & n2 & m2 & E4 & ES2 & Lq2 & Fq2 & Lx2 & P2). rewrite E4. cbn [bind].
    eexists _, xq2, _, n2, m2, b2. split; [reflexivity|]. constructor; cbn [qr_gg_ind qr_spec qr_lsb qr_trunc qr_lsb_mode qr_rate qr_last qr_gg]; try reflexivity; try assumption; try lia.
    + split; [exact G3|exact G4].
    + exact (es_rate _ _ _ _ _ _ _ _ ES2).
    + exact (es_trunc _ _ _ _ _ _ _ _ ES2).
    + intros i Hi. rewrite P2 by exact Hi. rewrite (es_trunc _ _ _ _ _ _ _ _ ES2). destruct (i <? 2 * Z.of_nat m2); [|reflexivity]. rewrite (getz_map _ (fz o 0)) by lia. reflexivity.
Qed.
End QuantSpec.
