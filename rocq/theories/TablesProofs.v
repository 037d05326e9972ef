(* Computed facts about the entropy coding tables, lifted to all contexts and symbols. *)
From Coq Require Import ZArith List Bool Lia ZifyBool.
From Verif Require Import Base AcDec AcSpec AcDecProofs BufLemmas TablesSpec TablesTns.
Import ListNotations.
Local Open Scope Z_scope.

Definition spec_model (pk : Z) : model := (nth (Z.to_nat pk) AC_SPEC_CUMFREQ [], nth (Z.to_nat pk) AC_SPEC_FREQ []).
Definition tns_order_model (w : Z) : model := (nth (Z.to_nat w) AC_TNS_ORDER_CUMFREQ [], nth (Z.to_nat w) AC_TNS_ORDER_FREQ []).
Definition tns_coef_model (k : Z) : model := (nth (Z.to_nat k) AC_TNS_COEF_CUMFREQ [], nth (Z.to_nat k) AC_TNS_COEF_FREQ []).

Lemma zrange_forall (P : Z -> bool) n : forallb P (zrange n) = true -> forall x, 0 <= x < Z.of_nat n -> P x = true.
Proof. intros H x Hx. rewrite forallb_forall in H. apply H. now apply zrange_in. Qed.

Lemma spec_check : forallb (fun pk => valid_modelb (spec_model pk) && (msize (spec_model pk) =? 17)) (zrange 64) = true.
Proof. vm_compute. reflexivity. Qed.
Lemma tns_order_check : forallb (fun w => valid_modelb (tns_order_model w) && (msize (tns_order_model w) =? 8)) (zrange 2) = true.
Proof. vm_compute. reflexivity. Qed.
Lemma tns_coef_check : forallb (fun k => valid_modelb (tns_coef_model k) && (msize (tns_coef_model k) =? 17)) (zrange 8) = true.
Proof. vm_compute. reflexivity. Qed.

Lemma spec_model_ok pk : 0 <= pk < 64 -> valid_model (spec_model pk) /\ msize (spec_model pk) = 17.
Proof.
  intros H. pose proof (zrange_forall _ _ spec_check pk H) as C. cbn beta in C. apply andb_true_iff in C as [C1 C2].
  split; [now apply valid_modelb_ok|lia].
Qed.
Lemma tns_order_model_ok w : 0 <= w < 2 -> valid_model (tns_order_model w) /\ msize (tns_order_model w) = 8.
Proof.
  intros H. pose proof (zrange_forall _ _ tns_order_check w H) as C. cbn beta in C. apply andb_true_iff in C as [C1 C2].
  split; [now apply valid_modelb_ok|lia].
Qed.
Lemma tns_coef_model_ok k : 0 <= k < 8 -> valid_model (tns_coef_model k) /\ msize (tns_coef_model k) = 17.
Proof.
  intros H. pose proof (zrange_forall _ _ tns_coef_check k H) as C. cbn beta in C. apply andb_true_iff in C as [C1 C2].
  split; [now apply valid_modelb_ok|lia].
Qed.

Lemma lookup_check : forallb (fun x => (0 <=? x) && (x <? 64)) AC_SPEC_LOOKUP = true /\ len AC_SPEC_LOOKUP = 4096.
Proof. vm_compute. split; reflexivity. Qed.

Lemma lookup_ok i : 0 <= i < 4096 -> exists pk, idx AC_SPEC_LOOKUP i = Ok pk /\ 0 <= pk < 64.
Proof.
  intros H. destruct lookup_check as [C L]. rewrite (idx_nth _ _ 0) by lia.
  eexists. split; [reflexivity|]. rewrite forallb_forall in C.
  assert (In (nth (Z.to_nat i) AC_SPEC_LOOKUP 0) AC_SPEC_LOOKUP) by (apply nth_In; unfold len in L; lia).
  specialize (C _ H0). lia.
Qed.

Lemma idx_def {A} (l : list A) i d : 0 <= i < len l -> idx l i = Ok (nth (Z.to_nat i) l d).
Proof. apply idx_nth. Qed.

Lemma spec_rows pk : 0 <= pk < 64 ->
  idx AC_SPEC_CUMFREQ pk = Ok (fst (spec_model pk)) /\ idx AC_SPEC_FREQ pk = Ok (snd (spec_model pk)).
Proof. intros. split; apply idx_nth; change (len AC_SPEC_CUMFREQ) with 64; change (len AC_SPEC_FREQ) with 64; lia. Qed.
Lemma tns_order_rows w : 0 <= w < 2 ->
  idx AC_TNS_ORDER_CUMFREQ w = Ok (fst (tns_order_model w)) /\ idx AC_TNS_ORDER_FREQ w = Ok (snd (tns_order_model w)).
Proof. intros. split; apply idx_nth; [change (len AC_TNS_ORDER_CUMFREQ) with 2|change (len AC_TNS_ORDER_FREQ) with 2]; lia. Qed.
Lemma tns_coef_rows k : 0 <= k < 8 ->
  idx AC_TNS_COEF_CUMFREQ k = Ok (fst (tns_coef_model k)) /\ idx AC_TNS_COEF_FREQ k = Ok (snd (tns_coef_model k)).
Proof. intros. split; apply idx_nth; [change (len AC_TNS_COEF_CUMFREQ) with 8|change (len AC_TNS_COEF_FREQ) with 8]; lia. Qed.

(* the sub-intervals of a valid model tile 0..1024 *)
Lemma model_cover m x : valid_model m -> 0 <= x < 1024 ->
  exists i, 0 <= i < msize m /\ fst (msym m i) <= x < fst (msym m i) + snd (msym m i).
Proof.
  intros V Hx. unfold msize, msym; cbn [fst snd].
  assert (G : forall k, (k < length (fst m))%nat -> x < nth k (fst m) 0 + nth k (snd m) 0 ->
    exists i, (i <= k)%nat /\ nth i (fst m) 0 <= x < nth i (fst m) 0 + nth i (snd m) 0).
  { induction k; intros Hk Hb.
    - exists 0%nat. rewrite (vm_0 m V) in *. lia.
    - destruct (Z.le_gt_cases (nth (S k) (fst m) 0) x).
      + exists (S k). lia.
      + destruct IHk as (i & Hi & Hr); [lia| |exists i; lia]. rewrite (vm_step m V k Hk) in H. lia. }
  destruct (G (length (fst m) - 1)%nat) as (i & Hi & Hr).
  - pose proof (vm_ne m V); lia.
  - rewrite (vm_tot m V). lia.
  - exists (Z.of_nat i). rewrite Nat2Z.id. pose proof (vm_ne m V). lia.
Qed.

Lemma model_unique m x i j : valid_model m -> 0 <= i < msize m -> 0 <= j < msize m ->
  fst (msym m i) <= x < fst (msym m i) + snd (msym m i) ->
  fst (msym m j) <= x < fst (msym m j) + snd (msym m j) -> i = j.
Proof.
  intros V Hi Hj. unfold msize, msym in *; cbn [fst snd]. intros A B.
  destruct (Z.lt_trichotomy i j) as [L|[E|G]]; [|exact E|].
  - pose proof (vm_mono m (Z.to_nat i) (Z.to_nat j) V ltac:(lia)). lia.
  - pose proof (vm_mono m (Z.to_nat j) (Z.to_nat i) V ltac:(lia)). lia.
Qed.

(* the decoder's search finds the symbol owning low / tmp *)
Lemma ac_search_cover m low tmp : valid_model m -> 0 < tmp -> 0 <= low < tmp * 1024 ->
  exists i, 0 <= i < msize m /\ ac_search low tmp (fst m) (length (fst m) - 1) = Ok i /\
    tmp * fst (msym m i) <= low < tmp * (fst (msym m i) + snd (msym m i)).
Proof.
  intros V Ht Hl. destruct (model_cover m (low / tmp) V) as (i & Hi & Hr).
  { split; [apply Z.div_pos; lia|]. apply Z.div_lt_upper_bound; lia. }
  pose proof (Z.mul_div_le low tmp Ht). pose proof (Z.mul_succ_div_gt low tmp Ht).
  exists i. split; [auto|]. split; [|nia].
  unfold msize in Hi. apply ac_search_ok; unfold msym in Hr; cbn [fst snd] in Hr; try lia; try nia.
  intros j Hj. pose proof (vm_mono m (Z.to_nat i) j V ltac:(lia)). nia.
Qed.

(* bit costs: cost = ceil (2048 * log2 (1024 / freq)), stated without logarithms *)
Definition cost_is_ceil (cost freq : Z) : Prop :=
  1024 ^ 2048 <= 2 ^ cost * freq ^ 2048 /\ 2 ^ (cost - 1) * freq ^ 2048 < 1024 ^ 2048.

(* f ^ (2 ^ k) bracketed by floating approximations with 64 bit mantissas *)
Fixpoint pw_lo (k : nat) (f : Z) : Z * Z :=
  match k with
  | O => (f, 0)
  | S k => let (m, e) := pw_lo k f in let m2 := m * m in
           let d := Z.max 0 (Z.log2 m2 - 63) in (m2 / 2 ^ d, 2 * e + d)
  end.
Fixpoint pw_hi (k : nat) (f : Z) : Z * Z :=
  match k with
  | O => (f, 0)
  | S k => let (m, e) := pw_hi k f in let m2 := m * m in
           let d := Z.max 0 (Z.log2 m2 - 63) in (- ((- m2) / 2 ^ d), 2 * e + d)
  end.

Lemma pow_sq f k : f ^ 2 ^ Z.of_nat (S k) = f ^ 2 ^ Z.of_nat k * f ^ 2 ^ Z.of_nat k.
Proof.
  rewrite Nat2Z.inj_succ, Z.pow_succ_r by lia. replace (2 * 2 ^ Z.of_nat k) with (2 ^ Z.of_nat k + 2 ^ Z.of_nat k) by lia.
  apply Z.pow_add_r; apply Z.pow_nonneg; lia.
Qed.

Lemma pw_lo_ok k f : 0 < f -> let (m, e) := pw_lo k f in 0 <= m /\ 0 <= e /\ m * 2 ^ e <= f ^ 2 ^ Z.of_nat k.
Proof.
  intros Hf. induction k; cbn [pw_lo].
  - change (2 ^ Z.of_nat 0) with 1. lia.
  - destruct (pw_lo k f) as [m e]. destruct IHk as (Hm & He & Hle).
    set (d := Z.max 0 (Z.log2 (m * m) - 63)). assert (Hd : 0 <= d) by lia. pose proof (pow2_pos d Hd).
    pose proof (pow2_pos e He).
    split; [apply Z.div_pos; nia|]. split; [lia|].
    rewrite pow_sq. replace (2 * e + d) with (d + (e + e)) by lia. rewrite !Z.pow_add_r by lia.
    pose proof (Z.mul_div_le (m * m) (2 ^ d) ltac:(lia)).
    transitivity (m * m * (2 ^ e * 2 ^ e)).
    + rewrite Z.mul_assoc. apply Z.mul_le_mono_nonneg_r; [nia|lia].
    + replace (m * m * (2 ^ e * 2 ^ e)) with ((m * 2 ^ e) * (m * 2 ^ e)) by ring. apply Z.mul_le_mono_nonneg; nia.
Qed.

Lemma pw_hi_ok k f : 0 < f -> let (m, e) := pw_hi k f in 0 <= m /\ 0 <= e /\ f ^ 2 ^ Z.of_nat k <= m * 2 ^ e.
Proof.
  intros Hf. induction k; cbn [pw_hi].
  - change (2 ^ Z.of_nat 0) with 1. lia.
  - destruct (pw_hi k f) as [m e]. destruct IHk as (Hm & He & Hle).
    set (d := Z.max 0 (Z.log2 (m * m) - 63)). assert (Hd : 0 <= d) by lia. pose proof (pow2_pos d Hd).
    pose proof (pow2_pos e He).
    assert (Hup : m * m <= - (- (m * m) / 2 ^ d) * 2 ^ d) by (pose proof (Z.mul_div_le (- (m * m)) (2 ^ d) ltac:(lia)); lia).
    split; [nia|]. split; [lia|].
    rewrite pow_sq. replace (2 * e + d) with (d + (e + e)) by lia. rewrite !Z.pow_add_r by lia.
    assert (0 <= f ^ 2 ^ Z.of_nat k) by (apply Z.pow_nonneg; lia).
    transitivity (m * m * (2 ^ e * 2 ^ e)).
    + replace (m * m * (2 ^ e * 2 ^ e)) with ((m * 2 ^ e) * (m * 2 ^ e)) by ring. apply Z.mul_le_mono_nonneg; lia.
    + rewrite (Z.mul_assoc (- (- (m * m) / 2 ^ d))). apply Z.mul_le_mono_nonneg_r; [nia|lia].
Qed.

Definition cost_is_ceilb (cost freq : Z) : bool :=
  let (ml, el) := pw_lo 11 freq in let (mh, eh) := pw_hi 11 freq in
  (0 <? freq) && (1 <=? cost) && (0 <=? 20480 - cost - el) && (2 ^ (20480 - cost - el) <=? ml) &&
  (0 <=? 20481 - cost - eh) && (mh <? 2 ^ (20481 - cost - eh)).

Lemma pow_1024 : 1024 ^ 2048 = 2 ^ 20480.
Proof. change 1024 with (2 ^ 10). rewrite <- Z.pow_mul_r by lia. reflexivity. Qed.

Lemma cost_is_ceilb_ok cost freq : cost_is_ceilb cost freq = true -> cost_is_ceil cost freq.
Proof.
  unfold cost_is_ceilb, cost_is_ceil. pose proof (pw_lo_ok 11 freq) as HL. pose proof (pw_hi_ok 11 freq) as HH.
  destruct (pw_lo 11 freq) as [ml el]. destruct (pw_hi 11 freq) as [mh eh].
  rewrite !andb_true_iff, !Z.leb_le, !Z.ltb_lt. intros (((((Hf & Hc) & A1) & A2) & B1) & B2).
  destruct (HL Hf) as (Hm & He & Hle). destruct (HH Hf) as (Hm' & He' & Hle').
  change (2 ^ Z.of_nat 11) with 2048 in *. rewrite pow_1024.
  pose proof (pow2_pos cost ltac:(lia)). pose proof (pow2_pos (cost - 1) ltac:(lia)).
  pose proof (pow2_pos el He). pose proof (pow2_pos eh He').
  set (X := freq ^ 2048) in *. split.
  - replace 20480 with (cost + (20480 - cost - el + el)) by lia. rewrite !Z.pow_add_r by lia.
    apply Z.mul_le_mono_nonneg_l; [lia|]. etransitivity; [|exact Hle]. apply Z.mul_le_mono_nonneg_r; lia.
  - replace 20480 with ((cost - 1) + (20481 - cost - eh + eh)) by lia. rewrite !Z.pow_add_r by lia.
    apply Z.mul_lt_mono_pos_l; [lia|]. eapply Z.le_lt_trans; [exact Hle'|]. apply Z.mul_lt_mono_pos_r; lia.
Qed.

Definition costs_ok (bits freqs : list (list Z)) : bool :=
  (length bits =? length freqs)%nat &&
  forallb (fun p => (length (fst p) =? length (snd p))%nat && forallb (fun q => cost_is_ceilb (fst q) (snd q)) (combine (fst p) (snd p)))
    (combine bits freqs).

Lemma costs_ok_nth bits freqs i k : costs_ok bits freqs = true -> (i < length freqs)%nat -> (k < length (nth i freqs []))%nat ->
  (k < length (nth i bits []))%nat /\ cost_is_ceil (nth k (nth i bits []) 0) (nth k (nth i freqs []) 0).
Proof.
  unfold costs_ok. rewrite andb_true_iff, Nat.eqb_eq, forallb_forall. intros [Hl H] Hi Hk.
  specialize (H (nth i bits [], nth i freqs [])).
  rewrite <- combine_nth in H by auto. specialize (H ltac:(apply nth_In; rewrite combine_length; lia)).
  rewrite combine_nth in H by auto. cbn [fst snd] in H. rewrite andb_true_iff, Nat.eqb_eq, forallb_forall in H. destruct H as [Hl2 H].
  split; [lia|]. apply cost_is_ceilb_ok.
  specialize (H (nth k (nth i bits []) 0, nth k (nth i freqs []) 0)). apply H.
  rewrite <- combine_nth by auto. apply nth_In. rewrite combine_length. lia.
Qed.

Lemma spec_costs_check : costs_ok AC_SPEC_BITS AC_SPEC_FREQ = true.
Proof. vm_compute. reflexivity. Qed.
Lemma tns_order_costs_check : costs_ok AC_TNS_ORDER_BITS AC_TNS_ORDER_FREQ = true.
Proof. vm_compute. reflexivity. Qed.
Lemma tns_coef_costs_check : costs_ok AC_TNS_COEF_BITS AC_TNS_COEF_FREQ = true.
Proof. vm_compute. reflexivity. Qed.
