From Coq Require Import ZArith List Bool Lia ZifyBool.
From Verif Require Import Base AcSpec BufLemmas.
Import ListNotations.
Local Open Scope Z_scope.

(* well formed interval *)
Record iwf (s : ival) : Prop := mkIwf {
  iw_F : 0 <= iF s;
  iw_R : 65536 <= iR s < 16777216;
  iw_N : 0 <= iN s;
  iw_top : iF s + iR s <= 16776192 * 256 ^ iN s \/ s = ival0
}.

Lemma iwf0 : iwf ival0.
Proof. constructor; simpl; try lia. now right. Qed.

Lemma iwf_top s : iwf s -> iF s + iR s <= 16777215 * 256 ^ iN s.
Proof. intros [? ? ? [H| ->]]; [|simpl; lia]. pose proof (pow256_pos (iN s) ltac:(lia)). lia. Qed.

(* inorm multiplies by a power of 256 *)
Lemma inorm_scale fuel s : 0 <= iN s -> exists k, 0 <= k <= Z.of_nat fuel /\
  inorm fuel s = mkIval (iF s * 256 ^ k) (iR s * 256 ^ k) (iN s + k).
Proof.
  revert s. induction fuel; intros s HN; simpl.
  - exists 0. split; [lia|]. destruct s as [a b c]; cbn [iF iR iN]. destruct (_ <? _); f_equal; lia.
  - destruct (Z.ltb_spec (iR s) 65536).
    + destruct (IHfuel (mkIval (iF s * 256) (iR s * 256) (iN s + 1))) as (k & Hk & E); [simpl; lia|].
      cbn [iF iR iN] in E. exists (k + 1). split; [lia|]. rewrite E, Z.pow_add_r by lia. f_equal; lia.
    + exists 0. split; [lia|]. destruct s as [a b c]; cbn [iF iR iN]. f_equal; lia.
Qed.

Lemma inorm_range fuel s : 0 < iR s < 16777216 -> 65536 <= iR s * 256 ^ Z.of_nat fuel ->
  65536 <= iR (inorm fuel s) < 16777216.
Proof.
  revert s. induction fuel; intros s HR HF.
  - simpl. change (256 ^ Z.of_nat 0) with 1 in HF. destruct (Z.ltb_spec (iR s) 65536); lia.
  - simpl inorm. destruct (Z.ltb_spec (iR s) 65536); [|lia].
    apply IHfuel; simpl iR; [lia|]. rewrite Nat2Z.inj_succ, Z.pow_succ_r in HF by lia. lia.
Qed.

Lemma istep_range r f : 64 <= r <= 16383 -> 0 < f <= 1024 -> 0 < r * f < 16777216 /\ 65536 <= r * f * 256 ^ Z.of_nat 4.
Proof. intros. change (256 ^ Z.of_nat 4) with 4294967296. nia. Qed.

Lemma istep_wf s y : iwf s -> valid_sym y -> iwf (istep s y).
Proof.
  intros [HF HR HN HT] (Hc & Hf & Hcf). unfold istep.
  set (r := iR s / 1024).
  assert (Hr : 64 <= r <= 16383 /\ r * 1024 <= iR s) by (unfold r; dml). destruct Hr as [Hr Hr2].
  pose proof (istep_range r (snd y) Hr ltac:(lia)) as [HA HB].
  set (s1 := mkIval (iF s + r * fst y) (r * snd y) (iN s)).
  destruct (inorm_scale 4 s1) as (k & Hk & E); [simpl; lia|].
  pose proof (inorm_range 4 s1 HA HB) as HRg.
  constructor; auto.
  - rewrite E. cbn [iF]. pose proof (pow256_pos k ltac:(lia)). unfold s1; cbn [iF]. nia.
  - rewrite E. cbn [iN]. unfold s1; cbn [iN]. lia.
  - left. rewrite E. cbn [iF iR iN]. unfold s1; cbn [iF iR iN].
    rewrite Z.pow_add_r by lia.
    pose proof (pow256_pos k ltac:(lia)). pose proof (pow256_pos (iN s) ltac:(lia)).
    assert (HH : iF s + r * fst y + r * snd y <= 16776192 * 256 ^ iN s).
    { destruct HT as [HT|HT]; [nia|]. rewrite HT. cbn [ival0 iF iN]. rewrite Z.pow_0_r. clear - Hr Hc Hf Hcf. nia. }
    nia.
Qed.

Lemma irun_wf s l : iwf s -> Forall valid_sym l -> iwf (irun s l).
Proof.
  revert s; induction l as [|y l IH]; intros s Hs Hl; [exact Hs|].
  inversion_clear Hl. apply IH; auto. now apply istep_wf.
Qed.

Lemma inorm_mono fuel s : 0 <= iN s -> iN s <= iN (inorm fuel s).
Proof. intros. destruct (inorm_scale fuel s H) as (k & Hk & E). rewrite E. simpl. lia. Qed.

Lemma istep_mono s y : 0 <= iN s -> iN s <= iN (istep s y).
Proof. intros. unfold istep. etransitivity; [|apply inorm_mono]; simpl; lia. Qed.

Lemma irun_mono s l : iwf s -> Forall valid_sym l -> iN s <= iN (irun s l).
Proof.
  revert s; induction l as [|y l IH]; intros s Hs Hl; [simpl; lia|].
  inversion_clear Hl. pose proof (istep_mono s y (iw_N _ Hs)).
  specialize (IH (istep s y) (istep_wf _ _ Hs H) H0). simpl. lia.
Qed.

(* the number of charged bits never decreases *)
Lemma log2_mul256 R : 0 < R -> Z.log2 (R * 256) = Z.log2 R + 8.
Proof. intros. change 256 with (2 ^ 8). rewrite Z.log2_mul_pow2 by lia. lia. Qed.

Lemma ari_bits_inorm fuel s : 0 < iR s -> ari_bits (inorm fuel s) = ari_bits s.
Proof.
  revert s; induction fuel; intros s HR; simpl; destruct (Z.ltb_spec (iR s) 65536); auto.
  rewrite IHfuel by (simpl; lia). unfold ari_bits; cbn [iF iR iN]. rewrite log2_mul256 by lia. lia.
Qed.

Lemma ari_bits_istep s y : iwf s -> valid_sym y -> ari_bits s <= ari_bits (istep s y).
Proof.
  intros [HF HR HN HT] (Hc & Hf & Hcf). unfold istep.
  set (r := iR s / 1024).
  assert (Hr : 64 <= r <= 16383 /\ r * 1024 <= iR s) by (unfold r; dml). destruct Hr as [Hr Hr2].
  rewrite ari_bits_inorm by (simpl; nia). unfold ari_bits; cbn [iR iN].
  assert (Z.log2 (r * snd y) <= Z.log2 (iR s)) by (apply Z.log2_le_mono; nia). lia.
Qed.

Lemma ari_bits_irun s l : iwf s -> Forall valid_sym l -> ari_bits s <= ari_bits (irun s l).
Proof.
  revert s; induction l as [|y l IH]; intros s Hs Hl; [simpl; lia|].
  inversion_clear Hl. pose proof (ari_bits_istep s y Hs H).
  specialize (IH (istep s y) (istep_wf _ _ Hs H) H0). simpl. lia.
Qed.

Lemma log2_range R : 65536 <= R < 16777216 -> 16 <= Z.log2 R <= 23.
Proof.
  intros. split.
  - change 16 with (Z.log2 65536). apply Z.log2_le_mono. lia.
  - assert (Z.log2 R < 24); [|lia]. apply Z.log2_lt_pow2; lia.
Qed.

(* nesting: a value inside the interval after a step was inside the sub-interval of the symbol before scaling *)
Lemma istep_nested s y V k : 0 <= iN s ->
  forall s', istep s y = s' -> k = iN s' - iN s ->
  iF s' <= V < iF s' + iR s' ->
  iF s + iR s / 1024 * fst y <= V / 256 ^ k < iF s + iR s / 1024 * (fst y + snd y).
Proof.
  intros HN s' E Hk HV. unfold istep in E.
  destruct (inorm_scale 4 (mkIval (iF s + iR s / 1024 * fst y) (iR s / 1024 * snd y) (iN s))) as (k' & Hk' & E'); [simpl; lia|].
  rewrite E' in E. subst s'. cbn [iF iR iN] in *. replace k with k' by lia.
  pose proof (pow256_pos k' ltac:(lia)).
  split.
  - apply Z.div_le_lower_bound; lia.
  - apply Z.div_lt_upper_bound; nia.
Qed.
