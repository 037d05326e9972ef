(* What the forward MDCT computes, entry by entry (any scalar type). *)
From Coq Require Import ZArith List Bool Lia.
From Verif Require Import Base Config FrameSpec FftFactor FactorProofs Buffers Loops Scalar Fft DecSignal DecMdct DecTotal DecState FftSpec DctSpec ParseBase ParseTotal MdctSpec EncMdct.
Import ListNotations.
Local Open Scope Z_scope.

Lemma split_at_ok {A} n (l : list A) : 0 <= n <= len l -> exists a b, split_at n l = Ok (a, b) /\ l = a ++ b /\ len a = n /\ len b = len l - n.
Proof.
  intros H. unfold split_at. destruct (Z.ltb_spec n 0); [lia|]. destruct (Z.ltb_spec (len l) n); [lia|]. cbn [orb]. eexists _, _. split; [reflexivity|].
  split; [now rewrite firstn_skipn|]. unfold len in *. rewrite firstn_length, skipn_length. lia.
Qed.
Lemma getz_app {A} (d : A) (a b : list A) j : 0 <= j -> getz d (a ++ b) j = if j <? len a then getz d a j else getz d b (j - len a).
Proof.
  intros H. unfold getz, len. destruct (Z.ltb_spec j (Z.of_nat (length a))).
  - apply app_nth1. lia.
  - rewrite app_nth2 by lia. f_equal. lia.
Qed.

(* the time buffer after a frame: nf - z old samples, nf new ones, the rest untouched *)
Definition next_time (nf z : Z) (T inp : Z -> Z) (j : Z) : Z :=
  if j <? nf - z then T (nf + j) else if j <? 2 * nf - z then inp (j - (nf - z)) else T j.
Lemma update_time_spec c t input : legal_config c -> len t = 2 * nf c -> len input = nf c ->
  exists t', update_time c t input = Ok t' /\ len t' = 2 * nf c /\ forall j, 0 <= j < 2 * nf c -> getz 0 t' j = next_time (nf c) (zlead c) (getz 0 t) (getz 0 input) j.
Proof.
  intros L Ht Hi. destruct (config_geom c L) as (G1 & G2 & G3 & _). unfold update_time.
  destruct (split_at_ok (nf c) t ltac:(lia)) as (l & r & E & -> & Ll & Lr). rewrite E. cbn [bind]. unfold usub. destruct (Z.ltb_spec (nf c) (zlead c)); [lia|]. cbn [bind].
  destruct (sub_ok r 0 (nf c - zlead c) ltac:(lia) ltac:(lia)) as (s & E1 & L1 & T1). rewrite E1. cbn [bind].
  destruct (blit_ok l 0 (nf c - zlead c) s ltac:(lia) ltac:(lia) ltac:(lia)) as (l' & E2 & L2 & T2). rewrite E2. cbn [bind].
  destruct (blit_ok (l' ++ r) (nf c - zlead c) (2 * nf c - zlead c) input) as (t' & E3 & L3 & T3); [lia|rewrite len_app; lia|lia|]. rewrite E3.
  exists t'. split; [reflexivity|]. split; [rewrite L3, len_app; rewrite len_app in Ht; lia|]. rewrite len_app in Ht.
  intros j Hj. rewrite T3 by lia. unfold next_time. rewrite !getz_app by lia. rewrite Ll, L2. destruct (Z.ltb_spec j (nf c - zlead c)).
  - bcase; try lia. rewrite T2 by lia. bcase; try lia. rewrite T1 by lia. f_equal. lia.
  - bcase; try lia; try reflexivity. f_equal. lia.
Qed.

Section Fold.
Context {F : Type} (o : ops F).
Local Notation z0 := (fz o 0).
Local Notation C := (F * F)%type.

(* windowed and folded frame *)
Definition wprod (w : Z -> Z * Z) (T : Z -> Z) (n : Z) : F := fmul o (fz o (T n)) (flit o (w n)).
Definition mfold (h : Z) (w : Z -> Z * Z) (T : Z -> Z) (n : Z) : F :=
  if n <? h then fsub o (fneg o (wprod w T (3 * h - 1 - n))) (wprod w T (3 * h + n)) else fsub o (wprod w T (n - h)) (wprod w T (2 * h - 1 - (n - h))).
Lemma mdct_fold_spec c w t out h : nf c = 2 * h -> 0 <= h -> len w = 2 * nf c -> len t = 2 * nf c -> len out = nf c ->
  exists out', mdct_fold o c w t out = Ok out' /\ len out' = nf c /\ forall n, 0 <= n < nf c -> getz z0 out' n = mfold h (getz (0, 0) w) (getz 0 t) n.
Proof.
  intros Hh H0 Lw Lt Lo. unfold mdct_fold. rewrite Hh in *. replace (2 * h / 2) with h by (rewrite Z.mul_comm, Z.div_mul; lia).
  destruct (sub_ok t (3 * h - h) (3 * h) ltac:(lia) ltac:(lia)) as (t1 & E1 & L1 & T1). rewrite E1. cbn [bind].
  destruct (sub_ok w (3 * h - h) (3 * h) ltac:(lia) ltac:(lia)) as (w1 & E2 & L2 & T2). rewrite E2. cbn [bind].
  destruct (sub_ok t (3 * h) (3 * h + h) ltac:(lia) ltac:(lia)) as (t2 & E3 & L3 & T3). rewrite E3. cbn [bind].
  destruct (sub_ok w (3 * h) (3 * h + h) ltac:(lia) ltac:(lia)) as (w2 & E4 & L4 & T4). rewrite E4. cbn [bind].
  match goal with |- context [zipsub ?f out 0 h ?s] => destruct (zipsub_ok f out 0 h s) as (o1 & E5 & L5 & T5); [lia|lia|rewrite !len_combine, !len_rev; lia|] end. rewrite E5. cbn [bind].
  destruct (sub_ok t 0 h ltac:(lia) ltac:(lia)) as (t3 & E6 & L6 & T6). rewrite E6. cbn [bind].
  destruct (sub_ok w 0 h ltac:(lia) ltac:(lia)) as (w3 & E7 & L7 & T7). rewrite E7. cbn [bind].
  destruct (sub_ok t h (2 * h) ltac:(lia) ltac:(lia)) as (t4 & E8 & L8 & T8). rewrite E8. cbn [bind].
  destruct (sub_ok w h (2 * h) ltac:(lia) ltac:(lia)) as (w4 & E9 & L9 & T9). rewrite E9. cbn [bind].
  match goal with |- context [zipsub ?f o1 h (2 * h) ?s] => destruct (zipsub_ok f o1 h (2 * h) s) as (o2 & E10 & L10 & T10); [lia|lia|rewrite !len_combine, !len_rev; lia|] end. rewrite E10.
  exists o2. split; [reflexivity|]. split; [lia|]. intros n Hn. rewrite (T10 z0 (((0, (0, 0)), 0), (0, 0))) by lia. unfold mfold.
  destruct (Z.ltb_spec n h).
  - destruct (Z.leb_spec h n); [lia|]. cbn [andb]. rewrite (T5 z0 (((0, (0, 0)), 0), (0, 0))) by lia. destruct (Z.leb_spec 0 n); [|lia]. destruct (Z.ltb_spec n h); [|lia]. cbn [andb].
    rewrite !combine_get by (rewrite ?len_combine, ?len_rev; lia). rewrite !rev_get by lia. rewrite T1, T2, T3, T4 by lia. unfold wprod. f_equal; f_equal; f_equal; f_equal; f_equal; lia.
  - destruct (Z.leb_spec h n); [|lia]. destruct (Z.ltb_spec n (2 * h)); [|lia]. cbn [andb].
    rewrite !combine_get by (rewrite ?len_combine, ?len_rev; lia). rewrite !rev_get by lia. rewrite T6, T7, T8, T9 by lia. unfold wprod. f_equal; f_equal; f_equal; f_equal; lia.
Qed.

Record emdct_ok (c : config) (e : emdct F) : Prop := mkEmdctOk {
  eo_time : len (em_time e) = 2 * nf c;
  eo_in : len (em_in e) = nf c / 2;
  eo_out : len (em_out e) = nf c / 2
}.
Lemma enc_window_eq c : legal_config c -> enc_window c = mdct_window c.
Proof. intros (f & d & ->). destruct f, d; reflexivity. Qed.

Lemma dct_val_ext h fl x y j : 1 <= h -> chain h fl -> small_factors fl -> fl <> [] -> 0 <= j < 2 * h -> (forall n, 0 <= n < 2 * h -> x n = y n) ->
  dct_val o h fl x j = dct_val o h fl y j.
Proof.
  intros Hh Ch S Ne Hj E. assert (Y : forall k, 0 <= k < h -> dct_out o h fl x k = dct_out o h fl y k).
  { intros k Hk. unfold dct_out, dct_mid. f_equal. apply (fft_val_ext o _ (length fl) fl h); auto; [lia|]. intros q Hq. unfold dct_in. rewrite !E by lia. reflexivity. }
  unfold dct_val. rewrite !Y; [reflexivity| |]; Z.div_mod_to_equations; lia.
Qed.
Lemma apply_mdct_spec c e out h fl w : legal_config c -> emdct_ok c e -> len out = nf c -> nf c = 2 * h -> dct_factors (nf c) = Ok fl -> chain h fl -> small_factors fl -> fl <> [] -> mdct_window c = Ok w ->
  exists out' e', apply_mdct o c e out = Ok (out', e') /\ len out' = nf c /\ emdct_ok c e' /\ em_time e' = em_time e /\
    forall k, 0 <= k < nf c -> getz z0 out' k = fmul o (dct_val o h fl (mfold h (getz (0, 0) w) (getz 0 (em_time e))) k) (mdct_gain o (2 * h)).
Proof.
  intros L [M1 M2 M3] Lo Hh Ef Ch S Ne Ew. destruct (config_geom c L) as (G1 & _). destruct (mdct_window_ok c L) as (w' & Ew' & Lw). rewrite Ew in Ew'. injection Ew' as <-.
  unfold apply_mdct. rewrite Lo, Z.eqb_refl. cbn [assert bind]. rewrite enc_window_eq, Ew by exact L. cbn [bind].
  destruct (mdct_fold_spec c w (em_time e) out h Hh ltac:(lia) Lw M1 Lo) as (v & E1 & L1 & T1). rewrite E1. cbn [bind]. rewrite Ef. cbn [bind]. rewrite Hh in *.
  replace (2 * h / 2) with h in * by (rewrite Z.mul_comm, Z.div_mul; lia).
  destruct (dct_iv_spec o h fl (em_in e) (em_out e) v ltac:(lia) Ch S Ne M2 M3 L1) as (b & i & u & E & Lb & Li & Lu & _ & _ & Gb). rewrite E. cbn [bind].
  eexists _, _. split; [reflexivity|]. split; [rewrite len_map; exact Lb|]. split; [constructor; cbn [em_time em_in em_out]; rewrite ?Hh; replace (2 * h / 2) with h by (rewrite Z.mul_comm, Z.div_mul; lia); lia|].
  split; [reflexivity|]. intros k Hk. unfold getz. rewrite (nth_indep _ z0 (fmul o z0 (mdct_gain o (2 * h)))) by (rewrite map_length; unfold len in Lb; lia).
  unfold mdct_gain at 1. rewrite (map_nth (fun x => fmul o x _)). change (nth (Z.to_nat k) b z0) with (getz z0 b k). rewrite Gb by lia. unfold mdct_gain. f_equal.
  apply dct_val_ext; auto; lia.
Qed.

(* the band energies and the detector never fail *)
Lemma energies_ok edges (lines bands : list F) last : edges_ok edges (len bands) last -> last <= len lines -> okp (energies o edges lines bands) (fun b => len b = len bands).
Proof.
  intros E Hl. pose proof (edges_mono _ _ _ E) as M. destruct E as (L & Z0 & ZL & S). unfold energies. apply (okp_for (fun b => len b = len bands)); [reflexivity|]. intros b s Hb Hs.
  unfold band_energy. rewrite (idx_get 0 edges b), (idx_get 0 edges (b + 1)) by lia. cbn [bind]. pose proof (M 0 b ltac:(lia) ltac:(lia)). pose proof (M (b + 1) (len bands) ltac:(lia) ltac:(lia)). specialize (S b Hb).
  unfold usub. destruct (Z.ltb_spec (getz 0 edges (b + 1)) (getz 0 edges b)); [lia|]. cbn [bind].
  destruct (sub_ok lines (getz 0 edges b) (getz 0 edges (b + 1)) ltac:(lia) ltac:(lia)) as (v & Ev & _ & _). rewrite Ev. cbn [bind].
  eapply okp_weaken; [apply okp_put; lia|]. intros a Ha; cbv beta in Ha; lia.
Qed.
Lemma near_nyquist_ok c (bands : list F) : legal_config c -> okp (near_nyquist o c bands) (fun _ => True).
Proof.
  intros L. destruct (config_geom c L) as (_ & _ & _ & _ & _ & _ & G). unfold near_nyquist. destruct (fs c <=? 32000); [|now apply okp_ok].
  unfold usub. destruct (Z.ltb_spec (nb c) (match n_ms c with SevenPointFiveMs => 4 | TenMs => 2 end)); [destruct (n_ms c); lia|]. cbn [bind].
  destruct (nyquist_sums _ _ _ _ _ _). now apply okp_ok.
Qed.

Theorem emdct_run_spec c e input out bands h fl w : legal_config c -> emdct_ok c e -> len input = nf c -> len out = nf c -> len bands = nb c ->
  nf c = 2 * h -> dct_factors (nf c) = Ok fl -> chain h fl -> small_factors fl -> fl <> [] -> mdct_window c = Ok w ->
  exists nn out' bands' e', emdct_run o c e input out bands = Ok (nn, out', bands', e') /\ len out' = nf c /\ len bands' = nb c /\ emdct_ok c e' /\
    (forall j, 0 <= j < 2 * nf c -> getz 0 (em_time e') j = next_time (nf c) (zlead c) (getz 0 (em_time e)) (getz 0 input) j) /\
    (forall k, 0 <= k < nf c -> getz z0 out' k = fmul o (dct_val o h fl (mfold h (getz (0, 0) w) (getz 0 (em_time e'))) k) (mdct_gain o (2 * h))).
Proof.
  intros L M Li Lo Lb Hh Ef Ch S Ne Ew. pose proof M as [M1 M2 M3]. destruct (config_geom c L) as (G1 & G2 & G3 & G4 & G5 & G6 & G7). unfold emdct_run. rewrite Li, Lo, Lb, !Z.eqb_refl. cbn [assert bind].
  destruct (update_time_spec c (em_time e) input L M1 Li) as (t & E1 & L1 & T1). rewrite E1. cbn [bind].
  destruct (apply_mdct_spec c (mkEmdct t (em_in e) (em_out e)) out h fl w L) as (o1 & e1 & E2 & L2 & M' & Te & T2); auto; [constructor; cbn [em_time em_in em_out]; lia|]. rewrite E2. cbn [bind].
  pose proof L as (f & d & Ec). destruct (band_table_ok f d) as (edges & E3 & B). rewrite <- Ec in *. rewrite E3. cbn [bind].
  rewrite <- Lb in B. destruct (energies_ok edges o1 bands _ B ltac:(lia)) as (bs & E4 & L4). rewrite E4. cbn [bind].
  destruct (near_nyquist_ok c bs L) as (nn & E5 & _). rewrite E5. cbn [bind].
  exists nn, o1, bs, e1. split; [reflexivity|]. split; [exact L2|]. split; [lia|]. split; [exact M'|]. rewrite Te in *. cbn [em_time] in *. split; [exact T1|exact T2].
Qed.
End Fold.
