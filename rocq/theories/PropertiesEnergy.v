(* C56: energies per band and the near Nyquist flag of the encoder, in exact arithmetic; where the bandwidth and attack detectors look (C38, C39); 60 bands. *)
From Coq Require Import ZArith Lia List Bool Reals Lra.
From Flocq Require Import Core.
From Verif Require Import Base Config FrameSpec FactorProofs Buffers Loops ParseBase Scalar RealOps DecSignal DecTotal DecState DctSpec MdctSpec Dct4Inv EncMdct TdacSpec EncDetect DetectSpec PitchRun EncSns MdctFormula.
From Coq Require Import List.
Import ListNotations.
Local Open Scope Z_scope.

(* mean of the squares of lines a .. b - 1 *)
Definition mean_square (x : Z -> R) (a b : Z) : R := (rsum (Z.to_nat (b - a)) (fun i => x (a + i)%Z * x (a + i)%Z) / IZR (b - a))%R.
Definition span (e : Z -> R) (a b : Z) : R := rsum (Z.to_nat (b - a)) (fun i => e (a + i)%Z).
(* number of bands that count as near Nyquist *)
Definition top_bands (d : duration) : Z := match d with TenMs => 2 | SevenPointFiveMs => 4 end.

Lemma energies_R edges lines bands last : edges_ok edges (len bands) last -> last <= len lines -> exists b, energies R_ops edges lines bands = Ok b /\ len b = len bands /\
  forall k, 0 <= k < len bands -> getz 0%R b k = mean_square (getz 0%R lines) (getz 0 edges k) (getz 0 edges (k + 1)).
Proof.
  intros E Hl. pose proof (edges_mono _ _ _ E) as M. destruct E as (L & Z0 & ZL & S). assert (H0 : 0 <= len bands) by (unfold len; lia). unfold energies.
  destruct (for_put 0%R 0 (len bands) (fun b bands => e <- band_energy R_ops edges lines b ;; put bands b e) (fun k => mean_square (getz 0%R lines) (getz 0 edges k) (getz 0 edges (k + 1))) bands) as (b & Eb & Lb & G); [lia|lia| |].
  - intros k l Hk Hl'. unfold band_energy. rewrite (idx_get 0 edges k), (idx_get 0 edges (k + 1)) by lia. cbn [bind]. pose proof (M 0 k ltac:(lia) ltac:(lia)). pose proof (M (k + 1) (len bands) ltac:(lia) ltac:(lia)). specialize (S k Hk).
    unfold usub. destruct (Z.ltb_spec (getz 0 edges (k + 1)) (getz 0 edges k)); [lia|]. cbn [bind]. rewrite (sub_map 0%R) by lia. cbn [bind]. f_equal. rewrite fold_map. cbn [R_ops fadd fmul fdiv fz].
    set (w := IZR (getz 0 edges (k + 1) - getz 0 edges k)). assert (W : w <> 0%R) by (apply IZR_neq; lia). unfold mean_square. fold w. set (a := getz 0 edges k) in *. set (b := getz 0 edges (k + 1)) in *.
    rewrite (fold_rsum (fun i => getz 0%R lines (a + i)%Z * getz 0%R lines (a + i)%Z / w)%R) by lia. rewrite (rsum_ext _ _ (fun i => / w * (getz 0%R lines (a + i)%Z * getz 0%R lines (a + i)%Z))%R) by (intros; unfold Rdiv; ring). rewrite rsum_mul. unfold Rdiv. ring.
  - exists b. split; [exact Eb|]. split; [exact Lb|]. intros k Hk. rewrite G by lia. destruct (Z.leb_spec 0 k), (Z.ltb_spec k (len bands)); cbn [andb]; try reflexivity; lia.
Qed.
Lemma nyquist_R nn : forall (bands : list R) n lo up, 0 <= n ->
  nyquist_sums R_ops n nn bands lo up = ((lo + span (getz 0%R bands) 0 (Z.min (len bands) (nn - n)))%R, (up + span (getz 0%R bands) (Z.max 0 (nn - n)) (len bands))%R).
Proof.
  induction bands as [|e t IH]; intros n lo up Hn; cbn [nyquist_sums].
  - unfold span, len. cbn [length Z.of_nat]. replace (Z.to_nat (Z.min 0 (nn - n) - 0)) with O by lia. replace (Z.to_nat (0 - Z.max 0 (nn - n))) with O by lia. cbn [rsum]. now rewrite !Rplus_0_r.
  - assert (Ll : len (e :: t) = len t + 1) by (unfold len; cbn [length]; lia). assert (Lt : 0 <= len t) by (unfold len; lia). rewrite Ll.
    assert (G0 : getz 0%R (e :: t) 0 = e) by reflexivity. assert (GS : forall i, 0 <= i -> getz 0%R (e :: t) (i + 1) = getz 0%R t i) by (intros i Hi; unfold getz; replace (Z.to_nat (i + 1)) with (S (Z.to_nat i)) by lia; reflexivity).
    destruct (Z.ltb_spec n nn); rewrite IH by lia; cbn [R_ops fadd]; unfold span; f_equal.
    + replace (Z.to_nat (Z.min (len t + 1) (nn - n) - 0)) with (S (Z.to_nat (Z.min (len t) (nn - (n + 1)) - 0))) by lia. rewrite rsum_front, Z.add_0_l, G0, <- Rplus_assoc. f_equal. apply rsum_ext. intros i Hi. rewrite !Z.add_0_l, GS by lia. reflexivity.
    + replace (len t + 1 - Z.max 0 (nn - n)) with (len t - Z.max 0 (nn - (n + 1))) by lia. f_equal. apply rsum_ext. intros i Hi. replace (Z.max 0 (nn - n) + i) with (Z.max 0 (nn - (n + 1)) + i + 1) by lia. now rewrite GS by lia.
    + replace (Z.to_nat (Z.min (len t + 1) (nn - n) - 0)) with O by lia. replace (Z.to_nat (Z.min (len t) (nn - (n + 1)) - 0)) with O by lia. reflexivity.
    + replace (Z.max 0 (nn - n)) with 0 by lia. replace (Z.max 0 (nn - (n + 1))) with 0 by lia. replace (Z.to_nat (len t + 1 - 0)) with (S (Z.to_nat (len t - 0))) by lia. rewrite rsum_front, Z.add_0_l, G0, <- Rplus_assoc. f_equal. apply rsum_ext. intros i Hi. rewrite !Z.add_0_l, GS by lia. reflexivity.
Qed.
Lemma near_nyquist_R c bands : legal_config c -> len bands = nb c -> exists nn, near_nyquist R_ops c bands = Ok nn /\
  (nn = true <-> fs c <= 32000 /\ (30 * span (getz 0%R bands) 0 (nb c - top_bands (n_ms c)) < span (getz 0%R bands) (nb c - top_bands (n_ms c)) (nb c))%R).
Proof.
  intros L Lb. assert (N : 4 <= nb c) by (destruct L as (f & d & ->); destruct f, d; cbv; discriminate). unfold near_nyquist. destruct (Z.leb_spec (fs c) 32000); [|exists false; split; [reflexivity|split; [discriminate|lia]]].
  change (match n_ms c with SevenPointFiveMs => 4 | TenMs => 2 end) with (top_bands (n_ms c)) || (replace (match n_ms c with SevenPointFiveMs => 4 | TenMs => 2 end) with (top_bands (n_ms c)) by (destruct (n_ms c); reflexivity)).
  assert (T : 2 <= top_bands (n_ms c) <= 4) by (destruct (n_ms c); cbn; lia). unfold usub. destruct (Z.ltb_spec (nb c) (top_bands (n_ms c))); [lia|]. cbn [bind]. rewrite nyquist_R by lia. rewrite Lb. cbn [R_ops flt fmul fz]. rewrite !Rplus_0_l.
  replace (Z.min (nb c) (nb c - top_bands (n_ms c) - 0)) with (nb c - top_bands (n_ms c)) by lia. replace (Z.max 0 (nb c - top_bands (n_ms c) - 0)) with (nb c - top_bands (n_ms c)) by lia.
  eexists. split; [reflexivity|]. destruct (Rlt_bool_spec (30 * span (getz 0%R bands) 0 (nb c - top_bands (n_ms c))) (span (getz 0%R bands) (nb c - top_bands (n_ms c)) (nb c))) as [A|A]; split; intros K; try discriminate; auto. destruct K as [_ K]. lra.
Qed.

(* The transform stage reports, for each band, the mean square of its lines, and as near Nyquist a frame (up to 32 kHz) whose top bands, above 4/5 of the spectrum, hold more than 30 times the rest. *)
Theorem C56_energies : forall c e x out0 bands0 nn out bands e', legal_config c -> len bands0 = nb c -> emdct_run R_ops c e x out0 bands0 = Ok (nn, out, bands, e') -> len out = nf c ->
  exists edges, band_table c = Ok edges /\ len bands = nb c /\
    (forall b, 0 <= b < nb c -> getz 0%R bands b = mean_square (getz 0%R out) (getz 0 edges b) (getz 0 edges (b + 1))) /\
    (nn = true <-> fs c <= 32000 /\ (30 * span (getz 0%R bands) 0 (nb c - top_bands (n_ms c)) < span (getz 0%R bands) (nb c - top_bands (n_ms c)) (nb c))%R) /\
    (fs c <= 32000 -> 4 * nf c <= 5 * getz 0 edges (nb c - top_bands (n_ms c))).
Proof.
  intros c e x out0 bands0 nn out bands e' L Lb E Lo. unfold emdct_run in E. destruct (len x =? nf c); cbn [assert bind] in E; [|discriminate E]. destruct (len out0 =? nf c); cbn [assert bind] in E; [|discriminate E]. destruct (len bands0 =? nb c); cbn [assert bind] in E; [|discriminate E].
  destruct (update_time _ _ _) as [t| |]; cbn [bind] in E; try discriminate E. destruct (apply_mdct _ _ _ _) as [[o1 s1]| |]; cbn [bind] in E; try discriminate E.
  pose proof L as (f & d & Ec). destruct (band_table_ok f d) as (edges & E3 & B). rewrite <- Ec in *. rewrite E3 in E. cbn [bind] in E.
  assert (Ne : ne c <= nf c) by (rewrite Ec; destruct f, d; cbv; discriminate).
  assert (K : len o1 = nf c). { destruct (energies R_ops edges o1 bands0) as [bs| |]; cbn [bind] in E; try discriminate E. destruct (near_nyquist _ _ _) as [n1| |]; cbn [bind] in E; try discriminate E. apply Ok_inj in E. congruence. }
  rewrite <- Lb in B. destruct (energies_R edges o1 bands0 (ne c) B ltac:(lia)) as (bs & E4 & L4 & G4). rewrite E4 in E. cbn [bind] in E. destruct (near_nyquist_R c bs L ltac:(lia)) as (n1 & E5 & G5). rewrite E5 in E. cbn [bind] in E. apply Ok_inj in E.
  assert (nn = n1 /\ out = o1 /\ bands = bs) as (-> & -> & ->) by (split; [|split]; congruence). exists edges. split; [exact E3|]. split; [lia|]. split; [intros b Hb; apply G4; lia|]. split; [exact G5|].
  intros Hf. rewrite Ec in Hf, E3 |- *. clear - Hf E3. destruct f, d; try (exfalso; cbv in Hf; apply Hf; reflexivity); injection E3 as <-; cbv; discriminate.
Qed.
Print Assumptions C56_energies.
(* so the energies, weighted by the widths, add up to the energy of the coded lines *)
Theorem C56_parseval : forall c e x out0 bands0 nn out bands e', legal_config c -> len bands0 = nb c -> emdct_run R_ops c e x out0 bands0 = Ok (nn, out, bands, e') -> len out = nf c ->
  exists edges, band_table c = Ok edges /\ rsum (Z.to_nat (nb c)) (fun b => IZR (getz 0%Z edges (b + 1) - getz 0%Z edges b) * getz 0%R bands b)%R = rsum (Z.to_nat (ne c)) (fun k => getz 0%R out k * getz 0%R out k)%R.
Proof.
  intros c e x out0 bands0 nn out bands e' L Lb E Lo. destruct (C56_energies _ _ _ _ _ _ _ _ _ L Lb E Lo) as (edges & E3 & _ & G & _). exists edges. split; [exact E3|].
  destruct L as (f & d & Ec). destruct (band_table_ok f d) as (edges' & E3' & B). rewrite <- Ec in *. assert (edges' = edges) by congruence. subst edges'. pose proof (edges_mono _ _ _ B) as M. destruct B as (Le & Z0 & ZL & S).
  rewrite (rsum_ext _ _ (fun b => rsum (Z.to_nat (getz 0%Z edges (b + 1) - getz 0%Z edges b)) (fun i => getz 0%R out (getz 0%Z edges b + i) * getz 0%R out (getz 0%Z edges b + i))%R)).
  - rewrite <- ZL. assert (N : 0 <= nb c) by (rewrite Ec; destruct f, d; cbv; discriminate). assert (K : forall n, Z.of_nat n <= nb c -> rsum n (fun b => rsum (Z.to_nat (getz 0%Z edges (b + 1) - getz 0%Z edges b)) (fun i => getz 0%R out (getz 0%Z edges b + i) * getz 0%R out (getz 0%Z edges b + i))%R) = rsum (Z.to_nat (getz 0%Z edges (Z.of_nat n))) (fun k => getz 0%R out k * getz 0%R out k)%R).
    { induction n as [|n IH]; intros Hn; [cbn [rsum Z.of_nat]; rewrite Z0; reflexivity|]. cbn [rsum]. rewrite IH by lia. specialize (S (Z.of_nat n) ltac:(lia)). pose proof (M 0 (Z.of_nat n) ltac:(lia) ltac:(lia)). replace (Z.of_nat (Datatypes.S n)) with (Z.of_nat n + 1) by lia.
      replace (Z.to_nat (getz 0 edges (Z.of_nat n + 1))) with (Nat.add (Z.to_nat (getz 0 edges (Z.of_nat n))) (Z.to_nat (getz 0 edges (Z.of_nat n + 1) - getz 0 edges (Z.of_nat n)))) by lia. rewrite rsum_split. f_equal. apply rsum_ext. intros i Hi. rewrite Z2Nat.id by lia. reflexivity. }
    specialize (K (Z.to_nat (nb c)) ltac:(lia)). rewrite Z2Nat.id in K by lia. exact K.
  - intros b Hb. assert (Hb' : 0 <= b < nb c) by lia. rewrite G by exact Hb'. unfold mean_square. field. apply IZR_neq. specialize (S b Hb'). lia.
Qed.
Print Assumptions C56_parseval.

(* ---- C38: when the attack detector works: from 32 kHz on, above 64 kbit/s (32 kHz) or from 80 kbit/s, at 7.5 ms only below 160 kbit/s ---- *)
(* three times the bit rate *)
Definition rate3 (d : duration) (nbytes : Z) : Z := match d with TenMs => 3 * (800 * nbytes) | SevenPointFiveMs => 3200 * nbytes end.
Theorem C38_when_active : forall f d nbytes, attack_active (config_new f d) nbytes = true <->
  (match f with Hz8000 | Hz16000 | Hz24000 => False | Hz32000 => 3 * 64000 < rate3 d nbytes | Hz44100 | Hz48000 => 3 * 80000 <= rate3 d nbytes end) /\ (d = SevenPointFiveMs -> rate3 d nbytes < 3 * 160000).
Proof.
  intros f d n. unfold attack_active, rate3. destruct f, d; (match goal with |- context [fs ?c] => let v := eval vm_compute in (fs c) in change (fs c) with v end); (match goal with |- context [n_ms ?c] => let v := eval vm_compute in (n_ms c) in change (n_ms c) with v | _ => idtac end); cbv iota;
    repeat match goal with |- context [?a <? ?b] => destruct (Z.ltb_spec a b) | |- context [?a <=? ?b] => destruct (Z.leb_spec a b) | |- context [?a =? ?b] => destruct (Z.eqb_spec a b) end; cbn [andb orb];
    (split; [intros K; try discriminate K; split; intros; try discriminate; lia|intros [K1 K2]; (match type of K1 with False => destruct K1 | _ => idtac end); try specialize (K2 eq_refl); try reflexivity; lia]).
Qed.
Print Assumptions C38_when_active.

(* ---- C39: which lines the bandwidth detector compares ---- *)
(* region k of the spectrum is searched for energy above the bandwidth of index k, 4 (k + 1) kHz; in lines of 50 Hz (10 ms) and 66 2/3 Hz *)
Definition regions (f : freq) (d : duration) : list (Z * Z) :=
  match f, d with
  | Hz8000, _ => []
  | Hz16000, TenMs => [(96, 160)] | Hz16000, SevenPointFiveMs => [(71, 120)]
  | Hz24000, TenMs => [(95, 164); (183, 240)] | Hz24000, SevenPointFiveMs => [(70, 121); (134, 180)]
  | Hz32000, TenMs => [(97, 166); (176, 252); (252, 320)] | Hz32000, SevenPointFiveMs => [(71, 124); (131, 182); (192, 240)]
  | _, TenMs => [(92, 164); (175, 240); (256, 330); (330, 400)] | _, SevenPointFiveMs => [(71, 122); (137, 186); (197, 251); (251, 300)]
  end.
(* distance in bands over which a drop is looked for *)
Definition drop_span (d : duration) (k : Z) : Z := getz 0 (match d with TenMs => [4; 4; 3; 1] | SevenPointFiveMs => [4; 4; 3; 2] end) k.
Definition region_b (f : freq) (d : duration) : bool :=
  match bwdet_new d (cfg_fs_ind f), band_table (config_new f d) with
  | Ok b, Ok e => forallb (fun k => let k := Z.of_nat k in let r := getz (0, 0) (regions f d) k in
      (getz 0 e (getz 0 (bd_start b) k) =? fst r) && (getz 0 e (getz 0 (bd_stop b) k + 1) =? snd r) && (getz 0 (bd_l b) k =? drop_span d k)) (seq 0 (Z.to_nat (cfg_fs_ind f)))
  | _, _ => false
  end.
Theorem C39_regions : forall f d b edges k, f <> Hz8000 -> bwdet_new d (cfg_fs_ind f) = Ok b -> band_table (config_new f d) = Ok edges -> 0 <= k < cfg_fs_ind f ->
  let r := getz (0, 0) (regions f d) k in getz 0 edges (getz 0 (bd_start b) k) = fst r /\ getz 0 edges (getz 0 (bd_stop b) k + 1) = snd r /\ getz 0 (bd_l b) k = drop_span d k /\
  (* in Hz, times 3: the region starts 500 .. 1200 Hz above the bandwidth and ends less than 800 Hz above the next one *)
  let hz3 j := j * match d with TenMs => 150 | SevenPointFiveMs => 200 end in
  3 * (4000 * (k + 1) + 500) <= hz3 (fst r) <= 3 * (4000 * (k + 1) + 1200) /\ 3 * (4000 * (k + 2)) <= hz3 (snd r) < 3 * (4000 * (k + 2) + 800).
Proof.
  intros f d b edges k Nf Eb Ee Hk r. assert (H : region_b f d = true) by (destruct f, d; try contradiction; vm_compute; reflexivity). unfold region_b in H. rewrite Eb, Ee in H. rewrite forallb_forall in H.
  specialize (H (Z.to_nat k)). rewrite Z2Nat.id in H by lia. fold r in H. cbv zeta in H. assert (I : In (Z.to_nat k) (seq 0 (Z.to_nat (cfg_fs_ind f)))) by (apply in_seq; lia). specialize (H I). apply andb_prop in H. destruct H as [H H3]. apply andb_prop in H. destruct H as [H1 H2].
  apply Z.eqb_eq in H1, H2, H3. split; [exact H1|]. split; [exact H2|]. split; [exact H3|]. subst r. clear - Nf Hk. assert (k = 0 \/ k = 1 \/ k = 2 \/ k = 3) as C by (destruct f; cbn [cfg_fs_ind] in Hk; lia).
  destruct C as [->|[->|[->| ->]]]; destruct f, d; try contradiction; try (exfalso; cbv in Hk; destruct Hk as [_ Hk]; discriminate Hk); cbv; repeat split; discriminate.
Qed.
Print Assumptions C39_regions.

Lemma forn_add {S} (body : Z -> S -> res S) b : forall a i s, forn (Nat.add a b) i body s = (s <- forn a i body s ;; forn b (i + Z.of_nat a) body s).
Proof.
  induction a as [|a IH]; intros i s; cbn [Nat.add forn bind]; [now rewrite Z.add_0_r|]. destruct (body i s) as [s1| |]; cbn [bind]; [|reflexivity|reflexivity]. rewrite IH. destruct (forn a (i + 1) body s1); cbn [bind]; [|reflexivity|reflexivity]. f_equal. lia.
Qed.
(* ---- 60 bands (8 kHz, 7.5 ms): the padding runs past both ends, whatever the energies ---- *)
Theorem C48_narrow_band_refuted : forall (F : Type) (o : ops F) (eb out : list F), len eb = 60 -> len out = 64 -> sns_pad 60 eb out = Panic.
Proof.
  intros F o eb out Le Lo. unfold sns_pad, usub. change (64 <? 60) with false. cbn [bind]. change (64 - 60) with 4. change (0 <? 4) with true. cbv iota.
  assert (d : F) by exact (fz o 0).
  destruct (for_inv (fun _ l => len l = 64) 0 4 (fun i out => v <- idx eb i ;; out <- put out (i * 2) v ;; put out (i * 2 + 1) v) out) as (l & E & L); [lia|exact Lo| |].
  - intros n l Hn Hl. rewrite (idx_get d eb n) by lia. cbn [bind]. destruct (put_ok d l (n * 2) (getz d eb n) ltac:(lia)) as (l1 & E1 & L1 & _). rewrite E1. cbn [bind]. destruct (put_ok d l1 (n * 2 + 1) (getz d eb n) ltac:(lia)) as (l2 & E2 & L2 & _). exists l2. split; [exact E2|lia].
  - rewrite E. cbn [bind]. unfold for_range. change (Z.to_nat (60 - 0)) with (Nat.add 56 4). rewrite forn_add.
    destruct (for_inv (fun _ l => len l = 64) 0 56 (fun i out => v <- idx eb (4 + i) ;; put out (2 * 4 + i) v) l) as (l2 & E2 & L2); [lia|exact L| |].
    + intros n l' Hn Hl. rewrite (idx_get d eb) by lia. cbn [bind]. destruct (put_ok d l' (2 * 4 + n) (getz d eb (4 + n)) ltac:(lia)) as (l1 & E1 & L1 & _). exists l1. split; [exact E1|lia].
    + unfold for_range in E2. change (Z.to_nat (56 - 0)) with 56%nat in E2. rewrite E2. cbn [bind forn]. unfold idx. rewrite (proj2 (nth_error_None eb _)); [reflexivity|]. unfold len in Le. lia.
Qed.
Print Assumptions C48_narrow_band_refuted.
(* ---- cases ---- *)
Example C56_case : let c := config_new Hz16000 TenMs in exists nn out bands e', emdct_run R_ops c (mkEmdct (repeat 0 320) (repeat (0%R, 0%R) 80) (repeat (0%R, 0%R) 80)) (map (fun j => 7 * j - 100) (iota 160)) (repeat 0%R 160) (repeat 0%R 64) = Ok (nn, out, bands, e') /\ len out = nf c /\ len (repeat 0%R 64) = nb c.
Proof.
  intros c. assert (L : legal_config c) by (now exists Hz16000, TenMs). destruct (dct_factors_ok c L) as (fl & Ef & Ch & Sm & Nf). destruct (mdct_window_ok c L) as (w & Ew & _).
  assert (M : emdct_ok c (mkEmdct (repeat 0 320) (repeat (0%R, 0%R) 80) (repeat (0%R, 0%R) 80))) by (constructor; reflexivity).
  destruct (emdct_run_spec R_ops c _ (map (fun j => 7 * j - 100) (iota 160)) (repeat 0%R 160) (repeat 0%R 64) 80 fl w L M eq_refl eq_refl eq_refl eq_refl Ef Ch Sm Nf Ew) as (nn & out & bands & e' & E & L1 & _). exists nn, out, bands, e'. split; [exact E|]. split; [exact L1|reflexivity].
Qed.
Example C39_regions_case : exists b edges, bwdet_new TenMs (cfg_fs_ind Hz48000) = Ok b /\ band_table (config_new Hz48000 TenMs) = Ok edges /\ 0 <= 3 < cfg_fs_ind Hz48000.
Proof. eexists _, _. split; [reflexivity|]. split; [reflexivity|]. cbn. lia. Qed.
