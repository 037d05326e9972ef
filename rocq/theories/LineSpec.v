(* What the decoder stages do to each spectral line, over any scalar type: residual refinement, noise filling,
   band gains, concealment. *)
From Coq Require Import ZArith List Bool Lia.
From Verif Require Import Base Config SideInfo ArithDec FrameDec FrameSpec Buffers Loops Scalar DecSignal DecMdct DecLtpf Decoder DecTotal DecState DecRun ParseBase ParseTotal MdctSpec LtpfSpec.
Import ListNotations.
Local Open Scope Z_scope.

(* number of indices below k for which p holds *)
Fixpoint count_below (p : Z -> bool) (k : nat) : Z :=
  match k with O => 0 | S k => count_below p k + (if p (Z.of_nat k) then 1 else 0) end.
Definition rank (p : Z -> bool) (k : Z) : Z := count_below p (Z.to_nat k).
Lemma rank_0 p k : k <= 0 -> rank p k = 0.
Proof. intros H. unfold rank. now replace (Z.to_nat k) with O by lia. Qed.
Lemma rank_succ p k : 0 <= k -> rank p (k + 1) = rank p k + (if p k then 1 else 0).
Proof. intros H. unfold rank. replace (Z.to_nat (k + 1)) with (S (Z.to_nat k)) by lia. cbn [count_below]. now rewrite Z2Nat.id by lia. Qed.
Lemma rank_ext p p' k : (forall i, 0 <= i < k -> p i = p' i) -> rank p k = rank p' k.
Proof.
  unfold rank. intros H. assert (A : forall n, (n <= Z.to_nat k)%nat -> count_below p n = count_below p' n).
  { induction n as [|n IH]; intros Hn; [reflexivity|]. cbn [count_below]. rewrite IH by lia. rewrite H by lia. reflexivity. }
  apply A. lia.
Qed.
Lemma rank_nonneg p k : 0 <= rank p k.
Proof. unfold rank. induction (Z.to_nat k) as [|n IH]; cbn [count_below]; [lia|]. destruct (p _); lia. Qed.
Lemma count_shift p n : count_below p (S n) = (if p 0 then 1 else 0) + count_below (fun i => p (i + 1)) n.
Proof.
  induction n as [|n IH]; [cbn [count_below Z.of_nat]; lia|]. cbn [count_below] in *. rewrite IH. replace (Z.of_nat n + 1) with (Z.of_nat (S n)) by lia. lia.
Qed.

Section Lines.
Context {F : Type} (o : ops F).
Local Notation z0 := (fz o 0).

(* ---- residual refinement ---- *)
Definition is_zero (x : F) : bool := feq o x z0.
Definition refine (bit : bool) (x : F) : F :=
  if bit then fadd o x (flit o (if flt o z0 x then (3125, -4) else (1875, -4)))
  else fsub o x (flit o (if flt o z0 x then (1875, -4) else (3125, -4))).
(* line k takes the bit whose number is the number of non-zero lines before it *)
Definition refined (bits : list bool) (lines : list F) (k : Z) : F :=
  let x := getz z0 lines k in
  if is_zero x then x
  else match nth_error bits (Z.to_nat (rank (fun i => negb (is_zero (getz z0 lines i))) k)) with
       | Some b => refine b x
       | None => x
       end.
Lemma getz_cons_0 {A} (d a : A) l : getz d (a :: l) 0 = a. Proof. reflexivity. Qed.
Lemma getz_cons_S {A} (d a : A) l k : 0 <= k -> getz d (a :: l) (k + 1) = getz d l k.
Proof. intros H. unfold getz. replace (Z.to_nat (k + 1)) with (S (Z.to_nat k)) by lia. reflexivity. Qed.
Lemma residual_lines_spec : forall lines bits k, 0 <= k < len lines -> getz z0 (residual_lines o bits lines) k = refined bits lines k.
Proof.
  induction lines as [|x t IH]; intros bits k Hk; [unfold len in Hk; cbn in Hk; lia|].
  assert (HL : len (x :: t) = len t + 1) by (unfold len; cbn [length]; lia). rewrite HL in Hk. cbn [residual_lines].
  assert (RK : forall j, 0 <= j -> rank (fun i => negb (is_zero (getz z0 (x :: t) i))) (j + 1) = (if is_zero x then 0 else 1) + rank (fun i => negb (is_zero (getz z0 t i))) j).
  { intros j Hj. unfold rank. replace (Z.to_nat (j + 1)) with (S (Z.to_nat j)) by lia. rewrite count_shift, getz_cons_0. f_equal; [destruct (is_zero x); reflexivity|].
    apply (rank_ext _ _ j). intros i Hi. now rewrite getz_cons_S by lia. }
  destruct (Z.eq_dec k 0) as [->|K0].
  - unfold refined. rewrite getz_cons_0, rank_0 by lia. change (Z.to_nat 0) with 0%nat. fold (is_zero x). destruct (is_zero x); [reflexivity|].
    unfold refine. destruct bits as [|[] bs]; cbn [nth_error]; rewrite ?getz_cons_0; try reflexivity; destruct (flt o z0 x); reflexivity.
  - replace k with (k - 1 + 1) by lia. unfold refined. rewrite (RK (k - 1)) by lia. rewrite (getz_cons_S _ x t) by lia. fold (is_zero x). set (j := k - 1).
    pose proof (rank_nonneg (fun i => negb (is_zero (getz z0 t i))) j) as R0. destruct (is_zero x).
    + rewrite getz_cons_S by (unfold j; lia). rewrite IH by (unfold j; lia). unfold refined. rewrite Z.add_0_l. reflexivity.
    + replace (Z.to_nat (1 + rank (fun i => negb (is_zero (getz z0 t i))) j)) with (S (Z.to_nat (rank (fun i => negb (is_zero (getz z0 t i))) j))) by lia.
      destruct bits as [|b bs].
      * rewrite getz_cons_S by (unfold j; lia). cbn [nth_error]. destruct (is_zero (getz z0 t j)); reflexivity.
      * cbn [nth_error]. destruct b; rewrite getz_cons_S by (unfold j; lia); rewrite IH by (unfold j; lia); reflexivity.
Qed.

(* ---- noise filling ---- *)
Definition lcg (s : Z) : Z := (13849 + s * 31821) mod 65536.
Fixpoint lcg_iter (n : nat) (s : Z) : Z := match n with O => s | S n => lcg (lcg_iter n s) end.
(* line k has only zeros around it inside the coded bandwidth *)
Definition silent (stop width : Z) (spec : list Z) (k : Z) : Prop := forall j, k - width <= j <= k + width -> j < stop -> getz 0 spec j = 0.
Definition silentb (stop width : Z) (spec : list Z) (k : Z) : bool :=
  forallb (fun i => (stop <=? k - width + Z.of_nat i) || (getz 0 spec (k - width + Z.of_nat i) =? 0)) (seq 0 (Z.to_nat (2 * width + 1))).
Lemma silentb_ok stop width spec k : silentb stop width spec k = true <-> silent stop width spec k.
Proof.
  unfold silentb, silent. rewrite forallb_forall. split; intros H.
  - intros j Hj Hs. specialize (H (Z.to_nat (j - (k - width)))). rewrite Z2Nat.id in H by lia. replace (k - width + (j - (k - width))) with j in H by lia.
    specialize (H ltac:(apply in_seq; lia)). apply orb_prop in H as [H|H]; [apply Z.leb_le in H; lia|now apply Z.eqb_eq].
  - intros i Hi. apply in_seq in Hi. destruct (Z.leb_spec stop (k - width + Z.of_nat i)); [reflexivity|]. cbn [orb]. apply Z.eqb_eq. apply H; lia.
Qed.
Definition nf_start (d : duration) : Z := match d with SevenPointFiveMs => 18 | TenMs => 24 end.
Definition nf_width (d : duration) : Z := match d with SevenPointFiveMs => 2 | TenMs => 3 end.
Definition nf_stop (d : duration) (bw : Z) : Z := match d with SevenPointFiveMs => 60 * (bw + 1) | TenMs => 80 * (bw + 1) end.
Definition nf_level (factor : Z) : F := fdiv o (fsub o (fz o 8) (fz o factor)) (fz o 16).
(* is line k replaced? *)
Definition filled (d : duration) (bw n : Z) (spec : list Z) (k : Z) : bool :=
  (nf_start d <=? k) && (k <? Z.min (nf_stop d bw) n) && silentb (nf_stop d bw) (nf_width d) spec k.
Definition nf_value (d : duration) (bw seed factor : Z) (spec : list Z) (lines : list F) (k : Z) : F :=
  if filled d bw (len lines) spec k then
    if lcg_iter (Z.to_nat (rank (filled d bw (len lines) spec) k + 1)) seed <? 32768 then nf_level factor else fneg o (nf_level factor)
  else getz z0 lines k.
Lemma nf_next_val chk s : 0 <= s < 65536 -> nf_next chk s = Ok (lcg s).
Proof.
  intros H. destruct (nf_next_ok chk s H) as (s' & E & _). unfold nf_next in E |- *. destruct (chk && _); [discriminate E|]. f_equal. unfold lcg.
  change 65535 with (Z.ones 16). apply Z.land_ones. lia.
Qed.
Lemma lcg_range n s : 0 <= s < 65536 -> 0 <= lcg_iter n s < 65536.
Proof. intros H. destruct n; [exact H|]. apply Z.mod_pos_bound. reflexivity. Qed.
Lemma forallb_getz (l : list Z) : forallb (Z.eqb 0) l = true <-> forall j, 0 <= j < len l -> getz 0 l j = 0.
Proof.
  rewrite forallb_forall. split; intros H.
  - intros j Hj. symmetry. apply Z.eqb_eq. apply H. unfold getz. apply nth_In. unfold len in Hj. lia.
  - intros v Hv. apply (In_nth _ _ 0) in Hv as (i & Hi & <-). apply Z.eqb_eq. symmetry. specialize (H (Z.of_nat i)). unfold getz, len in H. rewrite Nat2Z.id in H. apply H. lia.
Qed.
Lemma noise_fill_spec chk seed bw d factor spec lines : 0 <= seed < 65536 -> 0 <= bw <= 4 -> len spec = 400 ->
  exists l, noise_fill o chk false seed bw d factor spec lines = Ok l /\ len l = len lines /\ forall k, 0 <= k < len lines -> getz z0 l k = nf_value d bw seed factor spec lines k.
Proof.
  intros Hs Hb Hl. unfold noise_fill.
  assert (EP : nf_params d bw = Ok (nf_stop d bw, nf_start d, nf_width d)).
  { unfold nf_params, nf_stop, nf_start, nf_width. destruct d; assert (C : bw = 0 \/ bw = 1 \/ bw = 2 \/ bw = 3 \/ bw = 4) by lia; destruct C as [->|[->|[->|[->| ->]]]]; reflexivity. }
  rewrite EP. cbn [bind]. set (stop := nf_stop d bw). set (start := nf_start d). set (width := nf_width d). fold (nf_level factor).
  assert (G : 0 < stop <= 400 /\ 0 <= width <= start) by (unfold stop, start, width, nf_stop, nf_start, nf_width; destruct d; lia).
  set (hi := Z.min stop (len lines)). set (p := filled d bw (len lines) spec).
  assert (I : exists s, for_range start hi (nf_line o chk stop width (nf_level factor) spec) (seed, lines) = Ok s /\
      (fun k '(sd, l) => sd = lcg_iter (Z.to_nat (rank p k)) seed /\ len l = len lines /\ forall j, 0 <= j < len lines -> getz z0 l j = if j <? k then nf_value d bw seed factor spec lines j else getz z0 lines j) (Z.max start hi) s).
  { destruct (Z_le_gt_dec start hi) as [Hle|Hgt].
    2:{ exists (seed, lines). split; [unfold for_range; now replace (Z.to_nat (hi - start)) with O by lia|]. assert (NP : forall i, p i = false).
        { intros i. unfold p, filled. fold start stop hi. destruct (Z.leb_spec start i), (Z.ltb_spec i hi); try lia; reflexivity. }
        split; [|split; [reflexivity|]].
        - assert (rank p (Z.max start hi) = 0) as ->; [|reflexivity]. unfold rank. induction (Z.to_nat _) as [|n IH]; cbn [count_below]; [reflexivity|]. rewrite IH, NP. reflexivity.
        - intros j Hj. unfold nf_value. fold p. rewrite NP. destruct (j <? _); reflexivity. }
    rewrite Z.max_r by lia.
    apply (for_inv (fun k '(sd, l) => sd = lcg_iter (Z.to_nat (rank p k)) seed /\ len l = len lines /\ forall j, 0 <= j < len lines -> getz z0 l j = if j <? k then nf_value d bw seed factor spec lines j else getz z0 lines j)); [exact Hle| |].
    - assert (NP : forall i, i < start -> p i = false) by (intros i Hi; unfold p, filled; fold start; destruct (Z.leb_spec start i); [lia|reflexivity]).
      split; [|split; [reflexivity|]].
      + assert (rank p start = 0) as ->; [|reflexivity]. rewrite (rank_ext p (fun _ => false)) by (intros; apply NP; lia). unfold rank. induction (Z.to_nat start) as [|n IH]; cbn [count_below]; lia.
      + intros j Hj. destruct (Z.ltb_spec j start); [|reflexivity]. unfold nf_value. fold p. now rewrite NP.
    - intros k [sd l] Hk (I1 & I2 & I3). unfold nf_line. unfold usub. destruct (Z.ltb_spec k width); [lia|]. cbn [bind].
      destruct (sub_ok spec (k - width) (Z.min (stop - 1) (k + width) + 1) ltac:(lia) ltac:(lia)) as (w & Ew & Lw & Tw). rewrite Ew. cbn [bind].
      assert (PK : p k = forallb (Z.eqb 0) w).
      { unfold p, filled. fold start stop width hi. destruct (Z.leb_spec start k); [|lia]. destruct (Z.ltb_spec k hi); [|lia]. cbn [andb]. apply eq_true_iff_eq. rewrite silentb_ok, forallb_getz. unfold silent. split.
        - intros HH j Hj. rewrite Tw by lia. apply HH; lia.
        - intros HH j Hj Hst. specialize (HH (j - (k - width)) ltac:(lia)). rewrite Tw in HH by lia. replace (k - width + (j - (k - width))) with j in HH by lia. exact HH. }
      rewrite <- PK. pose proof (rank_nonneg p k) as R0. pose proof (rank_succ p k ltac:(lia)) as RS. destruct (p k) eqn:PKE.
      + assert (Hsd : 0 <= sd < 65536) by (rewrite I1; now apply lcg_range). rewrite nf_next_val by exact Hsd. cbn [bind].
        match goal with |- context [put l k ?v] => destruct (put_ok z0 l k v ltac:(lia)) as (l' & El & Ll & Tl) end. rewrite El. cbn [bind].
        eexists. split; [reflexivity|]. cbv beta iota. rewrite RS. replace (Z.to_nat (rank p k + 1)) with (S (Z.to_nat (rank p k))) by lia. cbn [lcg_iter]. split; [now rewrite I1|]. split; [lia|].
        intros j Hj. rewrite Tl by lia. destruct (Z.eqb_spec j k) as [->|N].
        * destruct (Z.ltb_spec k (k + 1)); [|lia]. unfold nf_value. fold p. rewrite PKE. replace (Z.to_nat (rank p k + 1)) with (S (Z.to_nat (rank p k))) by lia. cbn [lcg_iter]. now rewrite I1.
        * rewrite I3 by lia. destruct (Z.ltb_spec j k), (Z.ltb_spec j (k + 1)); try lia; reflexivity.
      + eexists. split; [reflexivity|]. cbv beta iota. rewrite RS, Z.add_0_r. split; [exact I1|]. split; [exact I2|]. intros j Hj. rewrite I3 by lia.
        destruct (Z.ltb_spec j k), (Z.ltb_spec j (k + 1)); try lia; try reflexivity. replace j with k by lia. unfold nf_value. fold p. now rewrite PKE. }
  destruct I as ([sd l] & E & (_ & I2 & I3)). rewrite E. cbn [bind]. exists l. split; [reflexivity|]. split; [exact I2|]. intros k Hk. rewrite I3 by exact Hk.
  destruct (Z.ltb_spec k (Z.max start hi)); [reflexivity|]. unfold nf_value. unfold filled. fold start stop width hi. destruct (Z.ltb_spec k hi); [lia|]. rewrite andb_false_r. reflexivity.
Qed.

(* ---- band gains ---- *)
Lemma band_loop g : forall hi lo (l : list F), 0 <= lo <= hi -> hi <= len l ->
  exists l', for_range lo hi (fun n l => x <- idx l n ;; put l n (fmul o x g)) l = Ok l' /\ len l' = len l /\
    forall j, 0 <= j -> getz z0 l' j = if (lo <=? j) && (j <? hi) then fmul o (getz z0 l j) g else getz z0 l j.
Proof.
  intros hi lo l H1 H2.
  destruct (for_inv (fun k l' => len l' = len l /\ forall j, 0 <= j -> getz z0 l' j = if (lo <=? j) && (j <? k) then fmul o (getz z0 l j) g else getz z0 l j) lo hi
              (fun n l => x <- idx l n ;; put l n (fmul o x g)) l ltac:(lia)) as (l' & E & L & T).
  - split; [reflexivity|]. intros j Hj. bcase; try lia; reflexivity.
  - intros k l1 Hk [L1 T1]. rewrite (idx_get z0) by lia. cbn [bind]. destruct (put_ok z0 l1 k (fmul o (getz z0 l1 k) g) ltac:(lia)) as (l2 & E2 & L2 & T2). exists l2. split; [exact E2|]. split; [lia|].
    intros j Hj. rewrite T2 by exact Hj. rewrite (T1 j), (T1 k) by lia. destruct (Z.eqb_spec j k) as [->|N]; bcase; try lia; reflexivity.
  - exists l'. auto.
Qed.
(* every line of band b is multiplied once, by the gain of its band *)
Theorem sns_shape_spec edges gains lines last : edges_ok edges (len gains) last -> last <= len lines ->
  exists l, sns_shape o edges gains lines = Ok l /\ len l = len lines /\
    (forall b j, 0 <= b < len gains -> getz 0 edges b <= j < getz 0 edges (b + 1) -> getz z0 l j = fmul o (getz z0 lines j) (getz z0 gains b)) /\
    (forall j, last <= j -> getz z0 l j = getz z0 lines j).
Proof.
  intros E Hl. pose proof (edges_mono _ _ _ E) as M. destruct E as (L & Z0 & ZL & S). unfold sns_shape. pose proof (len_nonneg gains) as Hg.
  destruct (for_inv (fun k l => len l = len lines /\ (forall b j, 0 <= b < k -> getz 0 edges b <= j < getz 0 edges (b + 1) -> getz z0 l j = fmul o (getz z0 lines j) (getz z0 gains b)) /\
       forall j, getz 0 edges k <= j -> getz z0 l j = getz z0 lines j) 0 (len gains)
     (fun b lines => g <- idx gains b ;; lo <- idx edges b ;; hi <- idx edges (b + 1) ;; _ <- sub lines lo hi ;; for_range lo hi (fun n lines => x <- idx lines n ;; put lines n (fmul o x g)) lines) lines ltac:(lia)) as (l & El & Ll & T1 & T2).
  - split; [reflexivity|]. split; [lia|reflexivity].
  - intros b l Hb (I1 & I2 & I3). rewrite (idx_get z0 gains), (idx_get 0 edges b), (idx_get 0 edges (b + 1)) by lia. cbn [bind].
    pose proof (M 0 b ltac:(lia) ltac:(lia)). pose proof (M (b + 1) (len gains) ltac:(lia) ltac:(lia)). pose proof (S b Hb) as Sb.
    destruct (sub_ok l (getz 0 edges b) (getz 0 edges (b + 1)) ltac:(lia) ltac:(lia)) as (s & Es & _). rewrite Es. cbn [bind].
    destruct (band_loop (getz z0 gains b) (getz 0 edges (b + 1)) (getz 0 edges b) l ltac:(lia) ltac:(lia)) as (l' & El & Ll & T). exists l'. split; [exact El|]. split; [lia|]. split.
    + intros b' j Hb' Hj. pose proof (M 0 b' ltac:(lia) ltac:(lia)). rewrite T by lia. destruct (Z.eq_dec b' b) as [->|N].
      * bcase; try lia. rewrite I3 by lia. reflexivity.
      * pose proof (M (b' + 1) b ltac:(lia) ltac:(lia)). bcase; try lia; apply I2; lia.
    + intros j Hj. rewrite T by lia. bcase; try lia; apply I3; lia.
  - exists l. split; [exact El|]. split; [exact Ll|]. split; [exact T1|]. intros j Hj. apply T2. lia.
Qed.
(* every coded line belongs to exactly one band *)
Lemma band_of edges n last : edges_ok edges n last -> forall j, 0 <= j < last -> exists! b, 0 <= b < n /\ getz 0 edges b <= j < getz 0 edges (b + 1).
Proof.
  intros E j Hj. pose proof (edges_mono _ _ _ E) as M. destruct E as (L & Z0 & ZL & S).
  assert (A : forall k, 0 <= k -> k <= n -> j < getz 0 edges k -> exists b, 0 <= b < k /\ getz 0 edges b <= j < getz 0 edges (b + 1)).
  { apply (natlike_ind (fun k => k <= n -> j < getz 0 edges k -> exists b, 0 <= b < k /\ getz 0 edges b <= j < getz 0 edges (b + 1))); [lia|].
    intros k Hk IH Hn Hlt. unfold Z.succ in *. destruct (Z_lt_le_dec j (getz 0 edges k)) as [C|C].
    - destruct (IH ltac:(lia) C) as (b & B1 & B2). exists b. split; [lia|exact B2].
    - exists k. split; [lia|]. split; [exact C|exact Hlt]. }
  assert (0 <= n) by (destruct (Z_le_gt_dec 0 n) as [|Q]; [assumption|exfalso; assert (getz 0 edges n = getz 0 edges 0) by (unfold getz; f_equal; lia); lia]). destruct (A n ltac:(lia) ltac:(lia) ltac:(lia)) as (b & B1 & B2). exists b. split; [split; assumption|].
  intros b' (C1 & C2). destruct (Z.lt_trichotomy b b') as [Q|[Q|Q]]; [|exact Q|].
  - pose proof (M (b + 1) b' ltac:(lia) ltac:(lia)). lia.
  - pose proof (M (b' + 1) b ltac:(lia) ltac:(lia)). lia.
Qed.

(* ---- concealment ---- *)
Definition plc_lcg (s : Z) : Z := (16831 + s * 12821) mod 65536.
Fixpoint plc_iter (n : nat) (s : Z) : Z := match n with O => s | S n => plc_lcg (plc_iter n s) end.
Lemma plc_next_val s : plc_next s = plc_lcg s.
Proof. unfold plc_next, plc_lcg. change 65535 with (Z.ones 16). apply Z.land_ones. lia. Qed.
Lemma plc_iter_S n s : plc_iter n (plc_lcg s) = plc_iter (S n) s.
Proof. induction n as [|n IH]; [reflexivity|]. cbn [plc_iter] in *. now rewrite IH. Qed.
Lemma plc_lines_spec alpha : forall lines last seed, len lines = len last ->
  fst (plc_lines o alpha seed lines last) = plc_iter (length lines) seed /\
  forall k, 0 <= k < len lines -> getz z0 (snd (plc_lines o alpha seed lines last)) k =
    fmul o (getz z0 last k) (if plc_iter (Z.to_nat (k + 1)) seed <? 32768 then alpha else fneg o alpha).
Proof.
  induction lines as [|x lines IH]; intros [|g last] seed Hl; unfold len in Hl; cbn [length] in Hl; try lia; cbn [plc_lines].
  - split; [reflexivity|]. unfold len. cbn [length]. lia.
  - specialize (IH last (plc_next seed) ltac:(unfold len; lia)). destruct (plc_lines o alpha (plc_next seed) lines last) as [s r]. cbn [fst snd] in *. destruct IH as [IH1 IH2].
    rewrite plc_next_val in *. split; [rewrite IH1, plc_iter_S; reflexivity|]. intros k Hk. destruct (Z.eq_dec k 0) as [->|N].
    + rewrite !getz_cons_0. change (Z.to_nat (0 + 1)) with 1%nat. cbn [plc_iter]. destruct (plc_lcg seed <? 32768); reflexivity.
    + replace k with (k - 1 + 1) at 1 2 by lia. rewrite !getz_cons_S by lia. rewrite IH2 by (unfold len in *; cbn [length] in *; lia). rewrite plc_iter_S.
      replace (S (Z.to_nat (k - 1 + 1))) with (Z.to_nat (k + 1)) by lia. reflexivity.
Qed.
(* attenuation after k consecutive losses *)
Fixpoint fade (k : nat) : F :=
  match k with
  | O => fz o 1
  | S k => if (Z.of_nat k <? 4) then fade k else fmul o (fade k) (flit o (if Z.of_nat k <? 8 then (9, -1) else (85, -2)))
  end.
End Lines.
