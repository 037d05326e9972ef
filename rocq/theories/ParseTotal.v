(* The frame parser on arbitrary byte strings: it does not panic and what it accepts is well formed. *)
From Coq Require Import ZArith List Bool Lia Psatz.
From Verif Require Import Base Config Reader AcDec AcSpec BufLemmas AcDecProofs TablesProofs TablesSpec TablesTns SideInfo ArithDec FrameDec FrameEnc FrameSpec FrameProofs ParseBase SeedBound.
Import ListNotations.
Local Open Scope Z_scope.

Definition sum_abs (l : list Z) : Z := fold_right (fun x s => Z.abs x + s) 0 l.

Definition tail_cap (buf : list Z) : Z := E * (8 * len buf + 8).

Lemma dec_pair_post buf k c rate ne lsb r st C : bytes buf -> 0 <= c < 256 -> rate = 0 \/ rate = 512 -> dwf st -> rin buf r -> 0 <= C -> binfo r st C ->
  post (dec_pair k c rate ne lsb buf r st)
    (fun '(x0, x1, lev, c', st', r') => Z.abs x0 <= LINE_MAX /\ Z.abs x1 <= LINE_MAX /\ 0 <= c' < 256 /\ 0 <= lev <= 14 /\ dwf st' /\ rin buf r' /\
       Z.abs x0 + Z.abs x1 <= PRICE * (r_tail r' - r_tail r) /\
       exists nib X bits Cp, In (nib, X, bits) (opts (c + rate + (if ne / 2 <? k * 2 then 256 else 0))) /\ c' = c mod 16 * 16 + nib /\ 0 <= nib < 16 /\
         Z.abs x0 + Z.abs x1 <= X /\ 0 <= Cp /\ binfo r' st' (C + Cp) /\ bits <= Cp + E * (r_tail r' - r_tail r) /\
         (0 < Z.abs x0 + Z.abs x1 -> C + Cp + E * r_tail r' <= tail_cap buf)).
Proof.
  intros Hb Hc Hrt W R HC B. unfold dec_pair. set (t := c + rate + (if ne / 2 <? k * 2 then 256 else 0)).
  assert (Ht : 0 <= t < 1024) by (unfold t; destruct (_ <? _); lia).
  eapply post_bind; [apply (dec_levels_post buf t lsb C Hb Ht HC); try assumption; try lia; try (change (ecost t (Z.to_nat 0)) with 0; now rewrite Z.add_0_r); cbn; lia|].
  intros [[[[[sym lev] y0] y1] st'] r'] (B1 & B2 & B3 & B4 & B5 & B9 & B6 & B7 & B8 & B10).
  pose proof (pair_price lsb lev sym y0 y1 B1 B2 B3 B4 B5 B9) as (Q1 & Q2 & Q3).
  pose proof (pair_option t c lsb lev sym y0 y1 B1 B2 B3 B4 B5 B9) as (nib & X & bits & O1 & O2 & O3 & O4 & O5).
  eapply post_bind; [apply dec_sign_post; [lia|exact B7]|]. intros [x0 r1] (S1 & R1 & T1 & D1 & U1).
  eapply post_bind; [apply dec_sign_post; [lia|exact R1]|]. intros [x1 r2] (S2 & R2 & T2 & D2 & U2).
  replace (esc_bits lsb 0) with 0 in B8 by (unfold esc_bits; destruct lsb; reflexivity).
  assert (HT : r_tail r2 - r_tail r = esc_bits lsb lev + Z.sgn (y0 + Z.shiftl (Z.land sym 3) lev) + Z.sgn (y1 + Z.shiftl (Z.shiftr sym 2) lev)) by lia.
  cbn [post]. rewrite S1, S2, HT. split; [lia|]. split; [lia|]. split; [|split; [lia|split; [exact B6|split; [exact R2|split; [exact Q3|]]]]].
  - rewrite O2. pose proof (Z.mod_pos_bound c 16 ltac:(lia)). lia.
  - pose proof (pcost_nonneg t lev sym Ht ltac:(lia) ltac:(lia)) as HP.
    assert (B' : binfo r2 st' (C + pcost t lev sym)) by (eapply binfo_tail; [|exact B10]; congruence).
    exists nib, X, bits, (pcost t lev sym). split; [exact O1|]. split; [exact O2|]. split; [exact O3|]. split; [exact O4|]. split; [exact HP|].
    split; [exact B'|]. split; [exact O5|]. intros Hpos.
    assert (HB : C + pcost t lev sym <= 8 * E * (r_head r2 - 2)).
    { apply (binfo_bound r2 st'); auto; [lia|]. destruct R2 as [[? ?] ?]. lia. }
    assert (HU : r_tail r2 <= 8 * (len buf - r_head r2) + 24).
    { set (z0 := y0 + Z.shiftl (Z.land sym 3) lev) in *. set (z1 := y1 + Z.shiftl (Z.shiftr sym 2) lev) in *. clearbody z0 z1.
      destruct (Z.lt_ge_cases 0 z1); [auto|]. assert (z1 = 0) by lia. subst z1. rewrite T2, D2. change (Z.sgn 0) with 0. specialize (U1 ltac:(lia)). lia. }
    unfold tail_cap. pose proof E_pos. nia.
Qed.

Lemma dec_pairs_post buf rate ne lsb V : bytes buf -> rate = 0 \/ rate = 512 -> (rate = 512 -> potential ne V) -> forall n k c r st C,
  0 <= c < 256 -> dwf st -> rin buf r -> 0 <= k -> k + Z.of_nat n <= ne / 2 -> 0 <= C -> binfo r st C ->
  post (dec_pairs n k c rate ne lsb buf r st)
    (fun '(xs, levs, st', r') => length xs = (2 * n)%nat /\ length levs = n /\ Forall (fun x => Z.abs x <= LINE_MAX) xs /\
       Forall (fun l => 0 <= l <= 14) levs /\ dwf st' /\ rin buf r' /\ r_tail r <= r_tail r' /\ sum_abs xs <= PRICE * (r_tail r' - r_tail r) /\
       (rate = 512 -> weighted_sum xs (2 * k) = 0 \/ E * weighted_sum xs (2 * k) <= V k c + MU * (tail_cap buf - C - E * r_tail r))).
Proof.
  intros Hb Hrt HV. induction n; intros k c r st C Hc W R Hk Hn HC B; cbn [dec_pairs].
  - cbn [post sum_abs fold_right weighted_sum]. repeat split; auto; try apply W; try apply R; lia.
  - eapply post_bind; [apply (dec_pair_post _ _ _ _ _ _ _ _ C); assumption|].
    intros [[[[[x0 x1] lev] c'] st'] r'] (P1 & P2 & P3 & P4 & P5 & P6 & P7 & nib & X & bits & Cp & O1 & O2 & O3 & O4 & O5 & O6 & O7 & O8).
    eapply post_bind; [apply (IHn (k + 1) c' r' st' (C + Cp)); try assumption; lia|].
    intros [[[xs levs] st2] r2] (Q1 & Q2 & Q3 & Q4 & Q5 & Q6 & Q7 & Q8 & Q9). cbn [post].
    assert (r_tail r <= r_tail r') by (unfold PRICE in P7; lia).
    split; [cbn [length]; lia|]. split; [cbn [length]; lia|]. split; [auto|]. split; [auto|]. split; [exact Q5|]. split; [exact Q6|].
    split; [lia|]. split; [cbn [sum_abs fold_right]; fold (sum_abs xs); lia|].
    intros Hr. specialize (HV Hr). specialize (Q9 Hr). cbn [weighted_sum].
    replace (2 * k + 1 + 1) with (2 * (k + 1)) by lia. set (ws := weighted_sum xs (2 * (k + 1))) in *.
    assert (Hw : 2 * k * Z.abs x0 + (2 * k + 1) * Z.abs x1 <= (2 * k + 1) * X) by nia.
    pose proof (pot_step _ _ HV k c nib X bits ltac:(lia) Hc O3) as PS. rewrite Hr in O1. specialize (PS O1). rewrite <- O2 in PS.
    assert (HE : 0 < E) by apply E_pos. assert (HM : 0 < MU) by reflexivity.
    assert (K : E * (2 * k * Z.abs x0 + (2 * k + 1) * Z.abs x1) <= V k c - V (k + 1) c' + MU * (Cp + E * (r_tail r' - r_tail r))) by nia.
    destruct Q9 as [Q9|Q9].
    + destruct (Z.eq_dec (Z.abs x0 + Z.abs x1) 0) as [Z0|NZ].
      * left. assert (x0 = 0) by lia. assert (x1 = 0) by lia. subst x0 x1. rewrite Q9. cbn. lia.
      * right. specialize (O8 ltac:(lia)). pose proof (pot_nonneg _ _ HV (k + 1) c' ltac:(lia) P3). rewrite Q9. nia.
    + right. nia.
Qed.

Lemma sum_abs_app a b : sum_abs (a ++ b) = sum_abs a + sum_abs b.
Proof. unfold sum_abs. induction a; cbn [fold_right app]; [lia|]. rewrite IHa. lia. Qed.
Lemma sum_abs_repeat n : sum_abs (repeat 0 n) = 0.
Proof. unfold sum_abs. induction n; cbn [repeat fold_right]; [reflexivity|]. rewrite IHn. lia. Qed.

Definition spectrum_ok (lastnz : Z) (x : list Z) : Prop :=
  length x = 400%nat /\ Forall (fun v => Z.abs v <= LINE_MAX) x /\ (forall i, (Z.to_nat lastnz <= i)%nat -> nth i x 0 = 0).

(* a potential for each number of coded lines *)
Definition pot (ne : Z) : Z -> Z -> Z := if ne =? 400 then surplus else fun _ _ => 0.
Lemma pot_ok ne : ne <= 320 \/ ne = 400 -> potential ne (pot ne).
Proof. unfold pot. intros [H| ->]; [destruct (Z.eqb_spec ne 400); [lia|now apply small_potential]|exact surplus_potential]. Qed.

Lemma pot_bound ne : pot ne 0 0 + MU * (E * (8 * SAFE_LEN + 8)) + E * 160000 <= E * i32_max.
Proof.
  unfold pot. destruct (ne =? 400); [exact surplus_check|]. apply Z.leb_le. vm_compute. reflexivity.
Qed.

(* the sum fits when the frame has at most SAFE_LEN bytes *)
Definition sum_fits (x : list Z) : Prop := weighted_sum x 0 <= i32_max - 160000.

Lemma weighted_zeros n : forall k, weighted_sum (repeat 0 n) k = 0.
Proof. induction n; intros k; cbn [repeat weighted_sum]; [reflexivity|]. rewrite IHn. lia. Qed.
Lemma weighted_app a b : forall k, weighted_sum (a ++ b) k = weighted_sum a k + weighted_sum b (k + len a).
Proof.
  induction a as [|x a IH]; intros k; cbn [app weighted_sum]; [unfold len; cbn [length]; now rewrite Z.add_0_r|].
  rewrite IH, len_cons. replace (k + 1 + len a) with (k + (len a + 1)) by lia. lia.
Qed.
Lemma weighted_sum_bound M l : forall k, 0 <= k -> k + len l <= M + 1 -> weighted_sum l k <= M * sum_abs l.
Proof.
  unfold sum_abs. induction l as [|x l IH]; intros k Hk Hl; cbn [weighted_sum fold_right]; [lia|]. rewrite len_cons in Hl.
  specialize (IH (k + 1) ltac:(lia) ltac:(lia)). pose proof (len_nonneg l). nia.
Qed.

Lemma decode_spectral_data_post buf r si fs ne st : bytes buf -> dwf st -> rin buf r -> binfo r st 0 ->
  2 <= s_lastnz si <= ne -> Z.even (s_lastnz si) = true -> ne <= 320 \/ ne = 400 -> 0 <= fs <= 4 ->
  post (decode_spectral_data buf r si (len buf * 8) fs ne st)
    (fun '(x, lev, st', r') => spectrum_ok (s_lastnz si) x /\ length lev = 400%nat /\ dwf st' /\ rin buf r' /\
       r_tail r <= r_tail r' /\ (len buf <= SAFE_LEN -> sum_fits x)).
Proof.
  intros Hb W R B Hl He Hne Hfs. unfold decode_spectral_data. destruct (Z.ltb_spec MAX_LEN_SPECTRAL (s_lastnz si)); [unfold MAX_LEN_SPECTRAL in *; lia|].
  apply Z.even_spec in He as [h Hh]. rewrite Hh in *. replace (2 * h / 2) with h in * by dml.
  eapply post_bind; [apply (dec_pairs_post buf _ ne _ (pot ne) Hb) with (C := 0); auto; try lia|].
  - unfold rate_flag; destruct (_ <? _); auto.
  - intros _. now apply pot_ok.
  - dml.
  - intros [[[xs levs] st2] r2] (Q1 & Q2 & Q3 & Q4 & Q5 & Q6 & Q7 & Q8 & Q9). cbn [post].
    change (Z.to_nat MAX_LEN_SPECTRAL) with 400%nat.
    split; [|split; [|split; [exact Q5|split; [exact Q6|split; [exact Q7|]]]]].
    + split; [rewrite app_length, repeat_length; lia|]. split.
      * apply Forall_app. split; [exact Q3|]. apply Forall_forall. intros v Hv. apply repeat_spec in Hv. subst. unfold LINE_MAX; lia.
      * intros i Hi. rewrite app_nth2 by lia. apply nth_repeat.
    + rewrite app_length, repeat_length. destruct (s_lsb_mode si); cbn [length]; lia.
    + intros HS. unfold sum_fits. rewrite weighted_app, weighted_zeros, Z.add_0_r.
      assert (Hx : len xs <= 400) by (unfold len; lia). destruct R as [[R1 R2] R3]. destruct Q6 as [_ Q6].
      unfold rate_flag in Q9. destruct (Z.ltb_spec (160 + fs * 160) (len buf * 8)).
      * specialize (Q9 eq_refl). change (2 * 0) with 0 in Q9. destruct Q9 as [->|Q9]; [unfold i32_max; lia|].
        pose proof (pot_bound ne) as PB. unfold tail_cap in Q9. assert (HE : 0 < E) by apply E_pos. assert (HM : 0 < MU) by reflexivity.
        assert (MU * (E * (8 * len buf + 8) - 0 - E * r_tail r) <= MU * (E * (8 * SAFE_LEN + 8))).
        { apply Z.mul_le_mono_nonneg_l; [lia|]. nia. }
        assert (E * weighted_sum xs 0 <= E * (i32_max - 160000)) by lia. nia.
      * pose proof (weighted_sum_bound 399 xs 0 ltac:(lia) ltac:(lia)). unfold PRICE, i32_max in *. lia.
Qed.

(* ---- residual ---- *)

Lemma calc_num_residual_bits_post buf r st total : rin buf r -> 8 <= r_tail r -> dwf st ->
  post (calc_num_residual_bits r st total) (fun n => 0 <= n).
Proof.
  intros [[H1 H2] H3] Ht [_ W]. unfold calc_num_residual_bits. rewrite usub_ok by lia. cbn [bind]. rewrite usub_ok by lia. cbn [bind].
  assert (Hlog : 0 <= log2_floor (d_range st) < 24).
  { unfold log2_floor. split; [apply Z.log2_nonneg|]. apply Z.log2_lt_pow2; lia. }
  rewrite usub_ok by lia. cbn [bind]. destruct (Z.leb_spec (r_tail r - 8 + ((r_head r + 1 - 3) * 8 + 25 - log2_floor (d_range st))) total); cbn [post]; [lia|exact I].
Qed.

Lemma dec_res_bits_post buf nres : forall xs count r, 0 <= count -> rin buf r ->
  post (dec_res_bits xs count nres buf r) (fun '(bs, r') => len bs <= nonzero_count xs /\ rin buf r').
Proof.
  induction xs as [|x xs IH]; intros count r Hc R; cbn [dec_res_bits].
  - cbn [post]. split; [reflexivity|exact R].
  - unfold nonzero_count. cbn [filter]. destruct (Z.eqb_spec x 0); cbn [negb].
    + apply IH; assumption.
    + destruct (Z.eqb_spec count nres).
      * cbn [post]. split; [unfold len; cbn [length]; lia|exact R].
      * eapply post_bind; [apply (read_bool_in _ _ R)|]. intros [b r'] (R' & _).
        destruct (Z.leb_spec MAX_LEN_FREQUENCY count); [exact I|].
        eapply post_bind; [apply IH; [lia|exact R']|]. intros [bs r2] (Q1 & Q2). cbn [post]. split; [|exact Q2].
        unfold nonzero_count in Q1. rewrite !len_cons. lia.
Qed.

(* x' differs from x only at lines a <= i < b, where the magnitude grows by at most 1 *)
Definition nudged (a b : Z) (x x' : list Z) : Prop :=
  length x' = length x /\ forall i, Z.abs (nth i x' 0) <= Z.abs (nth i x 0) + 1 /\ (Z.of_nat i < a \/ b <= Z.of_nat i -> nth i x' 0 = nth i x 0).

Lemma nudged_refl a b x : nudged a b x x.
Proof. split; [reflexivity|]. intros i. split; [lia|auto]. Qed.

Lemma nth_upd {A} (l : list A) n v i d : (n < length l)%nat -> nth i (upd l n v) d = if Nat.eqb i n then v else nth i l d.
Proof.
  revert n i. induction l as [|h t IH]; intros n i Hn; cbn [length] in Hn; [lia|].
  destruct n, i; cbn [upd nth Nat.eqb]; auto. apply IH. lia.
Qed.

Lemma nudged_upd x k v : 0 <= k < len x -> Z.abs v <= Z.abs (nth (Z.to_nat k) x 0) + 1 -> nudged k (k + 1) x (upd x (Z.to_nat k) v).
Proof.
  intros Hk Hv. split; [apply length_upd|]. intros i. unfold len in Hk. rewrite nth_upd by lia.
  destruct (Nat.eqb_spec i (Z.to_nat k)); [subst i; split; [exact Hv|intros; lia]|split; [lia|auto]].
Qed.

(* disjoint line ranges compose *)
Lemma nudged_trans a b c x y z : a <= b -> b <= c -> nudged a b x y -> nudged b c y z -> nudged a c x z.
Proof.
  intros H1 H2 [L1 N1] [L2 N2]. split; [congruence|]. intros i. destruct (N1 i) as [A1 B1], (N2 i) as [A2 B2].
  destruct (Z.lt_ge_cases (Z.of_nat i) b).
  - rewrite B2 by lia. split; [exact A1|]. intros. apply B1. lia.
  - rewrite <- B1 by lia. split; [exact A2|]. intros. apply B2. lia.
Qed.
Lemma nudged_wider a b a' b' x y : a' <= a -> b <= b' -> nudged a b x y -> nudged a' b' x y.
Proof. intros H1 H2 [L N]. split; [exact L|]. intros i. destruct (N i). split; [assumption|]. intros; auto with zarith. Qed.

Lemma read_res_bit_post buf x r k nres : rin buf r -> 0 <= k < len x -> 0 <= nres ->
  post (read_res_bit x r buf k nres) (fun '(go, x', n', r') => nudged k (k + 1) x x' /\ 0 <= n' /\ rin buf r').
Proof.
  intros R Hk Hn. unfold read_res_bit. destruct (Z.eqb_spec nres 0).
  - cbn [post]. auto using nudged_refl.
  - eapply post_bind; [apply (read_bool_in _ _ R)|]. intros [b r'] (R' & _).
    rewrite usub_ok by lia. cbn [bind]. destruct b; [|cbn [post]; split; [apply nudged_refl|split; [lia|exact R']]].
    rewrite (idx_nth x k 0) by lia. cbn [bind]. set (v := nth (Z.to_nat k) x 0).
    assert (Hs : forall w, Z.abs w <= Z.abs v + 1 -> exists x', store x k w = Ok x' /\ nudged k (k + 1) x x').
    { intros w Hw. rewrite store_ok by exact Hk. eexists; split; [reflexivity|]. now apply nudged_upd. }
    destruct (Z.ltb_spec 0 v).
    { destruct (Hs (v + 1)) as (x' & -> & N); [lia|]. cbn [bind post]. split; [exact N|split; [lia|exact R']]. }
    destruct (Z.ltb_spec v 0).
    { destruct (Hs (v - 1)) as (x' & -> & N); [lia|]. cbn [bind post]. split; [exact N|split; [lia|exact R']]. }
    destruct (Z.eqb_spec (nres - 1) 0); [cbn [post]; split; [apply nudged_refl|split; [lia|exact R']]|].
    eapply post_bind; [apply (read_bool_in _ _ R')|]. intros [b2 r2] (R2 & _).
    rewrite usub_ok by lia. cbn [bind].
    destruct (Hs (if b2 then -1 else 1)) as (x' & -> & N); [destruct b2; lia|]. cbn [bind post]. split; [exact N|split; [lia|exact R2]].
Qed.

Lemma dec_lsb_bits_post buf lev : forall n k x nres r, rin buf r -> 0 <= k -> k + 2 * Z.of_nat n <= len x -> len x <= len lev -> 0 <= nres ->
  post (dec_lsb_bits n k x lev nres buf r) (fun '(x', r') => nudged k (k + 2 * Z.of_nat n) x x' /\ rin buf r').
Proof.
  induction n; intros k x nres r R Hk Hx Hl Hn; cbn [dec_lsb_bits].
  - cbn [post]. split; [apply nudged_refl|exact R].
  - rewrite (idx_nth lev k 0) by lia. cbn [bind]. destruct (0 <? nth (Z.to_nat k) lev 0).
    + eapply post_bind; [apply read_res_bit_post; auto; lia|]. intros [[[go x'] n'] r'] (N1 & M1 & R1).
      destruct go; cbn [negb]; [|cbn [post]; split; [eapply nudged_wider; [| |exact N1]; lia|exact R1]].
      assert (L1 : len x' = len x) by (unfold len; destruct N1 as [-> _]; reflexivity).
      eapply post_bind; [apply read_res_bit_post; auto; lia|]. intros [[[go x2] n2] r2] (N2 & M2 & R2).
      assert (N12 : nudged k (k + 2) x x2).
      { eapply (nudged_trans k (k + 1) (k + 2)); [lia|lia|exact N1|]. eapply nudged_wider; [| |exact N2]; lia. }
      destruct go; cbn [negb]; [|cbn [post]; split; [eapply nudged_wider; [| |exact N12]; lia|exact R2]].
      assert (L2 : len x2 = len x) by (unfold len; destruct N12 as [-> _]; reflexivity).
      eapply post_mono; [apply IHn; auto; lia|]. intros [x3 r3] (N3 & R3). split; [|exact R3].
      eapply (nudged_trans k (k + 2)); [lia|lia|exact N12|]. eapply nudged_wider; [| |exact N3]; lia.
    + eapply post_mono; [apply IHn; auto; lia|]. intros [x3 r3] (N3 & R3). split; [|exact R3].
      eapply nudged_wider; [| |exact N3]; lia.
Qed.

Definition residual_ok (si : side_info) (ne : Z) (x : list Z) (bs : list bool) (x' : list Z) : Prop :=
  if s_lsb_mode si then bs = [] /\ nudged 0 (s_lastnz si) x x' else x' = x /\ len bs <= nonzero_count (firstn (Z.to_nat ne) x).

Lemma decode_residual_bits_post buf r si st nbits ne x lev : rin buf r -> 8 <= r_tail r -> dwf st ->
  2 <= s_lastnz si <= ne -> Z.even (s_lastnz si) = true -> ne <= 400 -> length x = 400%nat -> length lev = 400%nat ->
  post (decode_residual_bits buf r si st nbits ne x lev) (fun '(bs, x', r') => residual_ok si ne x bs x' /\ rin buf r').
Proof.
  intros R Ht W Hz He Hne Hx Hl. unfold decode_residual_bits, residual_ok.
  eapply post_bind; [eapply calc_num_residual_bits_post; eauto|]. intros nres Hn.
  destruct (s_lsb_mode si); cbn [negb].
  - apply Z.even_spec in He as [h Hh]. rewrite Hh. replace ((2 * h + 1) / 2) with h by dml.
    eapply post_bind; [apply dec_lsb_bits_post; auto; unfold len; lia|]. intros [x' r'] (N & R'). cbn [post].
    split; [|exact R']. split; [reflexivity|]. eapply nudged_wider; [| |exact N]; lia.
  - unfold slice. destruct (Z.ltb_spec 0 0); [lia|]. destruct (Z.ltb_spec ne 0); [lia|]. unfold len at 1.
    destruct (Z.ltb_spec (Z.of_nat (length x)) ne); [lia|]. cbn [orb bind].
    eapply post_bind; [apply dec_res_bits_post; [lia|exact R]|]. intros [bs r'] (Q1 & Q2). cbn [post]. split; [|exact Q2].
    split; [reflexivity|]. replace (ne - 0) with ne in Q1 by lia. exact Q1.
Qed.

(* ---- side information ---- *)

Record side_wf (c : config) (si : side_info) : Prop := mkSideWf {
  sw_bw : 0 <= s_bw si <= fs_ind c;
  sw_lastnz : 2 <= s_lastnz si <= ne c;
  sw_even : Z.even (s_lastnz si) = true;
  sw_gg : 0 <= s_gg si < 256;
  sw_num : s_num_tns si = if s_bw si <? 3 then 1 else 2;
  sw_flags : len (s_rc_order si) = 2 /\ Forall flag01 (s_rc_order si);
  sw_sns : sns_legal (s_sns si);
  sw_pitch : 0 <= l_pitch (s_ltpf si) < 512;
  sw_ltpf : l_active (s_ltpf si) = true -> l_present (s_ltpf si) = true;
  sw_nf : 0 <= s_nf si < 8
}.

Lemma log2_up_range n : 30 <= n <= 200 -> 5 <= log2_ceil n <= 8.
Proof.
  intros H. unfold log2_ceil. split.
  - change 5 with (Z.log2_up 30). apply Z.log2_up_le_mono. lia.
  - change 8 with (Z.log2_up 200). apply Z.log2_up_le_mono. lia.
Qed.

Lemma read_flags_post buf n : forall r, 0 <= r_head r -> 0 <= r_tail r -> r_tail r + Z.of_nat n <= 8 * len buf ->
  post (read_flags n buf r) (fun '(l, r') => length l = n /\ Forall flag01 l /\ r_head r' = r_head r /\ r_tail r' = r_tail r + Z.of_nat n).
Proof.
  induction n; intros r Hh Ht Hl; cbn [read_flags].
  - cbn [post]. split; [reflexivity|]. split; [constructor|]. lia.
  - eapply post_bind; [apply read_tail_bool_post; lia|]. intros [b r'] (A & B & C).
    eapply post_bind; [apply IHn; lia|]. intros [l r2] (D & E & F & G). cbn [post].
    split; [cbn [length]; lia|]. split; [|lia]. constructor; [|exact E]. unfold flag01, b2z. destruct b; auto.
Qed.

Lemma land1_range x : 0 <= Z.land x 1 <= 1.
Proof. change 1 with (Z.ones 1) at 1 2. rewrite Z.land_ones by lia. pose proof (Z.mod_pos_bound x (2 ^ 1)). change (2 ^ 1) with 2 in *. lia. Qed.

Lemma read_sns_vq_post buf r : 0 <= r_head r -> 0 <= r_tail r -> r_tail r + 14 <= 8 * len buf ->
  post (read_sns_vq buf r) (fun '(q, r') => sns_legal q /\ r_head r' = r_head r /\ r_tail r' = r_tail r + 38).
Proof.
  intros Hh Ht Hl. unfold read_sns_vq.
  eapply post_bind; [apply read_tail_usize_post; lia|]. intros [lf r1] (V1 & A1 & B1 & _). change (2 ^ 5) with 32 in V1.
  eapply post_bind; [apply read_tail_usize_post; lia|]. intros [hf r2] (V2 & A2 & B2 & _). change (2 ^ 5) with 32 in V2.
  eapply post_bind; [apply read_tail_bool_post; lia|]. intros [msb r3] (A3 & B3 & _).
  eapply (post_bind _ _ (fun '(g, r') => 0 <= g < (if msb then 4 else 2) /\ r_head r' = r_head r /\ r_tail r' = r_tail r3 + (if msb then 2 else 1))).
  { destruct msb; cbn [negb]; (eapply post_mono; [apply read_tail_usize_post; lia|]); intros [g r'] (V & A & B & _);
      [change (2 ^ 2) with 4 in V|change (2 ^ 1) with 2 in V]; lia. }
  intros [g r4] (V4 & A4 & B4).
  eapply post_bind; [apply read_tail_bool_post; destruct msb; lia|]. intros [inda r5] (A5 & B5 & _).
  assert (Hi : b2z inda = 0 \/ b2z inda = 1) by (unfold b2z; destruct inda; auto).
  destruct msb; cbn [negb].
  - eapply post_bind; [apply read_tail_usize_post; lia|]. intros [tmp r6] (V6 & A6 & B6 & _).
    destruct (Z.leb_spec 16708096 tmp); [exact I|]. destruct (Z.leb_spec 15158272 tmp); cbn [post]; (split; [|lia]).
    + constructor; cbn [q_ind_lf q_ind_hf q_ls_inda q_ls_indb q_idx_a q_idx_b q_submode_lsb q_submode_msb q_g_ind]; auto.
      right; right; right. rewrite Z.shiftl_mul_pow2, Z.shiftr_div_pow2 by lia. change (2 ^ 1) with 2.
      pose proof (land1_range (tmp - 15158272)). repeat split; try lia; dml.
    + constructor; cbn [q_ind_lf q_ind_hf q_ls_inda q_ls_indb q_idx_a q_idx_b q_submode_lsb q_submode_msb q_g_ind]; auto.
      right; right; left. repeat split; lia.
  - eapply post_bind; [apply read_tail_usize_post; lia|]. intros [tmp r6] (V6 & A6 & B6 & _).
    destruct (Z.leb_spec 33460056 tmp); [exact I|].
    set (q := tmp / 2390004). assert (Hq : 0 <= q <= 13 /\ 2390004 * q <= tmp < 2390004 * q + 2390004) by (unfold q; dml).
    rewrite usub_ok by lia. cbn [bind].
    destruct (Z.ltb_spec (q - 2) 0); cbn [Z.eqb post]; (split; [|lia]).
    + constructor; cbn [q_ind_lf q_ind_hf q_ls_inda q_ls_indb q_idx_a q_idx_b q_submode_lsb q_submode_msb q_g_ind]; auto.
      right; left. rewrite Z.shiftl_mul_pow2 by lia. change (2 ^ 1) with 2. repeat split; lia.
    + constructor; cbn [q_ind_lf q_ind_hf q_ls_inda q_ls_indb q_idx_a q_idx_b q_submode_lsb q_submode_msb q_g_ind]; auto.
      left. rewrite Z.shiftr_div_pow2 by lia. change (2 ^ 1) with 2. pose proof (land1_range (q - 2 + 0 * 2)). repeat split; try lia; dml.
Qed.

Lemma read_side_info_post c buf : 8 <= len buf -> 0 <= fs_ind c <= 4 -> 60 <= ne c <= 400 ->
  post (read_side_info buf reader_new (fs_ind c) (ne c))
    (fun '(si, r) => side_wf c si /\ r_head r = 0 /\ 8 <= r_tail r <= 8 * len buf).
Proof.
  intros Hl Hfs Hne. unfold read_side_info.
  assert (Hnb : exists n, idx NBITS_BW_TABLE (fs_ind c) = Ok n /\ 0 <= n <= 3).
  { assert (fs_ind c = 0 \/ fs_ind c = 1 \/ fs_ind c = 2 \/ fs_ind c = 3 \/ fs_ind c = 4) as H by lia.
    destruct H as [H|[H|[H|[H|H]]]]; rewrite H; eexists; (split; [vm_compute; reflexivity|lia]). }
  destruct Hnb as (nbw & -> & Hnbw). cbn [bind].
  eapply (post_bind _ _ (fun '(b, r') => 0 <= b <= fs_ind c /\ r_head r' = 0 /\ r_tail r' = nbw)).
  { destruct (Z.ltb_spec 0 nbw).
    - eapply post_bind; [apply read_tail_usize_post; cbn [r_head r_tail reader_new]; lia|]. intros [i r] (V & A & B & _).
      cbn [r_head r_tail reader_new] in *. destruct (Z.ltb_spec (fs_ind c) i); [exact I|]. cbn [post]. lia.
    - cbn [post r_head r_tail reader_new]. lia. }
  intros [bw r1] (Vb & A1 & B1).
  pose proof (log2_up_range (ne c / 2) ltac:(dml)) as Hlg.
  eapply post_bind; [apply read_tail_usize_post; lia|]. intros [lnz r2] (V2 & A2 & B2 & _).
  rewrite Z.shiftl_mul_pow2 by lia. change (2 ^ 1) with 2.
  destruct (Z.ltb_spec (ne c) ((lnz + 1) * 2)); [exact I|].
  eapply post_bind; [apply read_tail_bool_post; lia|]. intros [lsb r3] (A3 & B3 & _).
  eapply post_bind; [apply read_tail_usize_post; lia|]. intros [gg r4] (V4 & A4 & B4 & _). change (2 ^ 8) with 256 in V4.
  set (nt := if bw <? 3 then 1 else 2).
  assert (Hnt : 1 <= nt <= 2) by (unfold nt; destruct (_ <? _); lia).
  eapply post_bind; [apply read_flags_post; lia|]. intros [fl r5] (L5 & F5 & A5 & B5).
  eapply post_bind; [apply read_tail_bool_post; lia|]. intros [pp r6] (A6 & B6 & _).
  eapply post_bind; [apply read_sns_vq_post; lia|]. intros [q r7] (Q & A7 & B7).
  eapply (post_bind _ _ (fun '(l, r') => 0 <= l_pitch l < 512 /\ (l_active l = true -> l_present l = true) /\ r_head r' = 0 /\ r_tail r7 <= r_tail r')).
  { unfold read_ltpf. destruct pp.
    - eapply post_bind; [apply read_tail_bool_post; lia|]. intros [a r8] (A8 & B8 & _).
      eapply post_bind; [apply read_tail_usize_post; lia|]. intros [pt r9] (V9 & A9 & B9 & _). change (2 ^ 9) with 512 in V9.
      cbn [post l_pitch l_present l_active]. split; [lia|]. split; [reflexivity|]. lia.
    - cbn [post l_pitch l_present l_active]. split; [lia|]. split; [auto|]. lia. }
  intros [l r8] (P8 & X8 & A8 & B8).
  eapply post_bind; [apply read_tail_usize_post; lia|]. intros [nf0 r9] (V9 & A9 & B9 & C9). change (2 ^ 3) with 8 in V9. specialize (C9 ltac:(lia)).
  destruct (Z.ltb_spec 4 bw); [lia|]. cbn [post].
  split; [|lia]. constructor; cbn [s_bw s_lastnz s_gg s_num_tns s_rc_order s_sns s_ltpf s_nf]; auto; try lia.
  - rewrite Z.even_mul. apply orb_true_r.
  - split.
    + rewrite len_app, len_repeat. unfold len. lia.
    + apply Forall_app. split; [exact F5|]. apply Forall_forall. intros x Hx. apply repeat_spec in Hx. subst. left; reflexivity.
Qed.

(* ---- seed ---- *)

Lemma weighted_sum_nudge l l' : length l' = length l -> (forall i, Z.abs (nth i l' 0) <= Z.abs (nth i l 0) + 1) -> forall k, 0 <= k ->
  weighted_sum l' k <= weighted_sum l k + weighted_sum (repeat 1 (length l)) k.
Proof.
  revert l'. induction l as [|x l IH]; intros l' HL HN k Hk; (destruct l' as [|x' l']; [try discriminate HL|try discriminate HL]); cbn [weighted_sum length repeat] in *; [lia|].
  assert (H0 := HN 0%nat). cbn [nth] in H0. specialize (IH l' ltac:(lia) (fun i => HN (S i)) (k + 1) ltac:(lia)). nia.
Qed.

Lemma nth_firstn_d {A} (l : list A) n i d : nth i (firstn n l) d = if Nat.ltb i n then nth i l d else d.
Proof.
  revert l i. induction n; intros l i; [destruct i; reflexivity|]. destruct l as [|h t], i; cbn [firstn nth]; try reflexivity.
  - destruct (Nat.ltb _ _); reflexivity.
  - rewrite IHn. reflexivity.
Qed.

(* ---- the whole frame ---- *)

Record frame_wf (c : config) (L : Z) (f : frame) : Prop := mkFrameWf {
  fw_side : side_wf c (f_side f);
  fw_len : len (f_spec f) = MAX_LEN_SPECTRAL;
  fw_zero : forall i, (Z.to_nat (s_lastnz (f_side f)) <= i)%nat -> nth i (f_spec f) 0 = 0;
  fw_mag : Forall (fun v => Z.abs v <= LINE_MAX + 1) (f_spec f);
  fw_order : len (a_rc_order (f_arith f)) = 2 /\ Forall in_0_8 (a_rc_order (f_arith f));
  fw_idx : len (a_rc_i (f_arith f)) = 16 /\ Forall in_0_16 (a_rc_i (f_arith f));
  fw_res : if s_lsb_mode (f_side f) then a_residual (f_arith f) = []
           else len (a_residual (f_arith f)) <= nonzero_count (firstn (Z.to_nat (ne c)) (f_spec f));
  fw_seed : a_seed (f_arith f) = spec_seed (firstn (Z.to_nat (ne c)) (f_spec f));
  fw_nbits : a_nbits (f_arith f) = 8 * L;
  fw_zero_frame : a_zero_frame (f_arith f) = true <->
    s_lastnz (f_side f) = 2 /\ (forall i, nth i (f_spec f) 0 = 0) /\ s_gg (f_side f) = 0
}.

Lemma nudged_spectrum z x x' : spectrum_ok z x -> nudged 0 z x x' -> 0 <= z ->
  length x' = 400%nat /\ (forall i, (Z.to_nat z <= i)%nat -> nth i x' 0 = 0) /\ Forall (fun v => Z.abs v <= LINE_MAX + 1) x'.
Proof.
  intros (S1 & S2 & S3) [N1 N2] Hz. split; [congruence|]. split.
  - intros i Hi. destruct (N2 i) as [_ ->]; [auto|lia].
  - apply Forall_forall. intros v Hv. apply (In_nth _ _ 0) in Hv as (i & Hi & <-).
    destruct (N2 i) as [N _]. assert (Z.abs (nth i x 0) <= LINE_MAX); [|lia].
    rewrite Forall_forall in S2. apply S2. apply nth_In. lia.
Qed.

Lemma sum_abs_ones n : sum_abs (repeat 1 n) = Z.of_nat n.
Proof. unfold sum_abs. induction n; cbn [repeat fold_right]; [reflexivity|]. rewrite IHn. lia. Qed.

Lemma weighted_nonneg_firstn l n : weighted_sum (firstn n l) 0 <= weighted_sum l 0.
Proof.
  rewrite <- (firstn_skipn n l) at 2. rewrite weighted_app.
  pose proof (weighted_nonneg (skipn n l) (0 + len (firstn n l)) ltac:(pose proof (len_nonneg (firstn n l)); lia)). lia.
Qed.

Lemma seed_bound x x' n z : length x = 400%nat -> nudged 0 z x x' -> sum_fits x -> (n <= 400)%nat ->
  weighted_sum (firstn n x') 0 <= i32_max.
Proof.
  intros Hx [N1 N2] HS Hn.
  assert (HN : forall i, Z.abs (nth i (firstn n x') 0) <= Z.abs (nth i (firstn n x) 0) + 1).
  { intros i. rewrite !nth_firstn_d. destruct (Nat.ltb i n); [apply N2|lia]. }
  assert (HL : length (firstn n x') = length (firstn n x)) by (rewrite !firstn_length; lia).
  pose proof (weighted_sum_nudge _ _ HL HN 0 ltac:(lia)) as WN.
  assert (HL2 : length (firstn n x) = n) by (rewrite firstn_length; lia). rewrite HL2 in WN.
  pose proof (weighted_nonneg_firstn x n) as WB.
  pose proof (weighted_sum_bound 399 (repeat 1 n) 0 ltac:(lia) ltac:(rewrite len_repeat; lia)) as W2.
  rewrite sum_abs_ones in W2. unfold sum_fits in HS. clear HN N2 HL HL2 N1. lia.
Qed.

Lemma decode_arith_post chk c buf r si : bytes buf -> side_wf c si -> 0 <= fs_ind c <= 4 -> 60 <= ne c <= 320 \/ ne c = 400 ->
  r_head r = 0 -> 8 <= r_tail r <= 8 * len buf -> (chk = true -> len buf <= SAFE_LEN) ->
  post (decode_arith chk buf r (fs_ind c) (ne c) si (n_ms c))
    (fun '(a, x, _) => frame_wf c (len buf) (mkFrame si a x)).
Proof.
  intros Hb SW Hfs Hne Hh Ht Hchk. unfold decode_arith.
  pose proof (sw_lastnz _ _ SW) as Hz. pose proof (sw_even _ _ SW) as He. destruct (sw_flags _ _ SW) as [Hfl1 Hfl2].
  eapply post_bind; [apply ac_dec_init_post; [exact Hb|lia]|]. intros [st1 r1] (W1 & A1 & B1 & I1).
  eapply post_bind; [apply decode_tns_data_post; auto; [unfold rok; lia|rewrite (sw_num _ _ SW); destruct (_ <? _); lia]|].
  intros [[[tidx tord] st2] r2] (O1 & O2 & T1 & T2 & W2 & [A2 B2] & I2).
  specialize (I2 0 ltac:(lia) (I1 Hh)).
  assert (R2 : rin buf r2) by (unfold rin, rok; lia).
  eapply post_bind; [apply decode_spectral_data_post; auto; lia|]. intros [[[x lev] st3] r3] (SO & L3 & W3 & R3 & B3 & P3).
  pose proof SO as (X1 & X2 & X3).
  eapply post_bind; [apply decode_residual_bits_post; eauto; lia|]. intros [[bs x'] r4] (RO & R4).
  assert (N : nudged 0 (s_lastnz si) x x').
  { unfold residual_ok in RO. destruct (s_lsb_mode si); destruct RO as [Q1 Q2]; [exact Q2|subst x'; apply nudged_refl]. }
  destruct (nudged_spectrum _ _ _ SO N ltac:(lia)) as (Y1 & Y2 & Y3).
  unfold slice. destruct (Z.ltb_spec 0 0); [lia|]. destruct (Z.ltb_spec (ne c) 0); [lia|]. 
  destruct (Z.ltb_spec (len x') (ne c)); [unfold len in *; lia|]. cbn [orb bind].
  replace (ne c - 0) with (ne c) by lia. change (skipn (Z.to_nat 0) x') with x'.
  set (xs := firstn (Z.to_nat (ne c)) x').
  rewrite (seed_sum_ok chk xs 0 0); [|lia|lia|].
  2:{ intros Hc. rewrite Z.add_0_l. apply (seed_bound x x' (Z.to_nat (ne c)) (s_lastnz si)); auto; clear - Hne; lia. }
  cbn [bind]. rewrite (idx_nth x' 0 0), (idx_nth x' 1 0) by (unfold len; lia). cbn [bind post].
  constructor; cbn [f_side f_arith f_spec a_rc_order a_rc_i a_residual a_seed a_zero_frame a_nbits]; auto.
  - unfold len, MAX_LEN_SPECTRAL. lia.
  - unfold residual_ok in RO. destruct (s_lsb_mode si); destruct RO as [Q1 Q2]; [exact Q1|]. now subst x'.
  - change 65535 with (Z.ones 16). rewrite Z.land_ones by lia. unfold spec_seed. now rewrite Z.add_0_l.
  - lia.
  - rewrite !andb_true_iff, !Z.eqb_eq. change (Z.to_nat 0) with 0%nat. change (Z.to_nat 1) with 1%nat. split.
    + intros (((E1 & E2) & E3) & E4). split; [exact E1|]. split; [|exact E4].
      intros [|[|i]]; auto. apply Y2. rewrite E1. change (Z.to_nat 2) with 2%nat. lia.
    + intros (E1 & E2 & E3). auto.
Qed.

Theorem read_frame_post chk c buf : bytes buf -> 8 <= len buf -> 0 <= fs_ind c <= 4 -> 60 <= ne c <= 320 \/ ne c = 400 ->
  (chk = true -> len buf <= SAFE_LEN) ->
  post (read_frame chk c buf) (frame_wf c (len buf)).
Proof.
  intros Hb Hl Hfs Hne Hchk. unfold read_frame.
  eapply post_bind; [apply read_side_info_post; auto; lia|]. intros [si r] (SW & A & B).
  eapply post_bind; [apply decode_arith_post; auto|]. intros [[a x] r'] F. exact F.
Qed.

Lemma legal_config_ranges c : legal_config c -> 0 <= fs_ind c <= 4 /\ (60 <= ne c <= 320 \/ ne c = 400).
Proof. intros (f & d & ->). destruct f, d; cbn -[Z.le]; lia. Qed.

(* ---- an accepted frame has at least 8 bytes ---- *)

Lemma bind_ok {A B} (m : res A) (k : A -> res B) b : bind m k = Ok b -> exists a, m = Ok a /\ k a = Ok b.
Proof. destruct m; cbn [bind]; intros H; try discriminate H. eauto. Qed.

Lemma read_tail_usize_inv r buf n v r' : read_tail_usize r buf n = Ok (v, r') -> r_tail r' = r_tail r + n /\ r_head r' = r_head r /\
  (n = 3 -> r_tail r' <= 8 * (len buf - r_head r)).
Proof.
  unfold read_tail_usize. destruct (Z.ltb_spec (len buf - r_head r - r_tail r / 8 - (n / 8 + (if (8 - r_tail r mod 8 <? n) && (n <? 8) then 2 else 1))) 0); [discriminate|].
  intros H0. apply bind_ok in H0 as (f0 & _ & H0). apply bind_ok in H0 as (f1 & _ & H0). apply bind_ok in H0 as (f2 & _ & H0).
  apply bind_ok in H0 as (f3 & _ & H0). apply bind_ok in H0 as (f4 & _ & H0). destruct (32 <=? f4); [discriminate H0|]. destruct (32 <=? _); [discriminate H0|].
  apply Ok_inj in H0. injection H0 as _ <-. cbn [r_tail r_head]. split; [reflexivity|]. split; [reflexivity|]. intros ->.
  change (3 <? 8) with true in *. rewrite andb_true_r in *. change (3 / 8) with 0 in *. destruct (Z.ltb_spec (8 - r_tail r mod 8) 3); dml.
Qed.
Lemma read_tail_bool_inv r buf v r' : read_tail_bool r buf = Ok (v, r') -> r_tail r' = r_tail r + 1 /\ r_head r' = r_head r.
Proof.
  unfold read_tail_bool. destruct (_ <? 0); [discriminate|]. intros H0.
  apply bind_ok in H0 as (f0 & _ & H0). apply bind_ok in H0 as (f1 & _ & H0). apply bind_ok in H0 as (f2 & _ & H0).
  apply Ok_inj in H0. injection H0 as _ <-. cbn [r_tail r_head]. auto.
Qed.
Lemma read_flags_inv n buf : forall r v r', read_flags n buf r = Ok (v, r') -> r_tail r' = r_tail r + Z.of_nat n /\ r_head r' = r_head r.
Proof.
  induction n; intros r v r' H; cbn [read_flags] in H; [apply Ok_inj in H; injection H as _ <-; split; [cbn; lia|reflexivity]|].
  apply bind_ok in H as ([b r1] & H1 & H). apply bind_ok in H as ([bs r2] & H2 & H). apply Ok_inj in H. injection H as _ <-.
  apply read_tail_bool_inv in H1. apply IHn in H2. destruct H1 as [? E1], H2 as [? E2]. split; [lia|congruence].
Qed.
Lemma read_sns_vq_inv buf r v r' : read_sns_vq buf r = Ok (v, r') -> r_tail r' = r_tail r + 38 /\ r_head r' = r_head r.
Proof.
  unfold read_sns_vq. intros H.
  apply bind_ok in H as ([a1 r1] & H1 & H). apply bind_ok in H as ([a2 r2] & H2 & H). apply bind_ok in H as ([a3 r3] & H3 & H).
  apply bind_ok in H as ([a4 r4] & H4 & H). apply bind_ok in H as ([a5 r5] & H5 & H).
  apply read_tail_usize_inv in H1, H2. apply read_tail_bool_inv in H3, H5.
  destruct a3; cbn [negb] in H, H4; apply read_tail_usize_inv in H4; apply bind_ok in H as ([a6 r6] & H6 & H); apply read_tail_usize_inv in H6.
  - destruct (_ <=? a6); [discriminate H|]. destruct (_ <=? a6); apply Ok_inj in H; injection H as _ <-; repeat match goal with X : _ /\ _ |- _ => destruct X end; (split; [lia|congruence]).
  - destruct (_ <=? a6); [discriminate H|]. cbn zeta in H. apply bind_ok in H as (ia & _ & H).
    destruct ((if _ <? 0 then 1 else 0) =? 0); apply Ok_inj in H; injection H as _ <-; repeat match goal with X : _ /\ _ |- _ => destruct X end; (split; [lia|congruence]).
Qed.

Lemma read_side_info_inv buf r fs ne si r' : 32 <= ne / 2 + 2 -> 0 <= r_tail r ->
  read_side_info buf r fs ne = Ok (si, r') -> r_tail r + 57 <= 8 * (len buf - r_head r).
Proof.
  intros Hne Ht H. unfold read_side_info in H.
  apply bind_ok in H as (nb & H0 & H). apply bind_ok in H as ([bw r1] & H1 & H).
  assert (T1 : r_tail r <= r_tail r1 /\ r_head r1 = r_head r).
  { destruct (Z.ltb_spec 0 nb).
    - apply bind_ok in H1 as ([i r0] & H1 & K2). destruct (fs <? i); [discriminate K2|]. apply Ok_inj in K2. injection K2 as _ <-.
      apply read_tail_usize_inv in H1. split; [lia|tauto].
    - apply Ok_inj in H1. injection H1 as _ <-. split; [lia|reflexivity]. }
  apply bind_ok in H as ([lnz r2] & H2 & H). apply read_tail_usize_inv in H2.
  assert (HL : 5 <= log2_ceil (ne / 2)).
  { unfold log2_ceil. change 5 with (Z.log2_up 30). apply Z.log2_up_le_mono. lia. }
  cbn zeta in H. destruct (ne <? _); [discriminate H|].
  apply bind_ok in H as ([a3 r3] & H3 & H). apply bind_ok in H as ([a4 r4] & H4 & H). apply bind_ok in H as ([a5 r5] & H5 & H).
  apply bind_ok in H as ([a6 r6] & H6 & H). apply bind_ok in H as ([a7 r7] & H7 & H). apply bind_ok in H as ([a8 r8] & H8 & H).
  apply bind_ok in H as ([a9 r9] & H9 & _).
  apply read_tail_bool_inv in H3, H6. apply read_tail_usize_inv in H4, H9. apply read_flags_inv in H5. apply read_sns_vq_inv in H7.
  assert (T8 : r_tail r7 <= r_tail r8 /\ r_head r8 = r_head r7).
  { unfold read_ltpf in H8. destruct a6.
    - apply bind_ok in H8 as ([b1 q1] & J1 & H8). apply bind_ok in H8 as ([b2 q2] & J2 & H8). apply Ok_inj in H8. injection H8 as _ <-.
      apply read_tail_bool_inv in J1. apply read_tail_usize_inv in J2. split; [lia|]. destruct J1, J2 as (? & ? & ?). congruence.
    - apply Ok_inj in H8. injection H8 as _ <-. split; [lia|reflexivity]. }
  assert (1 <= Z.of_nat (Z.to_nat (if bw <? 3 then 1 else 2))) by (destruct (bw <? 3); cbn; lia).
  assert (r_head r8 = r_head r).
  { destruct T8 as [_ ->], H7 as [_ ->], H6 as [_ ->], H5 as [_ ->], H4 as (_ & -> & _), H3 as [_ ->], H2 as (_ & -> & _), T1 as [_ ->]. reflexivity. }
  destruct H9 as (E9 & _ & B9). specialize (B9 eq_refl). lia.
Qed.

Lemma read_frame_len chk c buf f : legal_config c -> read_frame chk c buf = Ok f -> 8 <= len buf.
Proof.
  intros Hc H. apply legal_config_ranges in Hc as [_ Hne]. unfold read_frame in H. apply bind_ok in H as ([si r] & H & _).
  apply read_side_info_inv in H; [|dml|cbn; lia]. cbn [r_tail r_head reader_new] in H. lia.
Qed.

(* ---- the overflow check only matters for the verdict, not for the value ---- *)
Lemma seed_sum_unchecked l : forall k acc v, seed_sum true l k acc = Ok v -> seed_sum false l k acc = Ok v.
Proof.
  induction l as [|x l IH]; intros k acc v H; cbn [seed_sum] in *; [exact H|]. cbn [andb].
  destruct (true && _); [discriminate H|]. now apply IH.
Qed.
Lemma read_frame_unchecked c buf f : read_frame true c buf = Ok f -> read_frame false c buf = Ok f.
Proof.
  unfold read_frame, decode_arith. intros H.
  apply bind_ok in H as ([si r] & -> & H). cbn [bind]. apply bind_ok in H as ([[a x] r'] & H1 & H).
  apply bind_ok in H1 as ([st r1] & -> & H1). cbn [bind]. apply bind_ok in H1 as ([[[tidx tord] st2] r2] & -> & H1). cbn [bind].
  apply bind_ok in H1 as ([[[y lev] st3] r3] & -> & H1). cbn [bind]. apply bind_ok in H1 as ([[bs y'] r4] & -> & H1). cbn [bind].
  apply bind_ok in H1 as (xs & -> & H1). cbn [bind]. apply bind_ok in H1 as (sm & Hs & H1).
  apply seed_sum_unchecked in Hs. rewrite Hs. cbn [bind] in *. rewrite H1. cbn [bind]. exact H.
Qed.

Theorem read_frame_wf chk c buf f : legal_config c -> bytes buf -> read_frame chk c buf = Ok f -> frame_wf c (len buf) f.
Proof.
  intros Hc Hb H. pose proof (read_frame_len _ _ _ _ Hc H) as HL. destruct (legal_config_ranges _ Hc) as [R1 R2].
  assert (H' : read_frame false c buf = Ok f) by (destruct chk; [now apply read_frame_unchecked|exact H]).
  pose proof (read_frame_post false c buf Hb HL R1 R2 ltac:(discriminate)) as P. rewrite H' in P. exact P.
Qed.

Theorem read_frame_total chk c buf : legal_config c -> bytes buf -> 8 <= len buf -> (chk = true -> len buf <= SAFE_LEN) -> read_frame chk c buf <> Panic.
Proof.
  intros Hc Hb HL Hk HP. destruct (legal_config_ranges _ Hc) as [R1 R2].
  pose proof (read_frame_post chk c buf Hb HL R1 R2 Hk) as P. rewrite HP in P. exact P.
Qed.

Lemma seed_sum_chk l : forall k acc, seed_sum true l k acc = Panic \/ seed_sum true l k acc = seed_sum false l k acc.
Proof.
  induction l as [|x l IH]; intros k acc; cbn [seed_sum]; [now right|]. cbn [andb]. destruct (_ || _); [now left|]. apply IH.
Qed.
Lemma read_frame_chk c buf : read_frame true c buf = Panic \/ read_frame true c buf = read_frame false c buf.
Proof.
  unfold read_frame, decode_arith.
  destruct (read_side_info _ _ _ _) as [[si r]| |]; cbn [bind]; auto.
  destruct (ac_dec_init _ _) as [[st r1]| |]; cbn [bind]; auto.
  destruct (decode_tns_data _ _ _ _ _ _) as [[[[tidx tord] st2] r2]| |]; cbn [bind]; auto.
  destruct (decode_spectral_data _ _ _ _ _ _ _) as [[[[y lev] st3] r3]| |]; cbn [bind]; auto.
  destruct (decode_residual_bits _ _ _ _ _ _ _ _) as [[[bs y'] r4]| |]; cbn [bind]; auto.
  destruct (slice y' 0 (ne c)) as [xs| |]; cbn [bind]; auto.
  destruct (seed_sum_chk xs 0 0) as [H|H]; rewrite H; cbn [bind]; auto.
Qed.
Lemma seed_sum_bound l : forall k acc v, 0 <= k -> 0 <= acc <= i32_max -> seed_sum true l k acc = Ok v -> acc + weighted_sum l k <= i32_max.
Proof.
  induction l as [|x l IH]; intros k acc v Hk Ha H; cbn [seed_sum weighted_sum] in *; [lia|]. cbn [andb] in H.
  destruct (Z.ltb_spec i32_max (Z.abs x * k)); [discriminate H|]. destruct (Z.ltb_spec i32_max (acc + Z.abs x * k)); [discriminate H|].
  cbn [orb] in H. apply IH in H; [lia|lia|nia].
Qed.
Lemma read_frame_sum c buf f : read_frame true c buf = Ok f -> weighted_sum (firstn (Z.to_nat (ne c)) (f_spec f)) 0 <= i32_max.
Proof.
  unfold read_frame, decode_arith. intros H.
  apply bind_ok in H as ([si r] & _ & H). apply bind_ok in H as ([[a x] r'] & H1 & H). apply Ok_inj in H. subst f. cbn [f_spec].
  apply bind_ok in H1 as ([st r1] & _ & H1). apply bind_ok in H1 as ([[[tidx tord] st2] r2] & _ & H1).
  apply bind_ok in H1 as ([[[y lev] st3] r3] & _ & H1). apply bind_ok in H1 as ([[bs y'] r4] & _ & H1).
  apply bind_ok in H1 as (xs & Hx & H1). apply bind_ok in H1 as (sm & Hs & H1).
  apply bind_ok in H1 as (x0 & _ & H1). apply bind_ok in H1 as (x1 & _ & H1). apply Ok_inj in H1. injection H1 as _ <- _.
  unfold slice in Hx. destruct (_ || _); [discriminate Hx|]. apply Ok_inj in Hx. rewrite Z.sub_0_r in Hx. change (skipn (Z.to_nat 0) y') with y' in Hx.
  subst xs. apply seed_sum_bound in Hs; [lia|lia|unfold i32_max; lia].
Qed.

Theorem read_frame_safe_len c buf f : legal_config c -> bytes buf -> len buf <= SAFE_LEN -> read_frame false c buf = Ok f ->
  read_frame true c buf = Ok f /\ weighted_sum (firstn (Z.to_nat (ne c)) (f_spec f)) 0 <= i32_max.
Proof.
  intros Hc Hb HS H. pose proof (read_frame_len _ _ _ _ Hc H) as HL.
  assert (H' : read_frame true c buf = Ok f).
  { destruct (read_frame_chk c buf) as [P|P]; [|congruence]. exfalso. revert P. now apply read_frame_total. }
  split; [exact H'|now apply read_frame_sum in H'].
Qed.
