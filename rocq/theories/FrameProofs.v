(* Round trip of a whole frame. *)
From Coq Require Import ZArith List Bool Lia ZifyBool.
From Verif Require Import Base Config Writer Reader AcEnc AcDec AcSpec AcSpecProofs BufLemmas AcEncProofs AcDecProofs AcStreamProofs SideInfo ArithDec FrameDec
  TablesSpec TablesTns TablesProofs TailSpec TailProofs FrameEnc PayloadSpec Events EncPayload EncFrame FrameSpec DecSide DecPayload.
Import ListNotations.
Local Open Scope Z_scope.

Lemma weighted_nonneg l : forall k, 0 <= k -> 0 <= weighted_sum l k.
Proof. induction l as [|x l IH]; intros k Hk; cbn [weighted_sum]; [lia|]. specialize (IH (k + 1) ltac:(lia)). nia. Qed.

Lemma seed_sum_ok chk l : forall k acc, 0 <= k -> 0 <= acc -> (chk = true -> acc + weighted_sum l k <= i32_max) ->
  seed_sum chk l k acc = Ok (acc + weighted_sum l k).
Proof.
  induction l as [|x l IH]; intros k acc Hk Ha H; cbn [seed_sum weighted_sum] in *; [now rewrite Z.add_0_r|].
  pose proof (weighted_nonneg l (k + 1) ltac:(lia)).
  replace (chk && ((i32_max <? Z.abs x * k) || (i32_max <? acc + Z.abs x * k))) with false.
  - rewrite IH; [f_equal; lia|lia|nia|]. intros Hc. specialize (H Hc). lia.
  - destruct chk; [|reflexivity]. specialize (H eq_refl). cbn [andb]. symmetry. apply orb_false_iff.
    split; apply Z.ltb_ge; nia.
Qed.

Lemma land_65535 x : Z.land x 65535 = x mod 65536.
Proof. change 65535 with (Z.ones 16). now rewrite Z.land_ones. Qed.

Lemma rate_flag_cases nbits fs : rate_flag nbits fs = 0 \/ rate_flag nbits fs = 512.
Proof. unfold rate_flag. destruct (_ <? _); auto. Qed.
Lemma tns_weighting_range d n : 0 <= tns_weighting d n < 2.
Proof. unfold tns_weighting. pose proof (b2z_range (n <? match d with SevenPointFiveMs => 360 | TenMs => 480 end)). lia. Qed.

Lemma shape_range q : sns_legal q -> 0 <= 2 * q_submode_msb q + q_submode_lsb q < 4.
Proof. intros [_ _ _ H]. lia. Qed.

Lemma nbits_bw_nonneg c p q : side_legal c p q -> 0 <= p_nbits_bw p.
Proof.
  intros H. rewrite (le_nbw _ _ _ H). pose proof (le_fs _ _ _ H).
  assert (fs_ind c = 0 \/ fs_ind c = 1 \/ fs_ind c = 2 \/ fs_ind c = 3 \/ fs_ind c = 4) as Hcs by lia.
  destruct Hcs as [E|[E|[E|[E|E]]]]; rewrite E; vm_compute; discriminate.
Qed.

Lemma legal_writer c L p q : frame_legal c L p q -> writer_params_ok p.
Proof.
  intros H. pose proof (fl_side _ _ _ _ H) as S. constructor.
  - rewrite (le_shape _ _ _ S). apply shape_range. apply (le_sns _ _ _ S).
  - apply (le_lastnz _ _ _ S).
  - apply (le_even _ _ _ S).
  - rewrite (le_num _ _ _ S). destruct (p_bw p <? 3); lia.
  - eapply nbits_bw_nonneg; eauto.
  - apply (fl_tns _ _ _ _ H).
  - rewrite (fl_w _ _ _ _ H). apply tns_weighting_range.
  - rewrite (fl_rate _ _ _ _ H). apply rate_flag_cases.
  - apply (fl_len _ _ _ _ H).
  - intros i Hi. pose proof (fl_mag _ _ _ _ H i Hi). lia.
  - apply (fl_nlsb _ _ _ _ H).
  - apply (fl_lsbs _ _ _ _ H).
Qed.

Lemma list16 (a b : list Z) : length a = 16%nat -> length b = 16%nat -> (forall i, (i < 16)%nat -> nth i a 0 = nth i b 0) -> a = b.
Proof. intros La Lb H. apply (nth_ext a b 0 0); [lia|]. intros i Hi. apply H. lia. Qed.

Lemma spec_fill_length n : forall f o r a, length (spec_fill n f o r a) = length a.
Proof. induction n; intros; cbn [spec_fill]; [reflexivity|]. rewrite IHn. apply fill_length. Qed.

Lemma map_seq_nth (f : nat -> Z) n i : (i < n)%nat -> nth i (map f (seq 0 n)) 0 = f i.
Proof.
  intros H. rewrite (nth_indep _ 0 (f 0%nat)) by (rewrite map_length, seq_length; lia).
  rewrite (map_nth f (seq 0 n) 0%nat i), seq_nth by lia. reflexivity.
Qed.

Lemma sub_list_nth (l : list Z) i n j : (j < n)%nat -> nth j (sub_list l i n) 0 = nth (i + j) l 0.
Proof.
  intros H. unfold sub_list. rewrite <- nth_skipn. revert n H. generalize (skipn i l). intros m. revert j.
  induction m as [|x m IH]; intros j n H; [destruct n, j; reflexivity|]. destruct n; [lia|]. destruct j; [reflexivity|].
  cbn [firstn nth]. apply IH. lia.
Qed.
Lemma sub_list_length (l : list Z) i n : (i + n <= length l)%nat -> length (sub_list l i n) = n.
Proof. intros H. unfold sub_list. rewrite firstn_length, skipn_length. lia. Qed.

Lemma tns_idx_spec p : tns_params_ok (p_rc_order p) (p_rc_i p) -> p_num_tns p = 1 \/ p_num_tns p = 2 ->
  spec_fill (Z.to_nat (p_num_tns p)) 0 (p_rc_order p) (p_rc_i p) (repeat 0 16) = spec_tns_idx p.
Proof.
  intros (H1 & H2 & H3 & H4) Hn. apply list16; [rewrite spec_fill_length; reflexivity|reflexivity|].
  intros i Hi. unfold spec_tns_idx.
  rewrite map_seq_nth by exact Hi. cbn beta.
  set (o0 := nth 0 (p_rc_order p) 0). set (o1 := nth 1 (p_rc_order p) 0).
  assert (Ho0 : 0 <= o0 <= 8) by (pose proof (Forall_nth_range (fun x => 0 <= x <= 8) (p_rc_order p) 0 H3 ltac:(lia)); assumption).
  assert (Ho1 : 0 <= o1 <= 8) by (pose proof (Forall_nth_range (fun x => 0 <= x <= 8) (p_rc_order p) 1 H3 ltac:(lia)); assumption).
  unfold len in H2.
  assert (Ei : (i / 8 = 0 /\ i < 8 \/ i / 8 = 1 /\ 8 <= i)%nat).
  { destruct (Nat.lt_ge_cases i 8); [left; split; [apply Nat.div_small; lia|lia]|right; split; [|lia]].
    symmetry. apply Nat.div_unique with (r := (i - 8)%nat); lia. }
  assert (Ed : Z.of_nat i / 8 = Z.of_nat (i / 8)) by (rewrite Nat2Z.inj_div; reflexivity).
  assert (Em : Z.of_nat i mod 8 = Z.of_nat i - 8 * Z.of_nat (i / 8)) by (rewrite <- Ed; dml).
  rewrite Ed, Em.
  assert (Hrep : forall k, nth k (repeat 0 16) 0 = 0).
  { intros k. destruct (Nat.lt_ge_cases k 16); [now rewrite nth_repeat|apply nth_overflow; rewrite repeat_length; lia]. }
  assert (L0 : length (sub_list (p_rc_i p) 0 (Z.to_nat o0)) = Z.to_nat o0) by (apply sub_list_length; lia).
  assert (L1 : length (sub_list (p_rc_i p) 8 (Z.to_nat o1)) = Z.to_nat o1) by (apply sub_list_length; lia).
  assert (F0 : nth i (fill (repeat 0 16) 0 (sub_list (p_rc_i p) 0 (Z.to_nat o0))) 0 = if (i <? Z.to_nat o0)%nat then nth i (p_rc_i p) 0 else 0).
  { rewrite nth_fill by (rewrite L0, repeat_length; lia). rewrite L0, Hrep, Nat.sub_0_r.
    destruct (Nat.ltb_spec i (Z.to_nat o0)); [|now replace ((0 <=? i)%nat && (i <? 0 + Z.to_nat o0)%nat) with false by lia].
    replace ((0 <=? i)%nat && (i <? 0 + Z.to_nat o0)%nat) with true by lia. now rewrite sub_list_nth by lia. }
  destruct Hn as [-> | ->].
  - change (Z.to_nat 1) with 1%nat. cbn [spec_fill]. change (8 * 0)%nat with 0%nat. fold o0. rewrite F0.
    destruct Ei as [[-> ?]|[-> ?]].
    + fold o0. destruct (Nat.ltb_spec i (Z.to_nat o0)); [replace ((Z.of_nat 0 <? 1) && _) with true by lia|replace ((Z.of_nat 0 <? 1) && _) with false by lia]; reflexivity.
    + replace (Z.of_nat 1 <? 1) with false by lia. cbn [andb]. destruct (Nat.ltb_spec i (Z.to_nat o0)); [lia|reflexivity].
  - change (Z.to_nat 2) with 2%nat. cbn [spec_fill]. change (8 * 0)%nat with 0%nat. change (8 * 1)%nat with 8%nat. fold o0 o1.
    rewrite nth_fill by (rewrite L1, fill_length, repeat_length; lia). rewrite L1, F0.
    destruct Ei as [[-> ?]|[-> ?]].
    + replace ((8 <=? i)%nat && _) with false by lia. fold o0.
      destruct (Nat.ltb_spec i (Z.to_nat o0)); [replace ((Z.of_nat 0 <? 2) && _) with true by lia|replace ((Z.of_nat 0 <? 2) && _) with false by lia]; reflexivity.
    + fold o1. destruct (Nat.ltb_spec i (8 + Z.to_nat o1)).
      * replace ((8 <=? i)%nat && true) with true by lia. rewrite sub_list_nth by lia. replace (8 + (i - 8))%nat with i by lia.
        replace ((Z.of_nat 1 <? 2) && _) with true by lia. reflexivity.
      * rewrite andb_false_r. replace ((Z.of_nat 1 <? 2) && _) with false by lia.
        destruct (Nat.ltb_spec i (Z.to_nat o0)); [lia|reflexivity].
Qed.

Lemma firstn_pad (l : list Z) n m : len (firstn n l ++ repeat 0 m) = len (firstn n l) + Z.of_nat m.
Proof. rewrite len_app, len_repeat. reflexivity. Qed.

(* parser state after the spectrum *)
Lemma parse_to_spectrum c L p q buf bs : legal_config c -> frame_legal c L p q -> len buf = L -> bytes buf ->
  let l := payload (ne c) p in holds buf (l ++ map EBit bs) -> tbits l + ari_bits (fin l) <= 8 * L ->
  let n := Z.to_nat (p_lastnz p / 2) in
  let pad := fun x : list Z => x ++ repeat 0 (Z.to_nat MAX_LEN_SPECTRAL - length x) in
  exists r0 r1 r2 r3 st1 st2 st3,
    read_side_info buf reader_new (fs_ind c) (ne c) = Ok (spec_side p q, r0) /\
    ac_dec_init buf r0 = Ok (st1, r1) /\
    decode_tns_data buf r1 (spec_side p q) st1 (8 * L) (n_ms c) = Ok (spec_tns_idx p, spec_orders p, st2, r2) /\
    decode_spectral_data buf r2 (spec_side p q) (8 * L) (fs_ind c) (ne c) st2 =
      Ok (pad (base_lines n (p_lsb_mode p) 0 (p_xq p)), pad (if p_lsb_mode p then pair_levs n 0 (p_xq p) else []), st3, r3) /\
    calc_num_residual_bits r3 st3 (8 * L) = Ok (8 * L - payload_bits l) /\
    r_head r3 = iN (fin l) + 3 /\ r_tail r3 = tbits l.
Proof.
  intros Hc Hl El Hb l Hh Hfit n pad. pose proof (holds_app _ _ _ Hh) as Hh0.
  pose proof (legal_writer _ _ _ _ Hl) as W. pose proof (fl_side _ _ _ _ Hl) as S. pose proof (fl_tns _ _ _ _ Hl) as Tn.
  pose proof (payload_valid (ne c) p W) as V. fold l in V. pose proof (fin_wf l V) as Wf. pose proof (iw_N _ Wf) as WN. pose proof (ari_bits_ge _ Wf) as Wa.
  pose proof Hh0 as (_ & T & N3 & _ & F). 
  destruct (ne_width c Hc) as (_ & _ & _ & N4 & N5 & _ & _).
  unfold l, payload in T. rewrite ev_bits_app, ev_bits_map in T. apply tail_at_app in T; [|lia]. destruct T as [T _].
  pose proof (side_bits_len c p q S) as Sl.
  assert (Et : spec_side_len (ne c) p <= tbits l).
  { unfold l, payload. rewrite !tbits_app, tbits_map, Sl. pose proof (tbits_nonneg (tns_evs (p_num_tns p) (p_lpc_weighting p) (p_rc_order p) (p_rc_i p))).
    match goal with |- context [tbits (spec_evs ?a ?b ?c ?d ?e ?f ?g)] => pose proof (tbits_nonneg (spec_evs a b c d e f g)) end. lia. }
  pose proof (side_read_ok c buf p q Hc Hb S ltac:(lia) T) as R0.
  exists (mkReader 0 (spec_side_len (ne c) p)).
  destruct (ac_dec_init_ok buf (mkReader 0 (spec_side_len (ne c) p)) Hb eq_refl ltac:(lia)) as (st1 & R1 & D1).
  cbn [r_tail] in R1, D1. set (r1 := mkReader 3 (spec_side_len (ne c) p)) in *. exists r1.
  assert (Hn12 : p_num_tns p = 1 \/ p_num_tns p = 2) by (rewrite (le_num _ _ _ S); destruct (p_bw p <? 3); auto).
  assert (D1' : dst buf r1 st1 (map EBit (side_bits (ne c) p))).
  { split; [rewrite tbits_map, Sl; reflexivity|]. rewrite fin_map. exact D1. }
  unfold l, payload in Hh0. rewrite app_assoc in Hh0. pose proof (holds_app _ _ _ Hh0) as Hh1.
  rewrite tns_evs_filters in *. rewrite (fl_w _ _ _ _ Hl) in *.
  pose proof Tn as (Q1 & Q2 & Q3 & Q4).
  destruct (dec_tns_filters_ok buf (tns_weighting (n_ms c) (8 * L)) (p_rc_order p) (p_rc_i p) Hb Tn (tns_weighting_range _ _) (Z.to_nat (p_num_tns p)) 0 st1 r1 (map EBit (side_bits (ne c) p)) (repeat 0 16)
    (firstn (Z.to_nat (p_num_tns p)) (spec_flags p)) ltac:(lia)) as (st2 & r2 & E2 & D2); [| |reflexivity|exact D1'|exact Hh1|].
  { unfold spec_flags. destruct Hn12 as [-> | ->]; reflexivity. }
  { intros i Hi. rewrite Nat.add_0_l. unfold spec_flags. destruct Hn12 as [E|E]; rewrite E in *.
    - assert (i = 0%nat) by lia. subst. reflexivity.
    - assert (i = 0%nat \/ i = 1%nat) as [-> | ->] by lia; reflexivity. }
  exists r2.
  pose proof (le_lastnz _ _ _ S) as Lz. pose proof (lastnz_pairs p W) as [_ Lp].
  assert (Hx : forall i, 0 <= i < 2 * 0 + 2 * Z.of_nat (Z.to_nat (p_lastnz p / 2)) -> Z.abs (nth (Z.to_nat i) (p_xq p) 0) <= 32767).
  { intros i Hi. apply (fl_mag _ _ _ _ Hl). lia. }
  rewrite (fl_rate _ _ _ _ Hl) in *.
  destruct (dec_pairs_ok buf (p_lsb_mode p) (ne c) (rate_flag (8 * L) (fs_ind c)) (p_xq p) Hb (rate_flag_cases _ _) n 0 0 r2 st2 _ ltac:(lia) ltac:(lia) Hx D2 Hh0)
    as (st3 & r3 & E3 & D3).
  exists r3, st1, st2, st3.
  split; [exact R0|]. split; [exact R1|]. split.
  { unfold decode_tns_data. cbn [spec_side s_num_tns s_rc_order]. change (Z.of_nat 0) with 0 in E2. rewrite E2. cbn [bind].
    rewrite tns_idx_spec by auto. do 4 f_equal. unfold spec_orders, spec_flags.
    destruct (p_rc_order p) as [|o0 [|o1 [|o2 rest]]]; unfold len in Q1; cbn [length] in Q1; try lia.
    destruct Hn12 as [-> | ->]; reflexivity. }
  split.
  { unfold decode_spectral_data. cbn [spec_side s_lastnz s_lsb_mode]. destruct (Z.ltb_spec MAX_LEN_SPECTRAL (p_lastnz p)); [lia|].
    fold n. change (2 * 0) with 0 in E3. rewrite E3. cbn [bind]. reflexivity. }
  assert (El3 : (map EBit (side_bits (ne c) p) ++ filters_evs (tns_weighting (n_ms c) (8 * L)) (p_rc_order p) (p_rc_i p) 0 (Z.to_nat (p_num_tns p))) ++
     spec_evs n (p_lsb_mode p) (ne c) (2 * 0) 0 (rate_flag (8 * L) (fs_ind c)) (p_xq p) = l).
  { unfold l, payload. rewrite tns_evs_filters, (fl_w _ _ _ _ Hl), (fl_rate _ _ _ _ Hl), app_assoc. reflexivity. }
  rewrite El3 in D3. destruct D3 as [Dt D3].
  pose proof (dr_head _ _ _ _ D3) as Dh. pose proof (dr_range _ _ _ _ D3) as Dr.
  assert (T57 : 57 <= tbits l).
  { eapply Z.le_trans; [|exact Et]. unfold spec_side_len. pose proof (nbits_bw_nonneg _ _ _ S). pose proof (Z.log2_up_nonneg (ne c / 2)).
    assert (5 <= Z.log2_up (ne c / 2)). { destruct (ne_width c Hc) as (_ & _ & _ & _ & _ & _ & G60). change 5 with (Z.log2_up 30). apply Z.log2_up_le_mono. dml. }
    destruct (p_pitch_present p); lia. }
  split; [|split; [exact Dh|exact Dt]].
  unfold calc_num_residual_bits. rewrite Dt, Dh, Dr. rewrite usub_ok by lia. cbn [bind]. rewrite usub_ok by lia. cbn [bind].
  unfold log2_floor. unfold ari_bits in *. rewrite usub_ok by lia. cbn [bind].
  unfold payload_bits, ari_bits.
  match goal with |- (if ?a <=? ?b then _ else _) = _ => destruct (Z.leb_spec a b); [|lia] end. f_equal. lia.
Qed.

Lemma nonzero_nnz l : nonzero_count l = nnz l.
Proof. reflexivity. Qed.

Lemma spec_lines_regular p W : writer_params_ok p -> p_lastnz p <= MAX_LEN_SPECTRAL -> W = Z.to_nat (p_lastnz p / 2) ->
  base_lines W false 0 (p_xq p) ++ repeat 0 (Z.to_nat MAX_LEN_SPECTRAL - length (base_lines W false 0 (p_xq p))) = spec_lines p.
Proof.
  intros H H4 ->. pose proof (lastnz_pairs p H) as [_ E]. pose proof (wp_len _ H) as Hl. pose proof (wp_lastnz _ H). unfold len in Hl.
  rewrite base_lines_length, base_lines_regular by lia. cbn [Z.to_nat skipn]. unfold spec_lines.
  replace (2 * Z.to_nat (p_lastnz p / 2))%nat with (Z.to_nat (p_lastnz p)) by lia.
  f_equal. f_equal. unfold MAX_LEN_SPECTRAL in *. lia.
Qed.

Lemma spec_lines_length p : writer_params_ok p -> p_lastnz p <= MAX_LEN_SPECTRAL -> length (spec_lines p) = 400%nat.
Proof.
  intros H H4. pose proof (wp_len _ H) as Hl. pose proof (wp_lastnz _ H). unfold len, MAX_LEN_SPECTRAL in *.
  unfold spec_lines. rewrite app_length, firstn_length, repeat_length. unfold MAX_LEN_SPECTRAL. lia.
Qed.

Lemma nth_firstn_lt_gen {A} (d : A) (l : list A) : forall n i, (i < n)%nat -> nth i (firstn n l) d = nth i l d.
Proof. induction l; intros [|n] [|i] H; cbn; auto; try lia. apply IHl. lia. Qed.
Lemma nth_firstn_lt (l : list Z) : forall n i, (i < n)%nat -> nth i (firstn n l) 0 = nth i l 0.
Proof. induction l as [|x l IH]; intros n i H; [destruct n, i; reflexivity|]. destruct n; [lia|]. destruct i; [reflexivity|]. cbn [firstn nth]. apply IH. lia. Qed.

Lemma spec_lines_nth p i : writer_params_ok p -> (i < Z.to_nat (p_lastnz p))%nat -> nth i (spec_lines p) 0 = nth i (p_xq p) 0.
Proof.
  intros H Hi. pose proof (wp_len _ H) as Hl. unfold len in Hl. unfold spec_lines.
  rewrite app_nth1 by (rewrite firstn_length; lia). now apply nth_firstn_lt.
Qed.

Lemma filter_all_zero m : filter (fun x => negb (x =? 0)) (repeat 0 m) = [].
Proof. induction m; [reflexivity|]. cbn. exact IHm. Qed.

Lemma firstn_repeat0 k : forall n, firstn k (repeat 0 n) = repeat 0 (Init.Nat.min k n).
Proof. induction k as [|k IH]; intros n; [reflexivity|]. destruct n; [reflexivity|]. cbn. now rewrite IH. Qed.

(* zeros above lastnz do not count *)
Lemma nnz_lines p m : writer_params_ok p -> p_lastnz p <= m -> nnz (firstn (Z.to_nat m) (spec_lines p)) = nnz (firstn (Z.to_nat (p_lastnz p)) (p_xq p)).
Proof.
  intros H Hm. pose proof (wp_len _ H) as Hl. unfold len in Hl. unfold spec_lines, nnz.
  rewrite firstn_app, firstn_firstn, firstn_length. rewrite filter_app.
  replace (Init.Nat.min (Z.to_nat m) (Z.to_nat (p_lastnz p))) with (Z.to_nat (p_lastnz p)) by lia.
  rewrite firstn_repeat0, filter_all_zero, app_nil_r. reflexivity.
Qed.

(* parsing a buffer that holds a legal payload, regular mode *)
Theorem parse_regular chk c L p q buf bs : legal_config c -> frame_legal c L p q -> len buf = L -> bytes buf -> p_lsb_mode p = false ->
  let l := payload (ne c) p in holds buf (l ++ map EBit bs) -> payload_bits l <= 8 * L ->
  (chk = true -> weighted_sum (firstn (Z.to_nat (ne c)) (spec_lines p)) 0 <= i32_max) ->
  let nres := Z.min (8 * L - payload_bits l) (nonzero_count (firstn (Z.to_nat (p_lastnz p)) (p_xq p))) in
  read_frame chk c buf = Ok (mkFrame (spec_side p q)
    (mkArith (spec_orders p) (spec_tns_idx p) (tail_bits buf (tbits l) (Z.to_nat nres)) (spec_seed (firstn (Z.to_nat (ne c)) (spec_lines p))) (spec_zero p) (8 * L))
    (spec_lines p)).
Proof.
  intros Hc Hl El Hb Hm l Hh Hfit Hseed nres.
  pose proof (legal_writer _ _ _ _ Hl) as W. pose proof (fl_side _ _ _ _ Hl) as S.
  destruct (ne_width c Hc) as (_ & _ & _ & N4 & _ & _ & N60). pose proof (le_lastnz _ _ _ S) as Lz.
  destruct (parse_to_spectrum c L p q buf bs Hc Hl El Hb Hh Hfit) as (r0 & r1 & r2 & r3 & st1 & st2 & st3 & R0 & R1 & R2 & R3 & R4 & R5 & R6).
  fold l in R4, R5, R6.
  unfold read_frame. rewrite R0. cbn [bind]. unfold decode_arith. replace (len buf * 8) with (8 * L) by lia.
  rewrite R1. cbn [bind]. rewrite R2. cbn [bind]. rewrite R3. cbn [bind]. rewrite Hm in *.
  rewrite (spec_lines_regular p _ W ltac:(lia) eq_refl).
  unfold decode_residual_bits. rewrite R4. cbn [bind spec_side s_lsb_mode]. rewrite Hm. cbn [negb].
  pose proof (spec_lines_length p W ltac:(lia)) as Ls.
  assert (Esl : slice (spec_lines p) 0 (ne c) = Ok (firstn (Z.to_nat (ne c)) (spec_lines p))).
  { rewrite slice_ok by (unfold len; rewrite ?Ls; unfold MAX_LEN_SPECTRAL in *; lia). rewrite Z.sub_0_r. reflexivity. }
  rewrite Esl. cbn [bind].
  set (xs := firstn (Z.to_nat (ne c)) (spec_lines p)) in *.
  assert (Hxs : nnz xs <= 400). { pose proof (nnz_le xs). unfold len in H. unfold xs in H at 2. rewrite firstn_length, Ls in H. unfold MAX_LEN_SPECTRAL in *. lia. }
  pose proof (payload_valid (ne c) p W) as V. fold l in V. pose proof (fin_wf l V) as Wf. pose proof (iw_N _ Wf) as WN. pose proof (ari_bits_ge _ Wf) as Wa.
  pose proof (tbits_nonneg l) as Tn. unfold payload_bits in *.
  rewrite (dec_res_bits_ok buf Hb xs 0 (8 * L - (tbits l + ari_bits (fin l))) r3); rewrite ?R5, ?R6; unfold MAX_LEN_FREQUENCY; try lia.
  cbn [bind]. rewrite Esl. cbn [bind]. fold xs.
  rewrite (seed_sum_ok chk xs 0 0) by (auto; lia). cbn [bind]. rewrite Z.add_0_l.
  assert (L400 : len (spec_lines p) = 400) by (unfold len; rewrite Ls; reflexivity).
  rewrite (idx_nth (spec_lines p) 0 0), (idx_nth (spec_lines p) 1 0) by lia. cbn [bind].
  rewrite !spec_lines_nth by (auto; lia).
  rewrite land_65535, Z.sub_0_r. unfold spec_seed, spec_zero. do 4 f_equal.
  unfold nres. unfold xs. rewrite (nnz_lines p (ne c) W ltac:(lia)). reflexivity.
Qed.

Lemma base_lines_flat xq n : forall k, Forall (fun e => e = 0) (pair_levs n k xq) -> base_lines n true k xq = base_lines n false k xq.
Proof.
  induction n as [|m IH]; intros k F; [reflexivity|]. cbn [base_lines pair_levs] in *. cbn zeta.
  inversion_clear F as [|? ? F1 F2]. rewrite F1. unfold base_val. change (0 <? 0) with false. cbn [andb]. f_equal. f_equal. now apply IH.
Qed.

(* parsing, lsb mode: the lines come back up to misplaced low bits *)
Ltac fin_reader := match goal with |- Ok (_, _, ?c, mkReader _ ?d) = Ok (_, _, ?c', mkReader _ ?d') => replace c with c' by lia; replace d with d' by lia; reflexivity end.
(* one line whose low bit, and sign if the rest is zero, stand in the residual *)
Lemma read_res_bit_exact buf x head t k nres v : bytes buf -> 0 <= k < len x -> 0 <= head -> 0 <= t ->
  let bs := map (fun z => z =? 1) (lsb_one v) in
  tail_at (be buf) t bs -> len bs <= nres -> t + nres + 8 * head <= 8 * len buf + 24 -> t + nres <= 8 * len buf ->
  nth (Z.to_nat k) x 0 = base_val true 1 v ->
  read_res_bit x (mkReader head t) buf k nres = Ok (true, upd x (Z.to_nat k) v, nres - len bs, mkReader head (t + len bs)).
Proof.
  intros Hb Hk Hh Ht bs T Hn F1 F2 Hx. unfold read_res_bit, bs, lsb_one in *. clear bs. cbn [map] in *. rewrite len_cons in *.
  match goal with |- context [len ?y] => set (m := y) in * end. pose proof (len_nonneg m) as Hm.
  destruct (Z.eqb_spec nres 0); [lia|]. rewrite read_bool_at by (cbn [r_head r_tail]; auto; lia). cbn [bind r_head r_tail].
  rewrite usub_ok by lia. cbn [bind].
  apply (tail_at_app (be buf) t [Z.abs v mod 2 =? 1] m Ht) in T. destruct T as [T1 T2]. apply tail_at_bit in T1. rewrite T1. change (t + len [Z.abs v mod 2 =? 1]) with (t + 1) in T2.
  unfold base_val in Hx. cbn [andb Z.ltb Z.compare] in Hx.
  assert (Hu : forall w, nth (Z.to_nat k) x 0 = w -> upd x (Z.to_nat k) w = x).
  { intros w <-. apply upd_same. }
  destruct (Z.eqb_spec (Z.abs v mod 2) 1) as [Ho|He].
  - rewrite (idx_nth x k 0) by lia. cbn [bind]. rewrite Hx.
    destruct (Z.eqb_spec (Z.abs v / 2) 0) as [Hz|Hz].
    + (* magnitude one *)
      assert (Hv : v = 1 \/ v = -1) by dml. rewrite Hz. replace (Z.sgn v * (2 * 0)) with 0 by lia. cbn [Z.ltb Z.compare].
      assert (Em : m = [if 0 <? v then false else true]).
      { unfold m. replace (negb (v =? 0)) with true by lia. cbn [andb map]. destruct (0 <? v); reflexivity. }
      rewrite Em in *. unfold len in *. cbn [length Z.of_nat] in *.
      destruct (Z.eqb_spec (nres - 1) 0); [lia|]. rewrite read_bool_at by (cbn [r_head r_tail]; auto; unfold len; lia). cbn [bind r_head r_tail].
      rewrite usub_ok by lia. cbn [bind].
      apply tail_at_bit in T2. rewrite T2. rewrite store_ok by (unfold len; lia). cbn [bind].
      replace (if if 0 <? v then false else true then -1 else 1) with v by (destruct (Z.ltb_spec 0 v); lia).
      fin_reader.
    + assert (Em : m = []) by reflexivity. rewrite Em. unfold len. cbn [length Z.of_nat].
      assert (0 < Z.abs v / 2) by dml.
      destruct (Z.ltb_spec 0 (Z.sgn v * (2 * (Z.abs v / 2)))).
      * rewrite store_ok by lia. cbn [bind]. replace (Z.sgn v * (2 * (Z.abs v / 2)) + 1) with v by (assert (0 < v) by nia; replace (Z.sgn v) with 1 by lia; dml).
        fin_reader.
      * assert (v < 0) by (destruct (Z.sgn_spec v) as [[? Hs]|[[? Hs]|[? Hs]]]; rewrite Hs in *; [lia|subst v; cbn in *; lia|lia]). replace (Z.sgn v) with (-1) by lia. destruct (Z.ltb_spec (-1 * (2 * (Z.abs v / 2))) 0); [|lia].
        rewrite store_ok by lia. cbn [bind]. replace (-1 * (2 * (Z.abs v / 2)) - 1) with v by dml.
        fin_reader.
  - assert (Em : m = []).
    { unfold m. destruct (Z.eqb_spec (Z.abs v / 2) 0); [|reflexivity]. replace (v =? 0) with true by (symmetry; apply Z.eqb_eq; dml). reflexivity. }
    rewrite Em. unfold len. cbn [length Z.of_nat].
    rewrite Hu; [fin_reader|]. rewrite Hx. assert (Z.abs v mod 2 = 0) by dml. destruct (Z.sgn_spec v) as [[? ->]|[[? ->]|[? ->]]]; dml.
Qed.

Lemma dec_lsb_none buf sl : forall n k x nres r, 0 <= k -> k + 2 * Z.of_nat n <= len sl -> (forall i, k <= i -> nth (Z.to_nat i) sl 0 = 0) ->
  dec_lsb_bits n k x sl nres buf r = Ok (x, r).
Proof.
  induction n as [|n IH]; intros k x nres r Hk Hl Hz; [reflexivity|]. cbn [dec_lsb_bits].
  rewrite (idx_nth sl k 0) by lia. cbn [bind]. rewrite Hz by lia. cbn [Z.ltb Z.compare]. apply IH; try lia. intros. apply Hz. lia.
Qed.

(* lsbs of the first pair only: everything is recovered *)
Lemma dec_lsb_first buf sl n x head t nres v0 v1 : bytes buf -> (0 < n)%nat -> 2 * Z.of_nat n <= len x -> 2 * Z.of_nat n <= len sl ->
  0 <= head -> 0 <= t -> let bs := map (fun z => z =? 1) (lsb_one v0 ++ lsb_one v1) in
  tail_at (be buf) t bs -> len bs <= nres -> t + nres + 8 * head <= 8 * len buf + 24 -> t + nres <= 8 * len buf ->
  nth 0 x 0 = base_val true 1 v0 -> nth 1 x 0 = base_val true 1 v1 -> 0 < nth 0 sl 0 -> (forall i, 1 <= i -> nth (Z.to_nat i) sl 0 = 0) ->
  exists r', dec_lsb_bits n 0 x sl nres buf (mkReader head t) = Ok (upd (upd x 0 v0) 1 v1, r').
Proof.
  intros Hb Hn Lx Ls Hh Ht bs T Hl F1 F2 X0 X1 S0 Sz. destruct n as [|n]; [lia|]. cbn [dec_lsb_bits].
  rewrite (idx_nth sl 0 0) by lia. cbn [bind Z.to_nat]. replace (0 <? nth 0 sl 0) with true by lia.
  unfold bs in *. rewrite map_app in *. rewrite len_app in *. apply tail_at_app in T; [|lia]. destruct T as [T1 T2].
  pose proof (len_nonneg (map (fun z => z =? 1) (lsb_one v0))). pose proof (len_nonneg (map (fun z => z =? 1) (lsb_one v1))).
  rewrite (read_res_bit_exact buf x head t 0 nres v0) by (auto; lia). cbn [bind negb Z.to_nat].
  rewrite (read_res_bit_exact buf (upd x 0 v0) head _ (0 + 1) _ v1); auto; try (rewrite ?len_upd; lia).
  2:{ change (Z.to_nat (0 + 1)) with 1%nat. rewrite nth_upd_any. cbn [Nat.eqb andb]. exact X1. }
  cbn [bind negb]. change (Z.to_nat (0 + 1)) with 1%nat.
  eexists. apply dec_lsb_none; try lia. intros. apply Sz. lia.
Qed.

Lemma spec_lsbs_flat xq n : forall k, Forall (fun e => e = 0) (pair_levs n k xq) -> spec_lsbs n true k xq = [].
Proof.
  induction n as [|n IH]; intros k F; [reflexivity|]. cbn [pair_levs spec_lsbs] in *. inversion F as [|? ? F1 F2]; subst.
  rewrite IH by assumption. unfold pair_lsbs. unfold pair_lev in F1. rewrite F1. reflexivity.
Qed.

Theorem parse_lsb chk c L p q buf bs : legal_config c -> frame_legal c L p q -> len buf = L -> bytes buf -> p_lsb_mode p = true ->
  let l := payload (ne c) p in holds buf (l ++ map EBit bs) -> payload_bits l <= 8 * L ->
  let n := Z.to_nat (p_lastnz p / 2) in
  exists x, length x = 400%nat /\
    (forall i, nudged (nth i (base_lines n true 0 (p_xq p)) 0) (nth i x 0)) /\
    (forall i, (Z.to_nat (p_lastnz p) <= i)%nat -> nth i x 0 = 0) /\
    (Forall (fun e => e = 0) (pair_levs n 0 (p_xq p)) -> x = spec_lines p) /\
    (Forall (fun e => e = 0) (tl (pair_levs n 0 (p_xq p))) -> bs = res_source p -> len bs <= 8 * L - payload_bits l -> x = spec_lines p) /\
    ((chk = true -> weighted_sum (firstn (Z.to_nat (ne c)) x) 0 <= i32_max) ->
     exists zero, read_frame chk c buf = Ok (mkFrame (spec_side p q)
      (mkArith (spec_orders p) (spec_tns_idx p) [] (spec_seed (firstn (Z.to_nat (ne c)) x)) zero (8 * L)) x)).
Proof.
  intros Hc Hl El Hb Hm l Hh Hfit n.
  pose proof (legal_writer _ _ _ _ Hl) as W. pose proof (fl_side _ _ _ _ Hl) as S.
  destruct (ne_width c Hc) as (_ & _ & _ & N4 & _ & _ & N60). pose proof (le_lastnz _ _ _ S) as Lz. pose proof (lastnz_pairs p W) as [Lp1 Lp2].
  destruct (parse_to_spectrum c L p q buf bs Hc Hl El Hb Hh Hfit) as (r0 & r1 & r2 & r3 & st1 & st2 & st3 & R0 & R1 & R2 & R3 & R4 & R5 & R6).
  fold l in R4, R5, R6. fold n in R3. rewrite Hm in R3.
  pose proof (payload_valid (ne c) p W) as V. fold l in V. pose proof (fin_wf l V) as Wf. pose proof (iw_N _ Wf) as WN. pose proof (ari_bits_ge _ Wf) as Wa.
  pose proof (tbits_nonneg l) as Tn. unfold payload_bits in *. unfold MAX_LEN_SPECTRAL in *.
  set (bl := base_lines n true 0 (p_xq p)) in *. set (lv := pair_levs n 0 (p_xq p)) in *.
  assert (Lbl : length bl = (2 * n)%nat) by apply base_lines_length.
  assert (Llv : length lv = n) by apply pair_levs_length.
  set (x0 := bl ++ repeat 0 (Z.to_nat 400 - length bl)) in *. set (sl := lv ++ repeat 0 (Z.to_nat 400 - length lv)) in *.
  assert (Lx0 : length x0 = 400%nat) by (unfold x0; rewrite app_length, repeat_length, Lbl; unfold n; lia).
  assert (Lsl : length sl = 400%nat) by (unfold sl; rewrite app_length, repeat_length, Llv; unfold n; lia).
  destruct (dec_lsb_bits_ok buf sl Hb n 0 x0 (8 * L - (tbits l + ari_bits (fin l))) r3) as (x & r4 & E & Lx & A1 & A2 & A3 & A4);
    unfold len in *; rewrite ?Lx0, ?Lsl, ?R5, ?R6; try (unfold n; lia).
  exists x. assert (Lx' : length x = 400%nat) by lia.
  assert (Hx0 : forall i, nth i x0 0 = nth i bl 0).
  { intros i. unfold x0. destruct (Nat.lt_ge_cases i (length bl)); [now rewrite app_nth1|]. rewrite app_nth2, (nth_overflow bl) by lia.
    destruct (Nat.lt_ge_cases (i - length bl) (Z.to_nat 400 - length bl)); [now rewrite nth_repeat|apply nth_overflow; rewrite repeat_length; lia]. }
  assert (Flat : Forall (fun e => e = 0) lv -> x = spec_lines p).
  { intros F. assert (x = x0) as ->.
    { apply A4. unfold sl. apply Forall_app. split; [exact F|]. apply Forall_forall. intros v Hv. now apply repeat_spec in Hv. }
    rewrite <- (spec_lines_regular p n W ltac:(unfold MAX_LEN_SPECTRAL; lia) eq_refl). unfold x0, MAX_LEN_SPECTRAL.
    assert (Eb : bl = base_lines n false 0 (p_xq p)).
    { now apply base_lines_flat. }
    rewrite Eb. reflexivity. }
  split; [exact Lx'|]. split; [|split; [|split; [|split]]].
  - intros i. rewrite <- Hx0. apply A2.
  - intros i Hi. rewrite A3 by (unfold n; lia). rewrite Hx0. apply nth_overflow. rewrite Lbl. unfold n. lia.
  - exact Flat.
  - intros F Ebs Hfb. assert (exists n', n = Datatypes.S n') as [n' En] by (exists (Nat.pred n); unfold n; lia).
    set (v0 := nth 0 (p_xq p) 0). set (v1 := nth 1 (p_xq p) 0).
    assert (Elv : lv = pair_lev v0 v1 :: tl lv) by (unfold lv; rewrite En; reflexivity).
    assert (Etl : tl lv = pair_levs n' 2 (p_xq p)) by (unfold lv; rewrite En; reflexivity).
    assert (He : 0 <= pair_lev v0 v1) by apply esc_lev_nonneg.
    destruct (Z.eq_dec (pair_lev v0 v1) 0) as [Hz|Hnz].
    { apply Flat. rewrite Elv. constructor; assumption. }
    assert (Ebl : bl = base_val true 1 v0 :: base_val true 1 v1 :: base_lines n' false 2 (p_xq p)).
    { unfold bl. rewrite En. cbn [base_lines]. cbn zeta. change (Z.to_nat (0 + 1)) with 1%nat. change (Z.to_nat 0) with 0%nat. fold v0 v1.
      rewrite (base_lines_flat (p_xq p) n' (0 + 2)); [|rewrite Etl in F; exact F].
      unfold base_val. replace (0 <? pair_lev v0 v1) with true by lia. reflexivity. }
    assert (Ers : res_source p = map (fun z => z =? 1) (lsb_one v0 ++ lsb_one v1)).
    { unfold res_source. rewrite Hm. fold n. rewrite En. cbn [spec_lsbs]. change (Z.to_nat (0 + 1)) with 1%nat. change (Z.to_nat 0) with 0%nat. fold v0 v1.
      rewrite (spec_lsbs_flat (p_xq p) n' (0 + 2)) by (rewrite Etl in F; exact F). rewrite app_nil_r.
      unfold pair_lsbs. fold (pair_lev v0 v1). replace (0 <? pair_lev v0 v1) with true by lia. reflexivity. }
    destruct Hh as (_ & T & _). rewrite ev_bits_app, ev_bits_map, Ebs, Ers in T. apply tail_at_app in T; [|lia]. destruct T as [_ T]. rewrite Z.add_0_l in T. fold (tbits l) in T.
    rewrite Ebs, Ers in Hfb.
    assert (Er3 : r3 = mkReader (iN (fin l) + 3) (tbits l)) by (destruct r3 as [h3 t3]; cbn [r_head r_tail] in R5, R6; congruence).
    destruct (dec_lsb_first buf sl n x0 (iN (fin l) + 3) (tbits l) (8 * L - (tbits l + ari_bits (fin l))) v0 v1 Hb) as (r' & E');
      unfold len in *; rewrite ?Lx0, ?Lsl; try assumption; try (unfold n; lia).
    { rewrite Hx0, Ebl. reflexivity. }
    { rewrite Hx0, Ebl. reflexivity. }
    { unfold sl. rewrite Elv. cbn [app nth]. lia. }
    { intros i Hi. unfold sl. rewrite Elv. cbn [app]. replace (Z.to_nat i) with (Datatypes.S (Z.to_nat i - 1)) by lia. cbn [nth].
      destruct (nth_in_or_default (Z.to_nat i - 1) (tl lv ++ repeat 0 (Z.to_nat 400 - length (pair_lev v0 v1 :: tl lv))) 0) as [Hin|Hd]; [|exact Hd].
      apply in_app_or in Hin. destruct Hin as [Hin|Hin]; [rewrite Forall_forall in F; now apply F|now apply repeat_spec in Hin]. }
    rewrite Er3, E' in E. injection E as <- <-.
    rewrite <- (spec_lines_regular p n W ltac:(unfold MAX_LEN_SPECTRAL; lia) eq_refl). unfold x0, MAX_LEN_SPECTRAL.
    rewrite Ebl. rewrite En. cbn [base_lines]. cbn zeta. unfold base_val. cbn [andb]. reflexivity.
  - intros Hseed. eexists. unfold read_frame. rewrite R0. cbn [bind]. unfold decode_arith. replace (len buf * 8) with (8 * L) by (unfold len in *; lia).
    rewrite R1. cbn [bind]. rewrite R2. cbn [bind]. rewrite R3. cbn [bind].
    unfold decode_residual_bits. rewrite R4. cbn [bind spec_side s_lsb_mode s_lastnz]. rewrite Hm. cbn [negb].
    rewrite Lp1. fold n. rewrite E. cbn [bind].
    rewrite slice_ok by (unfold len; rewrite ?Lx'; lia). cbn [bind]. rewrite Z.sub_0_r. cbn [Z.to_nat skipn].
    rewrite (seed_sum_ok chk _ 0 0) by (auto; lia). cbn [bind]. rewrite Z.add_0_l.
    rewrite (idx_nth x 0 0), (idx_nth x 1 0) by (unfold len; lia). cbn [bind]. rewrite land_65535. reflexivity.
Qed.
