(* Writing a frame and parsing it again. *)
From Coq Require Import ZArith List Bool Lia ZifyBool.
From Verif Require Import Base Config Writer Reader AcEnc AcSpec AcSpecProofs BufLemmas AcFinishProofs AcStreamProofs SideInfo ArithDec FrameDec TailSpec TailProofs FrameEnc PayloadSpec Events
  EncPayload EncFrame FrameSpec DecSide DecPayload FrameProofs.
Import ListNotations.
Local Open Scope Z_scope.

Lemma payload_tbits c L p q : legal_config c -> frame_legal c L p q -> 57 <= tbits (payload (ne c) p).
Proof.
  intros Hc Hl. pose proof (fl_side _ _ _ _ Hl) as S. pose proof (side_bits_len c p q S) as E.
  unfold payload. rewrite tbits_app, tbits_map, E. pose proof (tbits_nonneg (tns_evs (p_num_tns p) (p_lpc_weighting p) (p_rc_order p) (p_rc_i p) ++
    spec_evs (Z.to_nat (p_lastnz p / 2)) (p_lsb_mode p) (ne c) 0 0 (p_rate_flag p) (p_xq p))).
  enough (57 <= spec_side_len (ne c) p) by lia.
  pose proof (nbits_bw_nonneg c p q S). pose proof (le_num _ _ _ S). pose proof (le_shape _ _ _ S). pose proof (shape_range q (le_sns _ _ _ S)).
  unfold spec_side_len. rewrite (le_nbw _ _ _ S). rewrite (le_num _ _ _ S).
  assert (5 <= Z.log2_up (ne c / 2)) by (destruct Hc as (f & d & ->); destruct f, d; vm_compute; congruence).
  rewrite <- (le_nbw _ _ _ S). destruct (p_bw p <? 3), (p_pitch_present p), (2 <=? p_shape_j p); lia.
Qed.

(* the residual bits the writer appends *)
Definition sent_bits (room : Z) (p : enc_params) : list bool := firstn (Z.to_nat room) (res_source p).
Definition room_ok (L room : Z) (l : list ev) : Prop := room = 8 * L - payload_bits l \/ (room = 8 * L - payload_bits l - 8 /\ all_ff (fin l)).

Lemma written_frame c p q buf0 : let L := len buf0 in let l := payload (ne c) p in
  legal_config c -> L < 65536 -> frame_legal c L p q -> payload_bits l <= 8 * L ->
  frame_safe L (fin l) (tbits l + Z.min (8 * L - payload_bits l) (len (res_source p))) ->
  exists buf room, encode_frame (ne c) p buf0 = Ok buf /\ len buf = L /\ bytes buf /\ room_ok L room l /\
    holds buf (l ++ map EBit (sent_bits room p)).
Proof.
  intros L l Hc HL Hl Hp Hs. pose proof (legal_writer _ _ _ _ Hl) as W.
  destruct (encode_frame_ok (ne c) p buf0 W HL Hp) as (buf & early & v & bits & E & E1 & E2 & E3 & E4 & E5 & E6 & E7 & E8 & E9 & E10).
  fold l in E, E3, E4, E6, E8, E9, E10. fold L in E1, E3, E10.
  exists buf, (8 * L - payload_bits l - (if early then 8 else 0)).
  split; [exact E|]. split; [exact E1|]. split; [exact E2|]. split.
  - unfold room_ok. destruct early; [right; split; [lia|auto]|left; lia].
  - eapply encoded_holds; eauto; [now apply payload_valid|pose proof (payload_tbits c L p q Hc Hl); unfold l; lia|].
    unfold frame_safe in *. destruct Hs as [Hs|Hs]; [left; exact Hs|right].
    set (res := firstn (Z.to_nat (8 * L - payload_bits l - (if early then 8 else 0))) (res_source p)) in *.
    destruct (len_firstn (res_source p) (Z.to_nat (8 * L - payload_bits l - (if early then 8 else 0)))) as [F1 F2]. fold res in F1, F2.
    change (sent_bits (8 * L - payload_bits l - (if early then 8 else 0)) p) with res.
    assert (len res <= 8 * L - payload_bits l) by (unfold payload_bits; lia). lia.
Qed.

Lemma firstn_tail_bits buf t n m : (m <= n)%nat -> firstn m (tail_bits buf t n) = tail_bits buf t m.
Proof. intros. unfold tail_bits. now apply bits_of_split. Qed.
Lemma tail_bits_len buf t n : len (tail_bits buf t n) = Z.of_nat n.
Proof. unfold tail_bits. apply bits_of_len. Qed.

(* regular mode *)
Theorem round_trip_regular chk c p q buf0 : let L := len buf0 in let l := payload (ne c) p in
  legal_config c -> L < 65536 -> frame_legal c L p q -> p_lsb_mode p = false -> payload_bits l <= 8 * L ->
  ~ term_window (fin l) \/ tbits l + Z.min (8 * L - payload_bits l) (len (p_res_bits p)) + 8 * iN (fin l) + 24 <= 8 * L ->
  (chk = true -> weighted_sum (firstn (Z.to_nat (ne c)) (spec_lines p)) 0 <= i32_max) ->
  exists buf room got, encode_frame (ne c) p buf0 = Ok buf /\ len buf = L /\ bytes buf /\ room_ok L room l /\
    read_frame chk c buf = Ok (mkFrame (spec_side p q)
      (mkArith (spec_orders p) (spec_tns_idx p) got (spec_seed (firstn (Z.to_nat (ne c)) (spec_lines p))) (spec_zero p) (8 * L))
      (spec_lines p)) /\
    len got = Z.min (8 * L - payload_bits l) (nonzero_count (firstn (Z.to_nat (p_lastnz p)) (p_xq p))) /\
    (forall k, (k < length got)%nat -> Z.of_nat k < room -> (k < length (p_res_bits p))%nat -> nth k got false = nth k (p_res_bits p) false).
Proof.
  intros L l Hc HL Hl Hm Hp Hs Hseed.
  assert (Er : res_source p = p_res_bits p) by (unfold res_source; now rewrite Hm).
  destruct (written_frame c p q buf0 Hc HL Hl Hp) as (buf & room & E & E1 & E2 & E3 & E4).
  { unfold frame_safe. rewrite Er. exact Hs. }
  pose proof (parse_regular chk c L p q buf (sent_bits room p) Hc Hl E1 E2 Hm E4 Hp Hseed) as P. cbn zeta in P.
  fold l in P, Hp. set (nres := Z.min (8 * L - payload_bits l) (nonzero_count (firstn (Z.to_nat (p_lastnz p)) (p_xq p)))) in *.
  exists buf, room, (tail_bits buf (tbits l) (Z.to_nat nres)). split; [exact E|]. split; [exact E1|]. split; [exact E2|]. split; [exact E3|]. split; [exact P|].
  assert (Hn : 0 <= nres) by (unfold nres, nonzero_count; pose proof (len_nonneg (filter (fun x => negb (x =? 0)) (firstn (Z.to_nat (p_lastnz p)) (p_xq p)))); lia).
  split; [rewrite tail_bits_len; lia|].
  intros k K1 K2 K3. destruct E4 as (_ & T & _). rewrite ev_bits_app, ev_bits_map in T. apply tail_at_app in T; [|lia]. destruct T as [_ T].
  rewrite Z.add_0_l in T. fold (tbits (payload (ne c) p)) in T. fold l in T.
  assert (Hk : (S k <= length (sent_bits room p))%nat).
  { unfold sent_bits. rewrite Er, firstn_length. lia. }
  pose proof (tail_bits_len buf (tbits l) (Z.to_nat nres)) as Lg. unfold len in Lg.
  pose proof (tail_bits_prefix buf (tbits l) (sent_bits room p) (S k) T Hk) as Tp.
  rewrite <- (firstn_tail_bits buf (tbits l) (Z.to_nat nres) (S k)) in Tp by lia.
  apply (f_equal (fun l => nth k l false)) in Tp.
  rewrite !nth_firstn_lt_gen in Tp by lia. rewrite Tp. unfold sent_bits. rewrite Er. apply nth_firstn_lt_gen. lia.
Qed.

(* ---- side information alone ---- *)
Lemma bits_of_bval l : bits_of (bval l) (length l) = l.
Proof.
  apply bval_inj.
  - pose proof (bits_of_len (bval l) (length l)). unfold len in *. lia.
  - rewrite bval_bits_of. fold (len l). apply Z.mod_small, bval_bound.
Qed.

Lemma wbools_any L l w buf t : len buf = L -> bytes buf -> wpos L w t -> 0 <= t -> t + len l < 8 * L ->
  exists w' buf', wbools (w, buf) l = Ok (w', buf') /\ len buf' = L /\ bytes buf' /\ wpos L w' (t + len l) /\
    be buf' mod 2 ^ (t + len l) = be buf mod 2 ^ t + bval l * 2 ^ t.
Proof.
  intros HL Hb Hw Ht Hf. destruct (write_uint_any L (length l) w buf (bval l) t HL Hb Hw Ht Hf) as (w' & buf' & E & E1 & E2 & E3 & E4).
  exists w', buf'. rewrite <- (bits_of_bval l) at 1. rewrite <- (wuint_bits (length l) (w, buf) (bval l)).
  split; [exact E|]. split; [exact E1|]. split; [exact E2|]. split; [exact E3|].
  fold (len l) in E4. rewrite E4. do 2 f_equal. apply Z.mod_small, bval_bound.
Qed.

Lemma wbools_pos (L : Z) l : forall o o', wbools o l = Ok o' -> w_bp (fst o') = w_bp (fst o).
Proof.
  induction l as [|b l IH]; intros o o' E; cbn [wbools] in E; [injection E as <-; reflexivity|].
  unfold wbool in E. destruct (write_bool_backward (fst o) (snd o) b) as [o1| |] eqn:Eo; cbn [bind] in E; try discriminate.
  apply IH in E. rewrite E. clear E. unfold write_bool_backward in Eo.
  destruct (idx (snd o) _); cbn [bind] in Eo; try discriminate. destruct (store _ _ _); cbn [bind] in Eo; try discriminate.
  destruct (w_mask (fst o) =? 128).
  - destruct (usub _ _); cbn [bind] in Eo; try discriminate. injection Eo as <-. reflexivity.
  - injection Eo as <-. reflexivity.
Qed.

Theorem side_info_round_trip c p q buf0 w0 : let L := len buf0 in
  legal_config c -> side_legal c p q -> bytes buf0 -> writer_new L = Ok w0 -> L < 65536 -> spec_side_len (ne c) p < 8 * L ->
  exists w buf, enc_side (w0, buf0) (ne c) p = Ok (w, buf) /\ len buf = L /\ bytes buf /\
    nbits_side_written w (8 * L) = Ok (spec_side_len (ne c) p) /\
    read_side_info buf reader_new (fs_ind c) (ne c) = Ok (spec_side p q, mkReader 0 (spec_side_len (ne c) p)).
Proof.
  intros L Hc S Hb Hw HL Hfit. pose proof (side_bits_len c p q S) as El.
  pose proof (len_nonneg (side_bits (ne c) p)) as Ln.
  assert (H0 : wpos L w0 0).
  { unfold writer_new in Hw. rewrite Z.mod_small in Hw by lia. rewrite usub_ok in Hw by lia. cbn [bind] in Hw. injection Hw as <-. split; cbn; lia. }
  rewrite enc_side_bits.
  2:{ unfold shape_ok. rewrite (le_shape _ _ _ S). apply shape_range, (le_sns _ _ _ S). }
  2:{ apply (le_lastnz _ _ _ S). }
  2:{ rewrite (le_rco _ _ _ S), (le_num _ _ _ S). destruct (p_bw p <? 3); lia. }
  2:{ apply (nbits_bw_nonneg c p q S). }
  destruct (wbools_any L (side_bits (ne c) p) w0 buf0 0 eq_refl Hb H0 ltac:(lia) ltac:(lia)) as (w & buf & E & E1 & E2 & [Ws Wm] & E4).
  rewrite Z.add_0_l in *. exists w, buf. split; [exact E|]. split; [exact E1|]. split; [exact E2|]. split.
  - rewrite <- El. set (n := len (side_bits (ne c) p)) in *. unfold nbits_side_written. rewrite Ws, Wm. unfold log2_floor.
    rewrite Z.log2_pow2 by (apply Z.mod_pos_bound; lia).
    replace (8 * L - (8 * (L - 1 - n / 8) + 8 - n mod 8)) with n by dml.
    destruct (Z.ltb_spec n 0); [lia|reflexivity].
  - apply side_read_ok; auto; [lia|]. apply low_tail_at; [lia|]. rewrite Z.add_0_l. rewrite E4. change (2 ^ 0) with 1. now rewrite !Z.mod_1_r.
Qed.

(* the side information of a whole frame, whatever the state of the arithmetic coder *)
Theorem frame_side_info c p q buf0 : let L := len buf0 in let l := payload (ne c) p in
  legal_config c -> L < 65536 -> frame_legal c L p q -> payload_bits l <= 8 * L ->
  exists buf, encode_frame (ne c) p buf0 = Ok buf /\ len buf = L /\ bytes buf /\
    read_side_info buf reader_new (fs_ind c) (ne c) = Ok (spec_side p q, mkReader 0 (spec_side_len (ne c) p)).
Proof.
  intros L l Hc HL Hl Hp. pose proof (legal_writer _ _ _ _ Hl) as W. pose proof (fl_side _ _ _ _ Hl) as S.
  destruct (encode_frame_ok (ne c) p buf0 W HL Hp) as (buf & early & v & bits & E & E1 & E2 & E3 & E4 & E5 & E6 & E7 & E8 & E9 & E10).
  fold l in E, E3, E4, E6, E8, E9, E10. fold L in E1, E3, E10. set (res := firstn _ _) in *.
  exists buf. split; [exact E|]. split; [exact E1|]. split; [exact E2|].
  pose proof (payload_valid (ne c) p W) as V. fold l in V. pose proof (fin_wf l V) as Wf. pose proof (iw_N _ Wf) as WN. pose proof (ari_bits_ge _ Wf) as Wa.
  pose proof (len_nonneg res) as Lr. pose proof (payload_tbits c L p q Hc Hl) as T57. fold l in T57.
  assert (Et : len (ev_bits l ++ res) = tbits l + len res) by (rewrite len_app; reflexivity).
  assert (T : tail_at (be buf) 0 (ev_bits l ++ res)).
  { assert (Eb : be buf = v * 2 ^ (8 * (L - iN (fin l) - 3)) + bval (ev_bits l ++ res)).
    { replace (8 * (L - iN (fin l))) with (8 * (L - iN (fin l) - 3) + 24) in E3 by lia. rewrite Z.pow_add_r in E3 by lia.
      assert (0 < 2 ^ 24) by lia. nia. }
    pose proof (bval_bound (ev_bits l ++ res)) as HT. rewrite Et in HT.
    unfold tail_at. rewrite Z.pow_0_r, Z.div_1_r, Et, Eb.
    apply Z.mod_divide in E7; [|lia]. destruct E7 as [k ->].
    replace (k * 2 ^ (24 - bits) * 2 ^ (8 * (L - iN (fin l) - 3))) with (k * 2 ^ (8 * L - 8 * iN (fin l) - bits - (tbits l + len res)) * 2 ^ (tbits l + len res)).
    - rewrite Z.add_comm, Z_mod_plus_full. apply Z.mod_small. lia.
    - rewrite <- !Z.mul_assoc, <- !Z.pow_add_r by lia. do 2 f_equal. lia. }
  pose proof (side_bits_len c p q S) as El.
  assert (Es : ev_bits l = side_bits (ne c) p ++ ev_bits (tns_evs (p_num_tns p) (p_lpc_weighting p) (p_rc_order p) (p_rc_i p) ++
    spec_evs (Z.to_nat (p_lastnz p / 2)) (p_lsb_mode p) (ne c) 0 0 (p_rate_flag p) (p_xq p))).
  { unfold l, payload. rewrite ev_bits_app, ev_bits_map. reflexivity. }
  assert (Eq : tbits l = spec_side_len (ne c) p + len (ev_bits (tns_evs (p_num_tns p) (p_lpc_weighting p) (p_rc_order p) (p_rc_i p) ++
    spec_evs (Z.to_nat (p_lastnz p / 2)) (p_lsb_mode p) (ne c) 0 0 (p_rate_flag p) (p_xq p)))).
  { unfold tbits. rewrite Es, len_app, El. reflexivity. }
  rewrite Es, <- app_assoc in T. apply tail_at_app in T; [|lia]. destruct T as [T _].
  apply side_read_ok; auto. match type of Eq with _ = _ + ?x => assert (0 <= x) by apply len_nonneg end. lia.
Qed.

(* ---- lsb mode ---- *)
Lemma base_lines_nth xq n : forall k i, 0 <= k -> (i < 2 * n)%nat ->
  exists e, nth i (base_lines n true k xq) 0 = base_val true e (nth (Z.to_nat k + i) xq 0).
Proof.
  induction n as [|n IH]; intros k i Hk Hi; [lia|]. cbn [base_lines]. cbn zeta.
  destruct i as [|[|i]]; cbn [nth].
  - eexists. rewrite Nat.add_0_r. reflexivity.
  - eexists. replace (Z.to_nat k + 1)%nat with (Z.to_nat (k + 1)) by lia. reflexivity.
  - destruct (IH (k + 2) i ltac:(lia) ltac:(lia)) as (e & E). exists e. rewrite E. do 2 f_equal. lia.
Qed.

Lemma nudge_error e x y : nudged (base_val true e x) y -> Z.abs (x - y) <= 2 /\ (Z.abs x <> 1 -> Z.abs (x - y) <= 1).
Proof.
  unfold nudged, base_val. destruct (true && (0 <? e)); [|destruct (Z.sgn_spec x) as [[? ->]|[[? ->]|[? ->]]]; lia].
  assert (H : 2 * (Z.abs x / 2) <= Z.abs x <= 2 * (Z.abs x / 2) + 1) by dml. set (h := 2 * (Z.abs x / 2)) in *.
  assert (Hh : h mod 2 = 0) by (unfold h; rewrite Z.mul_comm; apply Z_mod_mult).
  destruct (Z.sgn_spec x) as [[? Es]|[[? Es]|[? Es]]]; rewrite Es; intros N.
  - replace (1 * h) with h in N by lia. destruct (Z.eq_dec h 0) as [E0|E0]; [|replace (Z.sgn h) with 1 in N by lia]; [rewrite E0 in *; cbn in N; lia|lia].
  - replace (0 * h) with 0 in N by lia. cbn in N. lia.
  - replace (-1 * h) with (- h) in N by lia. destruct (Z.eq_dec h 0) as [E0|E0]; [|replace (Z.sgn (- h)) with (-1) in N by lia]; [rewrite E0 in *; cbn in N; lia|lia].
Qed.

Theorem round_trip_lsb chk c p q buf0 : let L := len buf0 in let l := payload (ne c) p in
  legal_config c -> L < 65536 -> frame_legal c L p q -> p_lsb_mode p = true -> payload_bits l <= 8 * L ->
  ~ term_window (fin l) \/ tbits l + Z.min (8 * L - payload_bits l) (len (res_source p)) + 8 * iN (fin l) + 24 <= 8 * L ->
  let levs := pair_levs (Z.to_nat (p_lastnz p / 2)) 0 (p_xq p) in
  exists buf room x, encode_frame (ne c) p buf0 = Ok buf /\ len buf = L /\ bytes buf /\ room_ok L room l /\ length x = 400%nat /\
    (forall i, 0 <= i < p_lastnz p -> let d := Z.abs (nth (Z.to_nat i) (p_xq p) 0 - nth (Z.to_nat i) x 0) in
       d <= 2 /\ (Z.abs (nth (Z.to_nat i) (p_xq p) 0) <> 1 -> d <= 1)) /\
    (forall i, (Z.to_nat (p_lastnz p) <= i)%nat -> nth i x 0 = 0) /\
    (Forall (fun e => e = 0) levs -> x = spec_lines p) /\
    (Forall (fun e => e = 0) (tl levs) -> len (res_source p) <= room -> x = spec_lines p) /\
    ((chk = true -> weighted_sum (firstn (Z.to_nat (ne c)) x) 0 <= i32_max) ->
     exists zero, read_frame chk c buf = Ok (mkFrame (spec_side p q)
      (mkArith (spec_orders p) (spec_tns_idx p) [] (spec_seed (firstn (Z.to_nat (ne c)) x)) zero (8 * L)) x)).
Proof.
  intros L l Hc HL Hl Hm Hp Hs levs.
  destruct (written_frame c p q buf0 Hc HL Hl Hp Hs) as (buf & room & E & E1 & E2 & E3 & E4).
  destruct (parse_lsb chk c L p q buf (sent_bits room p) Hc Hl E1 E2 Hm E4 Hp) as (x & X1 & X2 & X3 & X4 & X5 & X6).
  exists buf, room, x. split; [assumption|]. split; [assumption|]. split; [assumption|]. split; [assumption|]. split; [assumption|].
  split; [|split; [assumption|split; [assumption|split; [|assumption]]]].
  - intros i Hi. pose proof (lastnz_pairs p (legal_writer _ _ _ _ Hl)) as [_ Lp].
    specialize (X2 (Z.to_nat i)). destruct (base_lines_nth (p_xq p) (Z.to_nat (p_lastnz p / 2)) 0 (Z.to_nat i) ltac:(lia) ltac:(lia)) as (e & Ee).
    rewrite Ee in X2. cbn [Z.to_nat Nat.add] in X2. exact (nudge_error _ _ _ X2).
  - intros F Hr. assert (Es : sent_bits room p = res_source p).
    { unfold sent_bits. apply firstn_all2. unfold len in Hr. lia. }
    apply X5; [exact F|exact Es|]. rewrite Es. eapply Z.le_trans; [exact Hr|]. unfold l in E3. destruct E3 as [->|[-> _]]; lia.
Qed.

(* ---- the number of residual bits on both sides ---- *)
(* bitstream_encoding.rs:336-338, evaluated where `residual_data_and_finalization` does *)
Definition enc_residual_count (ne : Z) (p : enc_params) (buf0 : list Z) : res Z :=
  '(_, st, o) <- enc_stages ne p buf0 ;;
  nbits_side <- nbits_side_written (fst o) (len buf0 * 8) ;;
  Ok (Z.max 0 (len buf0 * 8 - (nbits_side + nbits_side_forecast st (fst o)))).
(* arithmetic_codec.rs:390-405, evaluated where `decode_residual_bits` does *)
Definition dec_residual_count (c : config) (buf : list Z) : res Z :=
  '(si, r) <- read_side_info buf reader_new (fs_ind c) (ne c) ;;
  '(st, r) <- AcDec.ac_dec_init buf r ;;
  '(_, _, st, r) <- decode_tns_data buf r si st (len buf * 8) (n_ms c) ;;
  '(_, _, st, r) <- decode_spectral_data buf r si (len buf * 8) (fs_ind c) (ne c) st ;;
  calc_num_residual_bits r st (len buf * 8).

Theorem residual_counts c p q buf0 : let L := len buf0 in let l := payload (ne c) p in
  legal_config c -> L < 65536 -> frame_legal c L p q -> payload_bits l <= 8 * L ->
  ~ term_window (fin l) \/ tbits l + Z.min (8 * L - payload_bits l) (len (res_source p)) + 8 * iN (fin l) + 24 <= 8 * L ->
  exists buf e d, encode_frame (ne c) p buf0 = Ok buf /\ enc_residual_count (ne c) p buf0 = Ok e /\ dec_residual_count c buf = Ok d /\
    d = 8 * L - payload_bits l /\ (e = d \/ (e = Z.max 0 (d - 8) /\ all_ff (fin l))).
Proof.
  intros L l Hc HL Hl Hp Hs. pose proof (legal_writer _ _ _ _ Hl) as W.
  destruct (written_frame c p q buf0 Hc HL Hl Hp Hs) as (buf & room & E & E1 & E2 & E3 & E4).
  destruct (enc_stages_ok (ne c) p buf0 W HL Hp) as (st & o & S1 & S2). fold L l in S2.
  pose proof (payload_valid (ne c) p W) as V. fold l in V.
  destruct (est_forecast L st o l S2 V) as [F1 F2].
  destruct (parse_to_spectrum c L p q buf (sent_bits room p) Hc Hl E1 E2 E4 Hp) as (r0 & r1 & r2 & r3 & st1 & st2 & st3 & R0 & R1 & R2 & R3 & R4 & R5 & R6).
  exists buf, (Z.max 0 (8 * L - (payload_bits l + (if e_cache st <? 0 then 8 else 0)))), (8 * L - payload_bits l).
  split; [exact E|]. split; [|split; [|split; [reflexivity|]]].
  - unfold enc_residual_count. rewrite S1. cbn [bind]. fold L. replace (L * 8) with (8 * L) by lia. rewrite F1. cbn [bind]. rewrite F2. reflexivity.
  - unfold dec_residual_count. rewrite R0. cbn [bind]. rewrite R1. cbn [bind]. replace (len buf * 8) with (8 * L) by (rewrite E1; unfold L; lia).
    rewrite R2. cbn [bind]. rewrite R3. cbn [bind]. exact R4.
  - fold l in Hp. destruct (Z.ltb_spec (e_cache st) 0).
    + right. split; [lia|]. eapply erel_early; [exact S2|lia].
    + left. lia.
Qed.
