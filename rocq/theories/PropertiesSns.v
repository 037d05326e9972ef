(* Final theorems: pulse vector enumeration and scale factor index multiplexing (C16, C17). *)
From Coq Require Import ZArith List Bool Lia.
From Verif Require Import Base Config Writer Reader SideInfo FrameDec FrameEnc Mpvq MpvqProofs SnsIndex SnsProofs FrameSpec EncFrame FrameProofs ParseTotal TailSpec EncPayload DecSide
  RoundTrip ModelTests PropertiesFrame.
Import ListNotations.
Local Open Scope Z_scope.

(* ---- C16 ---- *)
(* encoding then decoding; `w` is whatever follows the vector in the encoder's array *)
Theorem C16_enum_then_deenum :
  forall v w, (length v <= 16)%nat -> 1 <= pulses v <= 10 ->
  exists ind ls, mvpq_enum (len v) (v ++ w) = Ok (ind, ls) /\ (ls = 0 \/ ls = 1) /\ 0 <= ind < size (length v) (Z.to_nat (pulses v)) /\
    mpvq_deenum (len v) (pulses v) ls ind = Ok v.
Proof. exact enum_deenum. Qed.
Print Assumptions C16_enum_then_deenum.

(* every index in range is the index of exactly one vector *)
Theorem C16_deenum_then_enum :
  forall n K ls ind, (n <= 16)%nat -> (1 <= K <= 10)%nat -> ls = 0 \/ ls = 1 -> 0 <= ind < size n K ->
  exists v, mpvq_deenum (Z.of_nat n) (Z.of_nat K) ls ind = Ok v /\ length v = n /\ pulses v = Z.of_nat K /\
    mvpq_enum (Z.of_nat n) v = Ok (ind, ls) /\
    forall v', length v' = n -> pulses v' = Z.of_nat K -> mvpq_enum (Z.of_nat n) v' = Ok (ind, ls) -> v' = v.
Proof.
  intros n K ls ind Hn HK Hls Hi. destruct (deenum_enum n K ls ind Hn HK Hls Hi) as (v & D & L & P & E). exists v. do 4 (split; [assumption|]).
  intros v' L' P' E'. destruct (enum_deenum v' [] ltac:(lia) ltac:(lia)) as (i' & l' & F & _ & _ & G). rewrite app_nil_r in F. unfold len in F, G. rewrite L' in F, G. rewrite P' in G.
  assert (Ok (i', l') = Ok (ind, ls)) by congruence. injection H as -> ->. congruence.
Qed.
Print Assumptions C16_deenum_then_enum.

(* `size` is half the number of vectors, and has the values published for the four shapes *)
Theorem C16_size_counts_vectors :
  (forall n k v, In v (all_vectors n k) <-> length v = n /\ pulses v = Z.of_nat k) /\
  (forall n k, (n <= 16)%nat -> (1 <= k <= 10)%nat -> 2 * size n k = Z.of_nat (length (all_vectors n k))) /\
  size 10 10 = 2390004 /\ size 6 1 = 6 /\ size 16 8 = 15158272 /\ size 16 6 = 774912.
Proof.
  split; [exact all_vectors_spec|]. split; [intros n k Hn Hk; rewrite all_vectors_count; now apply size_count|].
  split; [exact size_10_10|]. split; [exact size_6_1|]. split; [exact size_16_8|exact size_16_6].
Qed.
Print Assumptions C16_size_counts_vectors.

Example C16_case :
  mvpq_enum 6 [0; 2; -1; 0; 0; 3] = Ok (1935, 0) /\ mpvq_deenum 6 6 0 1935 = Ok [0; 2; -1; 0; 0; 3] /\
  mvpq_enum 16 [0; 0; -8; 0; 0; 0; 0; 0; 0; 0; 0; 0; 0; 0; 0; 0] = Ok (9785072, 1).
Proof. vm_compute. repeat split. Qed.

(* ---- C17 ---- *)
(* side information that is legal apart from the scale factor fields *)
Record side_plain (c : config) (p : enc_params) : Prop := mkSidePlain {
  sp_fs : 0 <= fs_ind c <= 4;
  sp_bw : 0 <= p_bw p <= fs_ind c;
  sp_nbw : p_nbits_bw p = nth (Z.to_nat (fs_ind c)) NBITS_BW_TABLE 0;
  sp_lastnz : 2 <= p_lastnz p <= ne c;
  sp_even : Z.even (p_lastnz p) = true;
  sp_gg : 0 <= p_gg p < 256;
  sp_num : p_num_tns p = if p_bw p <? 3 then 1 else 2;
  sp_rco : len (p_rc_order p) = 2;
  sp_lf : 0 <= p_ind_lf p < 32;
  sp_hf : 0 <= p_ind_hf p < 32;
  sp_pitch : 0 <= p_pitch_index p < 512;
  sp_nf : 0 <= p_nf p < 8
}.

(* Whatever the float comparisons answer, the second stage of the encoder picks a shape, a gain and a pulse vector, and the decoder gets the
   same shape, gain and vector from the written bits. `oracle_ok`: the projection has at most 6 pulses and set B is not all zero. *)
Theorem C17_sns_round_trip :
  forall o c p buf0 w0, let L := len buf0 in
  oracle_ok o -> legal_config c -> side_plain c p -> bytes buf0 -> writer_new L = Ok w0 -> L < 65536 -> spec_side_len (ne c) p < 8 * L ->
  exists j i ji la lb y, stage2 o = Ok (j, i, ji, la, lb, y) /\ shape_vec j y /\
   (p_shape_j p = j -> p_gind p = i -> p_index_joint p = ji -> p_ls_inda p = la ->
    exists w buf si r, enc_side (w0, buf0) (ne c) p = Ok (w, buf) /\ read_side_info buf reader_new (fs_ind c) (ne c) = Ok (si, r) /\
      q_ind_lf (s_sns si) = p_ind_lf p /\ q_ind_hf (s_sns si) = p_ind_hf p /\
      2 * q_submode_msb (s_sns si) + q_submode_lsb (s_sns si) = j /\ q_g_ind (s_sns si) = i /\ sns_vector (s_sns si) = Ok y).
Proof.
  intros o c p buf0 w0 L Ho Hc S Hb Hw HL Hf.
  destruct (stage2_spec o (p_ind_lf p) (p_ind_hf p) Ho (sp_lf _ _ S) (sp_hf _ _ S)) as (j & i & ji & la & lb & y & q & E & Hj & Hi & SV & Q1 & Q2 & Q3 & Q4 & Q5 & Q6 & Q7 & Q8).
  exists j, i, ji, la, lb, y. split; [exact E|]. split; [exact SV|]. intros P1 P2 P3 P4.
  assert (SL : side_legal c p q) by (destruct S; constructor; auto; congruence).
  destruct (side_info_round_trip c p q buf0 w0 Hc SL Hb Hw HL Hf) as (w & buf & W & _ & _ & _ & R).
  exists w, buf, (spec_side p q), (mkReader 0 (spec_side_len (ne c) p)). split; [exact W|]. split; [exact R|]. unfold spec_side. cbn [s_sns]. repeat split; congruence.
Qed.
Print Assumptions C17_sns_round_trip.

(* all combinations of sub-mode, gain, signs and pulse indices: what is written is what is read *)
Theorem C17_all_combinations :
  forall c p q buf0 w0, let L := len buf0 in
  legal_config c -> side_plain c p -> sns_legal q -> bytes buf0 -> writer_new L = Ok w0 -> L < 65536 -> spec_side_len (ne c) p < 8 * L ->
  p_ind_lf p = q_ind_lf q -> p_ind_hf p = q_ind_hf q -> p_shape_j p = 2 * q_submode_msb q + q_submode_lsb q -> p_gind p = q_g_ind q ->
  p_ls_inda p = q_ls_inda q -> p_index_joint p = sns_joint q ->
  exists w buf si r, enc_side (w0, buf0) (ne c) p = Ok (w, buf) /\ read_side_info buf reader_new (fs_ind c) (ne c) = Ok (si, r) /\ s_sns si = q.
Proof.
  intros c p q buf0 w0 L Hc S Hq Hb Hw HL Hf. intros.
  assert (SL : side_legal c p q) by (destruct S; constructor; auto).
  destruct (side_info_round_trip c p q buf0 w0 Hc SL Hb Hw HL Hf) as (w & buf & W & _ & _ & _ & R).
  exists w, buf, (spec_side p q), (mkReader 0 (spec_side_len (ne c) p)). auto.
Qed.
Print Assumptions C17_all_combinations.

(* an accepted frame, whatever its bits, has a pulse vector of its shape and a gain index inside the gain table *)
Theorem C17_accepted_in_range :
  forall chk c buf f, legal_config c -> bytes buf -> read_frame chk c buf = Ok f ->
  let q := s_sns (f_side f) in
  exists y, sns_vector q = Ok y /\ shape_vec (2 * q_submode_msb q + q_submode_lsb q) y /\
    0 <= q_g_ind q < gain_table_len (2 * q_submode_msb q + q_submode_lsb q) /\ 0 <= q_ind_lf q < 32 /\ 0 <= q_ind_hf q < 32.
Proof.
  intros chk c buf f Hc Hb H q. pose proof (sw_sns _ _ (fw_side _ _ _ (read_frame_wf chk c buf f Hc Hb H))) as SL.
  destruct (shape_of_legal q SL) as (y & V & SV & G). exists y. destruct SL. auto.
Qed.
Print Assumptions C17_accepted_in_range.

(* an oracle that answers as floats could: projection onto position 3, pulses spread by a rule, alternating signs, last improvement kept *)
Definition ex_oracle : oracle :=
  mkOracle (fun y n b => nth (Z.to_nat n) y 0 <? nth (Z.to_nat b) y 0) (fun n => if n =? 3 then 4 else 0) (fun n => n =? 12) Z.odd (fun j i => (j =? 0) || (j =? 1) && (i =? 1)).
Example C17_case :
  oracle_ok ex_oracle /\ stage2 ex_oracle = Ok (1, 1, 3285720, 0, 0, [1; -1; 1; -4; 1; -1; 1; 0; 0; 0; 0; 0; 0; 0; 0; 0]).
Proof.
  split; [|vm_compute; reflexivity]. constructor; [|vm_compute; discriminate|exists 12; split; [lia|reflexivity]].
  intros n Hn. cbn. destruct (n =? 3); lia.
Qed.

Example C17_side_case : side_plain (config_new Hz48000 TenMs) t_params /\ sns_legal t_sns /\ spec_side_len 400 t_params < 8 * 150.
Proof.
  split; [|split; [exact (le_sns _ _ _ t_side_legal)|vm_compute; reflexivity]].
  destruct t_side_legal. constructor; auto; vm_compute; split; congruence.
Qed.

(* the hypothesis on set B is needed: if no component of set B exceeds zero, position 0 is overwritten (line 452) and shape 0 overflows *)
Theorem C17_empty_set_b_refuted :
  ~ (forall o, (forall n, 0 <= o_proj o n) -> zsum (map (o_proj o) (zrange 0 16)) <= 6 -> stage2 o <> Panic).
Proof.
  intros H. apply (H (mkOracle (fun _ _ _ => false) (fun _ => 0) (fun _ => false) (fun _ => false) (fun _ _ => false))); [cbn; lia|vm_compute; discriminate|vm_compute; reflexivity].
Qed.
Print Assumptions C17_empty_set_b_refuted.
