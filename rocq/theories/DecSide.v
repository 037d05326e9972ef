(* Reading back the side information (C04). *)
From Coq Require Import ZArith List Bool Lia ZifyBool.
From Verif Require Import Base Config Writer Reader AcEnc AcSpec BufLemmas SideInfo TailSpec TailProofs FrameEnc PayloadSpec Events EncPayload EncFrame FrameSpec.
Import ListNotations.
Local Open Scope Z_scope.

Lemma ne_width c : legal_config c -> good_width (log2_ceil (ne c / 2)) /\ log2_ceil (ne c / 2) < 9 /\ 2 * 2 ^ log2_ceil (ne c / 2) >= ne c /\ ne c <= MAX_LEN_SPECTRAL
  /\ 0 <= fs_ind c <= 4 /\ Z.even (ne c) = true /\ 60 <= ne c.
Proof. intros (f & d & ->). destruct f, d; unfold good_width, MAX_LEN_SPECTRAL; vm_compute; intuition discriminate. Qed.

Ltac rbool T R T' :=
  match type of T with tail_at _ ?t (?b :: ?l) => destruct (side_bool _ t b l ltac:(eassumption) ltac:(lia) ltac:(lia) T) as [R T'] end.
Ltac rusize T w R T' tac :=
  match type of T with tail_at _ ?t (bits_of ?v w ++ ?l) =>
    destruct (side_usize _ t l w ltac:(eassumption) ltac:(lia) ltac:(unfold good_width; lia) ltac:(first [right; split; [discriminate|lia]|left; lia]) v ltac:(tac) T) as [R T'] end.

Lemma land_1 x : Z.land x 1 = x mod 2.
Proof. change 1 with (Z.ones 1). now rewrite Z.land_ones. Qed.

Lemma flags_read buf n : bytes buf -> forall rc t l, (n <= length rc)%nat -> 0 <= t -> t + Z.of_nat n <= 8 * len buf ->
  tail_at (be buf) t (map (fun x => negb (x =? 0)) (firstn n rc) ++ l) ->
  read_flags n buf (mkReader 0 t) = Ok (map (fun x => if x =? 0 then 0 else 1) (firstn n rc), mkReader 0 (t + Z.of_nat n)) /\
  tail_at (be buf) (t + Z.of_nat n) l.
Proof.
  intros Hb. induction n as [|n IH]; intros rc t l Hl Ht Hfit T.
  - rewrite Z.add_0_r. split; [reflexivity|exact T].
  - destruct rc as [|x rc]; [cbn in Hl; lia|]. cbn [firstn map app] in T.
    destruct (side_bool buf t _ _ Hb Ht ltac:(lia) T) as [E T1].
    cbn [read_flags]. rewrite E. cbn [bind].
    destruct (IH rc (t + 1) l ltac:(cbn in Hl; lia) ltac:(lia) ltac:(lia) T1) as [E2 T2]. rewrite E2. cbn [bind firstn map].
    replace (t + Z.of_nat (S n)) with (t + 1 + Z.of_nat n) by lia. split; [|exact T2].
    do 3 f_equal. unfold b2z. now destruct (x =? 0).
Qed.

Lemma ltpf_read buf p t l : bytes buf -> 0 <= t -> 0 <= p_pitch_index p < 512 ->
  t + (if p_pitch_present p then 10 else 0) <= 8 * len buf ->
  tail_at (be buf) t ((if p_pitch_present p then p_ltpf_active p :: bits_of (p_pitch_index p) 9 else []) ++ l) ->
  read_ltpf buf (mkReader 0 t) (p_pitch_present p) =
    Ok (if p_pitch_present p then mkLtpf true (p_ltpf_active p) (p_pitch_index p) else mkLtpf false false 0,
        mkReader 0 (t + (if p_pitch_present p then 10 else 0))) /\
  tail_at (be buf) (t + (if p_pitch_present p then 10 else 0)) l.
Proof.
  intros Hb Ht Hp Hfit T. unfold read_ltpf. destruct (p_pitch_present p).
  - cbn [app] in T. destruct (side_bool buf t _ _ Hb Ht ltac:(lia) T) as [E T1]. rewrite E. cbn [bind].
    destruct (side_usize buf (t + 1) l 9 Hb ltac:(lia) ltac:(unfold good_width; lia) ltac:(right; split; [discriminate|lia]) (p_pitch_index p) ltac:(exact Hp) T1) as [E2 T2].
    change (Z.of_nat 9) with 9 in *. rewrite E2. cbn [bind].
    replace (t + 10) with (t + 1 + 9) by lia. split; [reflexivity|exact T2].
  - rewrite Z.add_0_r. split; [reflexivity|exact T].
Qed.

Lemma sns_vq_eta q a b c d e f g h i : q_ind_lf q = a -> q_ind_hf q = b -> q_ls_inda q = c -> q_ls_indb q = d -> q_idx_a q = e -> q_idx_b q = f ->
  q_submode_lsb q = g -> q_submode_msb q = h -> q_g_ind q = i -> mkSnsVq a b c d e f g h i = q.
Proof. destruct q; cbn. intros; subst; reflexivity. Qed.

Lemma sns_read buf p q t l : bytes buf -> 0 <= t -> sns_legal q -> t + 38 < 8 * len buf ->
  p_ind_lf p = q_ind_lf q -> p_ind_hf p = q_ind_hf q -> p_shape_j p = 2 * q_submode_msb q + q_submode_lsb q ->
  p_gind p = q_g_ind q -> p_ls_inda p = q_ls_inda q -> p_index_joint p = sns_joint q ->
  tail_at (be buf) t (sns_bits p ++ l) ->
  read_sns_vq buf (mkReader 0 t) = Ok (q, mkReader 0 (t + 38)) /\ tail_at (be buf) (t + 38) l.
Proof.
  intros Hb Ht [Hlf Hhf Ha Hr] Hfit E1 E2 E3 E4 E5 E6 T. unfold sns_bits in T. rewrite <- !app_assoc in T. rewrite E1, E2, E3, E4, E5, E6 in T.
  unfold read_sns_vq.
  destruct (side_usize buf t _ 5 Hb Ht ltac:(unfold good_width; lia) ltac:(right; split; [discriminate|lia]) _ Hlf T) as [R1 T1].
  change (Z.of_nat 5) with 5 in *. rewrite R1. cbn [bind].
  destruct (side_usize buf (t + 5) _ 5 Hb ltac:(lia) ltac:(unfold good_width; lia) ltac:(right; split; [discriminate|lia]) _ Hhf T1) as [R2 T2].
  change (Z.of_nat 5) with 5 in *. rewrite R2. cbn [bind].
  cbn [app] in T2. rbool T2 R3 T3. rewrite R3. cbn [bind].
  set (g := q_g_ind q) in *.
  destruct Hr as [(M & S & G & A & B & C)|[(M & S & G & A & B & C)|[(M & S & G & A & B & C)|(M & S & G & A & B & C)]]];
    rewrite M, S in *; change (2 * 0 + 0) with 0 in *; change (2 * 0 + 1) with 1 in *; change (2 * 1 + 0) with 2 in *; change (2 * 1 + 1) with 3 in *; cbn [Z.odd] in T3.
  - (* regular *)
    change (2 <=? 0) with false in *. cbn iota in T3. cbn [negb]. rewrite Z.div_1_r in T3. fold g in T3.
    rusize T3 (1%nat) R4 T4 ltac:(exact G).
    change (Z.of_nat 1) with 1 in *. rewrite R4. cbn [bind app] in *.
    rbool T4 R5 T5. rewrite R5. cbn [bind].
    assert (J : sns_joint q = (2 * q_idx_b q + q_ls_indb q + 2) * 2390004 + q_idx_a q) by (unfold sns_joint; rewrite M, S; reflexivity).
    assert (HJ : 0 <= sns_joint q < 33460056) by (rewrite J; lia).
    rusize T5 (25%nat) R6 T6 ltac:(lia).
    change (Z.of_nat 25) with 25 in *. rewrite R6. cbn [bind].
    destruct (Z.leb_spec 33460056 (sns_joint q)); [lia|]. cbn zeta.
    assert (Q : sns_joint q / 2390004 = 2 * q_idx_b q + q_ls_indb q + 2) by (rewrite J; dml).
    rewrite Q. rewrite usub_ok by lia. cbn [bind].
    destruct (Z.ltb_spec (2 * q_idx_b q + q_ls_indb q + 2 - 2) 0); [lia|]. rewrite Z.eqb_refl.
    replace (t + 38) with (t + 5 + 5 + 1 + 1 + 1 + 25) by lia. split; [|exact T6]. do 2 f_equal. unfold g.
    apply sns_vq_eta; auto; try lia.
    + destruct Ha as [-> | ->]; reflexivity.
    + rewrite land_1. try change (2 ^ 1) with 2. dml.
    + rewrite Z.shiftr_div_pow2 by lia. change (2 ^ 1) with 2. dml.
  - (* regular, low frequencies *)
    change (2 <=? 1) with false in *. cbn iota in T3. cbn [negb]. fold g in T3.
    rusize T3 (1%nat) R4 T4 ltac:(change (2 ^ Z.of_nat 1) with 2; dml).
    change (Z.of_nat 1) with 1 in *. rewrite R4. cbn [bind app] in *.
    rbool T4 R5 T5. rewrite R5. cbn [bind].
    assert (J : sns_joint q = g mod 2 * 2390004 + q_idx_a q) by (unfold sns_joint; rewrite M, S; reflexivity).
    assert (Hg : 0 <= g mod 2 < 2) by (apply Z.mod_pos_bound; lia).
    assert (HJ : 0 <= sns_joint q < 33460056) by (rewrite J; lia).
    rusize T5 (25%nat) R6 T6 ltac:(lia).
    change (Z.of_nat 25) with 25 in *. rewrite R6. cbn [bind].
    destruct (Z.leb_spec 33460056 (sns_joint q)); [lia|]. cbn zeta.
    assert (Q : sns_joint q / 2390004 = g mod 2) by (rewrite J; clearbody g; dml).
    rewrite Q. rewrite usub_ok by lia. cbn [bind].
    destruct (Z.ltb_spec (g mod 2 - 2) 0); [|lia]. change (1 =? 0) with false. cbn iota.
    replace (t + 38) with (t + 5 + 5 + 1 + 1 + 1 + 25) by lia. split; [|exact T6]. do 2 f_equal.
    apply sns_vq_eta; auto; try lia.
    + destruct Ha as [-> | ->]; reflexivity.
    + fold g. rewrite Z.shiftl_mul_pow2 by lia. change (2 ^ 1) with 2. clearbody g; dml.
  - (* outlier near *)
    change (2 <=? 2) with true in *. cbn iota in T3. cbn [negb]. rewrite Z.div_1_r in T3. fold g in T3.
    rusize T3 (2%nat) R4 T4 ltac:(exact G).
    change (Z.of_nat 2) with 2 in *. rewrite R4. cbn [bind app] in *.
    rbool T4 R5 T5. rewrite R5. cbn [bind].
    assert (J : sns_joint q = q_idx_a q) by (unfold sns_joint; rewrite M, S; reflexivity).
    rusize T5 (24%nat) R6 T6 ltac:(lia).
    change (Z.of_nat 24) with 24 in *. rewrite R6. cbn [bind].
    destruct (Z.leb_spec 16708096 (sns_joint q)); [lia|]. destruct (Z.leb_spec 15158272 (sns_joint q)); [lia|].
    replace (t + 38) with (t + 5 + 5 + 1 + 2 + 1 + 24) by lia. split; [|exact T6]. do 2 f_equal. unfold g.
    apply sns_vq_eta; auto; try lia.
    destruct Ha as [-> | ->]; reflexivity.
  - (* outlier far *)
    change (2 <=? 3) with true in *. cbn iota in T3. cbn [negb]. fold g in T3.
    rusize T3 (2%nat) R4 T4 ltac:(change (2 ^ Z.of_nat 2) with 4; dml).
    change (Z.of_nat 2) with 2 in *. rewrite R4. cbn [bind app] in *.
    rbool T4 R5 T5. rewrite R5. cbn [bind].
    assert (J : sns_joint q = 15158272 + g mod 2 + 2 * q_idx_a q) by (unfold sns_joint; rewrite M, S; reflexivity).
    assert (Hg : 0 <= g mod 2 < 2) by (apply Z.mod_pos_bound; lia).
    rusize T5 (24%nat) R6 T6 ltac:(lia).
    change (Z.of_nat 24) with 24 in *. rewrite R6. cbn [bind].
    destruct (Z.leb_spec 16708096 (sns_joint q)); [lia|]. destruct (Z.leb_spec 15158272 (sns_joint q)); [|lia].
    cbn zeta. replace (t + 38) with (t + 5 + 5 + 1 + 2 + 1 + 24) by lia. split; [|exact T6]. do 2 f_equal.
    replace (sns_joint q - 15158272) with (g mod 2 + q_idx_a q * 2) by lia.
    apply sns_vq_eta; auto; try lia.
    + destruct Ha as [-> | ->]; reflexivity.
    + rewrite Z.shiftr_div_pow2 by lia. change (2 ^ 1) with 2. rewrite Z.div_add by lia. rewrite Z.div_small by lia. lia.
    + fold g. rewrite Z.shiftl_mul_pow2 by lia. rewrite land_1. try change (2 ^ 1) with 2.
      rewrite Z.mod_add, Z.mod_mod by lia. clearbody g; dml.
Qed.

Definition spec_side_len (ne : Z) (p : enc_params) : Z :=
  p_nbits_bw p + Z.log2_up (ne / 2) + 1 + 8 + p_num_tns p + 1 + 38 + (if p_pitch_present p then 10 else 0) + 3.

Lemma bits_of_0 v : bits_of v 0 = [].
Proof. reflexivity. Qed.

Theorem side_read_ok c buf p q : legal_config c -> bytes buf -> side_legal c p q -> spec_side_len (ne c) p <= 8 * len buf ->
  tail_at (be buf) 0 (side_bits (ne c) p) ->
  read_side_info buf reader_new (fs_ind c) (ne c) = Ok (spec_side p q, mkReader 0 (spec_side_len (ne c) p)).
Proof.
  intros Hc Hb Hl Hfit T. destruct (ne_width c Hc) as (W1 & W2 & W3 & W4 & W5 & W6 & W7).
  destruct Hl as [_ Hbw Hnbw Hlast Heven Hgg Hnum Hrco Hsns Elf Ehf Esh Egi Eia Ej Hpi Hnf].
  unfold side_bits in T. unfold spec_side_len in *. fold (log2_ceil (ne c / 2)) in *. set (lw := log2_ceil (ne c / 2)) in *.
  assert (Hlw : 0 <= lw) by (apply Z.log2_up_nonneg).
  assert (Hn12 : p_num_tns p = 1 \/ p_num_tns p = 2) by (rewrite Hnum; destruct (p_bw p <? 3); auto).
  assert (Hpp : 0 <= (if p_pitch_present p then 10 else 0)) by (destruct (p_pitch_present p); lia).
  unfold read_side_info, reader_new. fold lw.
  rewrite (idx_nth NBITS_BW_TABLE (fs_ind c) 0) by (change (len NBITS_BW_TABLE) with 5; lia). rewrite <- Hnbw. cbn [bind].
  set (nbw := p_nbits_bw p) in *.
  assert (Hnbw2 : 0 <= nbw <= 3 /\ p_bw p < 2 ^ nbw).
  { assert (fs_ind c = 0 \/ fs_ind c = 1 \/ fs_ind c = 2 \/ fs_ind c = 3 \/ fs_ind c = 4) as Hcs by lia.
    destruct Hcs as [E|[E|[E|[E|E]]]]; rewrite E in Hnbw, Hbw; rewrite Hnbw; match goal with |- 0 <= ?x <= _ /\ _ => let y := eval vm_compute in x in change x with y end; lia. }
  (* bandwidth *)
  match goal with |- context [bind ?m _] => assert (E0 : m = Ok (p_bw p, mkReader 0 nbw)) end.
  { destruct (Z.ltb_spec 0 nbw).
    - destruct (side_usize buf 0 _ (Z.to_nat nbw) Hb ltac:(lia) ltac:(unfold good_width; lia) ltac:(left; lia) (p_bw p) ltac:(rewrite Z2Nat.id by lia; lia) T) as [R _].
      rewrite Z2Nat.id in R by lia. rewrite R. cbn [bind]. destruct (Z.ltb_spec (fs_ind c) (p_bw p)); [lia|]. reflexivity.
    - assert (nbw = 0) by lia. f_equal. f_equal; [|congruence]. assert (2 ^ nbw = 1) by (replace nbw with 0 by lia; reflexivity). lia. }
  rewrite E0. cbn [bind]. clear E0.
  apply tail_at_app in T; [|lia]. destruct T as [_ T]. rewrite bits_of_len, Z2Nat.id in T by lia. rewrite Z.add_0_l in T.
  (* last nonzero pair *)
  assert (Hl2 : p_lastnz p = 2 * (p_lastnz p / 2)).
  { pose proof (Zmod_even (p_lastnz p)) as M. rewrite Heven in M. dml. }
  assert (Hlz : 0 <= p_lastnz p / 2 - 1 < 2 ^ lw) by lia.
  destruct (side_usize buf nbw _ (Z.to_nat lw) Hb ltac:(lia) ltac:(rewrite Z2Nat.id by lia; exact W1) ltac:(left; lia) _ ltac:(rewrite Z2Nat.id by lia; exact Hlz) T) as [R1 T1].
  rewrite Z2Nat.id in * by lia. rewrite R1. cbn [bind]. clear T R1.
  rewrite Z.shiftl_mul_pow2 by lia. replace ((p_lastnz p / 2 - 1 + 1) * 2 ^ 1) with (p_lastnz p) by lia. cbn zeta.
  destruct (Z.ltb_spec (ne c) (p_lastnz p)); [lia|].
  cbn [app] in T1. rbool T1 R2 T2. rewrite R2. cbn [bind]. clear T1 R2.
  rusize T2 (8%nat) R3 T3 ltac:(exact Hgg).
  change (Z.of_nat 8) with 8 in *. rewrite R3. cbn [bind]. clear T2 R3. rewrite <- Hnum.
  destruct (flags_read buf (Z.to_nat (p_num_tns p)) Hb (p_rc_order p) (nbw + lw + 1 + 8) _ ltac:(unfold len in Hrco; lia) ltac:(lia) ltac:(lia) T3) as [R4 T4].
  rewrite R4. cbn [bind]. clear T3 R4. rewrite Z2Nat.id in * by lia.
  rbool T4 R5 T5. rewrite R5. cbn [bind]. clear T4 R5.
  destruct (sns_read buf p q (nbw + lw + 1 + 8 + p_num_tns p + 1) _ Hb ltac:(lia) Hsns ltac:(lia) Elf Ehf Esh Egi Eia Ej T5) as [R6 T6].
  rewrite R6. cbn [bind]. clear T5 R6.
  destruct (ltpf_read buf p (nbw + lw + 1 + 8 + p_num_tns p + 1 + 38) _ Hb ltac:(lia) Hpi ltac:(lia) T6) as [R7 T7]. rewrite R7. cbn [bind]. clear T6 R7.
  rewrite <- (app_nil_r (bits_of (p_nf p) 3)) in T7.
  rusize T7 (3%nat) R8 T8 ltac:(exact Hnf).
  change (Z.of_nat 3) with 3 in *. rewrite R8. cbn [bind].
  destruct (Z.ltb_spec 4 (p_bw p)); [lia|]. unfold spec_side. do 2 f_equal.
  f_equal. unfold spec_flags.
  destruct (p_rc_order p) as [|x [|y [|z rc]]]; cbn in Hrco; try (unfold len in Hrco; cbn [length] in Hrco; lia).
  destruct Hn12 as [-> | ->]; reflexivity.
Qed.

Lemma side_bits_len c p q : side_legal c p q -> len (side_bits (ne c) p) = spec_side_len (ne c) p.
Proof.
  intros H. destruct H as [? ? Hnbw ? ? ? Hnum Hrco Hq ? ? Hs ? ? ? ? ?].
  assert (0 <= p_nbits_bw p). { rewrite Hnbw. assert (fs_ind c = 0 \/ fs_ind c = 1 \/ fs_ind c = 2 \/ fs_ind c = 3 \/ fs_ind c = 4) as Hcs by lia.
    destruct Hcs as [E|[E|[E|[E|E]]]]; rewrite E; vm_compute; discriminate. }
  assert (p_num_tns p = 1 \/ p_num_tns p = 2) by (rewrite Hnum; destruct (p_bw p <? 3); auto).
  unfold side_bits, sns_bits, flag_bits, spec_side_len. rewrite !len_app, !bits_of_len.
  assert (len (map (fun x => negb (x =? 0)) (firstn (Z.to_nat (p_num_tns p)) (p_rc_order p))) = p_num_tns p) as ->.
  { unfold len in *. rewrite map_length, firstn_length. lia. }
  assert (len (if p_pitch_present p then p_ltpf_active p :: bits_of (p_pitch_index p) 9 else []) = if p_pitch_present p then 10 else 0) as ->.
  { destruct (p_pitch_present p); [rewrite len_cons, bits_of_len|]; reflexivity. }
  rewrite Z2Nat.id by lia. rewrite Z2Nat.id by apply Z.log2_up_nonneg. unfold len; cbn [length].
  destruct (2 <=? p_shape_j p); lia.
Qed.
