(* The frame writer as a whole: the emitted buffer carries the payload of PayloadSpec and residual bits. *)
From Coq Require Import ZArith List Bool Lia ZifyBool.
From Verif Require Import Base Config Writer Reader AcEnc AcSpec AcSpecProofs BufLemmas AcEncProofs AcDecProofs AcFinishProofs AcStreamProofs
  TailSpec TailProofs TablesProofs TablesSpec TablesTns TablesSns FrameEnc PayloadSpec Events EncPayload.
Import ListNotations.
Local Open Scope Z_scope.

(* requirements on the arguments of the writer that do not concern the decoder *)
Record writer_params_ok (p : enc_params) : Prop := mkWpo {
  wp_shape : 0 <= p_shape_j p < 4;
  wp_lastnz : 2 <= p_lastnz p;
  wp_even : Z.even (p_lastnz p) = true;
  wp_num : 0 <= p_num_tns p <= 2;
  wp_nbw : 0 <= p_nbits_bw p;
  wp_tns : tns_params_ok (p_rc_order p) (p_rc_i p);
  wp_w : 0 <= p_lpc_weighting p < 2;
  wp_rate : p_rate_flag p = 0 \/ p_rate_flag p = 512;
  wp_len : p_lastnz p <= len (p_xq p);
  wp_mag : forall i, 0 <= i < p_lastnz p -> Z.abs (nth (Z.to_nat i) (p_xq p) 0) <= 32768;
  wp_nlsb : p_nbits_lsb p <= MAX_NBITS_LSB;
  wp_lsbs : p_lsb_mode p = true -> len (spec_lsbs (Z.to_nat (p_lastnz p / 2)) true 0 (p_xq p)) <= p_nbits_lsb p
}.

Lemma tns_evs_filters num w rc_order rc_i : tns_evs num w rc_order rc_i = filters_evs w rc_order rc_i 0 (Z.to_nat num).
Proof. reflexivity. Qed.

Lemma filters_valid w rc_order rc_i n : tns_params_ok rc_order rc_i -> 0 <= w < 2 -> forall f, (f + n <= 2)%nat -> evalid (filters_evs w rc_order rc_i f n).
Proof.
  intros (H1 & H2 & H3 & H4) Hw. induction n as [|n IH]; intros f Hf; [constructor|].
  unfold filters_evs. cbn [seq map flat_map]. apply evalid_app. split; [|apply (IH (S f)); lia].
  pose proof (Forall_nth_range (fun x => 0 <= x <= 8) rc_order (Z.of_nat f) H3 ltac:(lia)) as Ho. cbn beta in Ho. rewrite Nat2Z.id in *.
  unfold tns_filter_evs. destruct (Z.ltb_spec 0 (nth f rc_order 0)); [|constructor].
  unfold evalid. cbn [ev_syms flat_map app]. constructor.
  - destruct (tns_order_model_ok w Hw) as [V M]. apply msym_valid; [exact V|]. rewrite M. lia.
  - fold (ev_syms (map (fun k => ESym (msym (tns_coef_model k) (nth (Z.to_nat k) (skipn (Z.to_nat (8 * Z.of_nat f)) rc_i) 0))) (zseq (Z.to_nat (nth f rc_order 0))))).
    unfold zseq. rewrite map_map. apply Forall_forall. intros y Hy. unfold ev_syms in Hy. rewrite flat_map_concat_map, map_map in Hy.
    apply in_concat in Hy as (ly & Hy1 & Hy2). apply in_map_iff in Hy1 as (k & <- & Hk). apply in_seq in Hk.
    destruct Hy2 as [<- | []]. destruct (tns_coef_model_ok (Z.of_nat k) ltac:(lia)) as [V M].
    apply msym_valid; [exact V|]. rewrite M. rewrite Nat2Z.id, nth_skipn.
    pose proof (Forall_nth_range (fun x => 0 <= x <= 16) rc_i (Z.of_nat (Z.to_nat (8 * Z.of_nat f) + k)) H4 ltac:(lia)) as Hv. cbn beta in Hv.
    rewrite Nat2Z.id in Hv. lia.
Qed.

Lemma esc_evs_valid fuel lsb t : 0 <= t < 1024 -> forall a b lev, 0 <= lev -> 0 <= a < 2 ^ (Z.of_nat fuel + 2) -> 0 <= b < 2 ^ (Z.of_nat fuel + 2) ->
  evalid (esc_evs fuel lsb t a b lev).
Proof.
  intros Ht. induction fuel as [|f IH]; intros a b lev Hl Ha Hb; cbn [esc_evs].
  - change (2 ^ (Z.of_nat 0 + 2)) with 4 in *. destruct (Z.leb_spec 4 (Z.max a b)); [lia|].
    destruct (lk_rows t lev Ht Hl) as (_ & _ & _ & _ & _ & V & M). repeat constructor; apply msym_valid; auto; rewrite M; lia.
  - destruct (lk_rows t lev Ht Hl) as (_ & _ & _ & _ & _ & V & M).
    destruct (Z.leb_spec 4 (Z.max a b)).
    + replace (Z.of_nat (S f) + 2) with (Z.of_nat f + 2 + 1) in * by lia. apply half_bound in Ha, Hb; try lia.
      specialize (IH (a / 2) (b / 2) (lev + 1) ltac:(lia) Ha Hb). rewrite app_comm_cons. apply evalid_app. split; [|exact IH].
      unfold evalid. destruct (lsb && (lev =? 0)); repeat constructor; apply msym_valid; auto; rewrite M; lia.
    + repeat constructor; apply msym_valid; auto; rewrite M; lia.
Qed.

Lemma sign_evs_valid m x : evalid (sign_evs m x).
Proof. unfold sign_evs. destruct (0 <? m); repeat constructor. Qed.

Lemma spec_evs_valid n lsb ne rate xq : rate = 0 \/ rate = 512 -> forall k c, 0 <= k -> 0 <= c < 256 ->
  (forall i, 0 <= i < k + 2 * Z.of_nat n -> Z.abs (nth (Z.to_nat i) xq 0) <= 32768) -> evalid (spec_evs n lsb ne k c rate xq).
Proof.
  intros Hr. induction n as [|n IH]; intros k c Hk Hc Hx; cbn [spec_evs]; [constructor|]. cbn zeta.
  assert (B0 : Z.abs (nth (Z.to_nat k) xq 0) <= 32768) by (apply Hx; lia).
  assert (B1 : Z.abs (nth (Z.to_nat (k + 1)) xq 0) <= 32768) by (apply Hx; lia).
  apply evalid_app. split.
  - unfold pair_evs. cbn zeta. apply evalid_app. split; [|apply evalid_app; split; apply sign_evs_valid].
    apply esc_evs_valid; [now apply pair_ctx_range|lia|now apply pair_mag|now apply pair_mag].
  - apply IH; try lia; [now apply pair_next_range|]. intros i Hi. apply Hx. lia.
Qed.

Lemma lastnz_pairs p : writer_params_ok p -> (p_lastnz p + 1) / 2 = p_lastnz p / 2 /\ p_lastnz p = 2 * (p_lastnz p / 2).
Proof.
  intros W. pose proof (wp_even _ W) as E. pose proof (Zmod_even (p_lastnz p)) as M. rewrite E in M.
  split; dml.
Qed.

Lemma payload_valid ne p : writer_params_ok p -> evalid (payload ne p).
Proof.
  intros W. unfold payload. apply evalid_app. split; [apply evalid_bits|]. apply evalid_app. split.
  - rewrite tns_evs_filters. pose proof (wp_num _ W). apply filters_valid; [apply wp_tns; auto|apply wp_w; auto|lia].
  - pose proof (wp_lastnz _ W). destruct (lastnz_pairs p W) as [_ E2]. apply spec_evs_valid; [apply wp_rate; auto|lia|lia|].
    intros i Hi. apply (wp_mag _ W). lia.
Qed.

Definition res_source (p : enc_params) : list bool :=
  if p_lsb_mode p then map (fun v => v =? 1) (spec_lsbs (Z.to_nat (p_lastnz p / 2)) true 0 (p_xq p)) else p_res_bits p.

Lemma est_forecast L st o l : est L st o l -> evalid l ->
  nbits_side_written (fst o) (8 * L) = Ok (tbits l) /\
  tbits l + nbits_side_forecast st (fst o) = payload_bits l + (if e_cache st <? 0 then 8 else 0).
Proof.
  intros E V. split; [eapply erel_side_written; exact E|].
  destruct E as (H & C & ER). pose proof (c_n _ _ _ _ _ _ _ _ _ C) as Cn. pose proof (c_carry _ _ _ _ _ _ _ _ _ C) as Cc.
  pose proof (c_cc _ _ _ _ _ _ _ _ _ C) as Ccc.
  unfold nbits_side_forecast, payload_bits, ari_bits, log2_floor. rewrite ER.
  unfold cb in Cn.
  destruct (Z.leb_spec 0 (e_carry st)); [|lia].
  destruct (Z.ltb_spec 0 (e_ccount st)); destruct (e_cache st <? 0); lia.
Qed.

Lemma len_firstn {A} (l : list A) n : len (firstn n l) <= Z.of_nat n /\ len (firstn n l) <= len l.
Proof. unfold len. rewrite firstn_length. lia. Qed.

(* nothing written yet and at most bytes 0xff pending *)
Definition all_ff (s : ival) : Prop := iF s / 2 ^ 24 + 1 = 2 ^ (8 * iN s).

Lemma erel_early L st o s T t : erel L st o s T t -> e_cache st < 0 -> all_ff s.
Proof.
  intros (H & C & ER) He. destruct C as [W Hlow Hcarry Hcc Hcache Hn HF Htop H25 HR0].
  destruct Hcache as [[_ Hbp]|Hc]; [|lia]. pose proof (wr_H _ _ _ _ _ _ W) as HH. rewrite Hbp in HH. change (2 ^ (8 * 0)) with 1 in HH.
  assert (H = 0) by lia. subst H. unfold cb, cval in *. destruct (Z.ltb_spec (e_cache st) 0); [|lia].
  unfold all_ff. rewrite Hn, Hbp. rewrite !Z.add_0_l in *. rewrite <- pow256 by lia. rewrite HF in *.
  set (P := 256 ^ e_ccount st) in *.
  assert (e_carry st = 0).
  { destruct Hcarry as [|E1]; [assumption|]. rewrite E1 in Htop. lia. }
  rewrite Z.div_add_l by lia. rewrite (Z.div_small (e_low st)) by lia. lia.
Qed.

(* the writer up to the residual bits (77-128) *)
Definition enc_stages (ne : Z) (p : enc_params) (buf0 : list Z) : res (list Z * acenc * out) :=
  w <- writer_new (len buf0) ;;
  o <- enc_side (w, repeat 0 (length buf0)) ne p ;;
  '(st, o) <- enc_tns_filters (Z.to_nat (p_num_tns p)) 0 (p_lpc_weighting p) (p_rc_order p) (p_rc_i p) ac_enc_init o ;;
  _ <- nbits_side_written (fst o) (len buf0 * 8) ;;
  if MAX_NBITS_LSB <? p_nbits_lsb p then Panic
  else enc_pairs (Z.to_nat ((p_lastnz p + 1) / 2)) ne 0 0 (p_rate_flag p) (p_lsb_mode p) (p_nbits_lsb p) (p_xq p) [] st o.

Lemma encode_frame_stages ne p buf0 : encode_frame ne p buf0 =
  bind (enc_stages ne p buf0) (fun x => let '(lsbs, st, o) := x in o <- enc_residual (len buf0 * 8) (p_lsb_mode p) lsbs (p_res_bits p) st o ;; Ok (snd o)).
Proof.
  unfold encode_frame, enc_stages. destruct (writer_new (len buf0)); cbn [bind]; auto.
  destruct (enc_side _ ne p); cbn [bind]; auto. destruct (enc_tns_filters _ _ _ _ _ _ _) as [[st o]| |]; cbn [bind]; auto.
  destruct (nbits_side_written _ _); cbn [bind]; auto. destruct (MAX_NBITS_LSB <? p_nbits_lsb p); cbn [bind]; auto.
Qed.

Lemma enc_stages_ok ne p buf0 :
  let L := len buf0 in
  writer_params_ok p -> L < 65536 -> payload_bits (payload ne p) <= 8 * L ->
  let l := payload ne p in
  exists st o, enc_stages ne p buf0 = Ok (spec_lsbs (Z.to_nat (p_lastnz p / 2)) (p_lsb_mode p) 0 (p_xq p), st, o) /\ est L st o l.
Proof.
  intros L W HL Hfit l. set (s := fin l).
  pose proof (payload_valid ne p W) as V. fold l in V, Hfit.
  pose proof (payload_fits L l V Hfit) as F.
  pose proof (fin_wf l V) as Wf. fold s in Wf. pose proof (iw_N _ Wf) as WN. pose proof (ari_bits_ge s Wf) as Wa.
  pose proof (tbits_nonneg l) as Tn.
  assert (Hfit' : tbits l + ari_bits s <= 8 * L) by exact Hfit.
  assert (L1 : 0 < L) by lia.
  destruct (lastnz_pairs p W) as [Ep1 Ep2]. pose proof (wp_lastnz _ W) as Wl.
  unfold enc_stages. fold L.
  assert (WR := wrep_init L (mkWriter 0 (L - 1) 1) ltac:(lia)).
  unfold writer_new in *. rewrite Z.mod_small, usub_ok in * by lia. cbn [bind] in *. specialize (WR eq_refl).
  replace (Z.to_nat L) with (length buf0) in WR by (unfold L, len; lia).
  pose proof (erel_init L _ _ 0 0 WR eq_refl) as E0.
  assert (E0' : est L ac_enc_init (mkWriter 0 (L - 1) 1, repeat 0 (length buf0)) []) by exact E0.
  pose proof (wp_tns _ W) as (Wt1 & Wt2 & _ & _). pose proof (wp_num _ W) as Wn.
  rewrite enc_side_bits; [|exact (wp_shape _ W)|lia|lia|exact (wp_nbw _ W)].
  unfold l, payload in F. pose proof F as Fall.
  rewrite app_assoc in F. pose proof (fits_app _ _ _ F) as F1. pose proof (fits_app _ _ _ F1) as F0.
  destruct (est_bits L ac_enc_init (side_bits ne p) _ [] E0' F0) as (o1 & W1 & E1). cbn [app] in E1.
  rewrite W1. cbn [bind].
  rewrite tns_evs_filters in *.
  destruct (enc_tns_filters_ok L (p_lpc_weighting p) (p_rc_order p) (p_rc_i p) (Z.to_nat (p_num_tns p)) (wp_tns _ W) (wp_w _ W) 0%nat ac_enc_init o1 _ ltac:(lia) E1 F1) as (st2 & o2 & W2 & E2).
  change (Z.of_nat 0) with 0 in W2. rewrite W2. cbn [bind].
  replace (L * 8) with (8 * L) by lia.
  rewrite (erel_side_written _ _ _ _ _ _ E2). cbn [bind].
  destruct (Z.ltb_spec MAX_NBITS_LSB (p_nbits_lsb p)); [pose proof (wp_nlsb _ W); lia|].
  rewrite Ep1.
  assert (P3 := enc_pairs_ok L ne (p_rate_flag p) (p_lsb_mode p) (p_nbits_lsb p) (p_xq p) (Z.to_nat (p_lastnz p / 2)) (wp_rate _ W) 0 0 [] st2 o2).
  edestruct P3 as (st3 & o3 & W3 & E3); [| | | | |exact E2|exact F|]; clear P3; try lia.
  { pose proof (wp_len _ W). lia. }
  { intros i Hi. apply (wp_mag _ W). lia. }
  { intros Hl. rewrite Hl. change (len (@nil Z)) with 0. pose proof (wp_lsbs _ W Hl). lia. }
  exists st3, o3. cbn [app] in W3. split; [exact W3|]. rewrite <- app_assoc in E3. exact E3.
Qed.

Theorem encode_frame_ok ne p buf0 :
  let L := len buf0 in
  writer_params_ok p -> L < 65536 -> payload_bits (payload ne p) <= 8 * L ->
  let l := payload ne p in
  let s := fin l in
  exists buf early v bits,
    let res := firstn (Z.to_nat (8 * L - payload_bits l - (if early : bool then 8 else 0))) (res_source p) in
    encode_frame ne p buf0 = Ok buf /\ len buf = L /\ bytes buf /\
    be buf * 2 ^ 24 = v * 2 ^ (8 * (L - iN s)) + bval (ev_bits l ++ res) * 2 ^ 24 /\
    iF s <= v < iF s + iR s /\ 1 <= bits <= 9 /\ 8 * iN s + bits <= ari_bits s /\
    v mod 2 ^ (24 - bits) = 0 /\ (term_window s \/ v + 2 ^ (24 - bits) <= iF s + iR s) /\
    (early = true -> all_ff s) /\
    tbits l + len res + ari_bits s <= 8 * L.
Proof.
  intros L W HL Hfit l s.
  pose proof (payload_valid ne p W) as V. fold l in V, Hfit.
  pose proof (fin_wf l V) as Wf. fold s in Wf. pose proof (iw_N _ Wf) as WN. pose proof (ari_bits_ge s Wf) as Wa.
  pose proof (tbits_nonneg l) as Tn.
  assert (Hfit' : tbits l + ari_bits s <= 8 * L) by exact Hfit.
  destruct (enc_stages_ok ne p buf0 W HL Hfit) as (st3 & o3 & W3 & E3). fold L l in E3.
  rewrite encode_frame_stages, W3. cbn [bind]. fold L. replace (L * 8) with (8 * L) by lia.
  destruct (est_forecast L st3 o3 l E3 V) as [S1 S2].
  unfold enc_residual. rewrite S1. cbn [bind]. rewrite S2.
  set (early := e_cache st3 <? 0).
  set (room := 8 * L - payload_bits l - (if early then 8 else 0)).
  replace (Z.to_nat (Z.max 0 (8 * L - (payload_bits l + (if early then 8 else 0))))) with (Z.to_nat room) by (unfold room; lia).
  set (res := firstn (Z.to_nat room) (res_source p)).
  assert (Eres : (if negb (p_lsb_mode p) then wbools o3 (firstn (Z.to_nat room) (p_res_bits p))
     else wbools o3 (map (fun v => v =? 1) (firstn (Z.to_nat (Z.min (Z.max 0 (8 * L - (payload_bits l + (if early then 8 else 0)))) (len (spec_lsbs (Z.to_nat (p_lastnz p / 2)) (p_lsb_mode p) 0 (p_xq p))))) (spec_lsbs (Z.to_nat (p_lastnz p / 2)) (p_lsb_mode p) 0 (p_xq p))))) = wbools o3 res).
  { unfold res, res_source. destruct (p_lsb_mode p); cbn [negb]; [|reflexivity].
    f_equal. rewrite firstn_map. f_equal.
    set (ls := spec_lsbs (Z.to_nat (p_lastnz p / 2)) true 0 (p_xq p)).
    assert (Z.max 0 (8 * L - (payload_bits l + (if early then 8 else 0))) = Z.max 0 room) as -> by (unfold room; lia).
    destruct (Z.le_gt_cases (Z.max 0 room) (len ls)).
    - rewrite Z.min_l by lia. f_equal. lia.
    - rewrite Z.min_r by lia. rewrite !firstn_all2; auto; unfold len in *; lia. }
  rewrite Eres. clear Eres.
  assert (Hlr : tbits l + len res + ari_bits s <= 8 * L).
  { destruct (len_firstn (res_source p) (Z.to_nat room)) as [A B]. fold res in A.
    assert (Epb : payload_bits l = tbits l + ari_bits s) by reflexivity.
    destruct (Z.le_gt_cases room 0); [lia|]. unfold room in *. destruct early; lia. }
  assert (Fr : fits L (l ++ map EBit res)).
  { apply payload_fits; [apply evalid_app; split; [exact V|apply evalid_bits]|].
    unfold payload_bits. rewrite fin_app_bits, tbits_app, tbits_map. exact Hlr. }
  destruct (est_bits L st3 res o3 l E3 Fr) as (o4 & W4 & E4). rewrite W4. cbn [bind].
  unfold est in E4. rewrite fin_app_bits in E4. fold s in E4.
  rewrite tbits_app, tbits_map, ev_bits_app, ev_bits_map in E4.
  destruct (finish_ok L st3 o4 s _ _ E4 Wf ltac:(lia)) as (o5 & v & bits & W5 & A1 & A2 & A3 & A4 & A5 & A6 & A7 & A8).
  rewrite W5. cbn [bind]. exists (snd o5), early, v, bits. cbn zeta. fold room. fold res.
  split; [reflexivity|]. split; [exact A1|]. split; [exact A2|]. split; [exact A3|]. split; [exact A4|]. split; [exact A5|].
  split; [exact A6|]. split; [exact A7|]. split; [exact A8|]. split; [|exact Hlr].
  intros Ee. eapply erel_early; [exact E3|]. unfold early in Ee. lia.
Qed.

(* the final code word decodes whatever the other end of the frame holds *)
Definition frame_safe (L : Z) (s : ival) (t : Z) : Prop := ~ term_window s \/ t + 8 * iN s + 24 <= 8 * L.

Lemma encoded_holds L l v bits bs buf : len buf = L -> bytes buf -> evalid l -> 22 <= tbits l ->
  be buf * 2 ^ 24 = v * 2 ^ (8 * (L - iN (fin l))) + bval (ev_bits l ++ bs) * 2 ^ 24 ->
  iF (fin l) <= v < iF (fin l) + iR (fin l) -> 1 <= bits <= 9 -> 8 * iN (fin l) + bits <= ari_bits (fin l) ->
  v mod 2 ^ (24 - bits) = 0 -> (term_window (fin l) \/ v + 2 ^ (24 - bits) <= iF (fin l) + iR (fin l)) ->
  tbits l + len bs + ari_bits (fin l) <= 8 * L -> frame_safe L (fin l) (tbits l + len bs) ->
  holds buf (l ++ map EBit bs).
Proof.
  intros El Hb V H22 E Hv Hbits Ha Hm Hw Hfit Hs. set (s := fin l) in *.
  pose proof (fin_wf l V) as Wf. fold s in Wf. pose proof (iw_N _ Wf) as WN. pose proof (ari_bits_ge s Wf) as Wa.
  unfold holds. rewrite fin_app_bits, tbits_app, tbits_map, ev_bits_app, ev_bits_map. fold s.
  pose proof (len_nonneg bs) as Lb.
  assert (N3 : iN s + 3 <= len buf) by lia.
  assert (Et : len (ev_bits l ++ bs) = tbits l + len bs) by (rewrite len_app; reflexivity).
  split; [apply evalid_app; split; [assumption|apply evalid_bits]|].
  assert (Eb : be buf = v * 2 ^ (8 * (L - iN s - 3)) + bval (ev_bits l ++ bs)).
  { replace (8 * (L - iN s)) with (8 * (L - iN s - 3) + 24) in E by lia. rewrite Z.pow_add_r in E by lia.
    assert (0 < 2 ^ 24) by lia. nia. }
  pose proof (bval_bound (ev_bits l ++ bs)) as HT. rewrite Et in HT.
  split; [|split; [assumption|split; [|lia]]].
  - unfold tail_at. rewrite Z.pow_0_r, Z.div_1_r, Et, Eb.
    apply Z.mod_divide in Hm; [|lia]. destruct Hm as [q ->].
    replace (q * 2 ^ (24 - bits) * 2 ^ (8 * (L - iN s - 3))) with (q * 2 ^ (8 * L - 8 * iN s - bits - (tbits l + len bs)) * 2 ^ (tbits l + len bs)).
    + rewrite Z.add_comm, Z_mod_plus_full. apply Z.mod_small. lia.
    + rewrite <- !Z.mul_assoc, <- !Z.pow_add_r by lia. do 2 f_equal. lia.
  - destruct (hv_final buf v (bval (ev_bits l ++ bs)) (tbits l + len bs) (iN s) bits) as [Hh _]; auto; try lia; [now rewrite El|].
    destruct Hs as [Hs|Hs]; [destruct Hw as [Hw|Hw]; [contradiction|lia]|].
    unfold hv. rewrite El, Eb. pose proof (pow2_pos (8 * (L - iN s - 3)) ltac:(lia)).
    rewrite Z.div_add_l by lia. rewrite Z.div_small; [lia|].
    split; [lia|]. eapply Z.lt_le_trans; [apply HT|]. apply Z.pow_le_mono_r; lia.
Qed.
