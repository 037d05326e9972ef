(* Termination of the arithmetic encoder: the code word chosen by ac_enc_finish lies in the final interval. *)
From Coq Require Import ZArith List Bool Lia ZifyBool.
From Verif Require Import Base Writer Reader AcEnc AcSpec AcSpecProofs BufLemmas AcEncProofs.
Import ListNotations.
Local Open Scope Z_scope.

Lemma finish_bits_ok R : 65536 <= R < 16777216 -> finish_bits 24 R 1 = Ok (24 - Z.log2 R).
Proof.
  intros HR. pose proof (log2_range R HR) as Hj. pose proof (Z.log2_spec R ltac:(lia)) as Hl.
  assert (G : forall f b, 1 <= b <= 24 - Z.log2 R -> 24 - Z.log2 R <= b + Z.of_nat f ->
    finish_bits f R b = Ok (24 - Z.log2 R)).
  { induction f; intros b Hb Hf; cbn [finish_bits]; rewrite Z.shiftr_div_pow2 by lia;
      destruct (Z.eqb_spec (R / 2 ^ (24 - b)) 0) as [E|E].
    - exfalso. replace b with (24 - Z.log2 R) in E by lia.
      replace (24 - (24 - Z.log2 R)) with (Z.log2 R) in E by lia.
      assert (1 <= R / 2 ^ Z.log2 R); [|lia]. apply Z.div_le_lower_bound; [apply pow2_pos|]; lia.
    - f_equal. lia.
    - apply IHf; [|lia]. assert (b <> 24 - Z.log2 R); [|lia]. intros ->.
      replace (24 - (24 - Z.log2 R)) with (Z.log2 R) in E by lia.
      assert (1 <= R / 2 ^ Z.log2 R); [|lia]. apply Z.div_le_lower_bound; [apply pow2_pos|]; lia.
    - destruct (Z.eq_dec b (24 - Z.log2 R)); [f_equal; lia|]. exfalso. apply E.
      apply Z.div_small. split; [lia|]. eapply Z.lt_le_trans; [apply Hl|]. apply Z.pow_le_mono_r; lia. }
  apply G; lia.
Qed.

(* masks *)
Lemma land_low24 x : Z.land x 16777215 = x mod 16777216.
Proof. change 16777215 with (Z.ones 24). rewrite Z.land_ones by lia. reflexivity. Qed.

Lemma land_high x j : 0 <= j <= 24 -> 0 <= x < 2 ^ 32 -> Z.land x (4294967295 - (2 ^ j - 1)) = x / 2 ^ j * 2 ^ j.
Proof.
  intros Hj Hx.
  replace (4294967295 - (2 ^ j - 1)) with (Z.shiftl (Z.ones (32 - j)) j).
  2:{ rewrite Z.shiftl_mul_pow2 by lia. rewrite Z.ones_equiv. unfold Z.pred.
      assert (2 ^ (32 - j) * 2 ^ j = 4294967296) by (rewrite <- Z.pow_add_r by lia; replace (32 - j + j) with 32 by lia; reflexivity). lia. }
  apply Z.bits_inj'. intros n Hn. rewrite Z.land_spec.
  rewrite <- Z.shiftr_div_pow2, <- Z.shiftl_mul_pow2 by lia.
  destruct (Z.lt_ge_cases n j) as [L|G].
  - rewrite !Z.shiftl_spec_low by lia. apply andb_false_r.
  - rewrite !Z.shiftl_spec by lia. rewrite Z.shiftr_spec by lia. replace (n - j + j) with n by lia.
    destruct (Z.lt_ge_cases n 32) as [L|G2].
    + rewrite Z.ones_spec_low by lia. apply andb_true_r.
    + rewrite Z.ones_spec_high by lia. rewrite andb_false_r.
      destruct (Z.eq_dec x 0) as [->|Hx0]; [now rewrite Z.bits_0|]. symmetry. apply Z.bits_above_log2; [lia|].
      assert (Z.log2 x < 32) by (apply Z.log2_lt_pow2; lia). lia.
Qed.

Lemma land_mask x j : 0 <= j <= 24 -> 0 <= x < 2 ^ 32 ->
  Z.land x (Z.land 16777215 (4294967295 - (2 ^ j - 1))) = (x mod 16777216) / 2 ^ j * 2 ^ j.
Proof.
  intros. rewrite Z.land_assoc, land_low24. apply land_high; auto.
  assert (0 <= x mod 16777216 < 16777216) by (apply Z.mod_pos_bound; lia). change (2 ^ 32) with 4294967296. lia.
Qed.

Lemma shiftr_mask j : 0 <= j <= 24 -> Z.shiftr 16777215 (24 - j) = 2 ^ j - 1.
Proof.
  intros. change 16777215 with (Z.ones 24). rewrite Z.shiftr_div_pow2 by lia.
  rewrite !Z.ones_equiv. unfold Z.pred.
  assert (E : 2 ^ 24 = 2 ^ j * 2 ^ (24 - j)) by (rewrite <- Z.pow_add_r by lia; f_equal; lia).
  rewrite E. pose proof (pow2_pos (24 - j) ltac:(lia)). symmetry. apply Z.div_unique with (2 ^ (24 - j) - 1); nia.
Qed.

Lemma mask_half j : 1 <= j <= 24 -> Z.shiftr (2 ^ j - 1) 1 = 2 ^ (j - 1) - 1.
Proof.
  intros. rewrite <- (shiftr_mask j), Z.shiftr_shiftr by lia.
  replace (24 - j + 1) with (24 - (j - 1)) by lia. apply shiftr_mask; lia.
Qed.

(* rounding up to a multiple of m *)
Lemma roundup x m : 0 < m -> x <= (x + (m - 1)) / m * m <= x + (m - 1).
Proof. intros. pose proof (Z.div_mod (x + (m - 1)) m ltac:(lia)). pose proof (Z.mod_pos_bound (x + (m-1)) m ltac:(lia)). nia. Qed.

(* carry part of the accumulated prefix *)
Lemma finish_val_ok low carry range cache cc R P :
  0 <= low < 16777216 -> carry = 0 \/ carry = 1 -> carry * 16777216 + low + R <= 33554432 ->
  65536 <= R < 16777216 -> range = R ->
  let F := P * 16777216 + carry * 16777216 + low in
  exists bits val carry', finish_val (mkAc low range cache carry cc) (24 - Z.log2 R) = (bits, val, carry') /\
    24 - Z.log2 R <= bits <= 25 - Z.log2 R /\ 0 <= val < 16777216 /\ (carry' = 0 \/ carry' = 1) /\
    val mod 2 ^ (24 - bits) = 0 /\
    let v := P * 16777216 + carry' * 16777216 + val in
    F <= v < F + R /\
    ((low + (2 ^ Z.log2 R - 1) >= 16777216 /\ round_up F (Z.log2 R) + 2 ^ Z.log2 R > F + R) \/ v + 2 ^ (24 - bits) <= F + R).
Proof.
  intros Hlow Hcarry H25 HR -> F.
  pose proof (log2_range R HR) as Hj. pose proof (Z.log2_spec R ltac:(lia)) as Hl.
  set (j := Z.log2 R) in *. unfold finish_val. cbn [e_low e_range e_cache e_carry e_ccount].
  rewrite (shiftr_mask j) by lia. rewrite land_mask; [|lia|].
  2:{ assert (2 ^ j <= 2 ^ 23) by (apply Z.pow_le_mono_r; lia). change (2 ^ 23) with 8388608 in *.
      pose proof (pow2_pos j ltac:(lia)). change (2 ^ 32) with 4294967296. lia. }
  rewrite (Z.shiftr_div_pow2 (low + (2 ^ j - 1)) 24), (Z.shiftr_div_pow2 (low + R) 24) by lia. change (2 ^ 24) with 16777216.
  pose proof (pow2_pos j ltac:(lia)) as Pj.
  assert (Ej : 2 ^ j = 2 * 2 ^ (j - 1)) by (rewrite <- Z.pow_succ_r by lia; f_equal; lia).
  assert (Dj : 16777216 = 2 ^ (24 - j) * 2 ^ j) by (rewrite <- Z.pow_add_r by lia; replace (24 - j + j) with 24 by lia; reflexivity).
  assert (Dj1 : 16777216 = 2 ^ (25 - j) * 2 ^ (j - 1)) by (rewrite <- Z.pow_add_r by lia; replace (25 - j + (j - 1)) with 24 by lia; reflexivity).
  assert (Hmul : forall a, (a * 2 ^ j) mod 2 ^ j = 0) by (intros; apply Z.mod_mul; lia).
  pose proof (roundup low (2 ^ j) Pj) as Hru.
  destruct (Z.eqb_spec ((low + (2 ^ j - 1)) / 16777216) ((low + R) / 16777216)) as [Eo|Eo].
  - destruct (Z.lt_ge_cases (low + (2 ^ j - 1)) 16777216) as [Hlt|Hge].
    + (* no carry out *)
      rewrite (Z.mod_small (low + (2 ^ j - 1))) by lia.
      assert (Hhi : low + R < 16777216) by dml.
      set (v0 := (low + (2 ^ j - 1)) / 2 ^ j * 2 ^ j) in *.
      destruct (Z.leb_spec (low + R) (v0 + (2 ^ j - 1))) as [Hx|Hx].
      * rewrite mask_half, land_low24 by lia. pose proof (pow2_pos (j - 1) ltac:(lia)).
        rewrite (Z.mod_small (low + (2 ^ (j - 1) - 1))) by lia.
        rewrite land_high by (change (2 ^ 32) with 4294967296; lia).
        pose proof (roundup low (2 ^ (j - 1)) ltac:(lia)) as Hr1.
        set (v1 := (low + (2 ^ (j - 1) - 1)) / 2 ^ (j - 1) * 2 ^ (j - 1)) in *.
        eexists _, _, _. split; [reflexivity|].
        destruct (Z.ltb_spec v1 low); [lia|].
        replace (24 - (24 - j + 1)) with (j - 1) by lia.
        repeat split; try lia; try apply Hmul; auto. { unfold v1. apply Z.mod_mul. lia. }
      * eexists _, _, _. split; [reflexivity|].
        destruct (Z.ltb_spec v0 low); [lia|].
        replace (24 - (24 - j)) with j by lia.
        repeat split; try lia; try apply Hmul; auto.
    + (* carry out: val = 0 *)
      assert (Hz : (low + (2 ^ j - 1)) mod 16777216 / 2 ^ j * 2 ^ j = 0).
      { assert ((low + (2 ^ j - 1)) mod 16777216 = low + (2 ^ j - 1) - 16777216).
        { symmetry. apply Zmod_unique with 1; lia. }
        rewrite H. rewrite Z.div_small by lia. lia. }
      rewrite Hz.
      destruct (Z.leb_spec (low + R) (0 + (2 ^ j - 1))) as [Hx|Hx]; [lia|].
      destruct (Z.ltb_spec 0 low); [|lia].
      assert (Hc0 : carry = 0) by lia.
      eexists _, _, _. split; [reflexivity|].
      replace (24 - (24 - j)) with j by lia.
      rewrite Z.mod_0_l by lia.
      repeat split; try lia; try apply Hmul; auto.
      assert (Er : round_up F j = P * 16777216 + 16777216).
      { unfold round_up. assert (Eq : (F + (2 ^ j - 1)) / 2 ^ j = (P + 1) * 2 ^ (24 - j)).
        { symmetry. apply Z.div_unique with (F + (2 ^ j - 1) - (P * 16777216 + 16777216)).
          - left. unfold F. lia.
          - replace (2 ^ j * ((P + 1) * 2 ^ (24 - j))) with ((P + 1) * 16777216) by (rewrite Dj; ring). lia. }
        rewrite Eq, <- Z.mul_assoc, <- Dj. lia. }
      rewrite Er. unfold F. subst carry. lia.
  - (* over1 = 0, over2 = 1 *)
    assert (Hlt : low + (2 ^ j - 1) < 16777216) by dml.
    assert (Hge : 16777216 <= low + R) by dml.
    rewrite (Z.mod_small (low + (2 ^ j - 1))) by lia.
    set (v0 := (low + (2 ^ j - 1)) / 2 ^ j * 2 ^ j) in *.
    eexists _, _, _. split; [reflexivity|]. replace (24 - (24 - j)) with j by lia.
    assert (v0 + 2 ^ j <= 16777216).
    { assert ((low + (2 ^ j - 1)) / 2 ^ j < 2 ^ (24 - j)) by (apply Z.div_lt_upper_bound; lia). nia. }
    repeat split; try lia; try apply Hmul; auto.
Qed.

(* the writes after the last shift *)
Definition finish_tail (st : acenc) (o : out) (bits : Z) : res out :=
  if 0 <? e_ccount st then
    o <- write_byte_forward (fst o) (snd o) (e_cache st mod 256) ;;
    o <- emit_n o 255 (Z.to_nat (e_ccount st - 1)) ;;
    buf <- write_uint_forward (fst o) (snd o) (Z.shiftr 255 (8 - bits)) bits ;;
    Ok (fst o, buf)
  else
    buf <- write_uint_forward (fst o) (snd o) (e_cache st mod 65536) bits ;;
    Ok (fst o, buf).

Lemma finish_tail_ok L st o H P n R T t bits :
  core L st o H (P * 2 ^ 24) n R T t -> e_carry st = 0 -> 1 <= bits <= 8 -> 1 <= n ->
  t + 8 * (n - 1) + bits <= 8 * L -> P mod 2 ^ (8 - bits) = 0 ->
  ~ (e_cache st = -1 /\ 0 < e_ccount st) ->
  exists o', finish_tail st o bits = Ok o' /\ len (snd o') = L /\ bytes (snd o') /\
    be (snd o') = P * 2 ^ (8 * (L - n)) + T.
Proof.
  intros [W Hlow Hcarry Hcc Hcache Hn HF Htop H25 HR] Ec Hb Hn1 Hfit HP Hex.
  pose proof (wr_t _ _ _ _ _ _ W) as Ht0. rewrite Ec in HF. change (2 ^ 24) with 16777216 in *.
  assert (Hc0 : 0 <= e_cache st < 256).
  { destruct Hcache as [[Hc Hbp]|Hc]; [|auto]. exfalso. apply Hex. split; auto.
    unfold cb in Hn. rewrite Hc in Hn. change (-1 <? 0) with true in Hn. cbv iota in Hn. lia. }
  assert (Hcb : cb st = 1) by (unfold cb; destruct (Z.ltb_spec (e_cache st) 0); lia).
  assert (Hcv : cval st = e_cache st) by (unfold cval; destruct (Z.ltb_spec (e_cache st) 0); lia).
  rewrite Hcb, Hcv in *. change (256 ^ 1) with 256 in *.
  pose proof (pow256_pos (e_ccount st) Hcc) as Pcc.
  assert (HPe : P = (H * 256 + e_cache st) * 256 ^ e_ccount st + 256 ^ e_ccount st - 1) by lia.
  unfold finish_tail. destruct (Z.ltb_spec 0 (e_ccount st)) as [Hpos|Hz].
  - assert (bits = 8).
    { assert (Hodd : Z.odd P = true).
      { rewrite HPe. replace (256 ^ e_ccount st) with (2 * (128 * 256 ^ (e_ccount st - 1))).
        2:{ replace (e_ccount st) with (e_ccount st - 1 + 1) at 2 by lia. rewrite Z.pow_add_r by lia. change (256 ^ 1) with 256. lia. }
        rewrite Z.odd_sub, Z.odd_add, !Z.odd_mul. cbn. rewrite andb_false_r. reflexivity. }
      destruct (Z.eq_dec bits 8); [auto|]. exfalso.
      apply Z.mod_divide in HP; [|pose proof (pow2_pos (8 - bits) ltac:(lia)); lia]. destruct HP as [q Hq].
      rewrite Hq in Hodd. replace (8 - bits) with (1 + (7 - bits)) in Hodd by lia. rewrite Z.pow_add_r in Hodd by lia.
      rewrite !Z.odd_mul in Hodd. cbn in Hodd. rewrite andb_false_r in Hodd. discriminate. }
    subst bits. change (Z.shiftr 255 (8 - 8)) with 255.
    rewrite (Z.mod_small (e_cache st)) by lia.
    destruct (write_byte_forward_ok L (fst o) (snd o) H T t (e_cache st) W ltac:(unfold is_byte; lia) ltac:(lia)) as (w1 & b1 & E1 & Ebp1 & W1).
    rewrite E1. cbn [bind].
    destruct (emit_n_ok L 255 (Z.to_nat (e_ccount st - 1)) ltac:(unfold is_byte; lia) (w1, b1) _ T t W1 ltac:(cbn [fst]; lia)) as (o2 & E2 & Ebp2 & W2).
    rewrite E2. cbn [bind]. rewrite app_n_ff in W2. rewrite Z2Nat.id in * by lia. cbn [fst] in Ebp2.
    destruct (write_uint_forward_ok L (fst o2) (snd o2) _ T t 255 8 W2 ltac:(lia) ltac:(lia)) as (b3 & E3 & L3 & B3 & V3).
    rewrite E3. cbn [bind]. exists (fst o2, b3). cbn [fst snd]. split; [reflexivity|]. split; [auto|]. split; [auto|].
    rewrite V3. rewrite (wr_be _ _ _ _ _ _ W2). change (255 mod 256 / 2 ^ (8 - 8) * 2 ^ (8 - 8)) with 255.
    replace (L - w_bp (fst o2)) with (L - n + 1) by lia. replace (L - 1 - w_bp (fst o2)) with (L - n) by lia.
    rewrite HPe. replace (8 * (L - n + 1)) with (8 * (L - n) + 8) by lia. rewrite Z.pow_add_r by lia. change (2 ^ 8) with 256.
    replace (256 ^ e_ccount st) with (256 ^ (e_ccount st - 1) * 256).
    2:{ replace (e_ccount st) with (e_ccount st - 1 + 1) at 2 by lia. rewrite Z.pow_add_r by lia. reflexivity. }
    ring.
  - assert (Hcz : e_ccount st = 0) by lia. rewrite Hcz in *. change (256 ^ 0) with 1 in *.
    rewrite (Z.mod_small (e_cache st)) by lia.
    destruct (write_uint_forward_ok L (fst o) (snd o) _ T t (e_cache st) bits W ltac:(lia) ltac:(lia)) as (b3 & E3 & L3 & B3 & V3).
    rewrite E3. cbn [bind]. exists (fst o, b3). cbn [fst snd]. split; [reflexivity|]. split; [auto|]. split; [auto|].
    rewrite V3. rewrite (wr_be _ _ _ _ _ _ W). rewrite (Z.mod_small (e_cache st)) by lia.
    pose proof (pow2_pos (8 - bits) ltac:(lia)).
    assert (Hm : e_cache st mod 2 ^ (8 - bits) = 0).
    { assert (E256 : 256 = 2 ^ bits * 2 ^ (8 - bits)).
      { rewrite <- Z.pow_add_r by lia. replace (bits + (8 - bits)) with 8 by lia. reflexivity. }
      rewrite <- HP, HPe. replace ((H * 256 + e_cache st) * 1 + 1 - 1) with (e_cache st + H * 2 ^ bits * 2 ^ (8 - bits)) by (rewrite E256; ring).
      now rewrite Z.mod_add by lia. }
    replace (e_cache st / 2 ^ (8 - bits) * 2 ^ (8 - bits)) with (e_cache st) by (pose proof (Z.div_mod (e_cache st) (2 ^ (8 - bits)) ltac:(lia)); lia).
    replace (L - w_bp (fst o)) with (L - n + 1) by lia. replace (L - 1 - w_bp (fst o)) with (L - n) by lia.
    rewrite HPe. replace (8 * (L - n + 1)) with (8 * (L - n) + 8) by lia. rewrite Z.pow_add_r by lia. change (2 ^ 8) with 256. ring.
Qed.

Theorem finish_ok L st o s T t : erel L st o s T t -> iwf s -> t + ari_bits s <= 8 * L ->
  exists o' v bits, ac_enc_finish st o = Ok o' /\ len (snd o') = L /\ bytes (snd o') /\
    be (snd o') * 2 ^ 24 = v * 2 ^ (8 * (L - iN s)) + T * 2 ^ 24 /\
    iF s <= v < iF s + iR s /\
    1 <= bits <= 9 /\ 8 * iN s + bits <= ari_bits s /\ v mod 2 ^ (24 - bits) = 0 /\
    (term_window s \/ v + 2 ^ (24 - bits) <= iF s + iR s).
Proof.
  intros (H & C & ER) Hwf Hfit.
  pose proof (iw_R _ Hwf) as HR. pose proof (iw_N _ Hwf) as HN. pose proof (log2_range _ HR) as Hj.
  unfold ari_bits in *. set (n := iN s) in *. set (R := iR s) in *. set (F := iF s) in *.
  destruct st as [low range cache carry cc]. cbn [e_low e_range e_cache e_carry e_ccount] in *. subst range.
  set (st := mkAc low R cache carry cc) in *.
  destruct C as [W Hlow Hcarry Hcc Hcache Hn HF Htop H25 HR0]. pose proof (wr_t _ _ _ _ _ _ W) as Ht0.
  change (e_low st) with low in *. change (e_carry st) with carry in *. change (e_ccount st) with cc in *. change (e_cache st) with cache in *.
  change (2 ^ 24) with 16777216 in *. change (2 ^ 25) with 33554432 in *.
  set (P := (H * 256 ^ cb st + cval st) * 256 ^ cc + 256 ^ cc - 1).
  assert (HFP : F = P * 16777216 + carry * 16777216 + low) by (unfold P; lia).
  destruct (finish_val_ok low carry R cache cc R P Hlow Hcarry H25 HR eq_refl) as (bits & val & carry' & Efv & Hbits & Hval & Hc' & Hmod & Hv & Hwin).
  set (v := P * 16777216 + carry' * 16777216 + val) in *. rewrite <- HFP in *.
  unfold ac_enc_finish. fold st. change (e_range st) with R. rewrite finish_bits_ok by auto. cbn [bind]. unfold st at 1. rewrite Efv.
  change (e_cache st) with cache. change (e_ccount st) with cc.
  set (st1 := mkAc val R cache carry' cc).
  assert (C1 : core L st1 o H v n 1 T t).
  { unfold st1. constructor; cbn [e_low e_range e_cache e_carry e_ccount]; change (2 ^ 24) with 16777216; change (2 ^ 25) with 33554432; auto; try lia.
    - unfold v, P. unfold cb, cval, st; cbn [e_cache]. lia.
    - unfold cb; cbn [e_cache]. unfold cb, st in Htop; cbn [e_cache] in Htop. lia. }
  assert (Hvmod : v mod 2 ^ (24 - bits) = 0).
  { assert (E : 16777216 = 2 ^ bits * 2 ^ (24 - bits)) by (rewrite <- Z.pow_add_r by lia; replace (bits + (24 - bits)) with 24 by lia; reflexivity).
    rewrite <- Hmod. unfold v. replace (P * 16777216 + carry' * 16777216 + val) with (val + (P + carry') * 2 ^ bits * 2 ^ (24 - bits)) by (rewrite E; ring).
    apply Z.mod_add. pose proof (pow2_pos (24 - bits) ltac:(lia)). lia. }
  (* no pending 0xff bytes without a cached byte *)
  assert (Hcl : n = 0 -> v + 2 ^ (24 - bits) <= F + R /\ F + R <= 16777215).
  { intros Hn0. pose proof (iwf_top _ Hwf) as Ht. fold F R n in Ht. rewrite Hn0 in Ht. change (256 ^ 0) with 1 in Ht.
    split; [|lia]. destruct Hwin as [[Hw _]|Hw]; [|auto]. exfalso.
    pose proof (Z.log2_spec R ltac:(lia)).
    assert (n = 0 -> P * 16777216 + carry * 16777216 >= 0) by (pose proof (iw_F _ Hwf); lia). lia. }
  assert (Htop2 : 1 <= n -> v < 16776192 * 256 ^ n).
  { intros. destruct (iw_top _ Hwf) as [Ht|Ht]; [fold F R n in Ht; lia|]. exfalso. unfold n in *. rewrite Ht in *. cbn in *. lia. }
  assert (Hwin' : term_window s \/ v + 2 ^ (24 - bits) <= F + R).
  { destruct Hwin as [[Hw1 Hw2]|]; [left|now right]. unfold term_window. fold F R. split; [|exact Hw2].
    change (2 ^ 24) with 16777216. rewrite HFP.
    replace (P * 16777216 + carry * 16777216 + low) with (low + (P + carry) * 16777216) by ring.
    rewrite Z.mod_add, Z.mod_small by lia. lia. }
  destruct (ac_shift_ok L st1 o H v n 1 T t C1 ltac:(lia) ltac:(lia)) as (st2 & o2 & H2 & E2 & C2 & ER2 & Ec2).
  assert (Main : forall k st' o' H' R', 1 <= k <= 2 -> bits <= 8 * k -> 8 * k - 8 < bits ->
    core L st' o' H' (v * 256 ^ k) (n + k) R' T t -> e_carry st' = 0 ->
    exists o'', finish_tail st' o' (bits - 8 * k + 8) = Ok o'' /\ len (snd o'') = L /\ bytes (snd o'') /\
      be (snd o'') * 2 ^ 24 = v * 2 ^ (8 * (L - n)) + T * 2 ^ 24).
  { intros k st' o' H' R' Hk Hb1 Hb2 C' Ec'.
    assert (Hd : exists q, v = q * 2 ^ (24 - bits)).
    { apply Z.mod_divide in Hvmod; [auto|]. pose proof (pow2_pos (24 - bits) ltac:(lia)). lia. }
    destruct Hd as [q Hq].
    assert (HvP : v * 256 ^ k = (q * 2 ^ (8 * k - bits)) * 2 ^ 24).
    { rewrite Hq, pow256, <- !Z.mul_assoc, <- !Z.pow_add_r by lia. do 2 f_equal. lia. }
    destruct (finish_tail_ok L st' o' H' (q * 2 ^ (8 * k - bits)) (n + k) R' T t (bits - 8 * k + 8)) as (o'' & E & Hl & Hby & Hbe); auto; try lia.
    - rewrite <- HvP. exact C'.
    - replace (8 - (bits - 8 * k + 8)) with (8 * k - bits) by lia. apply Z.mod_mul. pose proof (pow2_pos (8 * k - bits) ltac:(lia)). lia.
    - intros [Hm1 Hcpos]. destruct C' as [W' Hlow' Hcarry' Hcc' Hcache' Hn' HF' _ _ _].
      destruct Hcache' as [[_ Hbp]|]; [|lia].
      assert (Hcb : cb st' = 0) by (unfold cb; now rewrite Hm1). assert (Hcv : cval st' = 0) by (unfold cval; now rewrite Hm1).
      pose proof (wr_H _ _ _ _ _ _ W') as HH. rewrite Hbp in HH. change (2 ^ (8 * 0)) with 1 in HH. assert (H' = 0) by lia. subst H'.
      rewrite Hcb, Hcv, Ec' in HF'. rewrite Hcb, Hbp in Hn'. assert (Hcn : e_ccount st' = n + k) by lia. rewrite Hcn in HF'.
      change (2 ^ 24) with 16777216 in *. rewrite Z.pow_add_r in HF' by lia.
      pose proof (pow256_pos n HN) as Pn.
      destruct (Z.eq_dec n 0) as [Hn0|Hn0].
      + destruct (Hcl Hn0) as [Hx Hy]. rewrite Hn0 in *. change (256 ^ 0) with 1 in *.
        pose proof (pow2_pos (24 - bits) ltac:(lia)).
        destruct (Z.eq_dec k 1) as [->|]; [|assert (k = 2) as -> by lia].
        * change (256 ^ 1) with 256 in *. assert (2 ^ 16 <= 2 ^ (24 - bits)) by (apply Z.pow_le_mono_r; lia). change (2 ^ 16) with 65536 in *. lia.
        * assert (bits = 9) as -> by lia. change (256 ^ 2) with 65536 in *. change (2 ^ (24 - 9)) with 32768 in *. lia.
      + specialize (Htop2 ltac:(lia)).
        assert (256 ^ 1 <= 256 ^ n) by (apply Z.pow_le_mono_r; lia). change (256 ^ 1) with 256 in *.
        destruct (Z.eq_dec k 1) as [->|]; [|assert (k = 2) as -> by lia].
        * change (256 ^ 1) with 256 in *. lia.
        * change (256 ^ 2) with 65536 in *. lia.
    - exists o''. repeat (split; [assumption|]). rewrite Hbe, Z.mul_add_distr_r. f_equal.
      rewrite Hq. replace (8 * (L - n)) with (8 * (L - (n + k)) + 8 * k) by lia.
      rewrite <- !Z.mul_assoc, <- !Z.pow_add_r by lia. do 2 f_equal. lia. }
  destruct (Z.le_gt_cases bits 8) as [Hb8|Hb9].
  - (* one shift *)
    destruct (Main 1 st2 o2 H2 (1 * 256) ltac:(lia) ltac:(lia) ltac:(lia) C2 Ec2) as (o3 & E3 & Hl3 & Hby3 & Hbe3).
    exists o3, v, bits. split; [|repeat (split; [first [assumption|lia]|]); assumption].
    cbn [finish_shift]. destruct (Z.ltb_spec 0 bits); [|lia]. rewrite E2. cbn [bind].
    destruct (Z.ltb_spec 0 (bits - 8)); [lia|]. cbn [bind].
    destruct (Z.ltb_spec (bits - 8 + 8) 0); [lia|].
    replace (bits - 8 + 8) with (bits - 8 * 1 + 8) by lia. exact E3.
  - destruct (ac_shift_ok L st2 o2 H2 _ _ _ T t C2 ltac:(lia) ltac:(lia)) as (st3 & o3 & H3 & E3 & C3 & ER3 & Ec3).
    replace (v * 256 * 256) with (v * 256 ^ 2) in C3 by (change (256 ^ 2) with (256 * 256); lia).
    replace (n + 1 + 1) with (n + 2) in C3 by lia.
    destruct (Main 2 st3 o3 H3 _ ltac:(lia) ltac:(lia) ltac:(lia) C3 Ec3) as (o4 & E4 & Hl4 & Hby4 & Hbe4).
    exists o4, v, bits. split; [|repeat (split; [first [assumption|lia]|]); assumption].
    cbn [finish_shift]. destruct (Z.ltb_spec 0 bits); [|lia]. rewrite E2. cbn [bind].
    destruct (Z.ltb_spec 0 (bits - 8)); [|lia]. rewrite E3. cbn [bind].
    destruct (Z.ltb_spec 0 (bits - 8 - 8)); [lia|]. cbn [bind].
    destruct (Z.ltb_spec (bits - 8 - 8 + 8) 0); [lia|].
    replace (bits - 8 - 8 + 8) with (bits - 8 * 2 + 8) by lia. exact E4.
Qed.
