(* The register level encoder refines the interval coder of AcSpec. *)
From Coq Require Import ZArith List Bool Lia ZifyBool.
From Verif Require Import Base Writer AcEnc AcSpec AcSpecProofs BufLemmas.
Import ListNotations.
Local Open Scope Z_scope.

Definition cb (st : acenc) : Z := if e_cache st <? 0 then 0 else 1.
Definition cval (st : acenc) : Z := if e_cache st <? 0 then 0 else e_cache st.

Lemma cb_nonneg st : 0 <= cb st.
Proof. unfold cb. destruct (e_cache st <? 0); lia. Qed.

(* The written bytes H, the cached byte, the pending 0xff bytes, the carry and the low register compose to the
   lower end F of the interval; t tail bits T have been written from the other end. *)
Record core (L : Z) (st : acenc) (o : out) (H F n R T t : Z) : Prop := mkCore {
  c_w : wrep L (fst o) (snd o) H T t;
  c_low : 0 <= e_low st < 2 ^ 24;
  c_carry : e_carry st = 0 \/ e_carry st = 1;
  c_cc : 0 <= e_ccount st;
  c_cache : (e_cache st = -1 /\ w_bp (fst o) = 0) \/ 0 <= e_cache st < 256;
  c_n : n = w_bp (fst o) + cb st + e_ccount st;
  c_F : F = ((H * 256 ^ cb st + cval st) * 256 ^ e_ccount st + 256 ^ e_ccount st - 1 + e_carry st) * 2 ^ 24 + e_low st;
  c_top : F + R <= (H + 1) * 256 ^ (cb st + e_ccount st) * 2 ^ 24;
  c_25 : e_carry st * 2 ^ 24 + e_low st + R <= 2 ^ 25;
  c_R : 0 < R
}.

Fixpoint app_n (H b : Z) (n : nat) : Z :=
  match n with O => H | S n' => app_n (H * 256 + b) b n' end.

Lemma app_n_ff H n : app_n H 255 n = H * 256 ^ Z.of_nat n + 256 ^ Z.of_nat n - 1.
Proof.
  revert H; induction n; intros; cbn [app_n]; [lia|].
  rewrite IHn, Nat2Z.inj_succ, Z.pow_succ_r by lia. lia.
Qed.
Lemma app_n_0 H n : app_n H 0 n = H * 256 ^ Z.of_nat n.
Proof.
  revert H; induction n; intros; cbn [app_n]; [lia|].
  rewrite IHn, Nat2Z.inj_succ, Z.pow_succ_r by lia. lia.
Qed.

Lemma emit_n_ok L b n : is_byte b -> forall o H T t,
  wrep L (fst o) (snd o) H T t -> t + 8 * (w_bp (fst o) + Z.of_nat n) <= 8 * L ->
  exists o', emit_n o b n = Ok o' /\ w_bp (fst o') = w_bp (fst o) + Z.of_nat n /\
    wrep L (fst o') (snd o') (app_n H b n) T t.
Proof.
  intros Hb. induction n; intros o H T t W Hfit.
  - exists o. cbn [emit_n app_n]. split; [reflexivity|]. split; [lia|exact W].
  - cbn [emit_n app_n].
    destruct (write_byte_forward_ok L (fst o) (snd o) H T t b W Hb ltac:(lia)) as (w' & buf' & E & Ebp & W').
    rewrite E. cbn [bind].
    destruct (IHn (w', buf') (H * 256 + b) T t W' ltac:(cbn [fst]; lia)) as (o' & E' & Ebp' & W'').
    exists o'. rewrite E'. split; [reflexivity|]. cbn [fst] in Ebp'. split; [lia|exact W''].
Qed.

Lemma shiftr16_byte low : 0 <= low < 2 ^ 24 -> 0 <= Z.shiftr low 16 < 256 /\
  low * 256 = Z.shiftr low 16 * 2 ^ 24 + (low * 256) mod 16777216.
Proof.
  intros. rewrite Z.shiftr_div_pow2 by lia. change (2 ^ 16) with 65536 in *. change (2 ^ 24) with 16777216 in *. dml.
Qed.

Lemma ac_shift_ok L st o H F n R T t :
  core L st o H F n R T t -> R <= 65536 -> t + 8 * n <= 8 * L ->
  exists st' o' H', ac_shift st o = Ok (st', o') /\
    core L st' o' H' (F * 256) (n + 1) (R * 256) T t /\
    e_range st' = e_range st /\ e_carry st' = 0.
Proof.
  intros [W Hlow Hcarry Hcc Hcache Hn HF Htop H25 HR] HRle Hfit.
  pose proof (shiftr16_byte _ Hlow) as [Hsb Hls].
  pose proof (pow256_pos (e_ccount st) Hcc) as Pcc.
  change (2 ^ 24) with 16777216 in *. change (2 ^ 25) with 33554432 in *.
  unfold ac_shift.
  destruct ((e_low st <? 16711680) || (e_carry st =? 1)) eqn:Eflush.
  - (* flush *)
    assert (Hstep : e_low st + R <= 16777216) by lia.
    assert (Hnocarry : e_carry st = 1 -> e_cache st <> -1 /\ e_cache st + 1 < 256).
    { intros Ec. destruct Hcache as [[Hc Hbp]|Hc].
      - exfalso. assert (Ecb : cb st = 0) by (unfold cb; now rewrite Hc).
        assert (Ecv : cval st = 0) by (unfold cval; now rewrite Hc). rewrite Ecb, Ecv in *.
        pose proof (wr_H _ _ _ _ _ _ W) as HH. rewrite Hbp in HH. change (2 ^ (8 * 0)) with 1 in HH. assert (H = 0) by lia. subst H.
        rewrite (Z.add_0_l (e_ccount st)) in Htop. rewrite Ec in HF. lia.
      - split; [lia|]. unfold cb, cval in *. destruct (Z.ltb_spec (e_cache st) 0); [lia|].
        rewrite Z.pow_add_r in Htop by lia. rewrite Ec in HF. change (256 ^ 1) with 256 in *.
        assert (H * 256 + e_cache st + 1 < (H + 1) * 256); [|lia].
        assert (0 < e_low st + R) by lia.
        assert ((H * 256 + e_cache st + 1) * 256 ^ e_ccount st < (H + 1) * 256 * 256 ^ e_ccount st); [|nia]. lia. }
    (* cache byte *)
    assert (S1 : exists o1 H1,
      (if 0 <=? e_cache st then write_byte_forward (fst o) (snd o) ((e_cache st + e_carry st) mod 256) else Ok o) = Ok o1 /\
      w_bp (fst o1) = w_bp (fst o) + cb st /\
      H1 = H * 256 ^ cb st + (if e_cache st <? 0 then 0 else e_cache st + e_carry st) /\
      wrep L (fst o1) (snd o1) H1 T t).
    { unfold cb in *. destruct (Z.leb_spec 0 (e_cache st)).
      - destruct (Z.ltb_spec (e_cache st) 0); [lia|].
        assert (Hm : (e_cache st + e_carry st) mod 256 = e_cache st + e_carry st) by (apply Z.mod_small; lia).
        rewrite Hm.
        destruct (write_byte_forward_ok L (fst o) (snd o) H T t (e_cache st + e_carry st) W ltac:(unfold is_byte; lia) ltac:(lia))
          as (w' & buf' & E & Ebp & W').
        exists (w', buf'), (H * 256 + (e_cache st + e_carry st)). rewrite E. cbn [fst snd].
        split; [reflexivity|]. split; [lia|]. split; [|exact W']. change (256 ^ 1) with 256. lia.
      - destruct (Z.ltb_spec (e_cache st) 0); [|lia].
        exists o, H. split; [reflexivity|]. split; [lia|]. split; [|exact W]. lia. }
    destruct S1 as (o1 & H1 & E1 & Ebp1 & EH1 & W1). rewrite E1. cbn [bind].
    set (bb := (e_carry st + 255) mod 256).
    assert (Hbb : is_byte bb) by (unfold bb, is_byte; apply Z.mod_pos_bound; lia).
    destruct (emit_n_ok L bb (Z.to_nat (e_ccount st)) Hbb o1 H1 T t W1 ltac:(lia)) as (o2 & E2 & Ebp2 & W2).
    rewrite E2. cbn [bind e_low e_range e_cache e_carry e_ccount].
    eexists _, o2, (app_n H1 bb (Z.to_nat (e_ccount st))). split; [reflexivity|]. split; [|split; reflexivity].
    set (H2 := app_n H1 bb (Z.to_nat (e_ccount st))) in *.
    assert (EH2 : H2 = (H * 256 ^ cb st + cval st) * 256 ^ e_ccount st + 256 ^ e_ccount st - 1 + e_carry st).
    { unfold H2, cval. destruct Hcarry as [Hc|Hc].
      - replace bb with 255 by (unfold bb; rewrite Hc; reflexivity). rewrite app_n_ff, Z2Nat.id by lia.
        rewrite EH1, Hc. destruct (e_cache st <? 0); lia.
      - replace bb with 0 by (unfold bb; rewrite Hc; reflexivity). rewrite app_n_0, Z2Nat.id by lia.
        destruct (Hnocarry Hc). rewrite EH1, Hc. destruct (Z.ltb_spec (e_cache st) 0); [lia|]. lia. }
    assert (Ecb : cb (mkAc ((e_low st * 256) mod 16777216) (e_range st) (Z.shiftr (e_low st) 16) 0 (Z.min (e_ccount st) 0)) = 1).
    { unfold cb. simpl. destruct (Z.ltb_spec (Z.shiftr (e_low st) 16) 0); lia. }
    assert (Ecv : cval (mkAc ((e_low st * 256) mod 16777216) (e_range st) (Z.shiftr (e_low st) 16) 0 (Z.min (e_ccount st) 0)) = Z.shiftr (e_low st) 16).
    { unfold cval. simpl. destruct (Z.ltb_spec (Z.shiftr (e_low st) 16) 0); lia. }
    replace (Z.min (e_ccount st) 0) with 0 in * by lia.
    constructor; rewrite ?Ecb, ?Ecv; cbn [e_low e_range e_cache e_carry e_ccount]; change (256 ^ 0) with 1; change (256 ^ 1) with 256;
      change (256 ^ (1 + 0)) with 256; change (2 ^ 24) with 16777216; change (2 ^ 25) with 33554432; auto; try lia.
    + apply Z.mod_pos_bound; lia.
    + assert (0 <= (e_low st * 256) mod 16777216 < 16777216) by (apply Z.mod_pos_bound; lia). lia.
  - (* no flush *)
    apply orb_false_elim in Eflush. destruct Eflush as [El Ec].
    assert (e_carry st = 0) by lia.
    cbn [bind e_low e_range e_cache e_carry e_ccount].
    eexists _, o, H. split; [reflexivity|]. split; [|split; [reflexivity|assumption]].
    assert (Ecb : forall a b d e, cb (mkAc a b (e_cache st) d e) = cb st) by reflexivity.
    assert (Ecv : forall a b d e, cval (mkAc a b (e_cache st) d e) = cval st) by reflexivity.
    pose proof (cb_nonneg st) as Hcb.
    assert (Hff : Z.shiftr (e_low st) 16 = 255).
    { rewrite Z.shiftr_div_pow2 by lia. change (2 ^ 16) with 65536. dml. }
    constructor; rewrite ?Ecb, ?Ecv; cbn [e_low e_range e_cache e_carry e_ccount];
      change (2 ^ 24) with 16777216; change (2 ^ 25) with 33554432; auto; try lia.
    + rewrite Z.pow_add_r by lia. change (256 ^ 1) with 256. lia.
    + rewrite Z.add_assoc, (Z.pow_add_r _ _ 1) by lia. change (256 ^ 1) with 256. lia.
Qed.

(* relation of the running encoder with the interval coder *)
Definition erel (L : Z) (st : acenc) (o : out) (s : ival) (T t : Z) : Prop :=
  exists H, core L st o H (iF s) (iN s) (iR s) T t /\ e_range st = iR s.

Lemma ac_renorm_ok L fuel : forall st o H s T t,
  core L st o H (iF s) (iN s) (iR s) T t -> e_range st = iR s ->
  let s' := inorm fuel s in
  65536 <= iR s' -> t + 8 * iN s' <= 8 * L ->
  exists st' o', ac_renorm fuel st o = Ok (st', o') /\ erel L st' o' s' T t.
Proof.
  induction fuel; intros st o H s T t C ER; cbn [inorm ac_renorm]; rewrite ER;
    destruct (Z.ltb_spec (iR s) 65536); intros HR Hfit; try lia.
  - exists st, o. split; auto. now exists H.
  - set (s1 := mkIval (iF s * 256) (iR s * 256) (iN s + 1)) in *.
    assert (HN : 0 <= iN s).
    { destruct C. destruct c_w0. pose proof (cb_nonneg st). lia. }
    assert (Hm : iN s + 1 <= iN (inorm fuel s1)) by (apply (inorm_mono fuel s1); unfold s1; cbn [iN]; lia).
    assert (C' : core L (mkAc (e_low st) (iR s * 256) (e_cache st) (e_carry st) (e_ccount st)) o H (iF s) (iN s) (iR s) T t).
    { destruct C; constructor; auto. }
    destruct (ac_shift_ok _ _ _ _ _ _ _ _ _ C' ltac:(lia) ltac:(lia)) as (st' & o' & H' & E & C2 & ER' & _).
    rewrite E. cbn [bind].
    apply (IHfuel st' o' H' s1 T t); auto.
  - exists st, o. split; auto. now exists H.
Qed.

Lemma ac_encode_ok L st o s T t c f :
  erel L st o s T t -> iwf s -> valid_sym (c, f) ->
  t + 8 * iN (istep s (c, f)) <= 8 * L ->
  exists st' o', ac_encode st o c f = Ok (st', o') /\ erel L st' o' (istep s (c, f)) T t.
Proof.
  intros (H & C & ER) Hwf Hv Hfit.
  pose proof (iw_R _ (istep_wf s (c, f) Hwf Hv)) as HR'.
  destruct Hv as (Hc & Hf & Hcf). cbn [fst snd] in *.
  unfold ac_encode. rewrite ER, Z.shiftr_div_pow2 by lia. change (2 ^ 10) with 1024.
  unfold istep in *. cbn [fst snd] in *.
  set (r := iR s / 1024) in *.
  assert (Hr : 64 <= r <= 16383 /\ r * 1024 <= iR s) by (destruct Hwf; unfold r; dml). destruct Hr as [Hr Hr2].
  set (s1 := mkIval (iF s + r * c) (r * f) (iN s)) in *.
  apply (ac_renorm_ok L 4 _ o H s1); auto; [|lia].
  destruct C.
  assert (Hlo : 0 <= e_low st + r * c < 2 * 16777216).
  { change (2 ^ 24) with 16777216 in *. change (2 ^ 25) with 33554432 in *.
    split; [nia|]. assert (r * c + r * f <= iR s) by nia. nia. }
  rewrite Z.shiftr_div_pow2 by lia. change (2 ^ 24) with 16777216 in *. change (2 ^ 25) with 33554432 in *.
  assert (Hsum : r * c + r * f <= iR s) by nia.
  assert (Hrf : 0 < r * f) by nia.
  assert (Hrc : 0 <= r * c) by nia.
  set (low' := e_low st + r * c) in *.
  assert (Hlc : (if low' / 16777216 =? 0 then e_carry st else 1) * 16777216 + low' mod 16777216
                 = e_carry st * 16777216 + low' /\
                ((if low' / 16777216 =? 0 then e_carry st else 1) = 0 \/ (if low' / 16777216 =? 0 then e_carry st else 1) = 1)).
  { destruct (Z.eqb_spec (low' / 16777216) 0) as [E|E].
    - split; [|auto]. assert (low' < 16777216) by dml. rewrite Z.mod_small by lia. lia.
    - assert (low' / 16777216 = 1) by dml.
      assert (e_carry st = 0) by (destruct c_carry0; [auto|]; exfalso; dml).
      split; [|auto]. rewrite H1. dml. }
  destruct Hlc as [Hlc Hc01].
  assert (Ecb : forall a b d e, cb (mkAc a b (e_cache st) d e) = cb st) by reflexivity.
  assert (Ecv : forall a b d e, cval (mkAc a b (e_cache st) d e) = cval st) by reflexivity.
  constructor; rewrite ?Ecb, ?Ecv; cbn [e_low e_range e_cache e_carry e_ccount]; unfold s1; cbn [iF iR iN];
    change (2 ^ 24) with 16777216; change (2 ^ 25) with 33554432; auto; try lia.
  apply Z.mod_pos_bound; lia.
Qed.

(* tail writes do not disturb the head *)
Lemma write_bool_erel L st o s T t b :
  erel L st o s T t -> t + 1 + 8 * iN s <= 8 * L -> t + 1 < 8 * L ->
  exists o', write_bool_backward (fst o) (snd o) b = Ok o' /\ erel L st o' s (T + b2z b * 2 ^ t) (t + 1).
Proof.
  intros (H & C & ER) Hfit Hlt. destruct C.
  pose proof (cb_nonneg st) as Hcb.
  destruct (write_bool_backward_ok L (fst o) (snd o) H T t b c_w0 ltac:(lia) Hlt) as (w' & buf' & E & Ebp & W').
  exists (w', buf'). split; auto. exists H. split; auto.
  constructor; cbn [fst snd]; rewrite ?Ebp; auto.
Qed.

Lemma erel_side_written L st o s T t : erel L st o s T t -> nbits_side_written (fst o) (8 * L) = Ok t.
Proof.
  intros (H & C & ER). pose proof (c_w _ _ _ _ _ _ _ _ _ C) as W.
  pose proof (wr_side _ _ _ _ _ _ W) as Ws. pose proof (wr_mask _ _ _ _ _ _ W) as Wm.
  pose proof (wr_t _ _ _ _ _ _ W) as Wt. unfold nbits_side_written.
  rewrite Ws, Wm. unfold log2_floor. rewrite Z.log2_pow2 by dml.
  replace (8 * L - (8 * (L - 1 - t / 8) + 8 - t mod 8)) with t by dml.
  destruct (Z.ltb_spec t 0); [lia|reflexivity].
Qed.

Lemma erel_init L w buf T t : wrep L w buf 0 T t -> w_bp w = 0 -> erel L ac_enc_init (w, buf) ival0 T t.
Proof.
  intros W Hb. exists 0. split; [|reflexivity]. constructor; cbn; auto; lia.
Qed.
