From Coq Require Import ZArith List Bool Lia ZifyBool.
From Verif Require Import Base Writer Reader AcEnc AcDec AcSpec AcSpecProofs BufLemmas AcEncProofs AcFinishProofs AcDecProofs AcStream.
Import ListNotations.
Local Open Scope Z_scope.

Section Stream.
  Variable ctx : list Z -> model.
  Hypothesis Hctx : forall h, valid_model (ctx h).

  Lemma stream_syms_valid syms : forall hist, stream_ok ctx hist syms -> Forall valid_sym (stream_syms ctx hist syms).
  Proof.
    induction syms as [|y ys IH]; intros hist H; cbn [stream_syms]; constructor.
    - apply msym_valid; [apply Hctx|apply H].
    - apply IH. apply H.
  Qed.

  Lemma ari_bits_ge s : iwf s -> 8 * iN s + 2 <= ari_bits s.
  Proof. intros W. pose proof (log2_range _ (iw_R _ W)). unfold ari_bits. lia. Qed.

  Lemma enc_stream_ok L T t syms : forall hist st o s,
    erel L st o s T t -> iwf s -> stream_ok ctx hist syms ->
    t + 8 * iN (irun s (stream_syms ctx hist syms)) <= 8 * L ->
    exists st' o', enc_stream ctx hist syms st o = Ok (st', o') /\
      erel L st' o' (irun s (stream_syms ctx hist syms)) T t.
  Proof.
    induction syms as [|y ys IH]; intros hist st o s E W Hok Hfit; cbn [enc_stream stream_syms irun fold_left] in *.
    - exists st, o. split; [reflexivity|exact E].
    - destruct Hok as [Hy Hok]. pose proof (Hctx hist) as V. unfold msize in Hy.
      rewrite (idx_nth (fst (ctx hist)) y 0), (idx_nth (snd (ctx hist)) y 0) by (unfold len; pose proof (vm_len _ V); lia).
      cbn [bind]. pose proof (msym_valid (ctx hist) y V Hy) as Hsv.
      pose proof (istep_wf s _ W Hsv) as W'.
      pose proof (irun_mono _ _ W' (stream_syms_valid ys (hist ++ [y]) Hok)) as M.
      unfold irun in M.
      destruct (ac_encode_ok L st o s T t _ _ E W Hsv) as (st1 & o1 & E1 & R1); [fold (msym (ctx hist) y); lia|].
      rewrite E1. cbn [bind].
      apply (IH (hist ++ [y]) st1 o1 _ R1 W' Hok Hfit).
  Qed.

  Lemma dec_stream_ok buf syms : bytes buf -> forall hist r st s,
    drel buf r st s -> iwf s -> stream_ok ctx hist syms ->
    let s' := irun s (stream_syms ctx hist syms) in
    iN s' + 3 <= len buf -> iF s' <= hv buf (iN s') < iF s' + iR s' ->
    dec_stream ctx buf hist (length syms) r st = Ok syms.
  Proof.
    intros Hb. induction syms as [|y ys IH]; intros hist r st s D W Hok; cbn [dec_stream stream_syms irun fold_left length]; intros Hl HV.
    - reflexivity.
    - destruct Hok as [Hy Hok]. pose proof (Hctx hist) as V.
      pose proof (msym_valid (ctx hist) y V Hy) as Hsv. pose proof (istep_wf s _ W Hsv) as W'.
      destruct (irun_hv buf (istep s (msym (ctx hist) y)) (stream_syms ctx (hist ++ [y]) ys) W' (stream_syms_valid _ _ Hok) Hl HV) as [Hl1 HV1].
      destruct (ac_decode_ok buf r st s (ctx hist) y Hb D W V Hy Hl1 HV1) as (st' & r' & E & D' & _).
      rewrite E. cbn [bind].
      rewrite (IH (hist ++ [y]) r' st' _ D' W' Hok Hl HV). reflexivity.
  Qed.

  Lemma enc_all_ok L syms : stream_ok ctx [] syms -> L < 65536 -> stream_bits ctx syms <= 8 * L ->
    let s := irun ival0 (stream_syms ctx [] syms) in
    exists buf v bits, enc_all ctx L syms = Ok buf /\ len buf = L /\ bytes buf /\
      be buf * 2 ^ 24 = v * 2 ^ (8 * (L - iN s)) /\ iF s <= v < iF s + iR s /\
      1 <= bits <= 9 /\ 8 * iN s + bits <= ari_bits s /\ v mod 2 ^ (24 - bits) = 0 /\
      (term_window s \/ v + 2 ^ (24 - bits) <= iF s + iR s).
  Proof.
    intros Hok HL Hfit s. unfold stream_bits in Hfit. fold s in Hfit.
    pose proof (irun_wf ival0 _ iwf0 (stream_syms_valid syms [] Hok)) as W. fold s in W.
    pose proof (ari_bits_ge s W). pose proof (iw_N _ W).
    unfold enc_all. unfold writer_new. rewrite Z.mod_small, usub_ok by lia. cbn [bind].
    assert (WR := wrep_init L (mkWriter 0 (L - 1) 1) ltac:(lia)).
    unfold writer_new in WR. rewrite Z.mod_small, usub_ok in WR by lia. specialize (WR eq_refl).
    destruct (enc_stream_ok L 0 0 syms [] ac_enc_init (mkWriter 0 (L - 1) 1, repeat 0 (Z.to_nat L)) ival0) as (st & o & E & R).
    - apply erel_init; auto.
    - apply iwf0.
    - exact Hok.
    - fold s. lia.
    - rewrite E. cbn [bind]. destruct (finish_ok L st o s 0 0 R W ltac:(lia)) as (o' & v & bits & E' & A1 & A2 & A3 & A4 & A5 & A6 & A7 & A8).
      rewrite E'. cbn [bind]. exists (snd o'), v, bits. rewrite Z.mul_0_l, Z.add_0_r in A3.
      repeat (split; [assumption || reflexivity|]). exact A8.
  Qed.

  Lemma dec_all_ok buf syms : stream_ok ctx [] syms -> bytes buf ->
    let s := irun ival0 (stream_syms ctx [] syms) in
    iN s + 3 <= len buf -> iF s <= hv buf (iN s) < iF s + iR s ->
    dec_all ctx buf (length syms) = Ok syms.
  Proof.
    intros Hok Hb s Hl HV.
    pose proof (irun_wf ival0 _ iwf0 (stream_syms_valid syms [] Hok)) as W. fold s in W. pose proof (iw_N _ W).
    unfold dec_all. destruct (ac_dec_init_ok buf reader_new Hb eq_refl ltac:(lia)) as (st & E & D).
    rewrite E. cbn [bind]. apply (dec_stream_ok buf syms Hb [] _ st ival0 D iwf0 Hok Hl HV).
  Qed.

  Theorem ac_lossless L syms : stream_ok ctx [] syms -> L < 65536 -> stream_bits ctx syms + 16 <= 8 * L ->
    exists buf, enc_all ctx L syms = Ok buf /\ len buf = L /\ bytes buf /\ dec_all ctx buf (length syms) = Ok syms.
  Proof.
    intros Hok HL Hfit.
    destruct (enc_all_ok L syms Hok HL ltac:(lia)) as (buf & v & bits & E & El & Hb & Hbe & Hv & Hbits & Hfit' & _ & _).
    exists buf. split; [exact E|]. split; [exact El|]. split; [exact Hb|].
    unfold stream_bits in Hfit. set (s := irun ival0 (stream_syms ctx [] syms)) in *.
    pose proof (irun_wf ival0 _ iwf0 (stream_syms_valid syms [] Hok)) as W. fold s in W. pose proof (iw_N _ W).
    assert (Hl3 : iN s + 3 <= len buf) by lia.
    destruct (hv_final buf v 0 0 (iN s) bits Hb ltac:(lia) ltac:(lia) ltac:(lia) ltac:(lia) Hl3 ltac:(lia)) as [_ Hz].
    { rewrite El. rewrite Hbe. lia. }
    apply dec_all_ok; auto. fold s. rewrite (Hz eq_refl). exact Hv.
  Qed.

  (* bits after the code word do not matter outside the termination window *)
  Theorem ac_robust L syms : stream_ok ctx [] syms -> L < 65536 -> stream_bits ctx syms + 16 <= 8 * L ->
    ~ term_window (irun ival0 (stream_syms ctx [] syms)) ->
    exists buf w, enc_all ctx L syms = Ok buf /\ 0 <= w <= stream_bits ctx syms /\
      forall buf', bytes buf' -> len buf' = L -> be buf' / 2 ^ (8 * L - w) = be buf / 2 ^ (8 * L - w) ->
        dec_all ctx buf' (length syms) = Ok syms.
  Proof.
    intros Hok HL Hfit Hnw.
    destruct (enc_all_ok L syms Hok HL ltac:(lia)) as (buf & v & bits & E & El & Hb & Hbe & Hv & Hbits & Hfit' & Hm & Hw).
    unfold stream_bits in *. set (s := irun ival0 (stream_syms ctx [] syms)) in *.
    pose proof (irun_wf ival0 _ iwf0 (stream_syms_valid syms [] Hok)) as W. fold s in W. pose proof (iw_N _ W).
    destruct Hw as [Hw|Hw]; [contradiction|].
    exists buf, (8 * iN s + bits). split; [exact E|]. split; [lia|].
    intros buf' Hb' El' Heq.
    set (d := 8 * L - (8 * iN s + bits)) in *.
    pose proof (pow2_pos d ltac:(unfold d; lia)) as Pd.
    assert (Hq : exists q, be buf = q * 2 ^ d).
    { apply Z.mod_divide in Hm; [|pose proof (pow2_pos (24 - bits) ltac:(lia)); lia]. destruct Hm as [q Hq]. exists q.
      assert (be buf * 2 ^ 24 = q * 2 ^ d * 2 ^ 24).
      { rewrite Hbe, Hq, <- !Z.mul_assoc, <- !Z.pow_add_r by (unfold d; lia). do 2 f_equal. unfold d. lia. }
      assert (0 < 2 ^ 24) by (apply pow2_pos; lia). nia. }
    destruct Hq as [q Hq].
    assert (Hd : be buf' = be buf + be buf' mod 2 ^ d).
    { pose proof (Z.div_mod (be buf') (2 ^ d) ltac:(lia)) as DM. rewrite Heq, Hq, Z.div_mul in DM by lia. rewrite Hq. lia. }
    pose proof (Z.mod_pos_bound (be buf') (2 ^ d) Pd) as Hmb.
    destruct (hv_final buf' v (be buf' mod 2 ^ d) d (iN s) bits Hb' ltac:(lia) Hmb ltac:(unfold d; lia) ltac:(lia) ltac:(lia) ltac:(unfold d; lia)) as [Hh _].
    { rewrite El', <- Hbe, <- Z.mul_add_distr_r. f_equal. exact Hd. }
    apply dec_all_ok; auto; fold s; lia.
  Qed.
End Stream.
