(* The decoder as a whole: invariant of a channel, totality of decode_frame over any history, independence of channels. *)
From Coq Require Import ZArith List Bool Lia.
From Verif Require Import Base Config SideInfo ArithDec FrameDec FrameSpec Buffers BuffersProofs FftFactor FactorProofs Loops Scalar DecSignal Fft DecMdct DecLtpf Decoder DecTotal DecState ParseBase ParseTotal.
Import ListNotations.
Local Open Scope Z_scope.

Section Run.
Context {F : Type} (o : ops F) (t : target).

Definition cfg_lens (c : config) : ltpf_lens := match ltpf_lengths c with Ok n => n | _ => mkLtpfLens 0 0 0 0 0 0 0 end.
Lemma cfg_lens_eq c : legal_config c -> ltpf_lengths c = Ok (cfg_lens c).
Proof. intros L. unfold cfg_lens. destruct (lengths_ok c L) as (n & E & _). now rewrite E. Qed.

(* the invariant: every buffer has the length its user relies on *)
Record channel_ok (c : config) (ch : channel F) : Prop := mkChannelOk {
  co_lines : len (ch_lines ch) = ne c;
  co_freq : len (ch_freq ch) = nf c;
  co_last : len (pl_last (ch_plc ch)) = ne c;
  co_lost : 0 <= pl_lost (ch_plc ch) <= ch_index ch;
  co_mdct : mdct_ok c (ch_mdct ch);
  co_post : ltpf_ok c (cfg_lens c) (ch_ltpf ch)
}.

Lemma plc_lines_len alpha : forall lines last seed, len (snd (plc_lines o alpha seed lines last)) = len lines.
Proof.
  induction lines as [|x lines IH]; intros last seed; cbn [plc_lines]; [reflexivity|]. destruct last as [|g last]; [reflexivity|].
  specialize (IH last (plc_next seed)). destruct (plc_lines o alpha (plc_next seed) lines last) as [s r]. cbn [snd] in *. unfold len in *. cbn [length]. lia.
Qed.

Lemma decode_lines_ok c f L lines : legal_config c -> frame_wf c L f -> len lines = ne c -> okp (decode_lines o t c f lines) (fun l => len l = ne c).
Proof.
  intros Lc W Hl. destruct (config_geom c Lc) as (G1 & G2 & G3 & G4 & G5 & G6 & G7). pose proof W as [W1 W2 _ _ [W5 W5'] [W6 W6'] _ W8 _ _].
  destruct W1 as [Sb Sl Se Sg Sn Sf Ss Sp Slt Snf]. unfold decode_lines, MAX_LEN_SPECTRAL in *. okstep; [lia|lia|]. rename a into spec.
  set (l1 := residual_decode _ _ _ _). assert (E1 : len l1 = ne c) by (unfold l1; rewrite residual_decode_len, len_zipmod; assumption).
  eapply okp_bind; [apply noise_fill_ok; [|lia|exact W2]|].
  { rewrite W8. unfold spec_seed. apply Z.mod_pos_bound. reflexivity. }
  intros l2 E2. cbv beta in E2. set (l3 := global_gain _ _ _ _ l2). assert (E3 : len l3 = ne c) by (unfold l3; rewrite global_gain_len; lia).
  eapply okp_bind; [apply tns_decode_ok|].
  - lia.
  - exact W5.
  - exact W5'.
  - rewrite Sn. destruct (_ <? _); lia.
  - rewrite E3. destruct Lc as (f0 & d & ->). cbn [config_new n_ms] in *. clear - Sb.
    destruct d; assert (C : s_bw (f_side f) = 0 \/ s_bw (f_side f) = 1 \/ s_bw (f_side f) = 2 \/ s_bw (f_side f) = 3 \/ s_bw (f_side f) = 4) by (destruct f0; cbn in Sb; lia);
      destruct f0; cbn in Sb; destruct C as [C|[C|[C|[C|C]]]]; rewrite C in *; try lia; vm_compute; discriminate.
  - intros l4 E4. cbv beta in E4. unfold sns_decode.
    eapply okp_bind; [apply sns_factors_ok; exact Ss|]. intros q Eq. eapply okp_bind; [apply sns_interp_ok; exact Eq|]. intros s Es.
    eapply okp_bind; [apply sns_reduce_ok; [exact Es|lia]|]. intros s' Es'. cbv beta in Es'.
    unfold sns_linear. eapply okp_bind with (P := fun g => len g = nb c).
    { okstep; [lia|lia|]. apply okp_ok. rewrite len_map. lia. }
    intros g Eg. cbv beta in Eg. destruct Lc as (f0 & d & ->). eapply okp_bind; [apply band_table_ok|]. intros edges Ee. cbv beta in Ee.
    eapply okp_weaken; [eapply sns_shape_ok; [rewrite Eg; exact Ee|lia]|]. intros; liab.
Qed.

(* What one call does to the concealment state, in terms of the parse result only. *)
Definition plc_effect (c : config) (ch : channel F) (buf : list Z) (ch' : channel F) : Prop :=
  match read_frame (t_chk t) c buf with
  | Ok f => pl_lost (ch_plc ch') = 0 /\ pl_alpha (ch_plc ch') = fz o 1 /\ pl_last (ch_plc ch') = ch_lines ch' /\ pl_seed (ch_plc ch') = pl_seed (ch_plc ch) /\
            t_active (ch_ltpf ch') = l_active (s_ltpf (f_side f))
  | Err _ => pl_lost (ch_plc ch') = pl_lost (ch_plc ch) + 1 /\ pl_last (ch_plc ch') = pl_last (ch_plc ch) /\ t_active (ch_ltpf ch') = false
  | Panic => False
  end.

Lemma uincr_ok n : 0 <= n -> n < t_umax t -> okp (uincr t n) (fun m => m = n + 1).
Proof. intros H0 H. unfold uincr. destruct (Z.leb_spec (t_umax t) n); [lia|]. now apply okp_ok. Qed.

Lemma decode_spectrum_ok c ch buf : legal_config c -> channel_ok c ch -> bytes buf -> read_frame (t_chk t) c buf <> Panic -> ch_index ch < t_umax t ->
  okp (decode_spectrum o t c ch buf) (fun '(p, lines, info) => len lines = ne c /\ len (pl_last p) = ne c /\ 0 <= pl_lost p <= ch_index ch + 1 /\ 0 <= l_pitch info < 512 /\
    match read_frame (t_chk t) c buf with
    | Ok f => pl_lost p = 0 /\ pl_alpha p = fz o 1 /\ pl_last p = lines /\ pl_seed p = pl_seed (ch_plc ch) /\ info = s_ltpf (f_side f)
    | Err _ => pl_lost p = pl_lost (ch_plc ch) + 1 /\ pl_last p = pl_last (ch_plc ch) /\ info = plc_ltpf
    | Panic => False
    end).
Proof.
  intros Lc [C1 C2 C3 C4 C5 C6] Hb HP Hi. unfold decode_spectrum. destruct (read_frame (t_chk t) c buf) as [f|e|] eqn:ER; [| |congruence].
  - pose proof (read_frame_wf _ _ _ _ Lc Hb ER) as W.
    eapply okp_bind; [eapply decode_lines_ok; eassumption|]. intros l El. cbv beta in El. unfold plc_save.
    destruct (config_geom c Lc) as (_ & _ & _ & G4 & _).
    assert (ES : sub l 0 (len (pl_last (ch_plc ch))) = Ok l).
    { unfold sub. rewrite C3. replace ((0 <? 0) || (ne c <? 0) || (len l <? ne c)) with false; [|symmetry; rewrite !orb_false_iff; repeat split; apply Z.ltb_ge; lia].
      f_equal. cbn [skipn Z.to_nat]. apply firstn_all2. unfold len in El. lia. }
    rewrite ES. cbn [bind]. apply okp_ok. cbn [pl_last pl_lost pl_alpha pl_seed]. repeat split; try assumption; try lia; apply (sw_pitch _ _ (fw_side _ _ _ W)).
  - unfold plc_load. eapply okp_bind; [eapply okp_bind; [apply uincr_ok; lia|]|].
    + intros m ->. set (alpha := if 4 <=? _ then _ else _). pose proof (plc_lines_len alpha (ch_lines ch) (pl_last (ch_plc ch)) (pl_seed (ch_plc ch))) as PL.
      destruct (plc_lines o alpha (pl_seed (ch_plc ch)) (ch_lines ch) (pl_last (ch_plc ch))) as [sd ls]. cbn [snd] in PL.
      apply (okp_ok _ (fun '(p, l) => len l = ne c /\ pl_last p = pl_last (ch_plc ch) /\ pl_lost p = pl_lost (ch_plc ch) + 1)). cbn [pl_last pl_lost]. repeat split; lia.
    + intros [p l] (Q1 & Q2 & Q3). apply okp_ok. rewrite Q2, Q3. cbn [plc_ltpf l_pitch]. repeat split; try assumption; lia.
Qed.

Theorem decode_channel_ok c ch buf out : legal_config c -> channel_ok c ch -> bytes buf -> read_frame (t_chk t) c buf <> Panic -> ch_index ch < t_umax t ->
  okp (decode_channel o t c ch 16 buf out) (fun '(r, ch', out') => r = None /\ channel_ok c ch' /\ ch_index ch' = ch_index ch + 1 /\ len out' = len out /\ plc_effect c ch buf ch').
Proof.
  intros Lc K Hb HP Hi. pose proof K as [C1 C2 C3 C4 C5 C6]. unfold decode_channel. cbn [Z.eqb Pos.eqb negb].
  eapply okp_bind; [apply uincr_ok; lia|]. intros ix ->. eapply okp_bind; [eapply decode_spectrum_ok; eassumption|]. intros [[p lines] info] (D1 & D2 & D3 & D4 & D5).
  eapply okp_bind; [apply mdct_run_ok; eassumption|]. intros [fr m] [M1 M2].
  eapply okp_bind with (P := fun '(b, s') => len b = nf c /\ ltpf_ok c (cfg_lens c) s' /\ t_active s' = l_active info).
  { destruct (ltpf_run_ok o c (cfg_lens c) (ch_ltpf ch) info (len buf * 8) fr Lc (cfg_lens_eq c Lc) C6 D4 M1) as ([b s'] & E & Q1 & Q2).
    exists (b, s'). split; [assumption|]. split; [assumption|]. split; [assumption|]. clear - E. unfold ltpf_run in E.
    repeat match type of E with bind ?m _ = Ok _ => destruct m eqn:?; cbn [bind] in E; try discriminate E | (let '(_, _) := ?a in _) = _ => destruct a end.
    apply Ok_inj in E. apply (f_equal snd) in E. cbn [snd] in E. now rewrite <- E. }
  intros [b s'] (L1 & L2 & L3). apply okp_ok. unfold plc_effect. cbn [ch_lines ch_freq ch_plc ch_mdct ch_ltpf ch_index].
  split; [reflexivity|]. split; [constructor; cbn; assumption|]. split; [reflexivity|]. split; [apply len_zipmod|].
  rewrite L3. destruct (read_frame (t_chk t) c buf); [| |contradiction].
  - destruct D5 as (E1 & E2 & E3 & E4 & ->). auto.
  - destruct D5 as (E1 & E2 & ->). auto.
Qed.

Lemma decode_channel_other c ch bits buf out : bits <> 16 -> decode_channel o t c ch bits buf out = Ok (Some Only16BitsPerAudioSampleSupported, ch, out).
Proof. intros H. unfold decode_channel. destruct (Z.eqb_spec bits 16); [contradiction|]. reflexivity. Qed.

(* ---- histories ---- *)
Record call : Type := mkCall { k_bits : Z; k_ch : Z; k_buf : list Z; k_out : list Z }.
(* what a call returns: the returned value and the sample buffer *)
Fixpoint run_calls (d : decoder F) (cs : list call) : res (list (option err * list Z) * decoder F) :=
  match cs with
  | [] => Ok ([], d)
  | k :: cs => '(r, d, out) <- decode_frame o t d (k_bits k) (k_ch k) (k_buf k) (k_out k) ;;
               '(rs, d) <- run_calls d cs ;; Ok ((r, out) :: rs, d)
  end.
(* the same for a channel on its own *)
Fixpoint run_channel (c : config) (ch : channel F) (cs : list call) : res (list (option err * list Z) * channel F) :=
  match cs with
  | [] => Ok ([], ch)
  | k :: cs => '(r, ch, out) <- decode_channel o t c ch (k_bits k) (k_buf k) (k_out k) ;;
               '(rs, ch) <- run_channel c ch cs ;; Ok ((r, out) :: rs, ch)
  end.

Definition good_call (d : decoder F) (k : call) : Prop :=
  0 <= k_ch k < len (d_channels d) /\ bytes (k_buf k) /\ read_frame (t_chk t) (d_config d) (k_buf k) <> Panic.
Definition decoder_ok (d : decoder F) (budget : Z) : Prop :=
  legal_config (d_config d) /\ Forall (fun ch => channel_ok (d_config d) ch /\ ch_index ch + budget <= t_umax t) (d_channels d).

Lemma Forall_getz {A} (P : A -> Prop) (l : list A) i v : Forall P l -> idx l i = Ok v -> P v.
Proof.
  intros HF E. unfold idx in E. destruct (i <? 0); [discriminate E|]. destruct (nth_error l (Z.to_nat i)) eqn:N; [|discriminate E]. injection E as <-.
  rewrite Forall_forall in HF. eapply HF, nth_error_In, N.
Qed.
Lemma Forall_upd {A} (P : A -> Prop) (l : list A) n v : Forall P l -> P v -> Forall P (upd l n v).
Proof. intros HF HP. revert n. induction HF as [|x l Hx HF IH]; intros [|n]; cbn [upd]; constructor; auto. Qed.
Lemma put_Forall {A} (P : A -> Prop) (l l' : list A) i v : Forall P l -> P v -> put l i v = Ok l' -> Forall P l'.
Proof. unfold put. destruct (_ || _); [discriminate|]. intros HF HP E. injection E as <-. now apply Forall_upd. Qed.

Theorem run_calls_ok : forall cs d, decoder_ok d (len cs) -> Forall (good_call d) cs ->
  okp (run_calls d cs) (fun '(rs, d') => decoder_ok d' 0 /\ d_config d' = d_config d /\ len (d_channels d') = len (d_channels d) /\
    Forall2 (fun k '(r, out) => len out = len (k_out k) /\ r = if k_bits k =? 16 then None else Some Only16BitsPerAudioSampleSupported) cs rs).
Proof.
  induction cs as [|k cs IH]; intros d [Lc HC] HG; cbn [run_calls].
  - apply okp_ok. split; [split; assumption|]. auto.
  - inversion HG as [|? ? (Q1 & Q2 & Q3) HG']; subst. replace (len (k :: cs)) with (len cs + 1) in HC by (unfold len; cbn [length]; lia).
    unfold decode_frame. destruct (idx_ok (d_channels d) (k_ch k) Q1) as (ch & Ech). rewrite Ech. cbn [bind].
    destruct (Forall_getz _ _ _ _ HC Ech) as [Kch Kix]. pose proof (len_nonneg cs) as Hn.
    assert (HD : exists r ch' out', decode_channel o t (d_config d) ch (k_bits k) (k_buf k) (k_out k) = Ok (r, ch', out') /\ channel_ok (d_config d) ch' /\
              ch_index ch' + len cs <= t_umax t /\ len out' = len (k_out k) /\ r = if k_bits k =? 16 then None else Some Only16BitsPerAudioSampleSupported).
    { destruct (Z.eqb_spec (k_bits k) 16) as [E16|E16].
      - rewrite E16. destruct (decode_channel_ok (d_config d) ch (k_buf k) (k_out k) Lc Kch Q2 Q3 ltac:(lia)) as ([[r ch'] out'] & E & -> & R2 & R3 & R4 & _).
        exists None, ch', out'. split; [assumption|]. split; [assumption|]. split; [lia|]. split; [assumption|reflexivity].
      - rewrite (decode_channel_other (d_config d) ch (k_bits k) (k_buf k) (k_out k) E16). eexists _, _, _. split; [reflexivity|]. split; [assumption|]. split; [lia|]. split; reflexivity. }
    destruct HD as (r & ch' & out' & E & R2 & R3 & R4 & R5). rewrite E. cbn [bind].
    destruct (put_len (d_channels d) (k_ch k) ch' Q1) as (chs & Ep & Lp). rewrite Ep. cbn [bind].
    assert (HD' : decoder_ok (mkDecoder (d_config d) chs) (len cs)).
    { split; [exact Lc|]. cbn [d_config d_channels]. eapply put_Forall; [|split; [exact R2|exact R3]|exact Ep].
      eapply Forall_impl; [|exact HC]. cbv beta. intros a [A1 A2]. split; [assumption|lia]. }
    assert (HG2 : Forall (good_call (mkDecoder (d_config d) chs)) cs).
    { eapply Forall_impl; [|exact HG']. unfold good_call. cbn [d_config d_channels]. rewrite Lp. auto. }
    eapply okp_bind; [apply (IH _ HD' HG2)|]. intros [rs d'] (S1 & S2 & S3 & S4). apply okp_ok. cbn [d_config d_channels] in *.
    split; [assumption|]. split; [assumption|]. split; [lia|]. constructor; [auto|assumption].
Qed.

(* ---- channel independence ---- *)
Definition on_channel (i : Z) (k : call) : bool := k_ch k =? i.
Fixpoint pick {A} (i : Z) (cs : list call) (rs : list A) : list A :=
  match cs, rs with
  | k :: cs, r :: rs => if on_channel i k then r :: pick i cs rs else pick i cs rs
  | _, _ => []
  end.
Theorem channel_independent i : forall cs d rs d', run_calls d cs = Ok (rs, d') -> 0 <= i ->
  (forall ch, idx (d_channels d) i = Ok ch -> exists ch', idx (d_channels d') i = Ok ch' /\
     run_channel (d_config d) ch (filter (on_channel i) cs) = Ok (pick i cs rs, ch')).
Proof.
  induction cs as [|k cs IH]; intros d rs d' H Hi ch Hch; cbn [run_calls] in H.
  - injection H as <- <-. exists ch. split; [assumption|reflexivity].
  - destruct (decode_frame o t d (k_bits k) (k_ch k) (k_buf k) (k_out k)) as [[[r d1] out]| |] eqn:E; cbn [bind] in H; try discriminate H.
    destruct (run_calls d1 cs) as [[rs1 d2]| |] eqn:E2; cbn [bind] in H; try discriminate H. injection H as <- <-.
    unfold decode_frame in E. destruct (idx (d_channels d) (k_ch k)) as [c| |] eqn:Ec; cbn [bind] in E; try discriminate E.
    destruct (decode_channel o t (d_config d) c (k_bits k) (k_buf k) (k_out k)) as [[[r0 c0] out0]| |] eqn:Ed; cbn [bind] in E; try discriminate E.
    destruct (put (d_channels d) (k_ch k) c0) as [chs| |] eqn:Ep; cbn [bind] in E; try discriminate E. injection E as <- <- <-.
    assert (Hk : 0 <= k_ch k < len (d_channels d)).
    { unfold put in Ep. destruct (Z.ltb_spec (k_ch k) 0); [discriminate Ep|]. destruct (Z.leb_spec (len (d_channels d)) (k_ch k)); [discriminate Ep|]. lia. }
    destruct (put_ok ch (d_channels d) (k_ch k) c0 Hk) as (chs' & Ep' & Lp & Gp). rewrite Ep in Ep'. injection Ep' as <-.
    assert (Hi2 : 0 <= i < len (d_channels d)).
    { split; [assumption|]. unfold idx in Hch. destruct (i <? 0) eqn:Ei; [discriminate Hch|]. destruct (nth_error (d_channels d) (Z.to_nat i)) eqn:N; [|discriminate Hch].
      assert (nth_error (d_channels d) (Z.to_nat i) <> None) as NN by congruence. apply nth_error_Some in NN. unfold len. lia. }
    assert (Hv : idx chs i = Ok (if i =? k_ch k then c0 else ch)).
    { rewrite (idx_get ch) by lia. rewrite Gp by lia. destruct (i =? k_ch k); [reflexivity|]. f_equal. rewrite (idx_get ch) in Hch by lia. now injection Hch. }
    destruct (IH (mkDecoder (d_config d) chs) rs1 d2 E2 Hi _ Hv) as (ch' & F1 & F2). cbn [d_config] in F2.
    exists ch'. split; [assumption|]. cbn [filter pick]. replace (on_channel i k) with (i =? k_ch k) by apply Z.eqb_sym.
    destruct (Z.eqb_spec i (k_ch k)) as [->|]; [|exact F2]. cbn [run_channel]. rewrite Hch in Ec. injection Ec as <-. rewrite Ed. cbn [bind]. rewrite F2. reflexivity.
Qed.

(* ---- construction ---- *)
Lemma split_at_inv {A} n (l a b : list A) : split_at n l = Ok (a, b) -> 0 <= n -> len a = n.
Proof.
  unfold split_at. destruct (Z.ltb_spec n 0); [discriminate|]. destruct (Z.ltb_spec (len l) n); [discriminate|]. cbn [orb]. intros E _. injection E as <- _.
  unfold len in *. rewrite firstn_length. lia.
Qed.
Lemma splits_inv {A} ns : forall (l : list A) ps r, Forall (fun n => 0 <= n) ns -> splits ns l = Ok (ps, r) -> map len ps = ns.
Proof.
  induction ns as [|n ns IH]; intros l ps r HF H; cbn [splits] in H; [now injection H as <- _|]. inversion HF; subst.
  destruct (split_at n l) as [[a b]| |] eqn:E; cbn [bind] in H; try discriminate H. destruct (splits ns b) as [[ps' r']| |] eqn:E2; cbn [bind] in H; try discriminate H.
  injection H as <- _. cbn [map]. f_equal; [eapply split_at_inv; eassumption|eapply IH; eassumption].
Qed.
Lemma dec_channel_inv c (s : list F) (x : list (F * F)) sps cps s' x' : legal_config c -> dec_channel_new c s x = Ok (sps, cps, s', x') ->
  let n := cfg_lens c in
  map len sps = [ne c; ne c; nf c - zlead c; nf c * 2; nf c - ne c; nf c / 2; l_x n; l_xltpf n; l_cnum n; l_cden n; l_cnum n; l_cden n; l_cden n; l_scratch n; nf c] /\
  map len cps = [nf c / 2; nf c / 2; nf c / 2; nf c / 2].
Proof.
  intros Lc H n. destruct (config_geom c Lc) as (G1 & G2 & G3 & G4 & G5 & G6 & G7). pose proof (cfg_lens_eq c Lc) as EL. fold n in EL.
  destruct (lengths_ok c Lc) as (n' & E' & G). rewrite EL in E'. injection E' as <-. destruct G as [Gb [Gx Gxl] [Gc1 Gc2] [_ Gn2] Gs].
  assert (Hh : 0 <= nf c / 2) by (apply Z.div_pos; lia).
  unfold dec_channel_new in H. destruct (split_at (ne c) s) as [[a1 s1]| |] eqn:E1; cbn [bind] in H; try discriminate H.
  destruct (split_at (ne c) s1) as [[a2 s2]| |] eqn:E2; cbn [bind] in H; try discriminate H.
  destruct (dec_mdct_new c s2 x) as [[[[p3 q3] s3] x3]| |] eqn:E3; cbn [bind] in H; try discriminate H.
  destruct (dec_ltpf_new c s3) as [[p4 s4]| |] eqn:E4; cbn [bind] in H; try discriminate H.
  destruct (split_at (nf c) s4) as [[a5 s5]| |] eqn:E5; cbn [bind] in H; try discriminate H. injection H as <- <- <- <-.
  unfold dec_mdct_new in E3. destruct (dct_new (nf c) x) as [[dp dx]| |] eqn:ED; cbn [bind] in E3; try discriminate E3.
  unfold usub in E3. destruct (Z.ltb_spec (nf c) (zlead c)); [lia|]. destruct (Z.ltb_spec (nf c) (ne c)); [lia|]. cbn [bind] in E3.
  destruct (splits [nf c - zlead c; nf c * 2; nf c - ne c; nf c / 2] s2) as [[ps4 ss4]| |] eqn:ES; cbn [bind] in E3; try discriminate E3.
  match type of E3 with bind ?m _ = _ => destruct m; cbn [bind] in E3; try discriminate E3 end. injection E3 as <- <- <- <-.
  apply splits_inv in ES; [|repeat constructor; lia].
  unfold dec_ltpf_new in E4. rewrite EL in E4. cbn [bind] in E4. apply splits_inv in E4; [|repeat constructor; nia].
  apply split_at_inv in E1, E2, E5; try lia.
  unfold dct_new in ED. destruct (split_at (nf c / 2) x) as [[tw xx]| |] eqn:ET; cbn [bind] in ED; try discriminate ED.
  destruct (kf_factor _ _ _); cbn [bind] in ED; try discriminate ED.
  destruct (splits [nf c / 2; nf c / 2; nf c / 2] xx) as [[ps6 s6]| |] eqn:ES6; cbn [bind] in ED; try discriminate ED. injection ED as <- <-.
  apply splits_inv in ES6; [|repeat constructor; lia]. apply split_at_inv in ET; [|lia].
  cbn [map]. rewrite !map_app, ES, E4, E1, E2, ES6, ET. cbn [map app]. rewrite E5. split; reflexivity.
Qed.
Lemma channel_of_parts_ok c sps cps : legal_config c ->
  (let n := cfg_lens c in
   map len sps = [ne c; ne c; nf c - zlead c; nf c * 2; nf c - ne c; nf c / 2; l_x n; l_xltpf n; l_cnum n; l_cden n; l_cnum n; l_cden n; l_cden n; l_scratch n; nf c] /\
   map len cps = [nf c / 2; nf c / 2; nf c / 2; nf c / 2]) ->
  okp (channel_of_parts o sps cps) (fun ch => channel_ok c ch /\ ch_index ch = 0).
Proof.
  intros Lc [H1 H2]. do 15 (destruct sps as [|? sps]; [discriminate H1|]). destruct sps; [|discriminate H1].
  do 4 (destruct cps as [|? cps]; [discriminate H2|]). destruct cps; [|discriminate H2]. cbn [map] in H1, H2. injection H1. injection H2. intros.
  destruct (lengths_ok c Lc) as (n & E' & G). rewrite (cfg_lens_eq c Lc) in E'. injection E' as <-. destruct G as [Gb _ _ _ _].
  cbn [channel_of_parts]. apply okp_ok. split; [|reflexivity]. unfold plc_new.
  constructor; cbn [ch_lines ch_freq ch_plc ch_mdct ch_ltpf ch_index pl_last pl_lost]; try assumption; try lia.
  - constructor; cbn [m_ola m_t m_zeros m_half m_in m_out]; rewrite ?len_map; assumption.
  - constructor; cbn [t_zeros t_num t_den t_num_mem t_den_mem t_xl t_x t_scratch t_blk t_active t_pint]; rewrite ?len_map; try assumption; [exists 0; lia|discriminate].
Qed.
Lemma channels_ok c : legal_config c -> forall k (s : list F) (x : list (F * F)) parts s' x', dec_channels k c s x = Ok (parts, s', x') ->
  okp (map_res (fun '(s, p) => channel_of_parts o s p) parts) (fun chs => length chs = k /\ Forall (fun ch => channel_ok c ch /\ ch_index ch = 0) chs).
Proof.
  intros Lc. induction k as [|k IH]; intros s x parts s' x' H; cbn [dec_channels] in H.
  - injection H as <- _ _. apply okp_ok. auto.
  - destruct (dec_channel_new c s x) as [[[[sps cps] s1] x1]| |] eqn:E; cbn [bind] in H; try discriminate H.
    destruct (dec_channels k c s1 x1) as [[[chs s2] x2]| |] eqn:E2; cbn [bind] in H; try discriminate H. injection H as <- _ _. cbn [map_res].
    eapply okp_bind; [eapply channel_of_parts_ok; [exact Lc|eapply dec_channel_inv; eassumption]|]. intros ch Hch.
    eapply okp_bind; [eapply IH; eassumption|]. intros chs' [L1 L2]. apply okp_ok. cbn [length]. auto.
Qed.
(* a decoder constructed with buffers of at least the advertised lengths satisfies the invariant, whatever the buffers contain *)
Theorem decoder_new_ok num d f ns nx (s : list F) (x : list (F * F)) budget : 0 <= num -> dec_lens num d f = Ok (ns, nx) -> ns <= len s -> nx <= len x -> budget <= t_umax t ->
  okp (decoder_new o num d f s x) (fun dec => decoder_ok dec budget /\ d_config dec = config_new f d /\ len (d_channels dec) = num).
Proof.
  intros Hn HL Hs Hx Hb. destruct (dec_new_ok f d num s x ns nx Hn HL Hs Hx) as (chs & s' & x' & E & K & _). unfold decoder_new. rewrite E. cbn [bind].
  unfold dec_new in E. assert (Lc : legal_config (config_new f d)) by (eexists _, _; reflexivity).
  eapply okp_bind; [eapply channels_ok; eassumption|]. intros l [L1 L2]. apply okp_ok. cbn [d_config d_channels]. split; [split; [exact Lc|]|split; [reflexivity|unfold len; lia]].
  eapply Forall_impl; [|exact L2]. cbv beta. intros ch [A1 A2]. split; [assumption|lia].
Qed.
End Run.
