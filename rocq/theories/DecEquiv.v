(* What of a channel's state matters: two channels that agree on the live part give the same samples for ever, whatever else their buffers hold.
   And a few good frames bring any two channels together. *)
From Coq Require Import ZArith List Bool Lia.
From Verif Require Import Base Config SideInfo ArithDec FrameDec FrameSpec Buffers BuffersProofs FftFactor FactorProofs Loops Scalar DecSignal Fft DecMdct DecLtpf Decoder DecTotal DecState DecRun ParseBase ParseTotal FftSpec DctSpec MdctSpec LtpfSpec LineSpec DecHistory.
Import ListNotations.
Local Open Scope Z_scope.

Section Equiv.
Context {F : Type} (o : ops F) (t : target).
Local Notation z0 := (fz o 0).

(* the post filter: the rings seen from the current position, and the filter in force if there is one *)
Record lt_eqv (c : config) (s1 s2 : ltpf F) : Prop := mkLtEqv {
  le_active : t_active s1 = t_active s2;
  le_par : t_active s1 = true -> state_par s1 = state_par s2 /\ t_pfr s1 = t_pfr s2;
  le_x : forall k, - (l_blocks (cfg_lens c) * nf c) <= k < 0 -> past o (l_blocks (cfg_lens c) * nf c) (t_x s1) (t_blk s1) k = past o (l_blocks (cfg_lens c) * nf c) (t_x s2) (t_blk s2) k;
  le_y : forall k, - (l_blocks (cfg_lens c) * nf c) <= k < 0 -> past o (l_blocks (cfg_lens c) * nf c) (t_xl s1) (t_blk s1) k = past o (l_blocks (cfg_lens c) * nf c) (t_xl s2) (t_blk s2) k
}.
(* seed: does the state of the generator count? *)
Record ch_eqv (seed : bool) (c : config) (a b : channel F) : Prop := mkChEqv {
  ce_last : pl_last (ch_plc a) = pl_last (ch_plc b);
  ce_lost : pl_lost (ch_plc a) = pl_lost (ch_plc b);
  ce_alpha : pl_alpha (ch_plc a) = pl_alpha (ch_plc b);
  ce_seed : seed = true -> pl_seed (ch_plc a) = pl_seed (ch_plc b);
  ce_ola : m_ola (ch_mdct a) = m_ola (ch_mdct b);
  ce_zeros : m_zeros (ch_mdct a) = m_zeros (ch_mdct b);
  ce_post : lt_eqv c (ch_ltpf a) (ch_ltpf b)
}.

Lemma ltpf_run_eqv c s1 s2 i nbits freq : legal_config c -> ltpf_ok c (cfg_lens c) s1 -> ltpf_ok c (cfg_lens c) s2 -> lt_eqv c s1 s2 -> 0 <= l_pitch i < 512 -> len freq = nf c ->
  exists b s1' s2', ltpf_run o c s1 i nbits freq = Ok (b, s1') /\ ltpf_run o c s2 i nbits freq = Ok (b, s2') /\ lt_eqv c s1' s2'.
Proof.
  intros L O1 O2 [A P X Y] Hp Hf. set (n := cfg_lens c) in *. pose proof (cfg_lens_eq c L) as E. fold n in E.
  destruct (lengths_ok c L) as (n' & E' & GG). rewrite E in E'. injection E' as <-. pose proof GG as [Gb [Gx Gxl] [Gc1 Gc2] [Gn1 Gn2] Gs]. destruct (config_geom c L) as (G1 & _).
  destruct (ltpf_run_spec o c n s1 i nbits freq L E O1 Hp Hf) as (b1 & s1' & R1 & L1 & K1 & A1 & P1 & X1 & Y1 & z1 & Z1 & Q1).
  destruct (ltpf_run_spec o c n s2 i nbits freq L E O2 Hp Hf) as (b2 & s2' & R2 & L2 & K2 & A2 & P2 & X2 & Y2 & z2 & Z2 & Q2).
  set (total := l_blocks n * nf c) in *.
  assert (GEO : forall s : ltpf F, ltpf_ok c n s -> lt_geom total (t_blk s) (nf c) (l_norm n)).
  { intros s S. assert (SB : exists jb, t_blk s = jb * nf c /\ 0 <= jb < l_blocks n) by apply S. destruct SB as (jb & SB1 & SB2).
    constructor; [unfold total; nia| |lia|unfold total; nia]. destruct (Z.eq_dec jb 0); [left; nia|right; nia]. }
  assert (TR : ltpf_transition (l_active i) (t_active s1) (same_lag c s1 i) = ltpf_transition (l_active i) (t_active s2) (same_lag c s2 i)).
  { unfold ltpf_transition. rewrite <- A. destruct (t_active s1) eqn:E1; [|destruct (l_active i); reflexivity]. destruct (P eq_refl) as [PE PF]. apply (f_equal lp_lag) in PE. cbn [state_par lp_lag] in PE.
    unfold same_lag. now rewrite PE, PF. }
  set (tr := ltpf_transition (l_active i) (t_active s2) (same_lag c s2 i)) in *. rewrite TR in Q1.
  assert (Pn : par_ok total (nf c) (par_of o c n i nbits)).
  { destruct (par_of_ok o c n i nbits L E Hp) as (W1 & W2 & W3 & W4). destruct W4. constructor; [lia|lia|]. rewrite W2. unfold total. split; lia. }
  assert (Po : tr = Deactivated \/ tr = ActivePitchChanged -> par_ok total (nf c) (state_par s2) /\ state_par s1 = state_par s2).
  { intros Q. assert (T2 : t_active s2 = true). { unfold tr, ltpf_transition in Q. destruct (t_active s2); [reflexivity|]. destruct (l_active i); cbn in Q; destruct Q as [Q|Q]; discriminate Q. }
    split; [|apply P; now rewrite A]. destruct O2 as [_ S2 S3 _ _ _ _ _ _ S10]. destruct (S10 T2) as [W1 W2].
    unfold state_par. constructor; cbn [lp_num lp_den lp_lag]; [lia|lia|]. rewrite S3. split; [exact W1|unfold total; lia]. }
  assert (B : forall m, 0 <= m < nf c -> getz z0 b1 m = getz z0 b2 m).
  { set (x1 := around o total (t_x s1) (t_blk s1) freq) in *. set (x2 := around o total (t_x s2) (t_blk s2) freq) in *.
    set (y1 := around o total (t_xl s1) (t_blk s1) b1) in *. set (y2 := around o total (t_xl s2) (t_blk s2) b2) in *.
    assert (HX : forall k, - total <= k < nf c -> x1 k = x2 k). { intros k Hk. unfold x1, x2, around. destruct (Z.ltb_spec k 0); [apply X; lia|reflexivity]. }
    assert (U : forall m, 0 <= m < nf c -> y1 m = y2 m).
    { apply (ltpf_rel_unique o total (t_blk s2) (nf c) (l_norm n) tr (state_par s2) (par_of o c n i nbits) x2 y1 y2 z1 z2); auto.
      - intros Q. now apply Po.
      - intros k Hk. unfold y1, y2, around. destruct (Z.ltb_spec k 0); [apply Y|]; lia.
      - intros k Hk. rewrite Z1, Z2 by lia. apply Y. lia.
      - intros m Hm. specialize (Q1 m Hm). cbv zeta in Q1. apply (ltpf_rel_ext o total (t_blk s2) (nf c) (l_norm n) tr (state_par s2) (par_of o c n i nbits) x1 x2 y1 y1 z1 z1 m); auto.
        + intros Q. now apply Po.
        + intros k Hk. apply HX. unfold total. nia.
        + revert Q1 Po. destruct tr; intros Q1 Po; try exact Q1; destruct Po as [_ PE]; auto; rewrite PE in Q1; exact Q1. }
    intros m Hm. specialize (U m Hm). unfold y1, y2, around in U. destruct (Z.ltb_spec m 0); [lia|exact U]. }
  assert (EB : b1 = b2) by (apply (getz_ext z0); [lia|]; intros j Hj; apply B; lia). subst b2.
  exists b1, s1', s2'. split; [exact R1|]. split; [exact R2|]. constructor; fold n; fold total.
  - congruence.
  - rewrite A1. intros Ha. destruct (P1 Ha) as [-> ->]. destruct (P2 Ha) as [-> ->]. auto.
  - intros k Hk. rewrite X1, X2 by exact Hk. unfold around. destruct (Z.ltb_spec (k + nf c) 0); [apply X; lia|reflexivity].
  - intros k Hk. rewrite Y1, Y2 by exact Hk. unfold around. destruct (Z.ltb_spec (k + nf c) 0); [apply Y; lia|reflexivity].
Qed.

(* the transform: only the lines and the overlap memory count *)
Lemma mdct_run_eqv c m1 m2 lines f1 f2 : legal_config c -> mdct_ok c m1 -> mdct_ok c m2 -> m_zeros m1 = m_zeros m2 -> len lines = ne c -> len f1 = nf c -> len f2 = nf c ->
  exists o1 o2 m1' m2', mdct_run o c m1 lines f1 = Ok (o1, m1') /\ mdct_run o c m2 lines f2 = Ok (o2, m2') /\ m_ola m1' = m_ola m2' /\ m_zeros m1' = m_zeros m1 /\ m_zeros m2' = m_zeros m2 /\
    (m_ola m1 = m_ola m2 -> o1 = o2).
Proof.
  intros L M1 M2 Hz Hl H1 H2. destruct (dct_factors_ok c L) as (fl & Ef & Ch & Sm & Ne). destruct (mdct_window_ok c L) as (w & Ew & _). destruct (config_geom c L) as (G1 & G2 & G3 & G4 & G5 & G6 & G7).
  assert (Hh : nf c = 2 * (nf c / 2)) by (destruct L as (f & d & ->); destruct f, d; reflexivity).
  destruct (mdct_run_spec o c m1 lines f1 (nf c / 2) fl w L M1 Hl H1 Hh Ef Ch Sm Ne Ew) as (o1 & m1' & E1 & L1 & K1 & Z1 & T1 & A1).
  destruct (mdct_run_spec o c m2 lines f2 (nf c / 2) fl w L M2 Hl H2 Hh Ef Ch Sm Ne Ew) as (o2 & m2' & E2 & L2 & K2 & Z2 & T2 & A2).
  exists o1, o2, m1', m2'. split; [exact E1|]. split; [exact E2|]. split; [|split; [exact Z1|split; [exact Z2|]]].
  - destruct K1 as [K1 _ _ _ _ _], K2 as [K2 _ _ _ _ _]. apply (getz_ext z0); [lia|]. intros j Hj. rewrite A1, A2 by lia. now rewrite Hz.
  - intros Ho. apply (getz_ext z0); [lia|]. intros j Hj. rewrite T1, T2 by lia. now rewrite Hz, Ho.
Qed.

Lemma zipmod_const {A B} (g : B -> A) : forall (l1 l2 : list A) (src : list B), length l1 = length l2 -> (length l1 <= length src)%nat -> zipmod (fun _ v => g v) l1 src = zipmod (fun _ v => g v) l2 src.
Proof. intros l1 l2 src H H2. rewrite !zipmod_firstn by lia. now rewrite H. Qed.
Lemma decode_lines_eqv c f L l1 l2 : legal_config c -> frame_wf c L f -> len l1 = ne c -> len l2 = ne c -> decode_lines o t c f l1 = decode_lines o t c f l2.
Proof.
  intros Lc W H1 H2. destruct (config_geom c Lc) as (G1 & G2 & G3 & G4 & G5 & G6 & G7). pose proof (fw_len _ _ _ W) as Wl. unfold MAX_LEN_SPECTRAL in Wl.
  unfold decode_lines. destruct (sub_ok (f_spec f) 0 (ne c) ltac:(lia) ltac:(lia)) as (s & E & Ls & _). rewrite E. cbn [bind]. rewrite (zipmod_const (fz o) l1 l2); [reflexivity| |]; unfold len in *; lia.
Qed.
Lemma plc_lines_eqv alpha : forall l1 l2 last seed, length l1 = length l2 -> (length l1 <= length last)%nat -> plc_lines o alpha seed l1 last = plc_lines o alpha seed l2 last.
Proof.
  induction l1 as [|x l1 IH]; intros [|y l2] last seed H1 H2; cbn [length] in *; try lia; [reflexivity|]. destruct last as [|g last]; cbn [length] in H2; [lia|]. cbn [plc_lines]. rewrite (IH l2) by lia. reflexivity.
Qed.

(* one call *)
Theorem decode_channel_eqv seed c a b bits buf out : legal_config c -> channel_ok c a -> channel_ok c b -> bytes buf -> read_frame (t_chk t) c buf <> Panic ->
  ch_index a < t_umax t -> ch_index b < t_umax t -> ch_eqv seed c a b -> seed = true \/ corrupt t c buf = false ->
  exists r a' b' out', decode_channel o t c a bits buf out = Ok (r, a', out') /\ decode_channel o t c b bits buf out = Ok (r, b', out') /\ ch_eqv seed c a' b'.
Proof.
  intros L Ka Kb Hb HP Ia Ib [Q1 Q2 Q3 Q4 Q5 Q6 Q7] Hs. destruct (Z.eq_dec bits 16) as [->|NB].
  2:{ rewrite !decode_channel_other by exact NB. eexists _, a, b, out. split; [reflexivity|]. split; [reflexivity|]. constructor; assumption. }
  pose proof Ka as [A1 A2 A3 A4 A5 A6]. pose proof Kb as [B1 B2 B3 B4 B5 B6].
  destruct (decode_spectrum_ok o t c a buf L Ka Hb HP Ia) as ([[p1 l1] i1] & E1 & D1 & D2 & _ & D4 & D5).
  assert (E2 : exists p2, decode_spectrum o t c b buf = Ok (p2, l1, i1) /\ pl_last p1 = pl_last p2 /\ pl_lost p1 = pl_lost p2 /\ pl_alpha p1 = pl_alpha p2 /\ (seed = true -> pl_seed p1 = pl_seed p2)).
  { unfold decode_spectrum in *. unfold corrupt in Hs. destruct (read_frame (t_chk t) c buf) as [f|e|] eqn:ER; [| |congruence].
    - rewrite (decode_lines_eqv c f (len buf) (ch_lines b) (ch_lines a)); try assumption; [|eapply read_frame_wf; eassumption].
      destruct (decode_lines o t c f (ch_lines a)) as [l| |]; cbn [bind] in *; try discriminate E1. unfold plc_save in *. rewrite <- Q1.
      destruct (sub l 0 (len (pl_last (ch_plc a)))) as [l'| |]; cbn [bind] in *; try discriminate E1. injection E1 as <- <- <-. eexists. split; [reflexivity|]. cbn [pl_last pl_lost pl_alpha pl_seed]. auto.
    - assert (Sd : seed = true) by (destruct Hs as [Hs|Hs]; [exact Hs|discriminate Hs]). unfold plc_load in *. rewrite <- Q1, <- Q2, <- Q3, <- (Q4 Sd).
      destruct (uincr t (pl_lost (ch_plc a))) as [lost| |]; cbn [bind] in *; try discriminate E1.
      rewrite (plc_lines_eqv _ (ch_lines b) (ch_lines a)); [|unfold len in *; lia|unfold len in *; lia].
      destruct (plc_lines o _ (pl_seed (ch_plc a)) (ch_lines a) (pl_last (ch_plc a))) as [sd ls]. cbn [bind] in *. injection E1 as <- <- <-. eexists. split; [reflexivity|]. auto. }
  destruct E2 as (p2 & E2 & S1 & S2 & S3 & S4).
  destruct (mdct_run_eqv c (ch_mdct a) (ch_mdct b) l1 (ch_freq a) (ch_freq b) L A5 B5 Q6 D1 A2 B2) as (o1 & o2 & m1 & m2 & M1 & M2 & M3 & M4 & M5 & M6). specialize (M6 Q5). subst o2.
  assert (LO : len o1 = nf c) by (destruct (mdct_run_ok o c (ch_mdct a) l1 (ch_freq a) L A5 D1 A2) as ([f m] & X & X1 & _); rewrite M1 in X; injection X as <- _; exact X1).
  destruct (ltpf_run_eqv c (ch_ltpf a) (ch_ltpf b) i1 (len buf * 8) o1 L A6 B6 Q7 D4 LO) as (fr & s1 & s2 & F1 & F2 & F3).
  unfold decode_channel. cbn [Z.eqb Pos.eqb negb]. unfold uincr. destruct (Z.leb_spec (t_umax t) (ch_index a)); [lia|]. destruct (Z.leb_spec (t_umax t) (ch_index b)); [lia|]. cbn [bind].
  rewrite E1, E2. cbn [bind]. rewrite M1, M2. cbn [bind]. rewrite F1, F2. cbn [bind].
  eexists _, _, _, _. split; [reflexivity|]. split; [reflexivity|]. constructor; cbn [ch_plc ch_mdct ch_ltpf]; auto. congruence.
Qed.

(* any number of calls *)
Theorem run_channel_eqv seed c : legal_config c -> forall cs a b, channel_ok c a -> channel_ok c b -> ch_index a + len cs <= t_umax t -> ch_index b + len cs <= t_umax t ->
  Forall (fun k => bytes (k_buf k) /\ read_frame (t_chk t) c (k_buf k) <> Panic /\ (seed = true \/ corrupt t c (k_buf k) = false)) cs -> ch_eqv seed c a b ->
  exists rs a' b', run_channel o t c a cs = Ok (rs, a') /\ run_channel o t c b cs = Ok (rs, b') /\ ch_eqv seed c a' b'.
Proof.
  intros L. induction cs as [|k cs IH]; intros a b Ka Kb Ia Ib HF Q; cbn [run_channel].
  - exists [], a, b. auto.
  - inversion HF as [|? ? (B1 & B2 & B3) HF']; subst. replace (len (k :: cs)) with (len cs + 1) in * by (unfold len; cbn [length]; lia). pose proof (len_nonneg cs) as Hn.
    destruct (decode_channel_eqv seed c a b (k_bits k) (k_buf k) (k_out k) L Ka Kb B1 B2 ltac:(lia) ltac:(lia) Q B3) as (r & a' & b' & out' & E1 & E2 & Q').
    assert (OK : forall ch ch', channel_ok c ch -> ch_index ch + (len cs + 1) <= t_umax t -> decode_channel o t c ch (k_bits k) (k_buf k) (k_out k) = Ok (r, ch', out') -> channel_ok c ch' /\ ch_index ch' + len cs <= t_umax t).
    { intros ch ch' K I0 E. destruct (Z.eq_dec (k_bits k) 16) as [E16|N16].
      - rewrite E16 in E. destruct (decode_channel_ok o t c ch (k_buf k) (k_out k) L K B1 B2 ltac:(lia)) as ([[r0 c0] o0] & E0 & _ & X2 & X3 & _). rewrite E in E0. injection E0 as <- <- <-. split; [exact X2|lia].
      - rewrite decode_channel_other in E by exact N16. injection E as <- <- <-. split; [exact K|lia]. }
    destruct (OK a a' Ka Ia E1) as [Ka' Ia']. destruct (OK b b' Kb Ib E2) as [Kb' Ib']. rewrite E1, E2. cbn [bind].
    destruct (IH a' b' Ka' Kb' Ia' Ib' HF' Q') as (rs & a2 & b2 & F1 & F2 & Q2). rewrite F1, F2. cbn [bind]. exists ((r, out') :: rs), a2, b2. auto.
Qed.

(* ---- coming together ---- *)
(* a frame that parses and does not use the post filter *)
Definition plain_frame (c : config) (buf : list Z) : Prop := match read_frame (t_chk t) c buf with Ok f => l_active (s_ltpf (f_side f)) = false | _ => False end.
(* j blocks of the rings agree *)
Record synced (j : Z) (c : config) (a b : channel F) : Prop := mkSynced {
  sy_last : pl_last (ch_plc a) = pl_last (ch_plc b);
  sy_lost : pl_lost (ch_plc a) = pl_lost (ch_plc b);
  sy_alpha : pl_alpha (ch_plc a) = pl_alpha (ch_plc b);
  sy_ola : m_ola (ch_mdct a) = m_ola (ch_mdct b);
  sy_zeros : m_zeros (ch_mdct a) = m_zeros (ch_mdct b);
  sy_off : t_active (ch_ltpf a) = false /\ t_active (ch_ltpf b) = false;
  sy_x : forall k, - (j * nf c) <= k < 0 -> past o (l_blocks (cfg_lens c) * nf c) (t_x (ch_ltpf a)) (t_blk (ch_ltpf a)) k = past o (l_blocks (cfg_lens c) * nf c) (t_x (ch_ltpf b)) (t_blk (ch_ltpf b)) k;
  sy_y : forall k, - (j * nf c) <= k < 0 -> past o (l_blocks (cfg_lens c) * nf c) (t_xl (ch_ltpf a)) (t_blk (ch_ltpf a)) k = past o (l_blocks (cfg_lens c) * nf c) (t_xl (ch_ltpf b)) (t_blk (ch_ltpf b)) k
}.
Lemma plain_step c a buf out : legal_config c -> channel_ok c a -> bytes buf -> plain_frame c buf -> ch_index a < t_umax t ->
  exists f l a' out' fr m', read_frame (t_chk t) c buf = Ok f /\ decode_lines o t c f (ch_lines a) = Ok l /\ decode_channel o t c a 16 buf out = Ok (None, a', out') /\ channel_ok c a' /\ ch_index a' = ch_index a + 1 /\
    pl_last (ch_plc a') = l /\ pl_lost (ch_plc a') = 0 /\ pl_alpha (ch_plc a') = fz o 1 /\ mdct_run o c (ch_mdct a) l (ch_freq a) = Ok (fr, m') /\ ch_mdct a' = m' /\ t_active (ch_ltpf a') = false /\
    let total := l_blocks (cfg_lens c) * nf c in
    (forall k, - total <= k < 0 -> past o total (t_x (ch_ltpf a')) (t_blk (ch_ltpf a')) k = around o total (t_x (ch_ltpf a)) (t_blk (ch_ltpf a)) fr (k + nf c)) /\
    (t_active (ch_ltpf a) = false -> out' = scale_and_round o fr out /\ forall k, - total <= k < 0 -> past o total (t_xl (ch_ltpf a')) (t_blk (ch_ltpf a')) k = around o total (t_xl (ch_ltpf a)) (t_blk (ch_ltpf a)) fr (k + nf c)).
Proof.
  intros L K Hb HP Hi. unfold plain_frame in HP. destruct (read_frame (t_chk t) c buf) as [f|e|] eqn:ER; try contradiction. pose proof K as [C1 C2 C3 C4 C5 C6].
  assert (NP : read_frame (t_chk t) c buf <> Panic) by congruence.
  pose proof (read_frame_wf _ _ _ _ L Hb ER) as W. destruct (decode_lines_ok o t c f (len buf) (ch_lines a) L W C1) as (l & El & Ll). cbv beta in Ll.
  destruct (decode_channel_ok o t c a buf out L K Hb NP Hi) as ([[r a'] out'] & E & -> & K' & I' & Lo & PE). unfold plc_effect in PE. rewrite ER in PE. destruct PE as (P1 & P2 & P3 & P4 & P5).
  destruct (mdct_run_ok o c (ch_mdct a) l (ch_freq a) L C5 Ll C2) as ([fr m'] & EM & Lf & _).
  assert (Hp : 0 <= l_pitch (s_ltpf (f_side f)) < 512) by apply (sw_pitch _ _ (fw_side _ _ _ W)).
  destruct (ltpf_run_spec o c (cfg_lens c) (ch_ltpf a) (s_ltpf (f_side f)) (len buf * 8) fr L (cfg_lens_eq c L) C6 Hp Lf) as (b & s' & RL & Lb & _ & A1 & _ & X1 & Y1 & z & _ & Q).
  pose proof E as E0. unfold decode_channel in E0. cbn [Z.eqb Pos.eqb negb] in E0. destruct (uincr t (ch_index a)) as [ix| |]; cbn [bind] in E0; try discriminate E0.
  unfold decode_spectrum in E0. rewrite ER, El in E0. cbn [bind] in E0. destruct (plc_save o (ch_plc a) l) as [pp| |] eqn:EPS; cbn [bind] in E0; try discriminate E0. rewrite EM in E0. cbn [bind] in E0. rewrite RL in E0. cbn [bind] in E0.
  injection E0 as Ea Eo. exists f, l, a', out', fr, m'. split; [reflexivity|]. split; [exact El|]. split; [exact E|]. split; [exact K'|]. split; [exact I'|]. split; [rewrite P3, <- Ea; reflexivity|]. split; [exact P1|]. split; [exact P2|]. split; [exact EM|].
  split; [rewrite <- Ea; reflexivity|]. split; [congruence|]. cbv zeta. split; [rewrite <- Ea; exact X1|]. intros Hoff.
  assert (EB : b = fr).
  { apply (getz_ext z0); [lia|]. intros m Hm. specialize (Q m ltac:(lia)). cbv zeta in Q. rewrite HP, Hoff in Q.
    change (ltpf_transition false false (same_lag c (ch_ltpf a) (s_ltpf (f_side f)))) with Inactive in Q. unfold ltpf_rel, around in Q. destruct (Z.ltb_spec m 0); [lia|]. exact Q. }
  subst b. split; [now rewrite <- Eo|]. rewrite <- Ea. exact Y1.
Qed.
(* the first frame makes the transforms agree *)
Lemma sync_first c a b buf out : legal_config c -> channel_ok c a -> channel_ok c b -> bytes buf -> plain_frame c buf -> ch_index a < t_umax t -> ch_index b < t_umax t -> m_zeros (ch_mdct a) = m_zeros (ch_mdct b) ->
  exists a' b' oa ob, decode_channel o t c a 16 buf out = Ok (None, a', oa) /\ decode_channel o t c b 16 buf out = Ok (None, b', ob) /\ channel_ok c a' /\ channel_ok c b' /\
    ch_index a' = ch_index a + 1 /\ ch_index b' = ch_index b + 1 /\ synced 0 c a' b'.
Proof.
  intros L Ka Kb Hb HP Ia Ib HZ.
  destruct (plain_step c a buf out L Ka Hb HP Ia) as (f & l & a' & oa & fa & ma & A1 & A2 & A3 & A4 & A5 & A6 & A7 & A8 & A9 & A10 & A11 & _).
  destruct (plain_step c b buf out L Kb Hb HP Ib) as (f' & l' & b' & ob & fb & mb & B1 & B2 & B3 & B4 & B5 & B6 & B7 & B8 & B9 & B10 & B11 & _).
  rewrite A1 in B1. injection B1 as <-. pose proof Ka as [K1 K2 K3 K4 K5 K6]. pose proof Kb as [J1 J2 J3 J4 J5 J6]. pose proof (read_frame_wf _ _ _ _ L Hb A1) as W.
  rewrite (decode_lines_eqv c f (len buf) (ch_lines b) (ch_lines a) L W J1 K1), A2 in B2. injection B2 as <-.
  assert (Ll : len l = ne c) by (destruct (decode_lines_ok o t c f (len buf) (ch_lines a) L W K1) as (l0 & X & Y); rewrite A2 in X; injection X as <-; exact Y).
  destruct (mdct_run_eqv c (ch_mdct a) (ch_mdct b) l (ch_freq a) (ch_freq b) L K5 J5 HZ Ll K2 J2) as (o1 & o2 & m1 & m2 & M1 & M2 & M3 & M4 & M5 & _).
  rewrite A9 in M1. injection M1 as <- <-. rewrite B9 in M2. injection M2 as <- <-.
  exists a', b', oa, ob. split; [exact A3|]. split; [exact B3|]. split; [exact A4|]. split; [exact B4|]. split; [exact A5|]. split; [exact B5|]. constructor; try congruence; try (split; assumption); intros k Hk; lia.
Qed.
(* every further frame makes a block of the rings agree, and gives the same samples *)
Lemma sync_next j c a b buf out : legal_config c -> channel_ok c a -> channel_ok c b -> bytes buf -> plain_frame c buf -> ch_index a < t_umax t -> ch_index b < t_umax t -> 0 <= j < l_blocks (cfg_lens c) -> synced j c a b ->
  exists a' b' out', decode_channel o t c a 16 buf out = Ok (None, a', out') /\ decode_channel o t c b 16 buf out = Ok (None, b', out') /\ channel_ok c a' /\ channel_ok c b' /\
    ch_index a' = ch_index a + 1 /\ ch_index b' = ch_index b + 1 /\ synced (j + 1) c a' b'.
Proof.
  intros L Ka Kb Hb HP Ia Ib Hj [S1 S2 S3 S4 S5 [S6 S6'] S7 S8].
  destruct (plain_step c a buf out L Ka Hb HP Ia) as (f & l & a' & oa & fa & ma & A1 & A2 & A3 & A4 & A5 & A6 & A7 & A8 & A9 & A10 & A11 & A12 & A13).
  destruct (plain_step c b buf out L Kb Hb HP Ib) as (f' & l' & b' & ob & fb & mb & B1 & B2 & B3 & B4 & B5 & B6 & B7 & B8 & B9 & B10 & B11 & B12 & B13).
  destruct (A13 S6) as [A14 A15]. destruct (B13 S6') as [B14 B15].
  rewrite A1 in B1. injection B1 as <-. pose proof Ka as [K1 K2 K3 K4 K5 K6]. pose proof Kb as [J1 J2 J3 J4 J5 J6]. pose proof (read_frame_wf _ _ _ _ L Hb A1) as W.
  rewrite (decode_lines_eqv c f (len buf) (ch_lines b) (ch_lines a) L W J1 K1), A2 in B2. injection B2 as <-.
  assert (Ll : len l = ne c) by (destruct (decode_lines_ok o t c f (len buf) (ch_lines a) L W K1) as (l0 & X & Y); rewrite A2 in X; injection X as <-; exact Y).
  destruct (mdct_run_eqv c (ch_mdct a) (ch_mdct b) l (ch_freq a) (ch_freq b) L K5 J5 S5 Ll K2 J2) as (o1 & o2 & m1 & m2 & M1 & M2 & M3 & M4 & M5 & M6). specialize (M6 S4). subst o2.
  rewrite A9 in M1. injection M1 as <- <-. rewrite B9 in M2. injection M2 as -> <-. subst oa ob. destruct (config_geom c L) as (G1 & _).
  exists a', b', (scale_and_round o fa out). split; [exact A3|]. split; [exact B3|]. split; [exact A4|]. split; [exact B4|]. split; [exact A5|]. split; [exact B5|]. constructor; try congruence; try (split; assumption).
  - intros k Hk. rewrite A12, B12 by nia. unfold around. destruct (Z.ltb_spec (k + nf c) 0); [apply S7; nia|reflexivity].
  - intros k Hk. rewrite A15, B15 by nia. unfold around. destruct (Z.ltb_spec (k + nf c) 0); [apply S8; nia|reflexivity].
Qed.
(* l_blocks frames after the first one, any two channels are equivalent up to the generator *)
Lemma resync_from c : legal_config c -> forall cs j a b, channel_ok c a -> channel_ok c b -> synced j c a b -> 0 <= j -> j + len cs = l_blocks (cfg_lens c) -> ch_index a + len cs <= t_umax t -> ch_index b + len cs <= t_umax t ->
  Forall (fun k => k_bits k = 16 /\ bytes (k_buf k) /\ plain_frame c (k_buf k)) cs ->
  exists rs a' b', run_channel o t c a cs = Ok (rs, a') /\ run_channel o t c b cs = Ok (rs, b') /\ channel_ok c a' /\ channel_ok c b' /\ ch_index a' = ch_index a + len cs /\ ch_index b' = ch_index b + len cs /\ ch_eqv false c a' b'.
Proof.
  intros L. induction cs as [|k cs IH]; intros j a b Ka Kb S Hj Hl Ia Ib HF; cbn [run_channel].
  - exists [], a, b. unfold len in *. cbn [length] in *. split; [reflexivity|]. split; [reflexivity|]. split; [exact Ka|]. split; [exact Kb|]. split; [lia|]. split; [lia|]. destruct S as [S1 S2 S3 S4 S5 [S6 S6'] S7 S8].
    replace j with (l_blocks (cfg_lens c)) in * by lia. constructor; try assumption; [discriminate|]. constructor; [congruence|congruence|exact S7|exact S8].
  - inversion HF as [|? ? (B1 & B2 & B3) HF']; subst. replace (len (k :: cs)) with (len cs + 1) in * by (unfold len; cbn [length]; lia). pose proof (len_nonneg cs) as Hn. rewrite B1.
    destruct (sync_next j c a b (k_buf k) (k_out k) L Ka Kb B2 B3 ltac:(lia) ltac:(lia) ltac:(lia) S) as (a1 & b1 & o1 & E1 & E2 & K1 & K2 & X1 & X2 & S').
    rewrite E1, E2. cbn [bind]. destruct (IH (j + 1) a1 b1 K1 K2 S' ltac:(lia) ltac:(lia) ltac:(lia) ltac:(lia) HF') as (rs & a2 & b2 & F1 & F2 & F3 & F4 & F5 & F6 & F7).
    rewrite F1, F2. cbn [bind]. exists ((None, o1) :: rs), a2, b2. split; [reflexivity|]. split; [reflexivity|]. split; [exact F3|]. split; [exact F4|]. split; [lia|]. split; [lia|exact F7].
Qed.
Theorem resync c a b k cs : legal_config c -> channel_ok c a -> channel_ok c b -> m_zeros (ch_mdct a) = m_zeros (ch_mdct b) -> len cs = l_blocks (cfg_lens c) ->
  ch_index a + len cs + 1 <= t_umax t -> ch_index b + len cs + 1 <= t_umax t ->
  Forall (fun k => k_bits k = 16 /\ bytes (k_buf k) /\ plain_frame c (k_buf k)) (k :: cs) ->
  exists ra rb rs a' b', run_channel o t c a (k :: cs) = Ok (ra :: rs, a') /\ run_channel o t c b (k :: cs) = Ok (rb :: rs, b') /\ channel_ok c a' /\ channel_ok c b' /\
    ch_index a' = ch_index a + len cs + 1 /\ ch_index b' = ch_index b + len cs + 1 /\ ch_eqv false c a' b'.
Proof.
  intros L Ka Kb HZ Hl Ia Ib HF. inversion HF as [|? ? (B1 & B2 & B3) HF']; subst. cbn [run_channel]. rewrite B1. pose proof (len_nonneg cs) as Hn.
  destruct (sync_first c a b (k_buf k) (k_out k) L Ka Kb B2 B3 ltac:(lia) ltac:(lia) HZ) as (a1 & b1 & o1 & o2 & E1 & E2 & K1 & K2 & X1 & X2 & S).
  rewrite E1, E2. cbn [bind]. destruct (resync_from c L cs 0 a1 b1 K1 K2 S ltac:(lia) ltac:(lia) ltac:(lia) ltac:(lia) HF') as (rs & a2 & b2 & F1 & F2 & F3 & F4 & F5 & F6 & F7).
  rewrite F1, F2. cbn [bind]. exists (None, o1), (None, o2), rs, a2, b2. split; [reflexivity|]. split; [reflexivity|]. split; [exact F3|]. split; [exact F4|]. split; [lia|]. split; [lia|exact F7].
Qed.

(* ---- reachable channels ---- *)
Definition zeros_ok (c : config) (ch : channel F) : Prop := m_zeros (ch_mdct ch) = repeat z0 (Z.to_nat (nf c - ne c)).
Lemma decode_channel_zeros c ch bits buf out r ch' out' : legal_config c -> channel_ok c ch -> bytes buf -> read_frame (t_chk t) c buf <> Panic -> ch_index ch < t_umax t ->
  decode_channel o t c ch bits buf out = Ok (r, ch', out') -> m_zeros (ch_mdct ch') = m_zeros (ch_mdct ch).
Proof.
  intros L K Hb HP Hi H. destruct (Z.eq_dec bits 16) as [->|NB]; [|rewrite decode_channel_other in H by exact NB; injection H as _ <- _; reflexivity].
  pose proof K as [C1 C2 C3 C4 C5 C6]. destruct (decode_spectrum_ok o t c ch buf L K Hb HP Hi) as ([[p lines] info] & E & D1 & _).
  unfold decode_channel in H. cbn [Z.eqb Pos.eqb negb] in H. destruct (uincr t (ch_index ch)) as [ix| |]; cbn [bind] in H; try discriminate H. rewrite E in H. cbn [bind] in H.
  destruct (mdct_run_eqv c (ch_mdct ch) (ch_mdct ch) lines (ch_freq ch) (ch_freq ch) L C5 C5 eq_refl D1 C2 C2) as (o1 & o2 & m1 & m2 & E1 & _ & _ & Z1 & _).
  rewrite E1 in H. cbn [bind] in H. destruct (ltpf_run o c (ch_ltpf ch) info (len buf * 8) o1) as [[b l]| |]; cbn [bind] in H; try discriminate H. injection H as _ <- _. exact Z1.
Qed.
Definition good_buf (c : config) (k : call) : Prop := bytes (k_buf k) /\ read_frame (t_chk t) c (k_buf k) <> Panic.
Lemma run_channel_inv c : legal_config c -> forall cs ch rs ch', channel_ok c ch -> Forall (good_buf c) cs -> ch_index ch + len cs <= t_umax t -> run_channel o t c ch cs = Ok (rs, ch') ->
  channel_ok c ch' /\ ch_index ch <= ch_index ch' <= ch_index ch + len cs /\ m_zeros (ch_mdct ch') = m_zeros (ch_mdct ch).
Proof.
  intros L. induction cs as [|k cs IH]; intros ch rs ch' K HF Hi H; cbn [run_channel] in H.
  - injection H as _ <-. unfold len. cbn [length]. split; [exact K|split; [lia|reflexivity]].
  - inversion HF as [|? ? [B1 B2] HF']; subst. replace (len (k :: cs)) with (len cs + 1) in * by (unfold len; cbn [length]; lia). pose proof (len_nonneg cs) as Hn.
    destruct (decode_channel o t c ch (k_bits k) (k_buf k) (k_out k)) as [[[r ch1] o1]| |] eqn:E; cbn [bind] in H; try discriminate H.
    destruct (run_channel o t c ch1 cs) as [[rs1 ch2]| |] eqn:E2; cbn [bind] in H; try discriminate H. injection H as _ <-.
    pose proof (decode_channel_zeros c ch _ _ _ _ _ _ L K B1 B2 ltac:(lia) E) as Z1.
    assert (K1 : channel_ok c ch1 /\ ch_index ch <= ch_index ch1 <= ch_index ch + 1).
    { destruct (Z.eq_dec (k_bits k) 16) as [E16|NB].
      - rewrite E16 in E. destruct (decode_channel_ok o t c ch (k_buf k) (k_out k) L K B1 B2 ltac:(lia)) as ([[r' c'] o'] & E' & _ & R2 & R3 & _). rewrite E in E'. injection E' as <- <- <-. split; [exact R2|lia].
      - rewrite decode_channel_other in E by exact NB. injection E as _ <- _. split; [exact K|lia]. }
    destruct K1 as [K1 K2]. destruct (IH ch1 rs1 ch2 K1 HF' ltac:(lia) E2) as (J1 & J2 & J3). split; [exact J1|]. split; [lia|congruence].
Qed.
(* a channel of a new decoder after some calls; h bounds their number *)
Definition reachable (f : freq) (d : duration) (h : Z) (ch : channel F) : Prop :=
  exists num s x ns nx dec i ch0 cs rs, 0 <= num /\ dec_lens num d f = Ok (ns, nx) /\ ns <= len s /\ nx <= len x /\ decoder_new o num d f s x = Ok dec /\ idx (d_channels dec) i = Ok ch0 /\
    len cs <= h /\ Forall (good_buf (config_new f d)) cs /\ run_channel o t (config_new f d) ch0 cs = Ok (rs, ch).
Lemma map_const {A B} (v : B) (l : list A) : map (fun _ => v) l = repeat v (Z.to_nat (len l)).
Proof. unfold len. rewrite Nat2Z.id. induction l as [|a l IH]; cbn [map length repeat]; [reflexivity|now rewrite IH]. Qed.
Lemma decoder_new_zeros num d f (s : list F) (x : list (F * F)) dec ch : decoder_new o num d f s x = Ok dec -> In ch (d_channels dec) ->
  exists l, m_zeros (ch_mdct ch) = repeat z0 l.
Proof.
  unfold decoder_new. destruct (dec_new num d f s x) as [[[parts s'] x']| |]; cbn [bind]; try discriminate. destruct (map_res _ parts) as [chs| |] eqn:E; cbn [bind]; try discriminate.
  intros H Hc. injection H as <-. cbn [d_channels] in Hc. destruct (map_res_In _ _ _ _ E Hc) as ([sps cps] & _ & H). unfold channel_of_parts in H.
  repeat match type of H with match ?l with _ => _ end = _ => destruct l; try discriminate H end. injection H as <-. cbn [ch_mdct m_zeros]. eexists. apply map_const.
Qed.
Lemma idx_In {A} (l : list A) i v : idx l i = Ok v -> In v l.
Proof. unfold idx. destruct (i <? 0); [discriminate|]. destruct (nth_error l (Z.to_nat i)) eqn:N; [|discriminate]. intros H. injection H as <-. eapply nth_error_In, N. Qed.
Lemma reachable_ok f d h ch : h <= t_umax t -> reachable f d h ch -> channel_ok (config_new f d) ch /\ 0 <= ch_index ch <= h /\ zeros_ok (config_new f d) ch.
Proof.
  intros Hh (num & s & x & ns & nx & dec & i & ch0 & cs & rs & R1 & R2 & R3 & R4 & R5 & R6 & R7 & R8 & R9).
  assert (L : legal_config (config_new f d)) by (eexists _, _; reflexivity).
  assert (K : channel_ok (config_new f d) ch0 /\ ch_index ch0 = 0).
  { destruct (dec_new_ok f d num s x ns nx R1 R2 R3 R4) as (parts & s' & x' & E & _ & _). unfold decoder_new in R5. rewrite E in R5. cbn [bind] in R5. unfold dec_new in E.
    destruct (channels_ok o (config_new f d) L _ _ _ _ _ _ E) as (chs & E2 & _ & HF). rewrite E2 in R5. cbn [bind] in R5. injection R5 as <-. cbn [d_channels] in R6.
    rewrite Forall_forall in HF. apply HF. eapply idx_In, R6. }
  destruct K as [K K0]. destruct (decoder_new_zeros _ _ _ _ _ _ _ R5 (idx_In _ _ _ R6)) as [l Hl].
  destruct (run_channel_inv (config_new f d) L cs ch0 rs ch K R8 ltac:(lia) R9) as (J1 & J2 & J3). split; [exact J1|]. split; [lia|].
  unfold zeros_ok. rewrite J3. rewrite Hl. f_equal. destruct K as [_ _ _ _ [_ _ M _ _ _] _]. rewrite Hl in M. unfold len in M. rewrite repeat_length in M. lia.
Qed.
(* two decoders of the same configuration, whatever their buffers held and whatever they were fed before, agree after a few good frames *)
Theorem resync_reachable f d h a b k cs : let c := config_new f d in
  reachable f d h a -> reachable f d h b -> len cs = l_blocks (cfg_lens c) -> h + len cs + 1 <= t_umax t ->
  Forall (fun k => k_bits k = 16 /\ bytes (k_buf k) /\ plain_frame c (k_buf k)) (k :: cs) ->
  exists ra rb rs a' b', run_channel o t c a (k :: cs) = Ok (ra :: rs, a') /\ run_channel o t c b (k :: cs) = Ok (rb :: rs, b') /\ ch_eqv false c a' b'.
Proof.
  intros c Ra Rb Hl Hh HF. pose proof (len_nonneg cs) as Hn. destruct (reachable_ok f d h a ltac:(lia) Ra) as (A1 & A2 & A3). destruct (reachable_ok f d h b ltac:(lia) Rb) as (B1 & B2 & B3).
  fold c in A1, A3, B1, B3. destruct (resync c a b k cs) as (ra & rb & rs & a' & b' & Q1 & Q2 & _ & _ & _ & _ & Q3); auto; try lia.
  { eexists _, _; reflexivity. } { unfold zeros_ok in *. congruence. }
  exists ra, rb, rs, a', b'. auto.
Qed.
End Equiv.
