(* The decoder without the count of frames: what a call that returns does to the lengths of the buffers, and totality over histories of any length when overflow checks are off. *)
From Coq Require Import ZArith List Bool Lia.
From Verif Require Import Base Config SideInfo ArithDec FrameDec FrameSpec Buffers Loops Scalar DecSignal DecMdct DecLtpf Decoder DecTotal DecState ParseBase ParseTotal DecRun.
Import ListNotations.
Local Open Scope Z_scope.

Section Release.
Context {F : Type} (o : ops F) (t : target).

Lemma bind_inv {A B} (m : res A) (k : A -> res B) b : bind m k = Ok b -> exists a, m = Ok a /\ k a = Ok b.
Proof. destruct m; cbn [bind]; try discriminate. intros H. eauto. Qed.
Lemma pair_eq {A B} (a c : A) (b d : B) : (a, b) = (c, d) -> a = c /\ b = d.
Proof. apply pair_equal_spec. Qed.

(* the invariant of DecRun without its bound on the number of lost frames *)
Record channel_lens (c : config) (ch : channel F) : Prop := mkChannelLens {
  cl_lines : len (ch_lines ch) = ne c;
  cl_freq : len (ch_freq ch) = nf c;
  cl_last : len (pl_last (ch_plc ch)) = ne c;
  cl_mdct : mdct_ok c (ch_mdct ch);
  cl_post : ltpf_ok c (cfg_lens c) (ch_ltpf ch)
}.
Lemma channel_ok_lens c ch : channel_ok c ch -> channel_lens c ch.
Proof. intros [A B C D E G]. constructor; assumption. Qed.

Lemma spectrum_inv c ch buf p lines info : legal_config c -> channel_lens c ch -> bytes buf -> decode_spectrum o t c ch buf = Ok (p, lines, info) ->
  len lines = ne c /\ len (pl_last p) = ne c /\ 0 <= l_pitch info < 512.
Proof.
  intros Lc [C1 C2 C3 C5 C6] Hb E. unfold decode_spectrum in E. destruct (config_geom c Lc) as (_ & _ & _ & G4 & _). destruct (read_frame (t_chk t) c buf) as [f|e|] eqn:ER; [| |discriminate E].
  - pose proof (read_frame_wf _ _ _ _ Lc Hb ER) as W. destruct (decode_lines_ok o t c f (len buf) (ch_lines ch) Lc W C1) as (l & El & Ll). cbv beta in Ll. rewrite El in E. cbn [bind] in E. apply bind_inv in E. destruct E as (p1 & E1 & E).
    apply Ok_inj in E. apply pair_eq in E. destruct E as [E <-]. apply pair_eq in E. destruct E as [<- <-]. split; [exact Ll|]. unfold plc_save in E1. apply bind_inv in E1. destruct E1 as (l2 & E2 & E1). apply Ok_inj in E1. subst p1. cbn [pl_last].
    split; [|apply (sw_pitch _ _ (fw_side _ _ _ W))]. rewrite C3 in E2. destruct (sub_ok l 0 (ne c) ltac:(lia) ltac:(lia)) as (s & Es & Ls & _). rewrite E2 in Es. apply Ok_inj in Es. subst s. lia.
  - apply bind_inv in E. destruct E as ([p1 l1] & E1 & E). apply Ok_inj in E. apply pair_eq in E. destruct E as [E <-]. apply pair_eq in E. destruct E as [<- <-]. unfold plc_load in E1. apply bind_inv in E1. destruct E1 as (m & _ & E1).
    set (alpha := if 4 <=? _ then _ else _) in E1. pose proof (plc_lines_len o alpha (ch_lines ch) (pl_last (ch_plc ch)) (pl_seed (ch_plc ch))) as PL. destruct (plc_lines o alpha (pl_seed (ch_plc ch)) (ch_lines ch) (pl_last (ch_plc ch))) as [sd ls]. cbn [snd] in PL.
    apply Ok_inj in E1. apply pair_eq in E1. destruct E1 as [<- <-]. cbn [pl_last plc_ltpf l_pitch]. split; [lia|]. split; [exact C3|lia].
Qed.
Lemma channel_inv c ch buf out r ch' out' : legal_config c -> channel_lens c ch -> bytes buf -> decode_channel o t c ch 16 buf out = Ok (r, ch', out') -> r = None /\ channel_lens c ch' /\ len out' = len out.
Proof.
  intros Lc K Hb E. pose proof K as [C1 C2 C3 C5 C6]. unfold decode_channel in E. cbn [Z.eqb Pos.eqb negb] in E. apply bind_inv in E. destruct E as (ix & _ & E). apply bind_inv in E. destruct E as ([[p lines] info] & ES & E).
  destruct (spectrum_inv c ch buf p lines info Lc K Hb ES) as (D1 & D2 & D3). apply bind_inv in E. destruct E as ([fr m] & EM & E). destruct (mdct_run_ok o c (ch_mdct ch) lines (ch_freq ch) Lc C5 D1 C2) as ([fr' m'] & EM' & M1 & M2). rewrite EM in EM'. apply Ok_inj in EM'. apply pair_eq in EM'. destruct EM' as [<- <-].
  apply bind_inv in E. destruct E as ([b s] & EL & E). destruct (ltpf_run_ok o c (cfg_lens c) (ch_ltpf ch) info (len buf * 8) fr Lc (cfg_lens_eq c Lc) C6 D3 M1) as ([b' s'] & EL' & L1 & L2). rewrite EL in EL'. apply Ok_inj in EL'. apply pair_eq in EL'. destruct EL' as [<- <-].
  apply Ok_inj in E. apply pair_eq in E. destruct E as [E <-]. apply pair_eq in E. destruct E as [<- <-]. split; [reflexivity|]. split; [constructor; assumption|apply len_zipmod].
Qed.
(* without checks the two counters wrap around *)
Lemma uincr_free n : t_chk t = false -> exists m, uincr t n = Ok m.
Proof. intros H. unfold uincr. rewrite H. destruct (t_umax t <=? n); eauto. Qed.
Lemma channel_total c ch buf out : t_chk t = false -> legal_config c -> channel_lens c ch -> bytes buf -> read_frame false c buf <> Panic -> exists ch' out', decode_channel o t c ch 16 buf out = Ok (None, ch', out').
Proof.
  intros Hc Lc K Hb HP. pose proof K as [C1 C2 C3 C5 C6]. assert (HS : exists p lines info, decode_spectrum o t c ch buf = Ok (p, lines, info)).
  { unfold decode_spectrum. rewrite Hc. destruct (config_geom c Lc) as (_ & _ & _ & G4 & _). destruct (read_frame false c buf) as [f|e|] eqn:ER; [| |congruence].
    - pose proof (read_frame_wf _ _ _ _ Lc Hb ER) as W. destruct (decode_lines_ok o t c f (len buf) (ch_lines ch) Lc W C1) as (l & El & Ll). cbv beta in Ll. rewrite El. cbn [bind]. unfold plc_save. rewrite C3. destruct (sub_ok l 0 (ne c) ltac:(lia) ltac:(lia)) as (s & Es & _). rewrite Es. cbn [bind]. eauto.
    - unfold plc_load. destruct (uincr_free (pl_lost (ch_plc ch)) Hc) as (m & Em). rewrite Em. cbn [bind]. destruct (plc_lines _ _ _ _ _) as [sd ls]. cbn [bind]. eauto. }
  destruct HS as (p & lines & info & ES). destruct (spectrum_inv c ch buf p lines info Lc K Hb ES) as (D1 & D2 & D3). destruct (mdct_run_ok o c (ch_mdct ch) lines (ch_freq ch) Lc C5 D1 C2) as ([fr m] & EM & M1 & M2).
  destruct (ltpf_run_ok o c (cfg_lens c) (ch_ltpf ch) info (len buf * 8) fr Lc (cfg_lens_eq c Lc) C6 D3 M1) as ([b s] & EL & _). destruct (uincr_free (ch_index ch) Hc) as (ix & Ei).
  unfold decode_channel. cbn [Z.eqb Pos.eqb negb]. rewrite Ei. cbn [bind]. rewrite ES. cbn [bind]. rewrite EM. cbn [bind]. rewrite EL. cbn [bind]. eauto.
Qed.

Definition decoder_lens (d : decoder F) : Prop := legal_config (d_config d) /\ Forall (channel_lens (d_config d)) (d_channels d).
Lemma frame_inv d bits i buf out r d' out' : decoder_lens d -> bytes buf -> decode_frame o t d bits i buf out = Ok (r, d', out') ->
  decoder_lens d' /\ d_config d' = d_config d /\ len (d_channels d') = len (d_channels d) /\ len out' = len out /\ r = (if bits =? 16 then None else Some Only16BitsPerAudioSampleSupported) /\
  exists ch ch', idx (d_channels d) i = Ok ch /\ idx (d_channels d') i = Ok ch' /\ decode_channel o t (d_config d) ch bits buf out = Ok (r, ch', out') /\ put (d_channels d) i ch' = Ok (d_channels d').
Proof.
  intros [Lc DO] Hb E. unfold decode_frame in E. apply bind_inv in E. destruct E as (ch & Ech & E). apply bind_inv in E. destruct E as ([[r1 ch1] o1] & Ed & E). apply bind_inv in E. destruct E as (chs & Ep & E). apply Ok_inj in E. apply pair_eq in E. destruct E as [E <-]. apply pair_eq in E. destruct E as [<- <-].
  pose proof (Forall_getz _ _ _ _ DO Ech) as K1. cbn [d_config d_channels].
  assert (H : channel_lens (d_config d) ch1 /\ len o1 = len out /\ r1 = if bits =? 16 then None else Some Only16BitsPerAudioSampleSupported).
  { destruct (Z.eqb_spec bits 16) as [->|E16]; [destruct (channel_inv (d_config d) ch buf out r1 ch1 o1 Lc K1 Hb Ed) as (A & B & C); auto|]. rewrite (decode_channel_other o t (d_config d) ch bits buf out E16) in Ed. apply Ok_inj in Ed. apply pair_eq in Ed. destruct Ed as [Ed <-]. apply pair_eq in Ed. destruct Ed as [<- <-]. auto. }
  assert (Hi : 0 <= i < len (d_channels d)) by (unfold put in Ep; destruct (Z.ltb_spec i 0); [discriminate Ep|]; destruct (Z.leb_spec (len (d_channels d)) i); [discriminate Ep|]; lia).
  destruct (put_ok ch (d_channels d) i ch1 Hi) as (chs' & Ep' & Lp & Gp). rewrite Ep in Ep'. apply Ok_inj in Ep'. subst chs'. destruct H as (H1 & H2 & H3).
  split; [split; [exact Lc|exact (put_Forall _ _ _ _ _ DO H1 Ep)]|]. split; [reflexivity|]. split; [exact Lp|]. split; [exact H2|]. split; [exact H3|]. exists ch, ch1. split; [exact Ech|]. split; [|split; [exact Ed|exact Ep]]. rewrite (idx_get ch) by lia. rewrite Gp by lia. now rewrite Z.eqb_refl.
Qed.
Lemma new_lens num d f ns nx (s : list F) (x : list (F * F)) : 0 <= num -> dec_lens num d f = Ok (ns, nx) -> ns <= len s -> nx <= len x ->
  exists dec, decoder_new o num d f s x = Ok dec /\ decoder_lens dec /\ d_config dec = config_new f d /\ len (d_channels dec) = num.
Proof.
  intros Hn HL Hs Hx. destruct (decoder_new_ok o t num d f ns nx s x (t_umax t) Hn HL Hs Hx (Z.le_refl _)) as (dec & E & [Lc D1] & D2 & D3). exists dec. split; [exact E|]. split; [|auto]. split; [exact Lc|]. eapply Forall_impl; [|exact D1]. cbv beta. intros a [A _]. now apply channel_ok_lens.
Qed.
Theorem run_calls_release : t_chk t = false -> forall cs d, decoder_lens d -> Forall (fun k => 0 <= k_ch k < len (d_channels d) /\ bytes (k_buf k) /\ read_frame false (d_config d) (k_buf k) <> Panic) cs ->
  exists rs d', run_calls o t d cs = Ok (rs, d') /\ decoder_lens d' /\ d_config d' = d_config d /\ len (d_channels d') = len (d_channels d) /\
    Forall2 (fun k '(r, out) => len out = len (k_out k) /\ r = if k_bits k =? 16 then None else Some Only16BitsPerAudioSampleSupported) cs rs.
Proof.
  intros Hc. induction cs as [|k cs IH]; intros d D HG; cbn [run_calls]; [exists [], d; repeat (split; [reflexivity || assumption|]); constructor|].
  apply Forall_cons_iff in HG. destruct HG as [(Q1 & Q2 & Q3) HG]. assert (EF : exists r d1 out, decode_frame o t d (k_bits k) (k_ch k) (k_buf k) (k_out k) = Ok (r, d1, out)).
  { unfold decode_frame. destruct (idx_ok (d_channels d) (k_ch k) Q1) as (ch & Ech). rewrite Ech. cbn [bind]. pose proof (Forall_getz _ _ _ _ (proj2 D) Ech) as K. assert (EC : exists r ch' out', decode_channel o t (d_config d) ch (k_bits k) (k_buf k) (k_out k) = Ok (r, ch', out')).
    { destruct (Z.eq_dec (k_bits k) 16) as [->|E16]; [destruct (channel_total (d_config d) ch (k_buf k) (k_out k) Hc (proj1 D) K Q2 Q3) as (ch' & out' & E); eauto|]. rewrite (decode_channel_other o t _ _ _ _ _ E16). eauto. }
    destruct EC as (r & ch' & out' & E). rewrite E. cbn [bind]. destruct (put_len (d_channels d) (k_ch k) ch' Q1) as (chs & Ep & _). rewrite Ep. cbn [bind]. eauto. }
  destruct EF as (r & d1 & out & E). destruct (frame_inv d _ _ _ _ _ _ _ D Q2 E) as (D1 & D2 & D3 & D4 & D5 & _). rewrite E. cbn [bind]. rewrite <- D2, <- D3 in HG. destruct (IH d1 D1 HG) as (rs & d' & E2 & F1 & F2 & F3 & F4). rewrite E2. cbn [bind].
  exists ((r, out) :: rs), d'. split; [reflexivity|]. split; [exact F1|]. split; [congruence|]. split; [congruence|]. constructor; [split; assumption|exact F4].
Qed.
End Release.
