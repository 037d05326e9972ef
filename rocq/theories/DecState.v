(* Transform, post filter and the whole channel: buffer lengths are invariant and no step panics (any scalar type). *)
From Coq Require Import ZArith List Bool Lia.
From Verif Require Import Base Config SideInfo ArithDec FrameDec FrameSpec Buffers FftFactor FactorProofs TablesLtpf Loops Scalar DecSignal Fft DecMdct DecLtpf Decoder DecTotal ParseBase ParseTotal.
Import ListNotations.
Local Open Scope Z_scope.

(* ---- FFT ---- *)
Definition small_factors (fl : list Z) : Prop := Forall (fun p => 2 <= p <= 5) (factors_of fl).
Fixpoint chainb (n : Z) (fl : list Z) : bool :=
  match fl with
  | [] => n =? 1
  | p :: m :: r => (p * m =? n) && (2 <=? p) && (p <=? 5) && (1 <=? m) && chainb m r
  | _ => false
  end.
Lemma chainb_ok : forall k fl n, (length fl <= 2 * k)%nat -> chainb n fl = true -> chain n fl /\ small_factors fl.
Proof.
  induction k as [|k IH]; intros [|p [|m r]] n L H; cbn [chainb length] in *; try lia; try discriminate H; try (apply Z.eqb_eq in H; split; [exact H|constructor]).
  repeat (apply andb_prop in H as [H ?]). destruct (IH r m ltac:(lia) ltac:(assumption)) as [C S].
  repeat match goal with Q : (_ <=? _) = true |- _ => apply Z.leb_le in Q | Q : (_ =? _) = true |- _ => apply Z.eqb_eq in Q end.
  split; [cbn [chain]; repeat split; auto; lia|]. unfold small_factors. cbn [factors_of]. constructor; [lia|exact S].
Qed.
Lemma chain_pos : forall k fl n, (length fl <= 2 * k)%nat -> chain n fl -> small_factors fl -> 1 <= n.
Proof.
  induction k as [|k IH]; intros [|p [|m r]] n L C S; cbn [chain length] in *; try lia; try tauto.
  destruct C as (E & _ & Hm & C). inversion S; subst. nia.
Qed.

Section State.
Context {F : Type} (o : ops F).

Ltac opos := cbv beta iota in *; nia.

Lemma bfly2_len (tw fout : list (F * F)) b fstride m : 1 <= m -> 1 <= fstride -> fstride * (2 * m) = len tw -> 0 <= b -> b + 2 * m <= len fout ->
  okp (bfly2 o tw b fstride m fout) (fun l => len l = len fout).
Proof.
  intros Hm Hf Ht Hb Hl. unfold bfly2. apply (okp_for (fun l => len l = len fout)); [reflexivity|]. intros i l Hi E.
  okstep; [lia|]. okstep; [nia|]. okstep; [lia|]. okstep; [lia|]. eapply okp_weaken; [apply okp_put; lia|]. intros; liab.
Qed.
Lemma bfly3_len (tw fout : list (F * F)) b fstride m : 1 <= m -> 1 <= fstride -> fstride * (3 * m) = len tw -> 0 <= b -> b + 3 * m <= len fout ->
  okp (bfly3 o tw b fstride m fout) (fun l => len l = len fout).
Proof.
  intros Hm Hf Ht Hb Hl. unfold bfly3. okstep; [nia|]. apply (okp_for (fun l => len l = len fout)); [reflexivity|]. intros i l Hi E.
  okstep; [lia|]. okstep; [nia|]. okstep; [lia|]. okstep; [nia|]. okstep; [lia|]. okstep; [lia|]. okstep; [lia|]. eapply okp_weaken; [apply okp_put; lia|]. intros; liab.
Qed.
Lemma bfly4_len (tw fout : list (F * F)) b fstride m : 1 <= m -> 1 <= fstride -> fstride * (4 * m) = len tw -> 0 <= b -> b + 4 * m <= len fout ->
  okp (bfly4 o tw b fstride m fout) (fun l => len l = len fout).
Proof.
  intros Hm Hf Ht Hb Hl. unfold bfly4. apply (okp_for (fun l => len l = len fout)); [reflexivity|]. intros i l Hi E.
  okstep; [lia|]. okstep; [nia|]. okstep; [lia|]. okstep; [nia|]. okstep; [lia|]. okstep; [nia|]. okstep; [lia|]. okstep; [lia|]. okstep; [lia|]. okstep; [lia|].
  eapply okp_weaken; [apply okp_put; lia|]. intros; liab.
Qed.
Lemma bfly5_len (tw fout : list (F * F)) b fstride m : 1 <= m -> 1 <= fstride -> fstride * (5 * m) = len tw -> 0 <= b -> b + 5 * m <= len fout ->
  okp (bfly5 o tw b fstride m fout) (fun l => len l = len fout).
Proof.
  intros Hm Hf Ht Hb Hl. unfold bfly5. okstep; [nia|]. okstep; [nia|]. apply (okp_for (fun l => len l = len fout)); [reflexivity|]. intros i l Hi E.
  okstep; [lia|]. okstep; [lia|]. okstep; [nia|]. okstep; [lia|]. okstep; [nia|]. okstep; [lia|]. okstep; [nia|]. okstep; [lia|]. okstep; [nia|].
  okstep; [lia|]. okstep; [lia|]. okstep; [lia|]. okstep; [lia|].
  eapply okp_weaken; [apply okp_put; lia|]. intros; liab.
Qed.
Lemma butterfly_len (tw fout : list (F * F)) nfft b fstride m p : 2 <= p <= 5 -> 1 <= m -> 1 <= fstride -> fstride * (p * m) = len tw -> 0 <= b -> b + p * m <= len fout ->
  okp (butterfly o tw nfft b fstride m p fout) (fun l => len l = len fout).
Proof.
  intros Hp Hm Hf Ht Hb Hl. unfold butterfly. okstep; [nia|lia|].
  assert (C : p = 2 \/ p = 3 \/ p = 4 \/ p = 5) by lia. destruct C as [->|[->|[->| ->]]]; cbn [Z.eqb Pos.eqb].
  - apply bfly2_len; assumption.
  - apply bfly3_len; assumption.
  - apply bfly4_len; assumption.
  - apply bfly5_len; assumption.
Qed.
Lemma kf_work_len (tw fin : list (F * F)) nfft : forall k fl n fstride fi fo fout, (length fl <= 2 * k)%nat -> chain n fl -> small_factors fl -> fl <> [] ->
  1 <= fstride -> fstride * n = len tw -> 0 <= fi -> fi + fstride * (n - 1) < len fin -> 0 <= fo -> fo + n <= len fout ->
  okp (kf_work o tw fin nfft fl fstride fi fo fout) (fun l => len l = len fout).
Proof.
  induction k as [|k IH]; intros [|p [|m r]] n fstride fi fo fout L C S N Hs Ht Hfi Hfi2 Hfo Hfo2; cbn [chain length] in *; try lia; try tauto.
  destruct C as (E & _ & Hm & C). inversion S as [|? ? Hp S']; subst. cbn [kf_work].
  eapply okp_bind with (P := fun l => len l = len fout).
  - destruct (Z.eqb_spec m 1) as [->|].
    + unfold leaf_copy. okstep; [lia|lia|]. okstep; [nia|lia|]. apply (okp_for (fun l => len l = len fout)); [reflexivity|]. intros q l Hq El.
      destruct (Z.leb_spec (len fin) (fi + q * fstride)); [now apply okp_ok|]. okstep; [nia|]. eapply okp_weaken; [apply okp_put; lia|]. intros; liab.
    + destruct (Z.leb_spec p 0); [lia|]. destruct (Z.leb_spec m 0); [lia|]. cbn [orb].
      apply (okp_for (fun l => len l = len fout)); [reflexivity|]. intros q l Hq El.
      eapply okp_weaken; [apply (IH r m); try assumption; try lia; try nia|].
      * destruct r; [cbn [chain] in C; lia|discriminate].
      * intros l' E'. liab.
  - intros l El. cbv beta in El. eapply okp_weaken; [apply butterfly_len; try assumption; try lia; try nia|]. intros; liab.
Qed.

Lemma dct_iv_len nf fl (input output : list (F * F)) (buf : list F) : 2 <= nf -> nf mod 2 = 0 -> chain (nf / 2) fl -> small_factors fl -> fl <> [] ->
  len input = nf / 2 -> len output = nf / 2 -> len buf = nf ->
  okp (dct_iv o nf fl input output buf) (fun '(b, i, u) => len b = nf /\ len i = nf / 2 /\ len u = nf / 2).
Proof.
  intros H2 Hmod C S N Hi Ho Hb. unfold dct_iv. set (h := nf / 2) in *. assert (nf = 2 * h) by (unfold h; Z.div_mod_to_equations; lia).
  okstep; [now apply Z.eqb_eq|]. assert (T : len (dct_twiddles o h) = h) by (unfold dct_twiddles; rewrite len_map, len_seq; lia).
  eapply okp_bind with (P := fun i => len i = h).
  { apply (okp_for (fun i => len i = h)); [assumption|]. intros n l Hn El. okstep; [lia|]. okstep; [lia|]. okstep; [lia|]. okstep; [lia|].
    eapply okp_weaken; [apply okp_put; lia|]. intros; liab. }
  intros i Ei. cbv beta in Ei. eapply okp_bind with (P := fun u => len u = h).
  { unfold fft_transform. eapply okp_weaken; [apply (kf_work_len (fft_twiddles o h) i h (length fl) fl h); auto; try lia|intros; liab].
    unfold fft_twiddles. rewrite len_map, len_seq. lia. }
  intros u Eu. cbv beta in Eu. eapply okp_bind with (P := fun b => len b = nf).
  { apply (okp_for (fun b => len b = nf)); [assumption|]. intros n l Hn El. okstep; [lia|]. okstep; [lia|]. okstep; [lia|]. okstep; [lia|].
    eapply okp_weaken; [apply okp_put; lia|]. intros; liab. }
  intros b Eb. apply okp_ok. auto.
Qed.

(* ---- MDCT ---- *)
Record mdct_ok (c : config) (m : mdct F) : Prop := mkMdctOk {
  mo_ola : len (m_ola m) = nf c - zlead c;
  mo_t : len (m_t m) = nf c * 2;
  mo_zeros : len (m_zeros m) = nf c - ne c;
  mo_half : len (m_half m) = nf c / 2;
  mo_in : len (m_in m) = nf c / 2;
  mo_out : len (m_out m) = nf c / 2
}.
Lemma config_geom c : legal_config c -> 60 <= nf c <= 480 /\ nf c mod 2 = 0 /\ 0 <= zlead c <= nf c /\ 0 < ne c <= nf c /\ ne c <= 400 /\ 0 <= fs_ind c <= 4 /\ 32 <= nb c <= 64.
Proof. intros (f & d & ->). destruct f, d; cbn -[Z.le Z.lt Z.modulo]; repeat split; lia || reflexivity. Qed.
Lemma dct_factors_ok c : legal_config c -> okp (dct_factors (nf c)) (fun fl => chain (nf c / 2) fl /\ small_factors fl /\ fl <> []).
Proof.
  intros (f & d & ->).
  assert (Q : match dct_factors (nf (config_new f d)) with Ok fl => chainb (nf (config_new f d) / 2) fl && negb (match fl with [] => true | _ => false end) | _ => false end = true)
    by (destruct f, d; vm_compute; reflexivity).
  destruct (dct_factors (nf (config_new f d))) as [fl| |]; try discriminate Q. apply andb_prop in Q as [Q1 Q2]. apply okp_ok.
  destruct (chainb_ok (length fl) fl _ ltac:(lia) Q1). repeat split; auto. intros ->. discriminate Q2.
Qed.
Lemma mdct_window_ok c : legal_config c -> okp (mdct_window c) (fun w => len w = 2 * nf c).
Proof. intros (f & d & ->). destruct f, d; (eexists; split; [reflexivity|vm_compute; reflexivity]). Qed.

Lemma mdct_inverse_ok c m buf : legal_config c -> mdct_ok c m -> len buf = nf c ->
  okp (mdct_inverse o c m buf) (fun '(b, m') => len b = nf c /\ mdct_ok c m').
Proof.
  intros L [M1 M2 M3 M4 M5 M6] Hb. destruct (config_geom c L) as (G1 & G2 & G3 & G4 & G5 & G6 & G7). unfold mdct_inverse.
  eapply okp_bind; [apply dct_factors_ok; assumption|]. intros fl (C1 & C2 & C3).
  eapply okp_bind; [apply dct_iv_len; auto; lia|]. intros [[b i] u] (E1 & E2 & E3).
  set (h := nf c / 2) in *. assert (nf c = 2 * h) by (unfold h; Z.div_mod_to_equations; lia).
  okstep; [apply Z.eqb_eq; lia|].
  okstep; [lia|lia|lia|]. okstep; [lia|lia|]. okstep; [lia|lia|]. okstep; [lia|lia|lia|].
  okstep; [lia|lia|]. okstep; [lia|lia|lia|]. okstep; [lia|lia|]. okstep; [lia|lia|lia|]. okstep; [lia|lia|]. okstep; [lia|lia|lia|].
  okstep; [lia|lia|]. okstep; [lia|lia|]. apply okp_ok. split; [assumption|]. constructor; cbn [m_ola m_t m_zeros m_half m_in m_out]; lia.
Qed.
Lemma overlap_add_ok c m buf : legal_config c -> mdct_ok c m -> len buf = nf c ->
  okp (overlap_add o c m buf) (fun '(b, m') => len b = nf c /\ mdct_ok c m').
Proof.
  intros L [M1 M2 M3 M4 M5 M6] Hb. destruct (config_geom c L) as (G1 & G2 & G3 & G4 & G5 & G6 & G7). unfold overlap_add.
  eapply okp_bind; [apply okp_usub; lia|]. intros n ->. okstep; [lia|lia|]. okstep; [lia|lia|]. okstep; [lia|lia|]. okstep; [lia|lia|]. okstep; [lia|lia|lia|].
  okstep; [lia|lia|]. okstep; [lia|lia|lia|]. apply okp_ok. split; [lia|]. constructor; cbn [m_ola m_t m_zeros m_half m_in m_out]; lia.
Qed.
Lemma mdct_run_ok c m lines freq : legal_config c -> mdct_ok c m -> len lines = ne c -> len freq = nf c ->
  okp (mdct_run o c m lines freq) (fun '(b, m') => len b = nf c /\ mdct_ok c m').
Proof.
  intros L M Hl Hf. destruct (config_geom c L) as (G1 & G2 & G3 & G4 & G5 & G6 & G7). pose proof M as [M1 M2 M3 M4 M5 M6]. unfold mdct_run.
  okstep; [now apply Z.eqb_eq|]. okstep; [now apply Z.eqb_eq|]. okstep; [lia|lia|lia|]. okstep; [lia|lia|lia|].
  eapply okp_bind; [apply mdct_inverse_ok; auto; lia|]. intros [b m1] [B1 [N1 N2 N3 N4 N5 N6]].
  eapply okp_bind; [apply mdct_window_ok; assumption|]. intros w _. apply overlap_add_ok; [assumption| |assumption].
  constructor; cbn [m_ola m_t m_zeros m_half m_in m_out]; rewrite ?len_zipmod; assumption.
Qed.

(* ---- long term post filter ---- *)
Lemma quarter_lag_ok p : 0 <= p < 512 -> okp (ltpf_quarter_lag p) (fun q => 128 <= q <= 912).
Proof.
  intros H. unfold ltpf_quarter_lag. destruct (Z.leb_spec 440 p).
  - eapply okp_bind; [apply okp_usub; lia|]. intros v ->. apply okp_ok. lia.
  - destruct (Z.leb_spec 380 p).
    + eapply okp_bind; [apply okp_usub; Z.div_mod_to_equations; lia|]. intros v ->. eapply okp_bind; [apply okp_usub; Z.div_mod_to_equations; lia|]. intros v ->.
      eapply okp_bind; [apply okp_usub; Z.div_mod_to_equations; lia|]. intros v ->. apply okp_ok. Z.div_mod_to_equations; lia.
    + eapply okp_bind; [apply okp_usub; Z.div_mod_to_equations; lia|]. intros v ->. apply okp_ok. Z.div_mod_to_equations; lia.
Qed.
(* lags usable by the filter: inside the ring whatever the block *)
Definition lag_ok (n : ltpf_lens) (p : Z) : Prop := (l_cden n - 1) / 2 < p /\ p + l_cden n <= l_x n.
Record geom_ok (c : config) (n : ltpf_lens) : Prop := mkGeom {
  ge_blocks : 2 <= l_blocks n <= 3;
  ge_x : l_x n = l_blocks n * nf c /\ l_xltpf n = l_blocks n * nf c;
  ge_coef : l_cnum n = l_cden n - 2 /\ 5 <= l_cden n <= 13;
  ge_norm : l_norm n = (if fs c =? 44100 then 48000 / 400 else fs c / 400) /\ 0 < l_norm n <= nf c;
  ge_scratch : l_scratch n = l_cnum n - 1 + l_norm n
}.
Lemma lengths_ok c : legal_config c -> okp (ltpf_lengths c) (geom_ok c).
Proof. intros (f & d & ->). destruct f, d; (eexists; split; [reflexivity|]); constructor; vm_compute; repeat split; try reflexivity; intros X; discriminate X. Qed.
Lemma params_ok c n i : legal_config c -> ltpf_lengths c = Ok n -> 0 <= l_pitch i < 512 ->
  okp (ltpf_params (fs c) i) (fun '(p, fr) => 0 <= fr < 4 /\ (l_active i = true -> lag_ok n p)).
Proof.
  intros (f & d & ->) E H. unfold ltpf_params. destruct (l_active i); [|apply okp_ok; split; [lia|discriminate]].
  eapply okp_bind; [apply quarter_lag_ok; exact H|]. intros q Hq. cbv beta in Hq. apply okp_ok.
  split; [Z.div_mod_to_equations; lia|]. intros _. unfold lag_ok, ltpf_p_up.
  destruct f, d; cbn in E; injection E as <-; cbn [l_cden l_x config_new cfg_fs fs];
    match goal with |- context [ceil_div ?a ?b] => let v := eval vm_compute in (ceil_div a b) in change (ceil_div a b) with v end; Z.div_mod_to_equations; lia.
Qed.
Lemma tables_ok c g fr : legal_config c -> 0 <= g < 4 -> 0 <= fr < 4 -> okp (ltpf_tables (fs c) g fr) (fun _ => True).
Proof.
  intros (f & d & ->) Hg Hf. unfold ltpf_tables.
  assert (Cg : g = 0 \/ g = 1 \/ g = 2 \/ g = 3) by lia. assert (Cf : fr = 0 \/ fr = 1 \/ fr = 2 \/ fr = 3) by lia.
  destruct Cg as [->|[->|[->| ->]]], Cf as [->|[->|[->| ->]]]; destruct f, d; (eexists; split; [reflexivity|exact I]).
Qed.
Lemma gain_ind_range c nbits : 0 <= snd (ltpf_gain c nbits) < 4.
Proof. unfold ltpf_gain. repeat (destruct (_ <? _); [cbn [snd]; lia|]). cbn [snd]. lia. Qed.

Record ltpf_ok (c : config) (n : ltpf_lens) (s : ltpf F) : Prop := mkLtpfOk {
  lo_zeros : len (t_zeros s) = l_cden n;
  lo_num : len (t_num s) = l_cnum n;
  lo_den : len (t_den s) = l_cden n;
  lo_num_mem : len (t_num_mem s) = l_cnum n;
  lo_den_mem : len (t_den_mem s) = l_cden n;
  lo_xl : len (t_xl s) = l_xltpf n;
  lo_x : len (t_x s) = l_x n;
  lo_scratch : len (t_scratch s) = l_scratch n;
  lo_blk : exists j, t_blk s = j * nf c /\ 0 <= j < l_blocks n;
  lo_pitch : t_active s = true -> lag_ok n (t_pint s)
}.

Lemma coeffs_ok c n s i nbits fr : legal_config c -> ltpf_lengths c = Ok n -> ltpf_ok c n s -> 0 <= fr < 4 ->
  okp (ltpf_coeffs o c s i nbits fr) (fun '(nm, dm, nu, de) => len nm = l_cnum n /\ len dm = l_cden n /\ len nu = l_cnum n /\ len de = l_cden n).
Proof.
  intros L E S Hf. destruct (lengths_ok c L) as (n' & E' & G). rewrite E in E'. injection E' as <-. destruct G as [_ _ [Gc1 Gc2] _ _].
  destruct S as [S1 S2 S3 S4 S5 _ _ _ _ _]. unfold ltpf_coeffs. okstep; [lia|lia|lia|]. okstep; [lia|lia|lia|]. destruct (l_active i).
  - destruct (ltpf_gain c nbits) as [g gi] eqn:EG. pose proof (gain_ind_range c nbits) as R. rewrite EG in R. cbn [snd] in R.
    eapply okp_bind; [apply tables_ok; assumption|]. intros [tn td] _. apply okp_ok. rewrite !len_zipmod. lia.
  - okstep; [lia|lia|]. okstep; [lia|lia|lia|]. okstep; [lia|lia|lia|]. apply okp_ok. lia.
Qed.

Lemma fir_ok op total (x : list F) start : forall cs k acc, - total <= start - (k + len cs) + 1 -> start - k < len x -> total = len x \/ 0 <= start - (k + len cs) + 1 ->
  okp (fir o op total cs x start k acc) (fun _ => True).
Proof.
  induction cs as [|c cs IH]; intros k acc H1 H2 H3; cbn [fir]; [now apply okp_ok|].
  assert (HL : len (c :: cs) = len cs + 1) by (unfold len; cbn [length]; lia). rewrite HL in *. pose proof (len_nonneg cs).
  okstep; [unfold wrap_neg; destruct (Z.ltb_spec (start - k) 0); lia|]. apply IH; lia.
Qed.
Lemma filter_ok total l_den cnum cden (x xl : list F) start pitch : len x = total -> len xl = total -> 0 <= start < total -> len cnum <= total ->
  len cden = l_den + 1 -> l_den / 2 <= pitch -> pitch + l_den + 1 <= total -> 0 <= l_den ->
  okp (compute_filter o total l_den cnum cden x xl start pitch) (fun _ => True).
Proof.
  intros Hx Hxl Hs Hn Hd Hp1 Hp2 H0. unfold compute_filter. eapply okp_bind; [apply fir_ok; lia|]. intros a _. apply fir_ok; [|lia|lia]. Z.div_mod_to_equations; lia.
Qed.
Lemma sample_ok g total l_den cnum cden (x xl : list F) blk pitch n : len x = total -> len xl = total -> 0 <= blk + n < total -> len cnum <= total ->
  len cden = l_den + 1 -> l_den / 2 <= pitch -> pitch + l_den + 1 <= total -> 0 <= l_den ->
  okp (ltpf_sample o g total l_den cnum cden x blk pitch n xl) (fun l => len l = total).
Proof.
  intros Hx Hxl Hs Hn Hd Hp1 Hp2 H0. unfold ltpf_sample. okstep; [lia|]. okstep; [lia|].
  eapply okp_bind; [apply filter_ok; auto; lia|]. intros f _. okstep; [lia|]. eapply okp_weaken; [apply okp_put; lia|]. intros; liab.
Qed.
Lemma activate_ok total l_den norm cnum cden (scratch xl : list F) blk pitch s25 nf : len xl = total -> 0 <= blk -> blk + nf <= total -> s25 = norm -> 0 < norm <= nf ->
  len cnum = l_den - 1 -> len cden = l_den + 1 -> l_den / 2 <= pitch -> pitch + l_den + 1 <= total -> 4 <= l_den -> len scratch = len cnum - 1 + norm -> (blk = 0 \/ nf <= blk) -> l_den <= nf ->
  okp (activate_from_mem o total l_den norm cnum cden blk pitch s25 scratch xl) (fun '(s, l) => len s = len scratch /\ len l = total).
Proof.
  intros Hxl Hb Hbn -> Hn Hcn Hcd Hp1 Hp2 H4 Hs Hblk Hnf. unfold activate_from_mem. eapply okp_bind; [apply okp_usub; lia|]. intros l_num ->.
  eapply okp_bind with (P := fun s => len s = len scratch).
  { destruct (Z.ltb_spec blk (len cnum - 1)).
    - eapply okp_bind; [apply okp_usub; lia|]. intros from ->. okstep; [lia|lia|]. okstep; [lia|lia|lia|]. okstep; [lia|lia|].
      eapply okp_weaken; [apply okp_blit; lia|]. intros; liab.
    - eapply okp_bind; [apply okp_usub; lia|]. intros from ->. okstep; [lia|lia|]. apply okp_blit; lia. }
  intros sc Esc. cbv beta in Esc. eapply okp_bind with (P := fun l => len l = total).
  { apply (okp_for (fun l => len l = total)); [assumption|]. intros n l Hk El. okstep; [lia|]. okstep; [lia|].
    eapply okp_bind; [apply fir_ok; lia|]. intros v _. eapply okp_bind; [apply fir_ok; [|lia|lia]; Z.div_mod_to_equations; lia|]. intros v' _.
    okstep; [lia|]. eapply okp_weaken; [apply okp_put; lia|]. intros; liab. }
  intros l El. apply okp_ok. auto.
Qed.

Lemma ltpf_run_ok c n s i nbits freq : legal_config c -> ltpf_lengths c = Ok n -> ltpf_ok c n s -> 0 <= l_pitch i < 512 -> len freq = nf c ->
  okp (ltpf_run o c s i nbits freq) (fun '(b, s') => len b = nf c /\ ltpf_ok c n s').
Proof.
  intros L E S Hp Hf. destruct (lengths_ok c L) as (n' & E' & G). rewrite E in E'. injection E' as <-.
  pose proof G as [Gb [Gx Gxl] [Gc1 Gc2] [Gn1 Gn2] Gs]. pose proof S as [S1 S2 S3 S4 S5 S6 S7 S8 (j & S9 & S9') S10].
  destruct (config_geom c L) as (G1 & _). unfold ltpf_run. rewrite E. cbn [bind].
  eapply okp_bind; [eapply params_ok; eassumption|]. intros [pint pfr] [P1 P2].
  eapply okp_bind; [eapply coeffs_ok; eassumption|]. intros [[[nm dm] nu] de] (C1 & C2 & C3 & C4).
  eapply okp_bind; [apply okp_usub; lia|]. intros l_den ->.
  assert (Hblk : 0 <= t_blk s /\ t_blk s + nf c <= l_blocks n * nf c) by nia.
  assert (Hb0 : t_blk s = 0 \/ nf c <= t_blk s) by (destruct (Z.eq_dec j 0) as [->|]; [left; lia|right; nia]).
  okstep; [lia|lia|lia|]. rename a into x. rewrite <- Gn1.
  assert (Hd2 : l_cden n - 1 <= 12) by lia.
  assert (HL : forall p, lag_ok n p -> (len de - 1) / 2 <= p /\ p + (len de - 1) + 1 <= l_blocks n * nf c) by (intros p [Q1 Q2]; rewrite C4; lia).
  set (mt := ltpf_transition _ _ _). eapply okp_bind with (P := fun '(sc, xl) => len sc = l_scratch n /\ len xl = l_blocks n * nf c).
  { assert (Hact : l_active i = true -> forall g k l, 0 <= k < nf c -> len l = l_blocks n * nf c ->
        okp (ltpf_sample o g (l_blocks n * nf c) (len de - 1) nu de x (t_blk s) pint k l) (fun l => len l = l_blocks n * nf c)).
    { intros Ha g k l Hk El. destruct (HL _ (P2 Ha)). apply sample_ok; lia. }
    assert (Hdea : t_active s = true -> forall l, len l = l_blocks n * nf c ->
        okp (for_range 0 (l_norm n) (fun k => ltpf_sample o (fun f => fmul o f (fsub o (fz o 1) (fdiv o (fz o k) (fz o (l_norm n))))) (l_blocks n * nf c) (len de - 1) nm dm x (t_blk s) (t_pint s) k) l)
          (fun l => len l = l_blocks n * nf c)).
    { intros Ha l El. destruct (HL _ (S10 Ha)). apply (okp_for (fun l => len l = l_blocks n * nf c)); [assumption|]. intros k l' Hk El'. apply sample_ok; lia. }
    assert (Hrest : l_active i = true -> forall l, len l = l_blocks n * nf c ->
        okp (for_range (l_norm n) (nf c) (fun k => ltpf_sample o (fun f => f) (l_blocks n * nf c) (len de - 1) nu de x (t_blk s) pint k) l) (fun l => len l = l_blocks n * nf c)).
    { intros Ha l El. apply (okp_for (fun l => len l = l_blocks n * nf c)); [assumption|]. intros k l' Hk El'. apply Hact; auto. lia. }
    unfold mt, ltpf_transition. destruct (l_active i) eqn:Ai, (t_active s) eqn:As; cbn [negb andb].
    - destruct ((pint =? t_pint s) && (pfr =? t_pfr s)).
      + eapply okp_bind with (P := fun l => len l = l_blocks n * nf c); [|intros l El; apply okp_ok; auto].
        apply (okp_for (fun l => len l = l_blocks n * nf c)); [lia|]. intros k l' Hk El'. apply Hact; auto.
      + eapply okp_bind; [apply Hdea; auto; lia|]. intros l El. cbv beta in El.
        eapply okp_bind; [eapply (activate_ok _ _ _ _ _ _ _ _ _ _ (nf c)); try lia; try apply (HL _ (P2 eq_refl))|].
        intros [sc l2] [Q1 Q2]. eapply okp_bind; [apply Hrest; auto|]. intros l3 El3. apply okp_ok. split; [lia|exact El3].
    - eapply okp_bind with (P := fun l => len l = l_blocks n * nf c).
      { apply (okp_for (fun l => len l = l_blocks n * nf c)); [lia|]. intros k l' Hk El'. apply Hact; auto. lia. }
      intros l El. cbv beta in El. eapply okp_bind; [apply Hrest; auto|]. intros l3 El3. apply okp_ok. auto.
    - eapply okp_bind; [apply Hdea; auto; lia|]. intros l El. cbv beta in El.
      eapply okp_bind with (P := fun l => len l = l_blocks n * nf c); [|intros l2 El2; apply okp_ok; auto].
      apply (okp_for (fun l => len l = l_blocks n * nf c)); [assumption|]. intros k l' Hk El'. okstep; [lia|]. eapply okp_weaken; [apply okp_put; lia|]. intros; liab.
    - okstep; [lia|lia|]. okstep; [lia|lia|lia|]. apply okp_ok. lia. }
  intros [sc xl] [Q1 Q2]. okstep; [lia|lia|]. okstep; [lia|lia|lia|]. apply okp_ok. split; [lia|].
  constructor; cbn [t_zeros t_num t_den t_num_mem t_den_mem t_xl t_x t_scratch t_blk t_active t_pint]; auto; try lia.
  destruct (Z.ltb_spec ((l_blocks n - 1) * nf c) (t_blk s + nf c)); [exists 0; lia|]. exists (j + 1). split; [lia|]. nia.
Qed.
End State.
