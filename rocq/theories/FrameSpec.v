(* What a frame means: legal parameters and the parse result expected for them. *)
From Coq Require Import ZArith List Bool.
From Verif Require Import Base Config Reader AcEnc AcDec AcSpec SideInfo ArithDec FrameDec TailSpec FrameEnc PayloadSpec EncPayload EncFrame.
Import ListNotations.
Local Open Scope Z_scope.

(* legal scale factor quantiser outputs; sizes of the MPVQ code books: N(10,10)/2 = 2390004, N(6,1)/2 = 6,
   N(16,8)/2 = 15158272, N(16,6)/2 = 774912 *)
Record sns_legal (q : sns_vq) : Prop := mkSl {
  sl_lf : 0 <= q_ind_lf q < 32;
  sl_hf : 0 <= q_ind_hf q < 32;
  sl_a : q_ls_inda q = 0 \/ q_ls_inda q = 1;
  sl_rest :
    (q_submode_msb q = 0 /\ q_submode_lsb q = 0 /\ 0 <= q_g_ind q < 2 /\ 0 <= q_idx_a q < 2390004 /\ 0 <= q_idx_b q < 6 /\
      (q_ls_indb q = 0 \/ q_ls_indb q = 1)) \/
    (q_submode_msb q = 0 /\ q_submode_lsb q = 1 /\ 0 <= q_g_ind q < 4 /\ 0 <= q_idx_a q < 2390004 /\ q_idx_b q = 0 /\ q_ls_indb q = 0) \/
    (q_submode_msb q = 1 /\ q_submode_lsb q = 0 /\ 0 <= q_g_ind q < 4 /\ 0 <= q_idx_a q < 15158272 /\ q_idx_b q = 0 /\ q_ls_indb q = 0) \/
    (q_submode_msb q = 1 /\ q_submode_lsb q = 1 /\ 0 <= q_g_ind q < 8 /\ 0 <= q_idx_a q < 774912 /\ q_idx_b q = 0 /\ q_ls_indb q = 0)
}.

(* encoder/spectral_noise_shaping.rs:520-549 *)
Definition sns_joint (q : sns_vq) : Z :=
  if q_submode_msb q =? 0 then
    if q_submode_lsb q =? 0 then (2 * q_idx_b q + q_ls_indb q + 2) * 2390004 + q_idx_a q
    else q_g_ind q mod 2 * 2390004 + q_idx_a q
  else
    if q_submode_lsb q =? 0 then q_idx_a q else 15158272 + q_g_ind q mod 2 + 2 * q_idx_a q.

(* side information fields within their ranges for configuration c; q explains the joint index *)
Record side_legal (c : config) (p : enc_params) (q : sns_vq) : Prop := mkSideLegal {
  le_fs : 0 <= fs_ind c <= 4;
  le_bw : 0 <= p_bw p <= fs_ind c;
  le_nbw : p_nbits_bw p = nth (Z.to_nat (fs_ind c)) NBITS_BW_TABLE 0;
  le_lastnz : 2 <= p_lastnz p <= ne c;
  le_even : Z.even (p_lastnz p) = true;
  le_gg : 0 <= p_gg p < 256;
  le_num : p_num_tns p = if p_bw p <? 3 then 1 else 2;
  le_rco : len (p_rc_order p) = 2;
  le_sns : sns_legal q;
  le_lf : p_ind_lf p = q_ind_lf q;
  le_hf : p_ind_hf p = q_ind_hf q;
  le_shape : p_shape_j p = 2 * q_submode_msb q + q_submode_lsb q;
  le_gind : p_gind p = q_g_ind q;
  le_inda : p_ls_inda p = q_ls_inda q;
  le_joint : p_index_joint p = sns_joint q;
  le_pitch : 0 <= p_pitch_index p < 512;
  le_nf : 0 <= p_nf p < 8
}.

(* the flags of the filters; the decoder's array has two entries *)
Definition spec_flags (p : enc_params) : list Z :=
  let f i := if nth i (p_rc_order p) 0 =? 0 then 0 else 1 in
  if p_num_tns p =? 1 then [f 0%nat; 0] else [f 0%nat; f 1%nat].

Definition spec_side (p : enc_params) (q : sns_vq) : side_info :=
  mkSide (p_bw p) (p_lastnz p) (p_lsb_mode p) (p_gg p) (p_num_tns p) (spec_flags p) q
    (if p_pitch_present p then mkLtpf true (p_ltpf_active p) (p_pitch_index p) else mkLtpf false false 0) (p_nf p).

(* ten legal configurations (44.1 kHz has the geometry of 48 kHz) *)
Definition legal_config (c : config) : Prop := exists f d, c = config_new f d.

(* everything the writer is given is in range for a frame of L bytes in configuration c *)
Record frame_legal (c : config) (L : Z) (p : enc_params) (q : sns_vq) : Prop := mkFrameLegal {
  fl_side : side_legal c p q;
  fl_tns : tns_params_ok (p_rc_order p) (p_rc_i p);
  fl_w : p_lpc_weighting p = tns_weighting (n_ms c) (8 * L);
  fl_rate : p_rate_flag p = rate_flag (8 * L) (fs_ind c);
  fl_len : p_lastnz p <= len (p_xq p);
  fl_mag : forall i, 0 <= i < p_lastnz p -> Z.abs (nth (Z.to_nat i) (p_xq p) 0) <= 32767;
  fl_nlsb : p_nbits_lsb p <= MAX_NBITS_LSB;
  fl_lsbs : p_lsb_mode p = true -> len (spec_lsbs (Z.to_nat (p_lastnz p / 2)) true 0 (p_xq p)) <= p_nbits_lsb p
}.

(* coefficient indices of the active filters, 8 places per filter, zero elsewhere *)
Definition spec_tns_idx (p : enc_params) : list Z :=
  map (fun i => if (Z.of_nat i / 8 <? p_num_tns p) && (Z.of_nat i mod 8 <? nth (i / 8) (p_rc_order p) 0) then nth i (p_rc_i p) 0 else 0) (seq 0 16).
Definition spec_orders (p : enc_params) : list Z := [nth 0 (p_rc_order p) 0; if p_num_tns p =? 1 then 0 else nth 1 (p_rc_order p) 0].

(* the quantised lines below lastnz, zero above; MAX_LEN_SPECTRAL lines *)
Definition spec_lines (p : enc_params) : list Z :=
  firstn (Z.to_nat (p_lastnz p)) (p_xq p) ++ repeat 0 (Z.to_nat (MAX_LEN_SPECTRAL - p_lastnz p)).

Fixpoint weighted_sum (l : list Z) (k : Z) : Z := match l with [] => 0 | x :: t => k * Z.abs x + weighted_sum t (k + 1) end.
(* noise filling seed: low 16 bits of sum of i * |x_i| *)
Definition spec_seed (l : list Z) : Z := weighted_sum l 0 mod 65536.
Definition nonzero_count (l : list Z) : Z := len (filter (fun x => negb (x =? 0)) l).
Definition spec_zero (p : enc_params) : bool :=
  (p_lastnz p =? 2) && (nth 0 (p_xq p) 0 =? 0) && (nth 1 (p_xq p) 0 =? 0) && (p_gg p =? 0).
