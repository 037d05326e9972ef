(* Side information: /repo/src/decoder/side_info.rs, /repo/src/decoder/side_info_reader.rs *)
From Coq Require Import ZArith List Bool.
From Verif Require Import Base Reader.
Import ListNotations.
Local Open Scope Z_scope.

(* side_info.rs:13-24 *)
Record sns_vq : Set := mkSnsVq {
  q_ind_lf : Z; q_ind_hf : Z;
  q_ls_inda : Z; q_ls_indb : Z;
  q_idx_a : Z; q_idx_b : Z;
  q_submode_lsb : Z; q_submode_msb : Z;
  q_g_ind : Z
}.

(* side_info.rs:26-40 *)
Record ltpf_info : Set := mkLtpf { l_present : bool; l_active : bool; l_pitch : Z }.

(* side_info.rs:42-62; bandwidth 0..4 stands for the enum at 1-11 *)
Record side_info : Set := mkSide {
  s_bw : Z;
  s_lastnz : Z;
  s_lsb_mode : bool;
  s_gg : Z;
  s_num_tns : Z;
  s_rc_order : list Z;
  s_sns : sns_vq;
  s_ltpf : ltpf_info;
  s_nf : Z
}.

(* side_info_reader.rs:11 *)
Definition NBITS_BW_TABLE : list Z := [0; 1; 2; 2; 3].

(* side_info_reader.rs:68-70; the remaining entries of rc_order stay 0 *)
Fixpoint read_flags (n : nat) (buf : list Z) (r : reader) : res (list Z * reader) :=
  match n with
  | O => Ok ([], r)
  | S n' =>
      '(b, r) <- read_tail_bool r buf ;;
      '(bs, r) <- read_flags n' buf r ;;
      Ok (b2z b :: bs, r)
  end.

(* side_info_reader.rs:105-125 *)
Definition read_ltpf (buf : list Z) (r : reader) (pitch_present : bool) : res (ltpf_info * reader) :=
  if pitch_present then
    '(active, r) <- read_tail_bool r buf ;;
    '(pitch, r) <- read_tail_usize r buf 9 ;;
    Ok (mkLtpf true active pitch, r)
  else Ok (mkLtpf false false 0, r).

(* side_info_reader.rs:127-200. `idx_bor_gain_lsb` is i32, cast to usize after adding 2 * submode_lsb *)
Definition read_sns_vq (buf : list Z) (r : reader) : res (sns_vq * reader) :=
  '(ind_lf, r) <- read_tail_usize r buf 5 ;;
  '(ind_hf, r) <- read_tail_usize r buf 5 ;;
  '(msb, r) <- read_tail_bool r buf ;;
  '(g_ind, r) <- (if negb msb then read_tail_usize r buf 1 else read_tail_usize r buf 2) ;;
  '(inda, r) <- read_tail_bool r buf ;;
  let ls_inda := b2z inda in
  if negb msb then
    '(tmp, r) <- read_tail_usize r buf 25 ;;
    if 33460056 <=? tmp then Err PlcTriggerSns1OutOfRange
    else
      let q := tmp / 2390004 in
      idx_a <- usub tmp (q * 2390004) ;;
      let q2 := q - 2 in
      let submode_lsb := if q2 <? 0 then 1 else 0 in
      let q3 := q2 + submode_lsb * 2 in
      if submode_lsb =? 0 then
        Ok (mkSnsVq ind_lf ind_hf ls_inda (Z.land q3 1) idx_a (Z.shiftr q3 1) 0 0 g_ind, r)
      else
        Ok (mkSnsVq ind_lf ind_hf ls_inda 0 idx_a 0 1 0 (Z.shiftl g_ind 1 + q3), r)
  else
    '(tmp, r) <- read_tail_usize r buf 24 ;;
    if 16708096 <=? tmp then Err PlcTriggerSns2OutOfRange
    else if 15158272 <=? tmp then
      let tmp := tmp - 15158272 in
      Ok (mkSnsVq ind_lf ind_hf ls_inda 0 (Z.shiftr tmp 1) 0 1 1 (Z.shiftl g_ind 1 + Z.land tmp 1), r)
    else Ok (mkSnsVq ind_lf ind_hf ls_inda 0 tmp 0 0 1 g_ind, r).

(* side_info_reader.rs:29-103; `ceil(log2(ne / 2))` with integer division ne / 2 *)
Definition read_side_info (buf : list Z) (r : reader) (fs_ind ne : Z) : res (side_info * reader) :=
  nbits_bw <- idx NBITS_BW_TABLE fs_ind ;;
  '(p_bw, r) <-
    (if 0 <? nbits_bw then
       '(i, r) <- read_tail_usize r buf nbits_bw ;;
       if fs_ind <? i then Err BandwidthIdxOutOfRange else Ok (i, r)
     else Ok (0, r)) ;;
  '(lnz, r) <- read_tail_usize r buf (log2_ceil (ne / 2)) ;;
  let lastnz := Z.shiftl (lnz + 1) 1 in
  if ne <? lastnz then Err LastNonZeroTupleGreaterThanYLen
  else
    '(lsb_mode, r) <- read_tail_bool r buf ;;
    '(gg, r) <- read_tail_usize r buf 8 ;;
    let num_tns := if p_bw <? 3 then 1 else 2 in
    '(flags, r) <- read_flags (Z.to_nat num_tns) buf r ;;
    '(pitch_present, r) <- read_tail_bool r buf ;;
    '(sns, r) <- read_sns_vq buf r ;;
    '(ltpf, r) <- read_ltpf buf r pitch_present ;;
    '(nf, r) <- read_tail_usize r buf 3 ;;
    if 4 <? p_bw then Err BandwidthIdxOutOfRange
    else Ok (mkSide p_bw lastnz lsb_mode gg num_tns (flags ++ repeat 0 (2 - length flags)) sns ltpf nf, r).
