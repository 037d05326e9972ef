(* Specification of the payload of a frame, independent of the encoder's and decoder's control flow: the bits written from the
   end of the frame and the symbols coded from its beginning, in the order in which they are produced. *)
From Coq Require Import ZArith List Bool.
From Verif Require Import Base AcSpec TailSpec TablesProofs TablesSpec TablesSns FrameEnc.
Import ListNotations.
Local Open Scope Z_scope.

Inductive ev : Set := EBit (b : bool) | ESym (y : sym).

Definition ev_bits (l : list ev) : list bool := flat_map (fun e => match e with EBit b => [b] | ESym _ => [] end) l.
Definition ev_syms (l : list ev) : list sym := flat_map (fun e => match e with EBit _ => [] | ESym y => [y] end) l.
Definition tbits (l : list ev) : Z := len (ev_bits l).
(* final coding interval of the symbols *)
Definition fin (l : list ev) : ival := irun ival0 (ev_syms l).
(* number of bits a payload takes *)
Definition payload_bits (l : list ev) : Z := tbits l + ari_bits (fin l).

(* ---- side information ---- *)
Definition flag_bits (num : Z) (rc_order : list Z) : list bool :=
  map (fun x => negb (x =? 0)) (firstn (Z.to_nat num) rc_order).

(* shapes 0, 1 have a one bit gain and a 25 bit joint index, shapes 2, 3 a two bit gain and a 24 bit index *)
Definition sns_bits (p : enc_params) : list bool :=
  bits_of (p_ind_lf p) 5 ++ bits_of (p_ind_hf p) 5 ++ [2 <=? p_shape_j p] ++
  bits_of (p_gind p / (if Z.odd (p_shape_j p) then 2 else 1)) (if 2 <=? p_shape_j p then 2 else 1) ++
  [negb (p_ls_inda p =? 0)] ++
  bits_of (p_index_joint p) (if 2 <=? p_shape_j p then 24 else 25).

Definition side_bits (ne : Z) (p : enc_params) : list bool :=
  bits_of (p_bw p) (Z.to_nat (p_nbits_bw p)) ++
  bits_of (p_lastnz p / 2 - 1) (Z.to_nat (Z.log2_up (ne / 2))) ++
  [p_lsb_mode p] ++
  bits_of (p_gg p) 8 ++
  flag_bits (p_num_tns p) (p_rc_order p) ++
  [p_pitch_present p] ++
  sns_bits p ++
  (if p_pitch_present p then p_ltpf_active p :: bits_of (p_pitch_index p) 9 else []) ++
  bits_of (p_nf p) 3.

(* ---- TNS ---- *)
Definition zseq (n : nat) : list Z := map Z.of_nat (seq 0 n).

Definition tns_filter_evs (w : Z) (order : Z) (coefs : list Z) : list ev :=
  if 0 <? order then
    ESym (msym (tns_order_model w) (order - 1)) ::
    map (fun k => ESym (msym (tns_coef_model k) (nth (Z.to_nat k) coefs 0))) (zseq (Z.to_nat order))
  else [].

Definition tns_evs (num w : Z) (rc_order rc_i : list Z) : list ev :=
  flat_map (fun f => tns_filter_evs w (nth (Z.to_nat f) rc_order 0) (skipn (Z.to_nat (8 * f)) rc_i)) (zseq (Z.to_nat num)).

(* ---- spectrum ---- *)
(* model for context t at escape level lev *)
Definition lk (t lev : Z) : model := spec_model (nth (Z.to_nat (t + Z.min lev 3 * 1024)) AC_SPEC_LOOKUP 0).

(* magnitudes are halved (escape symbol 16, low bits at the tail) until both are below 4;
   in lsb mode the bits of the first halving are not sent here *)
Fixpoint esc_evs (fuel : nat) (lsb : bool) (t a b lev : Z) : list ev :=
  if 4 <=? Z.max a b then
    match fuel with
    | O => []
    | S f =>
        ESym (msym (lk t lev) 16) ::
        (if lsb && (lev =? 0) then [] else [EBit (Z.odd a); EBit (Z.odd b)]) ++
        esc_evs f lsb t (a / 2) (b / 2) (lev + 1)
    end
  else [ESym (msym (lk t lev) (a + 4 * b))].

(* number of halvings *)
Fixpoint esc_lev (fuel : nat) (a b : Z) : Z :=
  if 4 <=? Z.max a b then match fuel with O => 0 | S f => 1 + esc_lev f (a / 2) (b / 2) end else 0.

Definition sign_evs (mag x : Z) : list ev := if 0 <? mag then [EBit (x <? 0)] else [].

(* magnitude that carries a sign bit in the spectral data proper *)
Definition sent_mag (lsb : bool) (lev x : Z) : Z := if lsb && (0 <? lev) then Z.abs x / 2 else Z.abs x.

Definition ctx_next (c lev a b : Z) : Z :=
  (c mod 16) * 16 + (if Z.min lev 3 <=? 1 then 1 + (a + b) * (Z.min lev 3 + 1) else 12 + Z.min lev 3).

Definition pair_ctx (ne k c rate : Z) : Z := c + rate + (if ne / 2 <? k then 256 else 0).

Definition pair_evs (lsb : bool) (ne k c rate x0 x1 : Z) : list ev :=
  let lev := esc_lev 16 (Z.abs x0) (Z.abs x1) in
  esc_evs 16 lsb (pair_ctx ne k c rate) (Z.abs x0) (Z.abs x1) 0 ++
  sign_evs (sent_mag lsb lev x0) x0 ++ sign_evs (sent_mag lsb lev x1) x1.

Definition pair_next (c x0 x1 : Z) : Z :=
  let lev := esc_lev 16 (Z.abs x0) (Z.abs x1) in
  ctx_next c lev (Z.abs x0 / 2 ^ lev) (Z.abs x1 / 2 ^ lev).

(* lines k, k + 1, ... two by two *)
Fixpoint spec_evs (n : nat) (lsb : bool) (ne k c rate : Z) (xq : list Z) : list ev :=
  match n with
  | O => []
  | S n' =>
      let x0 := nth (Z.to_nat k) xq 0 in
      let x1 := nth (Z.to_nat (k + 1)) xq 0 in
      pair_evs lsb ne k c rate x0 x1 ++ spec_evs n' lsb ne (k + 2) (pair_next c x0 x1) rate xq
  end.

(* ---- the payload without residual bits ---- *)
Definition payload (ne : Z) (p : enc_params) : list ev :=
  map EBit (side_bits ne p) ++
  tns_evs (p_num_tns p) (p_lpc_weighting p) (p_rc_order p) (p_rc_i p) ++
  spec_evs (Z.to_nat (p_lastnz p / 2)) (p_lsb_mode p) ne 0 0 (p_rate_flag p) (p_xq p).
