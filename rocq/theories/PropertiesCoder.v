(* Final theorems: arithmetic coder and its tables (C01, C02, C32, C33). *)
From Coq Require Import ZArith List Bool Lia.
From Verif Require Import Base Writer Reader AcEnc AcDec AcSpec AcStream AcStreamProofs AcDecProofs TablesProofs TablesSpec TablesTns BufLemmas.
Import ListNotations.
Local Open Scope Z_scope.

(* C01: any symbol sequence, coded with arbitrary adaptive models, is decoded again from the emitted bytes followed
   by zero bits. `stream_bits` is the number of bits charged by the ideal interval coder; two more bytes must be
   present because the decoder looks ahead (in a frame they are always there: side information). *)
Theorem C01_entropy_coder_lossless :
  forall (ctx : list Z -> model), (forall h, valid_model (ctx h)) ->
  forall L syms, stream_ok ctx [] syms -> L < 65536 -> stream_bits ctx syms + 16 <= 8 * L ->
  exists buf, enc_all ctx L syms = Ok buf /\ len buf = L /\ bytes buf /\ dec_all ctx buf (length syms) = Ok syms.
Proof. exact ac_lossless. Qed.
Print Assumptions C01_entropy_coder_lossless.

(* a case meeting the hypotheses: the spectral model number picked by the previous symbol *)
Definition ex_ctx (h : list Z) : model := spec_model ((nth 0 (rev h) 0 * 3) mod 64).
Lemma ex_ctx_valid h : valid_model (ex_ctx h).
Proof. apply spec_model_ok. apply Z.mod_pos_bound. lia. Qed.
Example C01_case : stream_ok ex_ctx [] [14; 9; 16; 16; 3; 0] /\ stream_bits ex_ctx [14; 9; 16; 16; 3; 0] + 16 <= 8 * 6 /\
  enc_all ex_ctx 6 [14; 9; 16; 16; 3; 0] = Ok [201; 249; 193; 16; 0; 0] /\
  dec_all ex_ctx [201; 249; 193; 16; 0; 0] 6 = Ok [14; 9; 16; 16; 3; 0].
Proof. vm_compute. repeat split; congruence. Qed.

(* C02 as stated is false of the code: with spectral model 0 the symbols 14, 9 are followed by one bits and decode to
   14, 10. (`high` is not reduced modulo 2^24 in ac_enc_finish, bitstream_encoding.rs:362-367.) *)
Theorem C02_termination_robust_refuted :
  exists ctx L syms buf buf',
    (forall h, valid_model (ctx h)) /\ stream_ok ctx [] syms /\ stream_bits ctx syms + 16 <= 8 * L /\
    enc_all ctx L syms = Ok buf /\ bytes buf' /\ len buf' = L /\
    be buf' / 2 ^ (8 * L - stream_bits ctx syms) = be buf / 2 ^ (8 * L - stream_bits ctx syms) /\
    dec_all ctx buf' (length syms) = Ok [14; 10] /\ syms = [14; 9].
Proof.
  exists (fun _ => spec_model 0), 8, [14; 9], [204; 0; 0; 0; 0; 0; 0; 0], [204; 63; 255; 255; 255; 255; 255; 255].
  split; [intros; now apply spec_model_ok|].
  split; [vm_compute; repeat split; congruence|].
  split; [vm_compute; congruence|].
  split; [vm_compute; reflexivity|].
  split; [unfold bytes, is_byte; repeat constructor; lia|].
  vm_compute. repeat split.
Qed.
Print Assumptions C02_termination_robust_refuted.

(* C02, the part that holds: outside the window `term_window` (AcSpec.v) the bits after the code word are irrelevant. *)
Theorem C02_termination_robust_partial :
  forall (ctx : list Z -> model), (forall h, valid_model (ctx h)) ->
  forall L syms, stream_ok ctx [] syms -> L < 65536 -> stream_bits ctx syms + 16 <= 8 * L ->
  ~ term_window (irun ival0 (stream_syms ctx [] syms)) ->
  exists buf w, enc_all ctx L syms = Ok buf /\ 0 <= w <= stream_bits ctx syms /\
    forall buf', bytes buf' -> len buf' = L -> be buf' / 2 ^ (8 * L - w) = be buf / 2 ^ (8 * L - w) ->
      dec_all ctx buf' (length syms) = Ok syms.
Proof. exact ac_robust. Qed.
Print Assumptions C02_termination_robust_partial.

Example C02_case : ~ term_window (irun ival0 (stream_syms ex_ctx [] [14; 9; 16; 16; 3; 0])).
Proof. vm_compute. intros [A _]. apply A. reflexivity. Qed.

(* C32: every context of the spectral decoder (t < 1024, level < 4) selects one of 64 valid models of 17 symbols;
   the TNS models are valid as well; in a valid model the decoder's search always finds exactly one symbol. *)
Theorem C32_tables_are_models :
  (forall t lev, 0 <= t < 1024 -> 0 <= lev < 4 ->
     exists pk cum freq, idx AC_SPEC_LOOKUP (t + lev * 1024) = Ok pk /\
       idx AC_SPEC_CUMFREQ pk = Ok cum /\ idx AC_SPEC_FREQ pk = Ok freq /\
       valid_model (cum, freq) /\ msize (cum, freq) = 17) /\
  (forall w, 0 <= w < 2 -> exists cum freq, idx AC_TNS_ORDER_CUMFREQ w = Ok cum /\ idx AC_TNS_ORDER_FREQ w = Ok freq /\
       valid_model (cum, freq) /\ msize (cum, freq) = 8) /\
  (forall k, 0 <= k < 8 -> exists cum freq, idx AC_TNS_COEF_CUMFREQ k = Ok cum /\ idx AC_TNS_COEF_FREQ k = Ok freq /\
       valid_model (cum, freq) /\ msize (cum, freq) = 17).
Proof.
  split; [|split].
  - intros t lev Ht Hl. destruct (lookup_ok (t + lev * 1024) ltac:(lia)) as (pk & E & Hpk).
    destruct (spec_rows pk Hpk) as [E1 E2]. destruct (spec_model_ok pk Hpk) as [V M].
    exists pk, (fst (spec_model pk)), (snd (spec_model pk)). auto.
  - intros w Hw. destruct (tns_order_rows w Hw) as [E1 E2]. destruct (tns_order_model_ok w Hw) as [V M].
    exists (fst (tns_order_model w)), (snd (tns_order_model w)). auto.
  - intros k Hk. destruct (tns_coef_rows k Hk) as [E1 E2]. destruct (tns_coef_model_ok k Hk) as [V M].
    exists (fst (tns_coef_model k)), (snd (tns_coef_model k)). auto.
Qed.
Print Assumptions C32_tables_are_models.

Theorem C32_search_finds_the_symbol :
  forall m low tmp, valid_model m -> 0 < tmp -> 0 <= low < tmp * 1024 ->
  exists i, 0 <= i < msize m /\ ac_search low tmp (fst m) (length (fst m) - 1) = Ok i /\
    tmp * fst (msym m i) <= low < tmp * (fst (msym m i) + snd (msym m i)) /\
    (forall j, 0 <= j < msize m -> tmp * fst (msym m j) <= low < tmp * (fst (msym m j) + snd (msym m j)) -> j = i).
Proof.
  intros m low tmp V Ht Hl. destruct (ac_search_cover m low tmp V Ht Hl) as (i & Hi & E & Hr).
  exists i. split; [exact Hi|]. split; [exact E|]. split; [exact Hr|].
  intros j Hj Hr'. apply (model_unique m (low / tmp) j i V Hj Hi);
    (split; [apply Z.div_le_lower_bound; lia|apply Z.div_lt_upper_bound; lia]).
Qed.
Print Assumptions C32_search_finds_the_symbol.

Example C32_case : ac_search 100000 300 (fst (spec_model 5)) 16 = Ok 7.
Proof. vm_compute. reflexivity. Qed.

(* C33: each tabulated cost is exactly ceil (2048 * log2 (1024 / freq)) (units of 1/2048 bit); `cost_is_ceil` is the
   statement 1024^2048 <= 2^cost * freq^2048 and 2^(cost-1) * freq^2048 < 1024^2048. *)
Theorem C33_bit_costs :
  (forall pk s, (pk < 64)%nat -> (s < 17)%nat -> cost_is_ceil (nth s (nth pk AC_SPEC_BITS []) 0) (nth s (nth pk AC_SPEC_FREQ []) 0)) /\
  (forall w s, (w < 2)%nat -> (s < 8)%nat -> cost_is_ceil (nth s (nth w AC_TNS_ORDER_BITS []) 0) (nth s (nth w AC_TNS_ORDER_FREQ []) 0)) /\
  (forall k s, (k < 8)%nat -> (s < 17)%nat -> cost_is_ceil (nth s (nth k AC_TNS_COEF_BITS []) 0) (nth s (nth k AC_TNS_COEF_FREQ []) 0)).
Proof.
  split; [|split]; intros i s Hi Hs.
  - apply costs_ok_nth; [exact spec_costs_check|exact Hi|].
    destruct (spec_model_ok (Z.of_nat i) ltac:(lia)) as [V M]. unfold msize, spec_model in M. rewrite Nat2Z.id in M.
    pose proof (vm_len _ V) as VL. unfold spec_model in VL. rewrite Nat2Z.id in VL. cbn [fst snd] in *. lia.
  - apply costs_ok_nth; [exact tns_order_costs_check|exact Hi|].
    destruct (tns_order_model_ok (Z.of_nat i) ltac:(lia)) as [V M]. unfold msize, tns_order_model in M. rewrite Nat2Z.id in M.
    pose proof (vm_len _ V) as VL. unfold tns_order_model in VL. rewrite Nat2Z.id in VL. cbn [fst snd] in *. lia.
  - apply costs_ok_nth; [exact tns_coef_costs_check|exact Hi|].
    destruct (tns_coef_model_ok (Z.of_nat i) ltac:(lia)) as [V M]. unfold msize, tns_coef_model in M. rewrite Nat2Z.id in M.
    pose proof (vm_len _ V) as VL. unfold tns_coef_model in VL. rewrite Nat2Z.id in VL. cbn [fst snd] in *. lia.
Qed.
Print Assumptions C33_bit_costs.

Example C33_case : nth 16 (nth 22 AC_SPEC_BITS []) 0 = 828 /\ nth 16 (nth 22 AC_SPEC_FREQ []) 0 = 774.
Proof. split; reflexivity. Qed.
