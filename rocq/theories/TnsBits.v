(* The bits the encoder charges for temporal noise shaping, against the events of PayloadSpec. *)
From Coq Require Import ZArith List Bool Lia ZifyBool.
From Verif Require Import Base Config Loops Scalar EncScalar EncF32 AcSpec AcSpecProofs AcDecProofs AcStreamProofs BufLemmas DecSignal DetectSpec TablesProofs TablesTns
  FrameEnc PayloadSpec Events EncPayload EncFrame EncQuant EncTns EstimateSpec QuantSpec.
Import ListNotations.
Local Open Scope Z_scope.

Lemma tns_order_bits w i : 0 <= w < 2 -> 0 <= i < 8 -> idx2 AC_TNS_ORDER_BITS w i = Ok (price (snd (msym (tns_order_model w) i))) /\
  0 <= price (snd (msym (tns_order_model w) i)) /\ price (snd (msym (tns_order_model w) i)) + 20480 * (i + 1) <= 168896.
Proof.
  intros Hw Hi. destruct (tns_order_model_ok w Hw) as [V M]. pose proof (vm_len _ V) as VL. unfold msize in M.
  pose proof (msym_valid _ i V ltac:(unfold msize; lia)) as (VS1 & VS2 & VS3).
  unfold tns_order_model in VL, M. cbn [fst snd] in VL, M.
  destruct (costs_ok_nth AC_TNS_ORDER_BITS AC_TNS_ORDER_FREQ (Z.to_nat w) (Z.to_nat i) tns_order_costs_check) as [LB C]; [change (length AC_TNS_ORDER_FREQ) with 2%nat; lia|unfold len in M; lia|].
  pose proof (zrange_forall (fun w => forallb (fun s => let v := nth (Z.to_nat s) (nth (Z.to_nat w) AC_TNS_ORDER_BITS []) 0 in (1 <=? v) && (v + 20480 * (s + 1) <=? 168896)) (zrange 8)) 2 ltac:(vm_compute; reflexivity) w Hw) as Q.
  cbn beta in Q. pose proof (zrange_forall _ 8 Q i Hi) as Q2. cbv beta zeta in Q2. apply andb_true_iff in Q2. destruct Q2 as [Q2 Q3].
  assert (PU : price (snd (msym (tns_order_model w) i)) = nth (Z.to_nat i) (nth (Z.to_nat w) AC_TNS_ORDER_BITS []) 0) by (apply price_unique; [lia|lia|exact C]).
  rewrite PU. split; [|lia]. unfold idx2. rewrite (idx_nth AC_TNS_ORDER_BITS w []) by (change (len AC_TNS_ORDER_BITS) with 2; lia). cbn [bind]. rewrite (idx_nth _ i 0) by (unfold len; lia). reflexivity.
Qed.
Lemma tns_coef_bits k v : 0 <= k < 8 -> 0 <= v < 17 -> idx2 AC_TNS_COEF_BITS k v = Ok (price (snd (msym (tns_coef_model k) v))) /\ 0 <= price (snd (msym (tns_coef_model k) v)) <= 20480.
Proof.
  intros Hk Hv. destruct (tns_coef_model_ok k Hk) as [V M]. pose proof (vm_len _ V) as VL. unfold msize in M.
  pose proof (msym_valid _ v V ltac:(unfold msize; lia)) as (VS1 & VS2 & VS3).
  unfold tns_coef_model in VL, M. cbn [fst snd] in VL, M.
  destruct (costs_ok_nth AC_TNS_COEF_BITS AC_TNS_COEF_FREQ (Z.to_nat k) (Z.to_nat v) tns_coef_costs_check) as [LB C]; [change (length AC_TNS_COEF_FREQ) with 8%nat; lia|unfold len in M; lia|].
  pose proof (zrange_forall (fun w => forallb (fun s => let v := nth (Z.to_nat s) (nth (Z.to_nat w) AC_TNS_COEF_BITS []) 0 in (1 <=? v)) (zrange 17)) 8 ltac:(vm_compute; reflexivity) k Hk) as Q.
  cbn beta in Q. pose proof (zrange_forall _ 17 Q v Hv) as Q2. cbv beta zeta in Q2.
  assert (PU : price (snd (msym (tns_coef_model k) v)) = nth (Z.to_nat v) (nth (Z.to_nat k) AC_TNS_COEF_BITS []) 0) by (apply price_unique; [lia|lia|exact C]).
  split; [|apply price_range; lia]. rewrite PU. unfold idx2. rewrite (idx_nth AC_TNS_COEF_BITS k []) by (change (len AC_TNS_COEF_BITS) with 8; lia). cbn [bind]. rewrite (idx_nth _ v 0) by (unfold len; lia). reflexivity.
Qed.

Lemma coef_cost (f : Z -> sym) l : forall a, fold_left (fun s i => s + price (snd (f i))) l a = a + ev_cost (map (fun i => ESym (f i)) l).
Proof. induction l as [|i l IH]; intros a; cbn [fold_left map]; [rewrite ev_cost_nil; lia|]. rewrite IH, ev_cost_sym. lia. Qed.
Lemma coef_cost_bound (f : Z -> sym) l : (forall i, In i l -> 0 <= price (snd (f i)) <= 20480) -> 0 <= ev_cost (map (fun i => ESym (f i)) l) <= 20480 * len l.
Proof.
  induction l as [|i l IH]; intros H; cbn [map]; [rewrite ev_cost_nil; change (len (@nil Z)) with 0; lia|]. rewrite ev_cost_sym, len_cons.
  specialize (IH ltac:(intros; apply H; now right)). specialize (H i ltac:(now left)). lia.
Qed.

Section TnsBits.
Context {F : Type} (o : ops F) (e : eops F) (EL : elaws o e).

(* a filter costs its flag and the symbols of its order and coefficients *)
Definition filter_cost (w : Z) (rc_i ord : list Z) (f : Z) : Z := 2048 + ev_cost (tns_filter_evs w (nth (Z.to_nat f) ord 0) (skipn (Z.to_nat (8 * f)) rc_i)).

Lemma tns_filter_bits_spec w rc_i ord f : 0 <= w < 2 -> tns_params_ok ord rc_i -> 0 <= f < 2 ->
  tns_filter_bits o e w rc_i ord f = Ok (whole_bits (filter_cost w rc_i ord f)) /\ 2048 <= filter_cost w rc_i ord f <= 170944.
Proof.
  intros Hw (L1 & L2 & F1 & F2) Hf. unfold tns_filter_bits. rewrite (idx_nth ord f 0) by lia. cbn [bind]. set (n := nth (Z.to_nat f) ord 0).
  assert (Hn : 0 <= n <= 8) by (apply (Forall_nth_range (fun x => 0 <= x <= 8)); [exact F1|lia]).
  assert (C : forall k, 0 <= k < n -> idx rc_i (f * 8 + k) = Ok (nth (Z.to_nat k) (skipn (Z.to_nat (8 * f)) rc_i) 0) /\ 0 <= nth (Z.to_nat k) (skipn (Z.to_nat (8 * f)) rc_i) 0 < 17).
  { intros k Hk. rewrite nth_skipn. replace (Z.to_nat (8 * f) + Z.to_nat k)%nat with (Z.to_nat (f * 8 + k)) by lia. split; [apply idx_nth; lia|].
    pose proof (Forall_nth_range (fun x => 0 <= x <= 16) rc_i (f * 8 + k) F2 ltac:(lia)) as Q. cbv beta in Q. lia. }
  set (g := fun k => msym (tns_coef_model k) (nth (Z.to_nat k) (skipn (Z.to_nat (8 * f)) rc_i) 0)).
  assert (CB : forall k s, 0 <= k < n -> (v <- idx rc_i (f * 8 + k) ;; b <- idx2 AC_TNS_COEF_BITS k v ;; Ok (s + b)) = Ok (s + price (snd (g k)))).
  { intros k s Hk. destruct (C k Hk) as [C1 C2]. rewrite C1. cbn [bind]. destruct (tns_coef_bits k _ ltac:(lia) C2) as [C3 _]. rewrite C3. reflexivity. }
  rewrite (sub_map []) by (change (len AC_TNS_COEF_BITS) with 8; lia).
  rewrite (for_fold _ (fun s k => s + price (snd (g k))) 0 n 0) by (intros; now apply CB).
  assert (IE : iota (n - 0) = zseq (Z.to_nat n)) by (rewrite Z.sub_0_r; reflexivity). rewrite IE.
  assert (FE : forall l a, fold_left (fun s i => s + price (snd (g (0 + i)))) l a = fold_left (fun s i => s + price (snd (g i))) l a) by (intros; reflexivity). rewrite FE, coef_cost, Z.add_0_l. clear FE IE CB.
  assert (Bd : 0 <= ev_cost (map (fun i => ESym (g i)) (zseq (Z.to_nat n))) <= 20480 * n).
  { pose proof (coef_cost_bound g (zseq (Z.to_nat n))) as Q. replace (len (zseq (Z.to_nat n))) with n in Q by (unfold len, zseq; rewrite map_length, seq_length; lia). apply Q. intros i Hi. unfold zseq in Hi. apply in_map_iff in Hi. destruct Hi as (j & <- & Hj). apply in_seq in Hj.
    apply tns_coef_bits; [lia|apply C; lia]. }
  unfold filter_cost. fold n. unfold tns_filter_evs.
  change (map (fun k : Z => ESym (msym (tns_coef_model k) (nth (Z.to_nat k) (skipn (Z.to_nat (8 * f)) rc_i) 0))) (zseq (Z.to_nat n))) with (map (fun i => ESym (g i)) (zseq (Z.to_nat n))). cbn [bind].
  destruct (Z.eqb_spec n 0) as [Z0|N0].
  - rewrite Z0 in *. cbn [bind Z.ltb Z.compare]. change (Z.to_nat 0) with 0%nat. cbn [zseq seq map]. rewrite ev_cost_nil. split; [|lia].
    rewrite !(el_add o e EL) by lia. fold (cost_bits o e (2048 + 0 + 0)). rewrite (el_cost o e EL) by lia. reflexivity.
  - destruct (Z.ltb_spec 0 n); [|lia]. destruct (tns_order_bits w (n - 1) Hw ltac:(lia)) as (O1 & O2 & O3). rewrite O1. cbn [bind]. rewrite ev_cost_sym.
    set (p := price (snd (msym (tns_order_model w) (n - 1)))) in *. set (cs := ev_cost (map (fun i => ESym (g i)) (zseq (Z.to_nat n)))) in *.
    rewrite !(el_add o e EL) by lia. split; [|lia]. fold (cost_bits o e (2048 + p + cs)). rewrite (el_cost o e EL) by lia. unfold whole_bits. do 3 f_equal. lia.
Qed.
(* the bits charged for the filters of a frame (temporal_noise_shaping.rs:62-63) *)
Lemma tns_bits_spec w rc_i ord num : 0 <= w < 2 -> tns_params_ok ord rc_i -> num = 1 \/ num = 2 ->
  for_range 0 num (fun f n => b <- tns_filter_bits o e w rc_i ord f ;; Ok (n + b)) 0 =
    Ok (whole_bits (filter_cost w rc_i ord 0) + (if num =? 2 then whole_bits (filter_cost w rc_i ord 1) else 0)) /\
  forall f, 0 <= f < num -> 1 <= whole_bits (filter_cost w rc_i ord f) <= 84.
Proof.
  intros Hw TP Hn. destruct (tns_filter_bits_spec w rc_i ord 0 Hw TP ltac:(lia)) as [E0 B0]. destruct (tns_filter_bits_spec w rc_i ord 1 Hw TP ltac:(lia)) as [E1 B1]. split.
  - destruct Hn as [-> | ->]; unfold for_range; [change (Z.to_nat (1 - 0)) with 1%nat|change (Z.to_nat (2 - 0)) with 2%nat]; cbn [forn]; rewrite ?Z.add_0_l, E0; cbn [bind]; [cbn [Z.eqb Pos.eqb]; apply (f_equal (@Ok Z)); lia|]. rewrite E1. cbn [bind Z.eqb Pos.eqb]. apply (f_equal (@Ok Z)); lia.
  - intros f Hf. assert (f = 0 \/ f = 1) as [-> | ->] by lia; unfold whole_bits; dml.
Qed.
End TnsBits.
