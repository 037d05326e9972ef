(* Stepping the encoder and the decoder along a list of payload events. *)
From Coq Require Import ZArith List Bool Lia ZifyBool.
From Verif Require Import Base Writer Reader AcEnc AcDec AcSpec AcSpecProofs BufLemmas AcEncProofs AcFinishProofs AcDecProofs
  AcStreamProofs TailSpec TailProofs FrameEnc PayloadSpec.
Import ListNotations.
Local Open Scope Z_scope.

Lemma ev_bits_app a b : ev_bits (a ++ b) = ev_bits a ++ ev_bits b.
Proof. unfold ev_bits. apply flat_map_app. Qed.
Lemma ev_syms_app a b : ev_syms (a ++ b) = ev_syms a ++ ev_syms b.
Proof. unfold ev_syms. apply flat_map_app. Qed.
Lemma tbits_app a b : tbits (a ++ b) = tbits a + tbits b.
Proof. unfold tbits. now rewrite ev_bits_app, len_app. Qed.
Lemma fin_app a b : fin (a ++ b) = irun (fin a) (ev_syms b).
Proof. unfold fin, irun. now rewrite ev_syms_app, fold_left_app. Qed.
Lemma tbits_nonneg a : 0 <= tbits a.
Proof. unfold tbits. auto. Qed.
Lemma ev_bits_map l : ev_bits (map EBit l) = l.
Proof. induction l; cbn; [reflexivity|]. unfold ev_bits in IHl. now rewrite IHl. Qed.
Lemma ev_syms_map l : ev_syms (map EBit l) = [].
Proof. induction l; cbn; [reflexivity|]. exact IHl. Qed.
Lemma tbits_map l : tbits (map EBit l) = len l.
Proof. unfold tbits. now rewrite ev_bits_map. Qed.
Lemma fin_map l : fin (map EBit l) = ival0.
Proof. unfold fin. now rewrite ev_syms_map. Qed.
Lemma fin_app_bits a l : fin (a ++ map EBit l) = fin a.
Proof. rewrite fin_app, ev_syms_map. reflexivity. Qed.

Definition evalid (l : list ev) : Prop := Forall valid_sym (ev_syms l).
Lemma evalid_app a b : evalid (a ++ b) <-> evalid a /\ evalid b.
Proof. unfold evalid. rewrite ev_syms_app. apply Forall_app. Qed.
Lemma evalid_bits l : evalid (map EBit l).
Proof. unfold evalid. rewrite ev_syms_map. constructor. Qed.
Lemma fin_wf l : evalid l -> iwf (fin l).
Proof. intros. apply irun_wf; [apply iwf0|assumption]. Qed.

(* ---- encoder ---- *)
Definition fits (L : Z) (l : list ev) : Prop := evalid l /\ tbits l + 8 * iN (fin l) <= 8 * L /\ tbits l < 8 * L.

Lemma fits_app L a b : fits L (a ++ b) -> fits L a.
Proof.
  unfold fits. rewrite evalid_app, tbits_app, fin_app. intros ([Va Vb] & H1 & H2).
  pose proof (tbits_nonneg b). pose proof (irun_mono (fin a) (ev_syms b) (fin_wf a Va) Vb).
  split; [assumption|]. lia.
Qed.

Lemma payload_fits L l : evalid l -> payload_bits l <= 8 * L -> fits L l.
Proof.
  intros V H. unfold payload_bits in H. pose proof (ari_bits_ge (fin l) (fin_wf l V)). pose proof (iw_N _ (fin_wf l V)).
  split; [assumption|]. lia.
Qed.

Definition est (L : Z) (st : acenc) (o : out) (l : list ev) : Prop := erel L st o (fin l) (bval (ev_bits l)) (tbits l).

Lemma est_bit L st o l b : est L st o l -> fits L (l ++ [EBit b]) ->
  exists o', wbool o b = Ok o' /\ est L st o' (l ++ [EBit b]).
Proof.
  intros E (V & F1 & F2). unfold wbool. rewrite tbits_app in *. change (tbits [EBit b]) with 1 in *.
  assert (Ef : fin (l ++ [EBit b]) = fin l) by (rewrite fin_app; reflexivity).
  rewrite Ef in F1.
  destruct (write_bool_erel L st o _ _ _ b E ltac:(lia) ltac:(lia)) as (o' & E1 & E2).
  exists o'. split; [exact E1|]. unfold est. rewrite Ef, ev_bits_app, bval_app, tbits_app.
  cbn [ev_bits flat_map app bval]. change (tbits [EBit b]) with 1.
  replace (b2z b + 2 * 0) with (b2z b) by lia. exact E2.
Qed.

Lemma app_cons {A} (l : list A) x y : l ++ x :: y = (l ++ [x]) ++ y.
Proof. now rewrite <- app_assoc. Qed.

Lemma est_bits L st bs : forall o l, est L st o l -> fits L (l ++ map EBit bs) ->
  exists o', wbools o bs = Ok o' /\ est L st o' (l ++ map EBit bs).
Proof.
  induction bs as [|b bs IH]; intros o l E F; cbn [wbools map].
  - exists o. rewrite app_nil_r. auto.
  - cbn [map] in F. rewrite app_cons in *. pose proof (fits_app _ _ _ F) as F1.
    destruct (est_bit L st o l b E F1) as (o1 & E1 & E2). rewrite E1. cbn [bind]. apply IH; assumption.
Qed.

Lemma wuint_bits n : forall o v, write_uint_backward (fst o) (snd o) v n = wbools o (bits_of v n).
Proof.
  induction n; intros o v.
  - destruct o; reflexivity.
  - rewrite bits_of_S. cbn [write_uint_backward wbools]. unfold wbool.
    destruct (write_bool_backward (fst o) (snd o) (Z.odd v)) as [[w b]| |]; cbn [bind]; auto.
    apply (IHn (w, b)).
Qed.

Lemma est_uint L st o l v n : est L st o l -> fits L (l ++ map EBit (bits_of v (Z.to_nat n))) ->
  exists o', wuint o v n = Ok o' /\ est L st o' (l ++ map EBit (bits_of v (Z.to_nat n))).
Proof. intros. unfold wuint. rewrite wuint_bits. now apply est_bits. Qed.

Lemma est_sym L st o l c f : est L st o l -> fits L (l ++ [ESym (c, f)]) ->
  exists st' o', ac_encode st o c f = Ok (st', o') /\ est L st' o' (l ++ [ESym (c, f)]).
Proof.
  intros E (V & F1 & F2). apply evalid_app in V as [V1 V2]. rewrite tbits_app, fin_app in *. change (tbits [ESym (c, f)]) with 0 in *.
  change (irun (fin l) (ev_syms [ESym (c, f)])) with (istep (fin l) (c, f)) in *.
  assert (Vs : valid_sym (c, f)) by (inversion V2; assumption).
  destruct (ac_encode_ok L st o _ _ _ c f E (fin_wf l V1) Vs ltac:(lia)) as (st' & o' & E1 & E2).
  exists st', o'. split; [exact E1|]. unfold est. rewrite fin_app, ev_bits_app, tbits_app, app_nil_r.
  change (tbits [ESym (c, f)]) with 0. rewrite Z.add_0_r. exact E2.
Qed.

(* ---- decoder ---- *)
Definition holds (buf : list Z) (l : list ev) : Prop :=
  evalid l /\ tail_at (be buf) 0 (ev_bits l) /\ iN (fin l) + 3 <= len buf /\
  iF (fin l) <= hv buf (iN (fin l)) < iF (fin l) + iR (fin l) /\ tbits l + 8 * iN (fin l) <= 8 * len buf.

Lemma holds_app buf a b : holds buf (a ++ b) -> holds buf a.
Proof.
  unfold holds. rewrite evalid_app, tbits_app, fin_app, ev_bits_app. intros ([Va Vb] & T & H1 & H2 & H3).
  pose proof (tbits_nonneg b). pose proof (irun_mono (fin a) (ev_syms b) (fin_wf a Va) Vb).
  apply tail_at_app in T; [|lia]. destruct T as [T _].
  destruct (irun_hv buf (fin a) (ev_syms b) (fin_wf a Va) Vb H1 H2) as [A1 A2].
  repeat (split; [assumption|]). lia.
Qed.

Definition dst (buf : list Z) (r : reader) (st : acdec) (l : list ev) : Prop := r_tail r = tbits l /\ drel buf r st (fin l).

Lemma dst_bit buf r st l b : bytes buf -> dst buf r st l -> holds buf (l ++ [EBit b]) ->
  exists r', read_tail_bool r buf = Ok (b, r') /\ dst buf r' st (l ++ [EBit b]).
Proof.
  intros Hb (Et & D) H. pose proof H as (V & T & H1 & H2 & H3).
  rewrite tbits_app in H3. change (tbits [EBit b]) with 1 in H3.
  assert (Ef : fin (l ++ [EBit b]) = fin l) by (rewrite fin_app; reflexivity). rewrite Ef in *.
  pose proof (dr_head _ _ _ _ D) as Dh. apply evalid_app in V as [V _]. pose proof (iw_N _ (fin_wf l V)) as WN.
  pose proof (tbits_nonneg l).
  rewrite ev_bits_app in T. apply tail_at_app in T; [|lia]. destruct T as [_ T]. cbn [ev_bits flat_map app] in T.
  apply tail_at_bit in T. cbn [Z.add] in T. fold (tbits l) in T.
  rewrite read_bool_at by (auto; lia). rewrite Et, T. eexists. split; [reflexivity|].
  split; cbn [r_tail].
  - rewrite tbits_app. reflexivity.
  - rewrite Ef. destruct D as [D1 D2 D3]. constructor; auto.
Qed.

Lemma dst_msym buf r st l m i : bytes buf -> valid_model m -> 0 <= i < msize m -> dst buf r st l ->
  holds buf (l ++ [ESym (msym m i)]) ->
  exists st' r', ac_decode buf r st (fst m) (snd m) = Ok (i, st', r') /\ dst buf r' st' (l ++ [ESym (msym m i)]).
Proof.
  intros Hb V Hi (Et & D) (Ve & T & H1 & H2 & H3). apply evalid_app in Ve as [Ve _].
  rewrite fin_app in *. change (irun (fin l) (ev_syms [ESym (msym m i)])) with (istep (fin l) (msym m i)) in *.
  destruct (ac_decode_ok buf r st (fin l) m i Hb D (fin_wf l Ve) V Hi H1 H2) as (st' & r' & E & D' & Et').
  exists st', r'. split; [exact E|]. split.
  - rewrite tbits_app. change (tbits [ESym (msym m i)]) with 0. lia.
  - rewrite fin_app. exact D'.
Qed.

(* reading side information: the head has not been touched *)
Lemma side_usize buf t l w : bytes buf -> 0 <= t -> good_width (Z.of_nat w) -> t + Z.of_nat w < 8 * len buf \/ (Z.of_nat w mod 8 <> 0 /\ t + Z.of_nat w <= 8 * len buf) ->
  forall v, 0 <= v < 2 ^ Z.of_nat w -> tail_at (be buf) t (bits_of v w ++ l) ->
  read_tail_usize (mkReader 0 t) buf (Z.of_nat w) = Ok (v, mkReader 0 (t + Z.of_nat w)) /\ tail_at (be buf) (t + Z.of_nat w) l.
Proof.
  intros Hb Ht Hw Hfit v Hv T. apply tail_at_app in T; [|lia]. destruct T as [T1 T2]. rewrite bits_of_len in T2.
  split; [|exact T2]. apply (proj1 (tail_at_bits _ _ _ _ Hv)) in T1.
  rewrite read_usize_at; cbn [r_head r_tail]; auto; try lia. now rewrite T1.
Qed.

Lemma side_bool buf t b l : bytes buf -> 0 <= t -> t + 1 <= 8 * len buf -> tail_at (be buf) t (b :: l) ->
  read_tail_bool (mkReader 0 t) buf = Ok (b, mkReader 0 (t + 1)) /\ tail_at (be buf) (t + 1) l.
Proof.
  intros Hb Ht Hfit T. change (b :: l) with ([b] ++ l) in T. apply tail_at_app in T; [|lia]. destruct T as [T1 T2].
  split; [|exact T2]. apply tail_at_bit in T1.
  rewrite read_bool_at; cbn [r_head r_tail]; auto; try lia. now rewrite T1.
Qed.
