(* The frame writer never fails as long as its head bytes and its tail bits each fit in the buffer, even when together they do
   not: only the positions matter, not the contents. *)
From Coq Require Import ZArith List Bool Lia ZifyBool.
From Verif Require Import Base Config Writer AcEnc AcSpec AcSpecProofs BufLemmas AcEncProofs AcFinishProofs AcStreamProofs
  TailSpec TailProofs TablesProofs TablesSpec TablesTns TablesSns FrameEnc PayloadSpec Events EncPayload EncFrame.
Import ListNotations.
Local Open Scope Z_scope.

Record prel (L : Z) (st : acenc) (o : out) (n R t : Z) : Prop := mkPrel {
  pr_len : len (snd o) = L;
  pr_bp : 0 <= w_bp (fst o);
  pr_cc : 0 <= e_ccount st;
  pr_n : n = w_bp (fst o) + cb st + e_ccount st;
  pr_low : 0 <= e_low st;
  pr_carry : 0 <= e_carry st;
  pr_R : e_range st = R;
  pr_t : 0 <= t;
  pr_side : w_bp_side (fst o) = L - 1 - t / 8;
  pr_mask : w_mask (fst o) = 2 ^ (t mod 8)
}.

Lemma store_ok l i v : 0 <= i < len l -> exists l', store l i v = Ok l' /\ len l' = len l.
Proof.
  intros H. unfold store. change (Z.of_nat (length l)) with (len l). destruct (Z.ltb_spec i 0); [lia|]. destruct (Z.leb_spec (len l) i); [lia|]. cbn [orb].
  eexists. split; [reflexivity|]. unfold len in *. now rewrite upd_length.
Qed.
Lemma pow_mod8 t : 0 <= t -> (2 ^ (t mod 8) =? 128) = (t mod 8 =? 7).
Proof.
  intros H. pose proof (Z.mod_pos_bound t 8 ltac:(lia)) as B. assert (C : t mod 8 = 0 \/ t mod 8 = 1 \/ t mod 8 = 2 \/ t mod 8 = 3 \/ t mod 8 = 4 \/ t mod 8 = 5 \/ t mod 8 = 6 \/ t mod 8 = 7) by lia.
  destruct C as [-> | [-> | [-> | [-> | [-> | [-> | [-> | ->]]]]]]]; reflexivity.
Qed.
Lemma prel_bit L st o n R t b : prel L st o n R t -> t + 1 < 8 * L -> exists o', wbool o b = Ok o' /\ prel L st o' n R (t + 1).
Proof.
  intros [P1 P2 P3 P4 P5 P6 P7 P8 P9 P10] H. unfold wbool, write_bool_backward.
  assert (Hs : 0 <= w_bp_side (fst o) < len (snd o)) by (rewrite P9, P1; clear -P8 H; Z.div_mod_to_equations; lia).
  rewrite (idx_nth (snd o) _ 0) by exact Hs. cbn [bind]. cbv zeta. set (v := if b then _ else _).
  destruct (store_ok (snd o) (w_bp_side (fst o)) v Hs) as (buf & E & Lb). rewrite E. cbn [bind]. rewrite P10, pow_mod8 by exact P8.
  destruct (Z.eqb_spec (t mod 8) 7) as [E7|N7].
  - unfold usub. rewrite P9. destruct (Z.ltb_spec (L - 1 - t / 8) 1) as [Q|Q]; [clear -Q E7 H P8; Z.div_mod_to_equations; lia|]. cbn [bind]. eexists. split; [reflexivity|].
    constructor; cbn [fst snd w_bp w_bp_side w_mask]; try assumption; try lia.
    + clear -E7 P8. Z.div_mod_to_equations; lia.
    + replace ((t + 1) mod 8) with 0 by (clear -E7 P8; Z.div_mod_to_equations; lia). reflexivity.
  - eexists. split; [reflexivity|]. constructor; cbn [fst snd w_bp w_bp_side w_mask]; try assumption; try lia.
    + rewrite P9. clear -N7 P8. Z.div_mod_to_equations; lia.
    + replace ((t + 1) mod 8) with (t mod 8 + 1) by (clear -N7 P8; Z.div_mod_to_equations; lia). rewrite Z.pow_add_r by (try apply Z.mod_pos_bound; lia). lia.
Qed.
(* only the forward position moves *)
Definition ahead (o o' : out) (k : Z) : Prop :=
  len (snd o') = len (snd o) /\ w_bp (fst o') = w_bp (fst o) + k /\ w_bp_side (fst o') = w_bp_side (fst o) /\ w_mask (fst o') = w_mask (fst o).
Lemma write_byte_total o v : 0 <= w_bp (fst o) < len (snd o) -> exists o', write_byte_forward (fst o) (snd o) v = Ok o' /\ ahead o o' 1.
Proof. intros H. unfold write_byte_forward. destruct (store_ok (snd o) (w_bp (fst o)) v H) as (b & E & L). rewrite E. cbn [bind]. eexists. split; [reflexivity|]. unfold ahead. cbn [fst snd w_bp w_bp_side w_mask]. auto. Qed.
Lemma emit_total v n : forall o, 0 <= w_bp (fst o) -> w_bp (fst o) + Z.of_nat n <= len (snd o) -> exists o', emit_n o v n = Ok o' /\ ahead o o' (Z.of_nat n).
Proof.
  induction n as [|n IH]; intros o H0 H1; cbn [emit_n]; [exists o; unfold ahead; split; [reflexivity|]; repeat split; lia|].
  destruct (write_byte_total o v ltac:(lia)) as (o1 & E & A1 & A2 & A3 & A4). rewrite E. cbn [bind].
  destruct (IH o1 ltac:(lia) ltac:(lia)) as (o2 & E2 & B1 & B2 & B3 & B4). exists o2. split; [exact E2|]. unfold ahead. repeat split; lia.
Qed.
Lemma cb_range st : 0 <= cb st <= 1.
Proof. unfold cb. destruct (e_cache st <? 0); lia. Qed.
Lemma prel_shift L st o n R t : prel L st o n R t -> n <= L -> exists st' o', ac_shift st o = Ok (st', o') /\ prel L st' o' (n + 1) R t /\ e_range st' = e_range st.
Proof.
  intros [P1 P2 P3 P4 P5 P6 P7 P8 P9 P10] H. unfold ac_shift. pose proof (cb_range st) as Hc.
  destruct (_ || _).
  - assert (S1 : exists o1, (if 0 <=? e_cache st then write_byte_forward (fst o) (snd o) ((e_cache st + e_carry st) mod 256) else Ok o) = Ok o1 /\ ahead o o1 (cb st)).
    { unfold cb in *. destruct (Z.leb_spec 0 (e_cache st)), (Z.ltb_spec (e_cache st) 0); try lia; [apply write_byte_total; lia|]. exists o. unfold ahead. split; [reflexivity|]. repeat split; lia. }
    destruct S1 as (o1 & E1 & A1 & A2 & A3 & A4). rewrite E1. cbn [bind].
    destruct (emit_total ((e_carry st + 255) mod 256) (Z.to_nat (e_ccount st)) o1 ltac:(lia) ltac:(lia)) as (o2 & E2 & B1 & B2 & B3 & B4). rewrite E2. cbn [bind e_low e_range e_cache e_carry e_ccount].
    eexists _, o2. split; [reflexivity|]. split; [|reflexivity]. assert (0 <= Z.shiftr (e_low st) 16) by (apply Z.shiftr_nonneg; exact P5).
    constructor; unfold cb; cbn [e_low e_range e_cache e_carry e_ccount]; try lia; try (apply Z.mod_pos_bound; lia).
    destruct (Z.ltb_spec (Z.shiftr (e_low st) 16) 0); lia.
  - cbn [bind e_low e_range e_cache e_carry e_ccount]. eexists _, o. split; [reflexivity|]. split; [|reflexivity]. constructor; unfold cb in *; cbn [e_low e_range e_cache e_carry e_ccount]; try lia; try (apply Z.mod_pos_bound; lia).
Qed.
Lemma prel_range L st o n R t R' : prel L st o n R t -> prel L (mkAc (e_low st) R' (e_cache st) (e_carry st) (e_ccount st)) o n R' t.
Proof. intros [P1 P2 P3 P4 P5 P6 P7 P8 P9 P10]. constructor; unfold cb in *; cbn [e_low e_range e_cache e_carry e_ccount]; auto. Qed.
Lemma prel_renorm L t fuel : forall st o s, prel L st o (iN s) (iR s) t -> 0 <= iN s -> let s' := inorm fuel s in 65536 <= iR s' -> iN s' <= L ->
  exists st' o', ac_renorm fuel st o = Ok (st', o') /\ prel L st' o' (iN s') (iR s') t.
Proof.
  induction fuel as [|fuel IH]; intros st o s P HN; cbn [inorm ac_renorm]; rewrite (pr_R _ _ _ _ _ _ P); destruct (Z.ltb_spec (iR s) 65536); intros HR Hfit; try lia.
  - exists st, o. auto.
  - set (s1 := mkIval (iF s * 256) (iR s * 256) (iN s + 1)) in *. assert (Hm : iN s + 1 <= iN (inorm fuel s1)) by (apply (inorm_mono fuel s1); unfold s1; cbn [iN]; lia).
    destruct (prel_shift L _ o (iN s) (iR s * 256) t (prel_range _ _ _ _ _ _ (iR s * 256) P) ltac:(lia)) as (st1 & o1 & E & P1 & _). rewrite E. cbn [bind].
    apply (IH st1 o1 s1); auto. unfold s1. cbn [iN]. lia.
  - exists st, o. auto.
Qed.
Lemma prel_sym L st o s t c f : prel L st o (iN s) (iR s) t -> iwf s -> valid_sym (c, f) -> iN (istep s (c, f)) <= L ->
  exists st' o', ac_encode st o c f = Ok (st', o') /\ prel L st' o' (iN (istep s (c, f))) (iR (istep s (c, f))) t.
Proof.
  intros P W V H. unfold ac_encode. pose proof (istep_wf s (c, f) W V) as W'. pose proof (iw_R _ W') as R'. destruct V as (V1 & V2 & V3). cbn [fst snd] in *. unfold istep in *.
  rewrite (pr_R _ _ _ _ _ _ P), Z.shiftr_div_pow2 by lia. change (2 ^ 10) with 1024. cbv zeta. cbn [fst snd] in *.
  apply (prel_renorm L t 4 _ o (mkIval (iF s + iR s / 1024 * c) (iR s / 1024 * f) (iN s))); [|exact (iw_N _ W)|lia|exact H].
  pose proof (pr_carry _ _ _ _ _ _ P). destruct P as [P1 P2 P3 P4 P5 P6 P7 P8 P9 P10]. cbn [iN iR]. constructor; unfold cb in *; cbn [e_low e_range e_cache e_carry e_ccount]; auto; try lia; [apply Z.mod_pos_bound; lia|]. destruct (_ =? 0); lia.
Qed.

(* ---- along the events ---- *)
Definition pest (L : Z) (st : acenc) (o : out) (l : list ev) : Prop := prel L st o (iN (fin l)) (iR (fin l)) (tbits l).
Definition pfits (L : Z) (l : list ev) : Prop := evalid l /\ iN (fin l) <= L /\ tbits l < 8 * L.
Lemma pfits_app L a b : pfits L (a ++ b) -> pfits L a.
Proof.
  unfold pfits. rewrite evalid_app, tbits_app, fin_app. intros ([Va Vb] & H1 & H2). pose proof (tbits_nonneg b). pose proof (irun_mono (fin a) (ev_syms b) (fin_wf a Va) Vb). split; [assumption|]. lia.
Qed.
Lemma pest_bit L st o l b : pest L st o l -> pfits L (l ++ [EBit b]) -> exists o', wbool o b = Ok o' /\ pest L st o' (l ++ [EBit b]).
Proof.
  intros E (V & F1 & F2). rewrite tbits_app in F2. change (tbits [EBit b]) with 1 in F2. destruct (prel_bit L st o _ _ _ b E F2) as (o' & E1 & E2). exists o'. split; [exact E1|].
  unfold pest. rewrite fin_app, tbits_app. exact E2.
Qed.
Lemma pest_bits L st bs : forall o l, pest L st o l -> pfits L (l ++ map EBit bs) -> exists o', wbools o bs = Ok o' /\ pest L st o' (l ++ map EBit bs).
Proof.
  induction bs as [|b bs IH]; intros o l E F; cbn [wbools map]; [exists o; rewrite app_nil_r; auto|].
  cbn [map] in F. rewrite app_cons in *. pose proof (pfits_app _ _ _ F) as F1. destruct (pest_bit L st o l b E F1) as (o1 & E1 & E2). rewrite E1. cbn [bind]. apply IH; assumption.
Qed.
Lemma pest_sym L st o l c f : pest L st o l -> pfits L (l ++ [ESym (c, f)]) -> exists st' o', ac_encode st o c f = Ok (st', o') /\ pest L st' o' (l ++ [ESym (c, f)]).
Proof.
  intros E (V & F1 & F2). apply evalid_app in V as [V1 V2]. unfold pest in *. rewrite tbits_app, fin_app in *. change (tbits [ESym (c, f)]) with 0 in *.
  change (irun (fin l) (ev_syms [ESym (c, f)])) with (istep (fin l) (c, f)) in *. assert (Vs : valid_sym (c, f)) by (inversion V2; assumption). rewrite Z.add_0_r.
  exact (prel_sym L st o _ _ c f E (fin_wf l V1) Vs F1).
Qed.

(* ---- the end of the frame ---- *)
Lemma finish_bits_total fuel R : 65536 <= R -> forall b, 1 <= b <= 8 -> 8 - b < Z.of_nat fuel -> exists b', finish_bits fuel R b = Ok b' /\ b <= b' <= 8.
Proof.
  intros HR. induction fuel as [|fuel IH]; intros b Hb Hf; [lia|]. cbn [finish_bits].
  destruct (Z.eqb_spec (Z.shiftr R (24 - b)) 0) as [E|N]; [|exists b; auto with zarith].
  assert (b <> 8). { intros ->. rewrite Z.shiftr_div_pow2 in E by lia. change (2 ^ (24 - 8)) with 65536 in E. clear -E HR. Z.div_mod_to_equations. lia. }
  destruct (IH (b + 1) ltac:(lia) ltac:(lia)) as (b' & E' & H'). exists b'. split; [exact E'|lia].
Qed.
Lemma finish_val_range st b : 0 <= e_low st -> 0 <= e_carry st -> 1 <= b <= 8 -> let '(b', v, c) := finish_val st b in 1 <= b' <= 9 /\ 0 <= v /\ 0 <= c.
Proof.
  intros H1 H2 Hb. unfold finish_val. cbv zeta.
  assert (N : forall x y, 0 <= y -> 0 <= Z.land x (Z.land 16777215 y)). { intros x y Hy. rewrite Z.land_comm. apply Z.land_nonneg. left. apply Z.land_nonneg. left. lia. }
  assert (M : 0 <= Z.shiftr 16777215 b <= 4294967295). { rewrite Z.shiftr_div_pow2 by lia. split; [apply Z.div_pos; lia|]. apply Z.le_trans with 16777215; [|lia]. apply Z.div_le_upper_bound; [lia|]. assert (1 <= 2 ^ b) by (apply (Z.pow_le_mono_r 2 0 b); lia). nia. }
  destruct (_ =? _).
  - destruct (_ <=? _); (split; [lia|]); split; try (destruct (_ <? _); lia).
    + rewrite <- Z.land_assoc. apply N. rewrite Z.shiftr_shiftr by lia. assert (0 <= Z.shiftr 16777215 (b + 1) <= 4294967295); [|lia]. rewrite Z.shiftr_div_pow2 by lia. split; [apply Z.div_pos; lia|]. apply Z.le_trans with 16777215; [|lia]. apply Z.div_le_upper_bound; [lia|]. assert (1 <= 2 ^ (b + 1)) by (apply (Z.pow_le_mono_r 2 0 (b + 1)); lia). nia.
    + apply N. lia.
  - split; [lia|]. split; [apply N; lia|exact H2].
Qed.
Lemma uint_forward_total v m k : forall buf bp, 0 <= bp < len buf -> exists buf', write_uint_forward_loop buf bp v m k = Ok buf' /\ len buf' = len buf.
Proof.
  revert m. induction k as [|k IH]; intros m buf bp H; cbn [write_uint_forward_loop]; [eauto|]. rewrite (idx_nth buf bp 0) by exact H. cbn [bind]. cbv zeta. set (w := if _ =? 0 then _ else _).
  destruct (store_ok buf bp w H) as (b & E & Lb). rewrite E. cbn [bind]. destruct (IH (Z.div2 m) b bp ltac:(lia)) as (b' & E' & L'). exists b'. split; [exact E'|lia].
Qed.
Lemma finish_shift_total L R t fuel : forall st o n b, prel L st o n R t -> b <= 8 * Z.of_nat fuel -> -8 < b -> n + 2 <= L -> b <= 16 ->
  exists st' o' n' b', finish_shift fuel st o b = Ok (st', o', b') /\ prel L st' o' n' R t /\ n <= n' <= n + Z.max 0 ((b + 7) / 8) /\ -8 < b' <= 0.
Proof.
  induction fuel as [|fuel IH]; intros st o n b P Hb Hb2 Hn Hb3; cbn [finish_shift]; destruct (Z.ltb_spec 0 b); try lia.
  - exists st, o, n, b. split; [reflexivity|]. split; [exact P|]. lia.
  - destruct (prel_shift L st o n R t P ltac:(lia)) as (st1 & o1 & E1 & P1 & _). rewrite E1. cbn [bind].
    destruct (Z.ltb_spec 8 b) as [B8|B8].
    + destruct (prel_shift L st1 o1 (n + 1) R t P1 ltac:(lia)) as (st2 & o2 & E2 & P2 & _). destruct fuel as [|fuel]; [lia|]. cbn [finish_shift]. destruct (Z.ltb_spec 0 (b - 8)); [|lia]. rewrite E2. cbn [bind].
      assert (E3 : forall f, finish_shift f st2 o2 (b - 8 - 8) = Ok (st2, o2, b - 8 - 8)) by (intros [|f]; cbn [finish_shift]; destruct (Z.ltb_spec 0 (b - 8 - 8)); try lia; reflexivity).
      rewrite E3. exists st2, o2, (n + 1 + 1), (b - 8 - 8). split; [reflexivity|]. split; [exact P2|]. assert ((b + 7) / 8 = 2) by (clear -B8 Hb3; Z.div_mod_to_equations; lia). lia.
    + assert (E3 : forall f, finish_shift f st1 o1 (b - 8) = Ok (st1, o1, b - 8)) by (intros [|f]; cbn [finish_shift]; destruct (Z.ltb_spec 0 (b - 8)); try lia; reflexivity).
      rewrite E3. exists st1, o1, (n + 1), (b - 8). split; [reflexivity|]. split; [exact P1|]. assert ((b + 7) / 8 = 1) by (clear -B8 H; Z.div_mod_to_equations; lia). lia.
  - exists st, o, n, b. split; [reflexivity|]. split; [exact P|]. lia.
Qed.
Lemma finish_total L st o n R t : prel L st o n R t -> 65536 <= R -> n + 3 <= L -> exists o', ac_enc_finish st o = Ok o' /\ len (snd o') = L.
Proof.
  intros P HR Hn. unfold ac_enc_finish. rewrite (pr_R _ _ _ _ _ _ P). destruct (finish_bits_total 24 R HR 1 ltac:(lia) ltac:(lia)) as (b & E & Hb). rewrite E. cbn [bind].
  pose proof (finish_val_range st b (pr_low _ _ _ _ _ _ P) (pr_carry _ _ _ _ _ _ P) ltac:(lia)) as FV. destruct (finish_val st b) as [[b1 v] cr]. destruct FV as (B1 & V & CR).
  assert (P' : prel L (mkAc v R (e_cache st) cr (e_ccount st)) o n R t) by (destruct P; constructor; unfold cb in *; cbn [e_low e_range e_cache e_carry e_ccount]; auto).
  destruct (finish_shift_total L R t 4 _ o n b1 P' ltac:(lia) ltac:(lia) ltac:(lia) ltac:(lia)) as (st2 & o2 & n2 & b2 & E2 & P2 & N2 & B2). rewrite E2. cbn [bind]. cbv zeta.
  assert (N3 : n2 <= n + 2) by (assert ((b1 + 7) / 8 <= 2) by (clear -B1; Z.div_mod_to_equations; lia); lia).
  destruct (Z.ltb_spec (b2 + 8) 0); [lia|]. pose proof (pr_bp _ _ _ _ _ _ P2) as Q1. pose proof (pr_cc _ _ _ _ _ _ P2) as Q2. pose proof (pr_n _ _ _ _ _ _ P2) as Q3. pose proof (pr_len _ _ _ _ _ _ P2) as Q4. pose proof (cb_range st2) as Q5.
  destruct (Z.ltb_spec 0 (e_ccount st2)).
  - destruct (write_byte_total o2 (e_cache st2 mod 256) ltac:(lia)) as (o3 & E3 & A1 & A2 & _). rewrite E3. cbn [bind].
    destruct (emit_total 255 (Z.to_nat (e_ccount st2 - 1)) o3 ltac:(lia) ltac:(lia)) as (o4 & E4 & D1 & D2 & _). rewrite E4. cbn [bind]. unfold write_uint_forward.
    match goal with |- context [write_uint_forward_loop (snd o4) (w_bp (fst o4)) ?v 128 ?k] => destruct (uint_forward_total v 128 k (snd o4) (w_bp (fst o4)) ltac:(lia)) as (b5 & E5 & L5) end. rewrite E5. cbn [bind]. eexists. split; [reflexivity|]. cbn [snd]. lia.
  - unfold write_uint_forward. match goal with |- context [write_uint_forward_loop (snd o2) (w_bp (fst o2)) ?v 128 ?k] => destruct (uint_forward_total v 128 k (snd o2) (w_bp (fst o2)) ltac:(lia)) as (b5 & E5 & L5) end. rewrite E5. cbn [bind]. eexists. split; [reflexivity|]. cbn [snd]. lia.
Qed.
Lemma prel_side_written L st o n R t : prel L st o n R t -> nbits_side_written (fst o) (8 * L) = Ok t.
Proof.
  intros P. unfold nbits_side_written. rewrite (pr_side _ _ _ _ _ _ P), (pr_mask _ _ _ _ _ _ P). unfold log2_floor. pose proof (pr_t _ _ _ _ _ _ P). rewrite Z.log2_pow2 by (apply Z.mod_pos_bound; lia).
  assert (E : 8 * L - (8 * (L - 1 - t / 8) + 8 - t mod 8) = t) by (clear; Z.div_mod_to_equations; lia). rewrite E. destruct (Z.ltb_spec t 0); [lia|reflexivity].
Qed.

(* Writable parameters whose symbols and whose tail bits each fit: the frame is written. *)
Theorem encode_frame_total ne p buf0 : let L := len buf0 in let l := payload ne p in
  writer_params_ok p -> L < 65536 -> tbits l < 8 * L -> iN (fin l) + 3 <= L -> exists buf, encode_frame ne p buf0 = Ok buf /\ len buf = L.
Proof.
  intros L l W HL Ht Hh. pose proof (payload_valid ne p W) as V. fold l in V. pose proof (fin_wf l V) as Wf. pose proof (iw_N _ Wf) as WN. pose proof (iw_R _ Wf) as WR. pose proof (tbits_nonneg l) as Tn.
  assert (F : pfits L l) by (split; [exact V|lia]). destruct (lastnz_pairs p W) as [Ep1 Ep2]. pose proof (wp_lastnz _ W) as Wl.
  rewrite encode_frame_stages. unfold enc_stages. fold L. unfold writer_new. rewrite Z.mod_small, usub_ok by lia. cbn [bind].
  assert (E0 : pest L ac_enc_init (mkWriter 0 (L - 1) 1, repeat 0 (length buf0)) []).
  { unfold pest. constructor; cbn [fst snd w_bp w_bp_side w_mask ac_enc_init e_low e_range e_cache e_carry e_ccount]; try reflexivity; try lia. - unfold L, len. now rewrite repeat_length.
    - change (tbits []) with 0. rewrite Z.div_0_l by lia. lia. }
  pose proof (wp_tns _ W) as (Wt1 & Wt2 & _ & _). pose proof (wp_num _ W) as Wn.
  rewrite enc_side_bits; [|exact (wp_shape _ W)|lia|lia|exact (wp_nbw _ W)].
  unfold l, payload in F. rewrite app_assoc in F. pose proof (pfits_app _ _ _ F) as F1. pose proof (pfits_app _ _ _ F1) as F0.
  destruct (pest_bits L ac_enc_init (side_bits ne p) _ [] E0 F0) as (o1 & W1 & E1). cbn [app] in E1. rewrite W1. cbn [bind]. rewrite tns_evs_filters in *.
  destruct (enc_tns_filters_walk pfits pest pfits_app pest_sym L (p_lpc_weighting p) (p_rc_order p) (p_rc_i p) (Z.to_nat (p_num_tns p)) (wp_tns _ W) (wp_w _ W) 0%nat ac_enc_init o1 _ ltac:(lia) E1 F1) as (st2 & o2 & W2 & E2).
  change (Z.of_nat 0) with 0 in W2. rewrite W2. cbn [bind]. replace (L * 8) with (8 * L) by lia. rewrite (prel_side_written _ _ _ _ _ _ E2). cbn [bind].
  destruct (Z.ltb_spec MAX_NBITS_LSB (p_nbits_lsb p)); [pose proof (wp_nlsb _ W); lia|]. rewrite Ep1.
  assert (P3 := enc_pairs_walk pfits pest pfits_app pest_bit pest_sym L ne (p_rate_flag p) (p_lsb_mode p) (p_nbits_lsb p) (p_xq p) (Z.to_nat (p_lastnz p / 2)) (wp_rate _ W) 0 0 [] st2 o2).
  edestruct P3 as (st3 & o3 & W3 & E3); [| | | | |exact E2|exact F|]; clear P3; try lia.
  { pose proof (wp_len _ W). lia. }
  { intros i Hi. apply (wp_mag _ W). lia. }
  { intros Hl. rewrite Hl. change (len (@nil Z)) with 0. pose proof (wp_lsbs _ W Hl). lia. }
  cbn [app] in W3. rewrite W3. cbn [bind]. rewrite <- app_assoc in E3. rewrite <- tns_evs_filters in E3. change (pest L st3 o3 l) in E3.
  unfold enc_residual. rewrite (prel_side_written _ _ _ _ _ _ E3). cbn [bind]. cbv zeta.
  assert (Fc : 1 <= nbits_side_forecast st3 (fst o3)).
  { unfold nbits_side_forecast, log2_floor. rewrite (pr_R _ _ _ _ _ _ E3). pose proof (pr_bp _ _ _ _ _ _ E3). pose proof (pr_carry _ _ _ _ _ _ E3). assert (Z.log2 (iR (fin l)) <= 24) by (apply (Z.log2_le_mono _ (2 ^ 24)); pose proof (iw_R _ Wf); lia).
    destruct (Z.leb_spec 0 (e_carry st3)); [|lia]. destruct (Z.ltb_spec 0 (e_ccount st3)); lia. }
  set (nres := Z.max 0 (8 * L - (tbits l + nbits_side_forecast st3 (fst o3)))).
  assert (G : forall bs, len bs <= nres -> exists o4, wbools o3 bs = Ok o4 /\ pest L st3 o4 (l ++ map EBit bs)).
  { intros bs Hb. apply pest_bits; [exact E3|]. split; [apply evalid_app; split; [exact V|apply evalid_bits]|]. rewrite fin_app_bits, tbits_app, tbits_map. unfold nres in Hb. lia. }
  assert (Hx : forall o4, (exists bs, pest L st3 o4 (l ++ map EBit bs)) -> exists o', ac_enc_finish st3 o4 = Ok o' /\ len (snd o') = L).
  { intros o4 (bs & P). unfold pest in P. rewrite fin_app_bits in P. exact (finish_total L st3 o4 _ _ _ P ltac:(lia) Hh). }
  assert (Hr : exists o4, (if negb (p_lsb_mode p) then wbools o3 (firstn (Z.to_nat nres) (p_res_bits p))
    else wbools o3 (map (fun v => v =? 1) (firstn (Z.to_nat (Z.min nres (len (spec_lsbs (Z.to_nat (p_lastnz p / 2)) (p_lsb_mode p) 0 (p_xq p))))) (spec_lsbs (Z.to_nat (p_lastnz p / 2)) (p_lsb_mode p) 0 (p_xq p))))) = Ok o4 /\
    exists bs, pest L st3 o4 (l ++ map EBit bs)).
  { assert (0 <= nres) by (unfold nres; lia). destruct (p_lsb_mode p); cbn [negb].
    - edestruct G as (o4 & A & B); [|exists o4; split; [exact A|eauto]]. unfold len. rewrite map_length, firstn_length. lia.
    - edestruct G as (o4 & A & B); [|exists o4; split; [exact A|eauto]]. unfold len. rewrite firstn_length. lia. }
  destruct Hr as (o4 & -> & Hb). cbn [bind]. destruct (Hx o4 Hb) as (o5 & -> & L5). cbn [bind]. exists (snd o5). auto.
Qed.
