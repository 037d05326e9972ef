(* The frame writer emits exactly the events of PayloadSpec. *)
From Coq Require Import ZArith List Bool Lia ZifyBool.
From Verif Require Import Base Config Writer AcEnc AcSpec AcSpecProofs BufLemmas AcEncProofs AcDecProofs AcFinishProofs AcStreamProofs
  TailSpec TailProofs TablesProofs TablesSpec TablesTns TablesSns FrameEnc PayloadSpec Events.
Import ListNotations.
Local Open Scope Z_scope.

(* ---- side information ---- *)
Lemma wbools_app a : forall o b, wbools o (a ++ b) = (o <- wbools o a ;; wbools o b).
Proof.
  induction a as [|x a IH]; intros o b; cbn [wbools app]; [destruct o; reflexivity|].
  destruct (wbool o x); cbn [bind]; auto.
Qed.
Lemma bind_assoc {A B C} (m : res A) (f : A -> res B) (g : B -> res C) : bind (bind m f) g = bind m (fun x => bind (f x) g).
Proof. destruct m; reflexivity. Qed.
Lemma bind_ret {A} (m : res A) : bind m (fun x => Ok x) = m.
Proof. destruct m; reflexivity. Qed.
Lemma bind_ext {A B} (m : res A) (f g : A -> res B) : (forall x, f x = g x) -> bind m f = bind m g.
Proof. intros. destruct m; cbn; auto. Qed.
Lemma wbools_one o b : wbool o b = wbools o [b].
Proof. cbn [wbools]. now rewrite bind_ret. Qed.
Lemma wuint_wbools o v n : wuint o v n = wbools o (bits_of v (Z.to_nat n)).
Proof. unfold wuint. apply wuint_bits. Qed.

Lemma bits_of_app a : forall b v, bits_of v (a + b) = bits_of v a ++ bits_of (Z.shiftr v (Z.of_nat a)) b.
Proof.
  induction a; intros b v.
  - cbn [Nat.add]. change (Z.of_nat 0) with 0. rewrite Z.shiftr_0_r. reflexivity.
  - cbn [Nat.add]. rewrite !bits_of_S, IHa. cbn [app]. do 3 f_equal.
    rewrite Z.div2_spec, Z.shiftr_shiftr by lia. f_equal. lia.
Qed.

Definition shape_ok (p : enc_params) : Prop := 0 <= p_shape_j p < 4.

Lemma enc_scf2_ok o p : shape_ok p ->
  enc_scf2 o (p_shape_j p) (p_gind p) (p_ls_inda p) (p_index_joint p) =
  wbools o ([2 <=? p_shape_j p] ++
  bits_of (p_gind p / (if Z.odd (p_shape_j p) then 2 else 1)) (if 2 <=? p_shape_j p then 2 else 1) ++
  [negb (p_ls_inda p =? 0)] ++
  bits_of (p_index_joint p) (if 2 <=? p_shape_j p then 24 else 25)).
Proof.
  intros H. unfold shape_ok in H. unfold enc_scf2.
  set (j := p_shape_j p) in *. set (g := p_gind p). set (ij := p_index_joint p).
  assert (Em : negb (Z.shiftr j 1 =? 0) = (2 <=? j)) by (rewrite Z.shiftr_div_pow2 by lia; change (2 ^ 1) with 2; dml).
  assert (E1 : idx SNS_GAIN_MSB_BITS j = Ok (if 2 <=? j then 2 else 1)).
  { assert (S : j = 0 \/ j = 1 \/ j = 2 \/ j = 3) by lia. destruct S as [-> | [-> | [-> | ->]]]; reflexivity. }
  assert (E2 : idx SNS_GAIN_LSB_BITS j = Ok (b2z (Z.odd j))).
  { assert (S : j = 0 \/ j = 1 \/ j = 2 \/ j = 3) by lia. destruct S as [-> | [-> | [-> | ->]]]; reflexivity. }
  assert (E3 : Z.shiftr g (b2z (Z.odd j)) = g / (if Z.odd j then 2 else 1)).
  { destruct (Z.odd j); cbn [b2z]; rewrite Z.shiftr_div_pow2 by lia; reflexivity. }
  rewrite Em, E1, E2. cbn [bind]. rewrite E3. rewrite wbools_app, <- wbools_one.
  apply bind_ext. intros o1. rewrite wbools_app.
  replace (bits_of (g / (if Z.odd j then 2 else 1)) (if 2 <=? j then 2%nat else 1%nat)) with
    (bits_of (g / (if Z.odd j then 2 else 1)) (Z.to_nat (if 2 <=? j then 2 else 1))) by (destruct (2 <=? j); reflexivity).
  rewrite <- wuint_wbools. apply bind_ext. intros o2. rewrite wbools_app, <- wbools_one. apply bind_ext. intros o3.
  destruct (2 <=? j); cbn [negb].
  - change 24%nat with (12 + 12)%nat. rewrite bits_of_app, wbools_app.
    change (bits_of ij 12) with (bits_of ij (Z.to_nat 12)) at 1. rewrite <- wuint_wbools. apply bind_ext. intros o4.
    change (Z.of_nat 12) with 12. rewrite wuint_wbools. reflexivity.
  - change 25%nat with (13 + 12)%nat. rewrite bits_of_app, wbools_app.
    change (bits_of ij 13) with (bits_of ij (Z.to_nat 13)) at 1. rewrite <- wuint_wbools. apply bind_ext. intros o4.
    change (Z.of_nat 13) with 13. rewrite wuint_wbools. reflexivity.
Qed.

Lemma enc_side_bits o ne p : shape_ok p -> 2 <= p_lastnz p -> p_num_tns p <= len (p_rc_order p) -> 0 <= p_nbits_bw p ->
  enc_side o ne p = wbools o (side_bits ne p).
Proof.
  intros Hs Hl Hn Hb. unfold enc_side, side_bits.
  rewrite wbools_app. unfold enc_bandwidth.
  replace (if 0 <? p_nbits_bw p then wuint o (p_bw p) (p_nbits_bw p) else Ok o) with (wbools o (bits_of (p_bw p) (Z.to_nat (p_nbits_bw p)))).
  2:{ destruct (Z.ltb_spec 0 (p_nbits_bw p)); [now rewrite wuint_wbools|]. replace (p_nbits_bw p) with 0 by lia. destruct o; reflexivity. }
  apply bind_ext. clear o. intros o. rewrite wbools_app. unfold enc_lastnz.
  assert (El : Z.shiftr (p_lastnz p) 1 = p_lastnz p / 2) by (rewrite Z.shiftr_div_pow2 by lia; reflexivity).
  rewrite El, usub_ok by dml. cbn [bind]. rewrite wuint_wbools. unfold log2_ceil.
  apply bind_ext. clear o. intros o. rewrite wbools_app, <- wbools_one.
  apply bind_ext. clear o. intros o. rewrite wbools_app, wuint_wbools.
  apply bind_ext. clear o. intros o. rewrite wbools_app. unfold enc_tns_flags.
  destruct (Z.ltb_spec (len (p_rc_order p)) (p_num_tns p)); [lia|].
  apply bind_ext. clear o. intros o. rewrite wbools_app, <- wbools_one.
  apply bind_ext. clear o. intros o. unfold sns_bits. rewrite <- !app_assoc. rewrite wbools_app, wuint_wbools.
  apply bind_ext. clear o. intros o. rewrite wbools_app, wuint_wbools.
  apply bind_ext. clear o. intros o.
  rewrite enc_scf2_ok by exact Hs.
  match goal with |- bind (wbools _ ?A) _ = wbools _ ?l =>
    replace l with (A ++ (if p_pitch_present p then p_ltpf_active p :: bits_of (p_pitch_index p) 9 else []) ++ bits_of (p_nf p) 3)
      by (rewrite <- !app_assoc; reflexivity); rewrite (wbools_app A) end.
  apply bind_ext. clear o. intros o. rewrite wbools_app.
  replace (if p_pitch_present p then _ else Ok o) with (wbools o (if p_pitch_present p then p_ltpf_active p :: bits_of (p_pitch_index p) 9 else [])).
  2:{ destruct (p_pitch_present p); [|destruct o; reflexivity]. cbn [wbools]. apply bind_ext. intros. now rewrite wuint_wbools. }
  apply bind_ext. clear o. intros o. now rewrite wuint_wbools.
Qed.

(* ---- TNS ---- *)
Lemma nth_skipn {A} (l : list A) n i d : nth i (skipn n l) d = nth (n + i) l d.
Proof. revert l; induction n; intros [|x l]; cbn [skipn Nat.add nth]; auto. destruct i; reflexivity. Qed.

Lemma idx2_model m (tc tf : list (list Z)) k i :
  idx tc k = Ok (fst m) -> idx tf k = Ok (snd m) ->
  forall (B : Type) (g : Z -> Z -> res B), (c <- idx2 tc k i ;; f <- idx2 tf k i ;; g c f) = (c <- idx (fst m) i ;; f <- idx (snd m) i ;; g c f).
Proof. intros E1 E2 B g. unfold idx2. rewrite E1, E2. reflexivity. Qed.

Definition tns_params_ok (rc_order rc_i : list Z) : Prop :=
  len rc_order = 2 /\ len rc_i = 16 /\ Forall (fun x => 0 <= x <= 8) rc_order /\ Forall (fun x => 0 <= x <= 16) rc_i.

Lemma Forall_nth_range (P : Z -> Prop) l i : Forall P l -> 0 <= i < len l -> P (nth (Z.to_nat i) l 0).
Proof. intros F H. rewrite Forall_forall in F. apply F. apply nth_In. unfold len in H. lia. Qed.

Definition coef_evs (rc_i : list Z) (f : nat) (k n : nat) : list ev :=
  map (fun k => ESym (msym (tns_coef_model k) (nth (Z.to_nat k) (skipn (8 * f) rc_i) 0))) (map Z.of_nat (seq k n)).

Definition filters_evs (w : Z) (rc_order rc_i : list Z) (f n : nat) : list ev :=
  flat_map (fun f => tns_filter_evs w (nth (Z.to_nat f) rc_order 0) (skipn (Z.to_nat (8 * f)) rc_i)) (map Z.of_nat (seq f n)).

Lemma filter_evs_pos w rc_order rc_i f : 0 < nth f rc_order 0 ->
  tns_filter_evs w (nth f rc_order 0) (skipn (Z.to_nat (8 * Z.of_nat f)) rc_i) =
  ESym (msym (tns_order_model w) (nth f rc_order 0 - 1)) :: coef_evs rc_i f 0 (Z.to_nat (nth f rc_order 0)).
Proof.
  intros H. unfold tns_filter_evs. destruct (Z.ltb_spec 0 (nth f rc_order 0)); [|lia].
  f_equal. unfold coef_evs, zseq. replace (Z.to_nat (8 * Z.of_nat f)) with (8 * f)%nat by lia. reflexivity.
Qed.

(* ---- spectrum ---- *)
Lemma lk_rows t lev : 0 <= t < 1024 -> 0 <= lev ->
  exists pk, idx AC_SPEC_LOOKUP (t + Z.min lev 3 * 1024) = Ok pk /\ lk t lev = spec_model pk /\
    idx AC_SPEC_CUMFREQ pk = Ok (fst (lk t lev)) /\ idx AC_SPEC_FREQ pk = Ok (snd (lk t lev)) /\
    valid_model (lk t lev) /\ msize (lk t lev) = 17.
Proof.
  intros Ht Hl. destruct (lookup_ok (t + Z.min lev 3 * 1024) ltac:(lia)) as (pk & E & Hpk).
  exists pk. split; [exact E|].
  assert (Elk : lk t lev = spec_model pk).
  { unfold lk. f_equal. rewrite (idx_nth _ _ 0) in E by (destruct lookup_check as [_ ->]; lia). congruence. }
  rewrite Elk. split; [reflexivity|]. destruct (spec_rows pk Hpk) as [R1 R2]. destruct (spec_model_ok pk Hpk). auto.
Qed.

Lemma land1 a : Z.land a 1 = a mod 2.
Proof. change 1 with (Z.ones 1). now rewrite Z.land_ones by lia. Qed.
Lemma land1_odd a : (Z.land a 1 =? 1) = Z.odd a.
Proof. rewrite land1, Zmod_odd. destruct (Z.odd a); reflexivity. Qed.
Lemma shiftr1 a : Z.shiftr a 1 = a / 2.
Proof. now rewrite Z.shiftr_div_pow2 by lia. Qed.

Lemma half_bound a n : 0 <= n -> 0 <= a < 2 ^ (n + 1) -> 0 <= a / 2 < 2 ^ n.
Proof. intros Hn Ha. rewrite Z.pow_add_r in Ha by lia. change (2 ^ 1) with 2 in Ha. dml. Qed.

Lemma esc_lev_nonneg fuel : forall a b, 0 <= esc_lev fuel a b.
Proof. induction fuel; intros; cbn [esc_lev]; destruct (4 <=? Z.max a b); try lia. specialize (IHfuel (a / 2) (b / 2)). lia. Qed.

(* what the escape part emits before the last symbol *)
Fixpoint esc_pre (fuel : nat) (lsb : bool) (t a b lev : Z) : list ev :=
  if 4 <=? Z.max a b then
    match fuel with
    | O => []
    | S f => ESym (msym (lk t lev) 16) :: (if lsb && (lev =? 0) then [] else [EBit (Z.odd a); EBit (Z.odd b)]) ++ esc_pre f lsb t (a / 2) (b / 2) (lev + 1)
    end
  else [].

Lemma div_pow_succ a e : 0 <= e -> a / 2 / 2 ^ e = a / 2 ^ (1 + e).
Proof. intros. rewrite Z.div_div by (try apply pow2_pos; lia). now rewrite Z.pow_add_r by lia. Qed.

Lemma esc_evs_split fuel lsb t : forall a b lev, 0 <= a < 2 ^ (Z.of_nat fuel + 2) -> 0 <= b < 2 ^ (Z.of_nat fuel + 2) ->
  let e := esc_lev fuel a b in
  esc_evs fuel lsb t a b lev = esc_pre fuel lsb t a b lev ++ [ESym (msym (lk t (lev + e)) (a / 2 ^ e + 4 * (b / 2 ^ e)))] /\
  a / 2 ^ e < 4 /\ b / 2 ^ e < 4.
Proof.
  induction fuel as [|f IH]; intros a b lev Ha Hb; cbn [esc_lev esc_evs esc_pre].
  - change (2 ^ (Z.of_nat 0 + 2)) with 4 in *. destruct (Z.leb_spec 4 (Z.max a b)); [lia|].
    cbn zeta. rewrite !Z.div_1_r, Z.add_0_r. auto with zarith.
  - destruct (Z.leb_spec 4 (Z.max a b)) as [Hge|Hlt].
    + replace (Z.of_nat (S f) + 2) with (Z.of_nat f + 2 + 1) in * by lia.
      apply half_bound in Ha, Hb; try lia.
      specialize (IH (a / 2) (b / 2) (lev + 1) Ha Hb). cbn zeta in *. pose proof (esc_lev_nonneg f (a / 2) (b / 2)) as He.
      rewrite !div_pow_succ in IH by assumption. destruct IH as (E & A & B). split; [|auto].
      rewrite E. rewrite <- app_comm_cons, <- app_assoc.
      replace (lev + (1 + esc_lev f (a / 2) (b / 2))) with (lev + 1 + esc_lev f (a / 2) (b / 2)) by lia. reflexivity.
    + cbn zeta. rewrite !Z.div_1_r, Z.add_0_r. split; [reflexivity|lia].
Qed.

Lemma land15 c : Z.land c 15 = c mod 16.
Proof. change 15 with (Z.ones 4). now rewrite Z.land_ones by lia. Qed.

(* lsbs pushed for one pair *)
Definition lsb_one (x : Z) : list Z := Z.abs x mod 2 :: (if (Z.abs x / 2 =? 0) && negb (x =? 0) then [if 0 <? x then 0 else 1] else []).
Definition pair_lsbs (lsb : bool) (x0 x1 : Z) : list Z :=
  if lsb && (0 <? esc_lev 16 (Z.abs x0) (Z.abs x1)) then lsb_one x0 ++ lsb_one x1 else [].

Lemma push_ok nb lsbs v : len lsbs < nb -> push_lsb nb lsbs v = Ok (lsbs ++ [v]).
Proof. intros. unfold push_lsb. destruct (Z.ltb_spec (len lsbs) nb); [reflexivity|lia]. Qed.

Lemma pair_ctx_range ne k c rate : 0 <= c < 256 -> rate = 0 \/ rate = 512 -> 0 <= pair_ctx ne k c rate < 1024.
Proof. unfold pair_ctx. intros. destruct (ne / 2 <? k); lia. Qed.

Lemma pair_mag x : Z.abs x <= 32768 -> 0 <= Z.abs x < 2 ^ (Z.of_nat 16 + 2).
Proof. intros. change (2 ^ (Z.of_nat 16 + 2)) with 262144. lia. Qed.

Lemma esc_div_range a b : 0 <= a < 2 ^ (Z.of_nat 16 + 2) -> 0 <= b < 2 ^ (Z.of_nat 16 + 2) ->
  0 <= a / 2 ^ esc_lev 16 a b < 4 /\ 0 <= b / 2 ^ esc_lev 16 a b < 4.
Proof.
  intros Ha Hb. destruct (esc_evs_split 16 false 0 a b 0 Ha Hb) as (_ & A & B).
  pose proof (pow2_pos (esc_lev 16 a b) (esc_lev_nonneg 16 a b)) as P.
  split; (split; [apply Z.div_pos; lia|assumption]).
Qed.

Lemma pair_next_range c x0 x1 : Z.abs x0 <= 32768 -> Z.abs x1 <= 32768 -> 0 <= pair_next c x0 x1 < 256.
Proof.
  intros H0 H1. unfold pair_next, ctx_next.
  destruct (esc_div_range (Z.abs x0) (Z.abs x1) (pair_mag _ H0) (pair_mag _ H1)) as [A B].
  pose proof (esc_lev_nonneg 16 (Z.abs x0) (Z.abs x1)) as He.
  set (e := esc_lev 16 (Z.abs x0) (Z.abs x1)) in *. set (a := Z.abs x0 / 2 ^ e) in *. set (b := Z.abs x1 / 2 ^ e) in *.
  pose proof (Z.mod_pos_bound c 16 ltac:(lia)) as Hc.
  destruct (Z.leb_spec (Z.min e 3) 1); [|lia]. assert (e = 0 \/ e = 1) as [-> | ->] by lia; cbn [Z.min Z.compare]; lia.
Qed.

Fixpoint spec_lsbs (n : nat) (lsb : bool) (k : Z) (xq : list Z) : list Z :=
  match n with
  | O => []
  | S n' => pair_lsbs lsb (nth (Z.to_nat k) xq 0) (nth (Z.to_nat (k + 1)) xq 0) ++ spec_lsbs n' lsb (k + 2) xq
  end.

(* The walk along the events of a frame, for any relation between the writer and the events emitted so far that each bit and each
   symbol preserves: the one of Events.v, and the weaker one of WriterTotal.v. *)
Section Walk.
Context (fits : Z -> list ev -> Prop) (est : Z -> acenc -> out -> list ev -> Prop).
Context (fits_app : forall L a b, fits L (a ++ b) -> fits L a).
Context (est_bit : forall L st o l b, est L st o l -> fits L (l ++ [EBit b]) -> exists o', wbool o b = Ok o' /\ est L st o' (l ++ [EBit b])).
Context (est_sym : forall L st o l c f, est L st o l -> fits L (l ++ [ESym (c, f)]) -> exists st' o', ac_encode st o c f = Ok (st', o') /\ est L st' o' (l ++ [ESym (c, f)])).

Lemma est_msym L st o l m i : valid_model m -> 0 <= i < msize m -> est L st o l -> fits L (l ++ [ESym (msym m i)]) ->
  exists st' o', (c <- idx (fst m) i ;; f <- idx (snd m) i ;; ac_encode st o c f) = Ok (st', o') /\
    est L st' o' (l ++ [ESym (msym m i)]).
Proof.
  intros V Hi E F. unfold msize in Hi.
  rewrite (idx_nth (fst m) i 0), (idx_nth (snd m) i 0) by (unfold len; pose proof (vm_len _ V); lia). cbn [bind].
  now apply est_sym.
Qed.
Lemma bind_est_walk {L st o l m i} : valid_model m -> 0 <= i < msize m -> est L st o l -> fits L (l ++ [ESym (msym m i)]) ->
  exists st' o', est L st' o' (l ++ [ESym (msym m i)]) /\
    forall (B : Type) (g : acenc * out -> res B),
      (c <- idx (fst m) i ;; f <- idx (snd m) i ;; so <- ac_encode st o c f ;; g so) = g (st', o').
Proof.
  intros V Hi E F. destruct (est_msym L st o l m i V Hi E F) as (st' & o' & E1 & E2).
  exists st', o'. split; [exact E2|]. intros B g.
  transitivity (bind (c <- idx (fst m) i ;; f <- idx (snd m) i ;; ac_encode st o c f) g).
  - rewrite bind_assoc. apply bind_ext. intros c. rewrite bind_assoc. reflexivity.
  - rewrite E1. reflexivity.
Qed.

Lemma enc_tns_coefs_walk L rc_i f n : len rc_i = 16 -> Forall (fun x => 0 <= x <= 16) rc_i -> (f < 2)%nat ->
  forall k st o l, (k + n <= 8)%nat -> est L st o l -> fits L (l ++ coef_evs rc_i f k n) ->
  exists st' o', enc_tns_coefs n (Z.of_nat k) (Z.of_nat f) rc_i st o = Ok (st', o') /\ est L st' o' (l ++ coef_evs rc_i f k n).
Proof.
  intros Hl Hr Hf. induction n as [|n IH]; intros k st o l Hk E F.
  - exists st, o. cbn [enc_tns_coefs coef_evs seq map]. rewrite app_nil_r. auto.
  - cbn [enc_tns_coefs]. unfold coef_evs in *. cbn [seq map] in *. rewrite app_cons in *. pose proof (fits_app _ _ _ F) as F1.
    rewrite nth_skipn in F, F1 |- *. rewrite Nat2Z.id in *.
    rewrite (idx_nth rc_i _ 0) by lia. cbn [bind].
    replace (Z.to_nat (Z.of_nat k + 8 * Z.of_nat f)) with (8 * f + k)%nat by lia.
    destruct (tns_coef_rows (Z.of_nat k) ltac:(lia)) as [R1 R2].
    destruct (tns_coef_model_ok (Z.of_nat k) ltac:(lia)) as [V M].
    rewrite (idx2_model (tns_coef_model (Z.of_nat k)) _ _ _ _ R1 R2).
    assert (Hv : 0 <= nth (8 * f + k) rc_i 0 <= 16).
    { replace (8 * f + k)%nat with (Z.to_nat (Z.of_nat (8 * f + k))) by lia.
      apply (Forall_nth_range (fun x => 0 <= x <= 16)); [exact Hr|lia]. }
    destruct (bind_est_walk (L := L) V (i := nth (8 * f + k) rc_i 0) ltac:(rewrite M; lia) E F1) as (st1 & o1 & E1 & Eq). rewrite Eq.
    replace (Z.of_nat k + 1) with (Z.of_nat (S k)) by lia.
    apply IH; auto. lia.
Qed.

Lemma enc_tns_filters_walk L w rc_order rc_i n : tns_params_ok rc_order rc_i -> 0 <= w < 2 ->
  forall f st o l, (f + n <= 2)%nat -> est L st o l -> fits L (l ++ filters_evs w rc_order rc_i f n) ->
  exists st' o', enc_tns_filters n (Z.of_nat f) w rc_order rc_i st o = Ok (st', o') /\ est L st' o' (l ++ filters_evs w rc_order rc_i f n).
Proof.
  intros (H1 & H2 & H3 & H4) Hw. induction n as [|n IH]; intros f st o l Hf E F.
  - exists st, o. cbn [enc_tns_filters filters_evs seq map flat_map]. rewrite app_nil_r. auto.
  - cbn [enc_tns_filters]. unfold filters_evs in *. cbn [seq map flat_map] in *. fold (filters_evs w rc_order rc_i (S f) n) in *.
    rewrite (idx_nth rc_order _ 0) by lia. cbn [bind]. rewrite Nat2Z.id in *.
    pose proof (Forall_nth_range (fun x => 0 <= x <= 8) rc_order (Z.of_nat f) H3 ltac:(lia)) as Ho. cbn beta in Ho. rewrite Nat2Z.id in Ho.
    replace (Z.of_nat f + 1) with (Z.of_nat (S f)) by lia.
    rewrite app_assoc in *. pose proof (fits_app _ _ _ F) as F1.
    destruct (Z.ltb_spec 0 (nth f rc_order 0)) as [Hpos|Hz].
    + rewrite filter_evs_pos in F, F1 |- * by assumption.
      destruct (tns_order_rows w Hw) as [R1 R2]. destruct (tns_order_model_ok w Hw) as [V M].
      rewrite (idx2_model (tns_order_model w) _ _ _ _ R1 R2).
      rewrite app_cons in F1. pose proof (fits_app _ _ _ F1) as F2.
      destruct (bind_est_walk (L := L) V (i := nth f rc_order 0 - 1) ltac:(rewrite M; lia) E F2) as (st1 & o1 & E1 & Eq). rewrite Eq.
      destruct (enc_tns_coefs_walk L rc_i f (Z.to_nat (nth f rc_order 0)) H2 H4 ltac:(lia) 0%nat st1 o1 _ ltac:(lia) E1 F1) as (st2 & o2 & E2 & E3).
      change (Z.of_nat 0) with 0 in E2. rewrite E2. cbn [bind].
      rewrite (app_cons l). apply IH; [lia|exact E3|]. rewrite <- (app_cons l). exact F.
    + unfold tns_filter_evs in *. destruct (Z.ltb_spec 0 (nth f rc_order 0)); [lia|].
      rewrite app_nil_r in *. cbn [bind]. apply IH; auto. lia.
Qed.

Lemma enc_levels_walk L t lsb fuel : 0 <= t < 1024 -> forall lev a b lsb0 lsb1 st o l,
  0 <= a < 2 ^ (Z.of_nat fuel + 2) -> 0 <= b < 2 ^ (Z.of_nat fuel + 2) -> 0 <= lev ->
  est L st o l -> fits L (l ++ esc_pre fuel lsb t a b lev) ->
  let e := esc_lev fuel a b in
  exists st' o', enc_levels fuel t a b lev lsb0 lsb1 lsb st o =
      Ok (a / 2 ^ e, b / 2 ^ e, lev + e, (if lsb && (lev =? 0) && (0 <? e) then a mod 2 else lsb0),
          (if lsb && (lev =? 0) && (0 <? e) then b mod 2 else lsb1), st', o') /\
    est L st' o' (l ++ esc_pre fuel lsb t a b lev).
Proof.
  intros Ht. induction fuel as [|f IH]; intros lev a b lsb0 lsb1 st o l Ha Hb Hlev E F; cbn [enc_levels esc_pre esc_lev] in *.
  - change (2 ^ (Z.of_nat 0 + 2)) with 4 in *. destruct (Z.leb_spec 4 (Z.max a b)); [lia|].
    exists st, o. cbn zeta. rewrite !Z.div_1_r, Z.add_0_r, app_nil_r. rewrite !andb_false_r. auto.
  - destruct (Z.leb_spec 4 (Z.max a b)) as [Hge|Hlt].
    + replace (Z.of_nat (S f) + 2) with (Z.of_nat f + 2 + 1) in * by lia.
      apply half_bound in Ha, Hb; try lia.
      destruct (lk_rows t lev Ht Hlev) as (pk & E1 & _ & R1 & R2 & V & M). rewrite E1. cbn [bind].
      rewrite (idx2_model (lk t lev) _ _ _ _ R1 R2).
      pose proof (esc_lev_nonneg f (a / 2) (b / 2)) as He.
      rewrite app_cons in *. rewrite app_assoc in *. pose proof (fits_app _ _ _ F) as F1. pose proof (fits_app _ _ _ F1) as F2.
      destruct (bind_est_walk (L := L) V (i := 16) ltac:(rewrite M; lia) E F2) as (st1 & o1 & E2 & Eq). rewrite Eq. clear Eq.
      cbn zeta. rewrite <- !div_pow_succ by lia. rewrite !land1, !shiftr1.
      destruct (Z.ltb_spec 0 (1 + esc_lev f (a / 2) (b / 2))); [|lia].
      destruct (lsb && (lev =? 0)) eqn:Em; cbn [andb].
      * apply andb_true_iff in Em as [-> Em]. apply Z.eqb_eq in Em. subst lev.
        rewrite app_nil_r in *. cbn [Z.add].
        destruct (IH 1 (a / 2) (b / 2) (a mod 2) (b mod 2) st1 o1 _ Ha Hb ltac:(lia) E2 F) as (st2 & o2 & E3 & E4).
        exists st2, o2. split; [|exact E4]. rewrite E3. cbn [andb Z.eqb]. reflexivity.
      * change [EBit (Z.odd a); EBit (Z.odd b)] with ([EBit (Z.odd a)] ++ [EBit (Z.odd b)]) in *.
        rewrite app_assoc in F, F1 |- *. pose proof (fits_app _ _ _ F1) as F3.
        rewrite <- !land1, !land1_odd.
        destruct (est_bit L st1 o1 _ (Z.odd a) E2 F3) as (o2 & W2 & E3). rewrite W2. cbn [bind].
        destruct (est_bit L st1 o2 _ (Z.odd b) E3 F1) as (o3 & W3 & E4). rewrite W3. cbn [bind].
        destruct (IH (lev + 1) (a / 2) (b / 2) lsb0 lsb1 st1 o3 _ Ha Hb ltac:(lia) E4 F) as (st2 & o4 & E5 & E6).
        exists st2, o4. split; [|exact E6]. rewrite E5.
        assert (Hn : (lev + 1 =? 0) = false) by lia. rewrite Hn, andb_false_r. cbn [andb].
        rewrite Z.add_assoc. reflexivity.
    + exists st, o. cbn zeta. rewrite !Z.div_1_r, Z.add_0_r, app_nil_r. rewrite !andb_false_r. auto.
Qed.

Lemma est_sign_walk L st o l mag x : 0 <= mag <= Z.abs x -> est L st o l -> fits L (l ++ sign_evs mag x) ->
  exists o', (if 0 <? mag then wbool o (x <=? 0) else Ok o) = Ok o' /\ est L st o' (l ++ sign_evs mag x).
Proof.
  unfold sign_evs. intros Hm E F. destruct (Z.ltb_spec 0 mag).
  - replace (x <=? 0) with (x <? 0) by lia. now apply est_bit.
  - exists o. rewrite app_nil_r. auto.
Qed.

Lemma enc_pair_walk L ne k c rate lsb nbl x0 x1 lsbs st o l :
  0 <= c < 256 -> rate = 0 \/ rate = 512 -> Z.abs x0 <= 32768 -> Z.abs x1 <= 32768 ->
  (lsb = true -> len lsbs + len (pair_lsbs lsb x0 x1) <= nbl) ->
  est L st o l -> fits L (l ++ pair_evs lsb ne k c rate x0 x1) ->
  exists st' o', enc_pair ne k c rate lsb nbl x0 x1 lsbs st o = Ok (pair_next c x0 x1, lsbs ++ pair_lsbs lsb x0 x1, st', o') /\
    est L st' o' (l ++ pair_evs lsb ne k c rate x0 x1).
Proof.
  intros Hc Hr H0 H1 Hn E F. unfold enc_pair, pair_evs in *. cbn zeta in *.
  pose proof (pair_ctx_range ne k c rate Hc Hr) as Ht. fold (pair_ctx ne k c rate). set (t := pair_ctx ne k c rate) in *.
  pose proof (pair_mag _ H0) as M0. pose proof (pair_mag _ H1) as M1.
  destruct (esc_evs_split 16 lsb t (Z.abs x0) (Z.abs x1) 0 M0 M1) as (Es & A4 & B4).
  destruct (esc_div_range _ _ M0 M1) as [A B].
  pose proof (esc_lev_nonneg 16 (Z.abs x0) (Z.abs x1)) as He.
  unfold pair_next. cbn zeta in *. unfold pair_lsbs in *. set (e := esc_lev 16 (Z.abs x0) (Z.abs x1)) in *.
  rewrite Es in F |- *. cbn [Z.add] in F |- *.
  rewrite !app_assoc in F |- *. pose proof (fits_app _ _ _ F) as F1. pose proof (fits_app _ _ _ F1) as F2. pose proof (fits_app _ _ _ F2) as F3.
  destruct (enc_levels_walk L t lsb 16 Ht 0 _ _ 0 0 st o l M0 M1 ltac:(lia) E F3) as (st1 & o1 & E1 & E2). fold e in E1.
  rewrite E1. cbn [bind Z.add].
  destruct (lk_rows t e Ht He) as (pk & Ek & _ & R1 & R2 & V & M). rewrite Ek. cbn [bind].
  set (a := Z.abs x0 / 2 ^ e) in *. set (b := Z.abs x1 / 2 ^ e) in *.
  rewrite (idx2_model (lk t e) _ _ _ _ R1 R2).
  destruct (bind_est_walk (L := L) V (i := a + 4 * b) ltac:(rewrite M; lia) E2 F2) as (st2 & o2 & E3 & Eq). rewrite Eq. clear Eq.
  assert (Esent : forall x, sent_mag lsb e x = if lsb && (0 <? e) then Z.abs x / 2 else Z.abs x) by reflexivity.
  assert (Hs : forall x, 0 <= sent_mag lsb e x <= Z.abs x).
  { intros x. rewrite Esent. destruct (lsb && (0 <? e)); dml. }
  destruct (est_sign_walk L st2 o2 _ _ x0 (Hs x0) E3 F1) as (o3 & W3 & E4).
  destruct (est_sign_walk L st2 o3 _ _ x1 (Hs x1) E4 F) as (o4 & W4 & E5).
  assert (EN : enc_next_ctx c e a b = ctx_next c e a b) by (unfold enc_next_ctx, ctx_next; now rewrite land15).
  exists st2, o4. split; [|exact E5].
  rewrite !Esent in *. destruct (lsb && (0 <? e)) eqn:Em.
  - apply andb_true_iff in Em as [-> Em]. rewrite Em in *. cbn [andb Z.eqb] in *. specialize (Hn eq_refl).
    rewrite !shiftr1. unfold lsb_one in *.
    rewrite len_app, !len_cons in Hn.
    set (l0 := if (Z.abs x0 / 2 =? 0) && negb (x0 =? 0) then [if 0 <? x0 then 0 else 1] else []) in *.
    set (l1 := if (Z.abs x1 / 2 =? 0) && negb (x1 =? 0) then [if 0 <? x1 then 0 else 1] else []) in *.
    pose proof (len_nonneg l0). pose proof (len_nonneg l1).
    rewrite push_ok by lia. cbn [bind].
    replace (if (Z.abs x0 / 2 =? 0) && negb (x0 =? 0) then push_lsb nbl (lsbs ++ [Z.abs x0 mod 2]) (if 0 <? x0 then 0 else 1) else Ok (lsbs ++ [Z.abs x0 mod 2]))
      with (Ok ((lsbs ++ [Z.abs x0 mod 2]) ++ l0)).
    2:{ unfold l0 in *. destruct ((Z.abs x0 / 2 =? 0) && negb (x0 =? 0)); [|now rewrite app_nil_r].
        rewrite push_ok; [reflexivity|]. rewrite len_app. rewrite len_cons in Hn. change (len (@nil Z)) with 0 in Hn. change (len [Z.abs x0 mod 2]) with 1. lia. }
    cbn [bind]. rewrite push_ok by (rewrite !len_app; change (len [Z.abs x0 mod 2]) with 1; lia). cbn [bind].
    set (ls := ((lsbs ++ [Z.abs x0 mod 2]) ++ l0) ++ [Z.abs x1 mod 2]).
    replace (if (Z.abs x1 / 2 =? 0) && negb (x1 =? 0) then push_lsb nbl ls (if 0 <? x1 then 0 else 1) else Ok ls) with (Ok (ls ++ l1)).
    2:{ unfold l1 in *. destruct ((Z.abs x1 / 2 =? 0) && negb (x1 =? 0)); [|now rewrite app_nil_r].
        rewrite push_ok; [reflexivity|]. unfold ls. rewrite !len_app. rewrite len_cons in Hn. change (len (@nil Z)) with 0 in Hn.
        change (len [Z.abs x0 mod 2]) with 1. change (len [Z.abs x1 mod 2]) with 1. lia. }
    cbn [bind]. rewrite W3. cbn [bind]. rewrite W4. cbn [bind]. rewrite EN. unfold ls. rewrite <- !app_assoc. reflexivity.
  - cbn [bind]. rewrite W3. cbn [bind]. rewrite W4. cbn [bind]. rewrite EN, app_nil_r. reflexivity.
Qed.

Lemma enc_pairs_walk L ne rate lsb nbl xq n : rate = 0 \/ rate = 512 ->
  forall k c lsbs st o l, 0 <= k -> k + 2 * Z.of_nat n <= len xq -> 0 <= c < 256 ->
  (forall i, 0 <= i < k + 2 * Z.of_nat n -> Z.abs (nth (Z.to_nat i) xq 0) <= 32768) ->
  (lsb = true -> len lsbs + len (spec_lsbs n lsb k xq) <= nbl) ->
  est L st o l -> fits L (l ++ spec_evs n lsb ne k c rate xq) ->
  exists st' o', enc_pairs n ne k c rate lsb nbl xq lsbs st o = Ok (lsbs ++ spec_lsbs n lsb k xq, st', o') /\
    est L st' o' (l ++ spec_evs n lsb ne k c rate xq).
Proof.
  intros Hr. induction n as [|n IH]; intros k c lsbs st o l Hk Hl Hc Hx Hn E F; cbn [enc_pairs spec_evs spec_lsbs] in *.
  - exists st, o. rewrite !app_nil_r. auto.
  - cbn zeta in *. rewrite (idx_nth xq k 0), (idx_nth xq (k + 1) 0) by lia. cbn [bind].
    set (x0 := nth (Z.to_nat k) xq 0) in *. set (x1 := nth (Z.to_nat (k + 1)) xq 0) in *.
    assert (B0 : Z.abs x0 <= 32768) by (apply Hx; lia). assert (B1 : Z.abs x1 <= 32768) by (apply Hx; lia).
    rewrite app_assoc in F |- *. rewrite len_app in Hn. pose proof (len_nonneg (spec_lsbs n lsb (k + 2) xq)).
    destruct (enc_pair_walk L ne k c rate lsb nbl x0 x1 lsbs st o l Hc Hr B0 B1 ltac:(intros; specialize (Hn ltac:(assumption)); lia) E (fits_app _ _ _ F)) as (st1 & o1 & E1 & E2).
    rewrite E1. cbn [bind]. rewrite app_assoc.
    apply IH; auto; try lia.
    + now apply pair_next_range.
    + intros i Hi. apply Hx. lia.
    + intros. rewrite len_app. specialize (Hn ltac:(assumption)). lia.
Qed.
End Walk.

Definition enc_tns_filters_ok := enc_tns_filters_walk Events.fits Events.est Events.fits_app Events.est_sym.
Definition enc_pairs_ok := enc_pairs_walk Events.fits Events.est Events.fits_app Events.est_bit Events.est_sym.
