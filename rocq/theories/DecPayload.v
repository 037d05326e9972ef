(* The frame parser follows the payload of PayloadSpec. *)
From Coq Require Import ZArith List Bool Lia ZifyBool.
From Verif Require Import Base Config Writer Reader AcEnc AcDec AcSpec AcSpecProofs BufLemmas AcEncProofs AcDecProofs AcStreamProofs SideInfo ArithDec
  TablesSpec TablesTns TablesProofs TailSpec TailProofs FrameEnc PayloadSpec Events EncPayload EncFrame FrameSpec DecSide.
Import ListNotations.
Local Open Scope Z_scope.

(* overwrite entries i, i + 1, ... *)
Fixpoint fill (a : list Z) (i : nat) (vs : list Z) : list Z :=
  match vs with [] => a | v :: vs' => fill (upd a i v) (S i) vs' end.

Lemma fill_length vs : forall a i, length (fill a i vs) = length a.
Proof. induction vs; intros; cbn [fill]; [reflexivity|]. rewrite IHvs. apply upd_length. Qed.

Lemma nth_upd_any {A} (l : list A) : forall i j v d, nth j (upd l i v) d = if (i =? j)%nat && (j <? length l)%nat then v else nth j l d.
Proof.
  induction l as [|x l IH]; intros i j v d; [destruct i, j; cbn; rewrite ?andb_false_r; reflexivity|].
  destruct i, j; cbn [upd nth length]; [reflexivity|reflexivity|reflexivity|]. rewrite IH.
  change (S i =? S j)%nat with (i =? j)%nat. change (S j <? S (length l))%nat with (j <? length l)%nat. reflexivity.
Qed.

Lemma nth_fill vs : forall a i j, (i + length vs <= length a)%nat ->
  nth j (fill a i vs) 0 = if (i <=? j)%nat && (j <? i + length vs)%nat then nth (j - i) vs 0 else nth j a 0.
Proof.
  induction vs as [|v vs IH]; intros a i j H; cbn [fill length] in *.
  - replace ((i <=? j)%nat && (j <? i + 0)%nat) with false by lia. reflexivity.
  - rewrite IH by (rewrite upd_length; lia). rewrite nth_upd_any.
    destruct (Nat.eq_dec i j) as [->|Hn].
    + replace ((S j <=? j)%nat && _) with false by lia. rewrite Nat.eqb_refl.
      replace ((j <? length a)%nat) with true by lia. cbn [andb].
      replace ((j <=? j)%nat && (j <? j + S (length vs))%nat) with true by lia.
      now rewrite Nat.sub_diag.
    + replace (i =? j)%nat with false by lia. cbn [andb].
      destruct ((S i <=? j)%nat && (j <? S i + length vs)%nat) eqn:E.
      * replace ((i <=? j)%nat && (j <? i + S (length vs))%nat) with true by lia.
        replace (j - i)%nat with (S (j - S i)) by lia. reflexivity.
      * replace ((i <=? j)%nat && (j <? i + S (length vs))%nat) with false by lia. reflexivity.
Qed.

Definition sub_list (l : list Z) (i n : nat) : list Z := firstn n (skipn i l).

Lemma dec_tns_coefs_ok buf rc_i f n : bytes buf -> len rc_i = 16 -> Forall (fun x => 0 <= x <= 16) rc_i -> (f < 2)%nat ->
  forall k st r l a, (k + n <= 8)%nat -> length a = 16%nat -> dst buf r st l -> holds buf (l ++ coef_evs rc_i f k n) ->
  exists st' r', dec_tns_coefs n (Z.of_nat k) (Z.of_nat f) buf r st a = Ok (fill a (8 * f + k) (sub_list rc_i (8 * f + k) n), st', r') /\
    dst buf r' st' (l ++ coef_evs rc_i f k n).
Proof.
  intros Hb Hl Hr Hf. induction n as [|n IH]; intros k st r l a Hk La D Hh.
  - exists st, r. unfold coef_evs. cbn [dec_tns_coefs seq map sub_list firstn fill]. rewrite app_nil_r. auto.
  - cbn [dec_tns_coefs]. unfold coef_evs in *. cbn [seq map] in *. rewrite app_cons in *. pose proof (holds_app _ _ _ Hh) as H1.
    rewrite nth_skipn in Hh, H1 |- *. rewrite Nat2Z.id in *.
    destruct (tns_coef_rows (Z.of_nat k) ltac:(lia)) as [R1 R2]. rewrite R1, R2. cbn [bind].
    destruct (tns_coef_model_ok (Z.of_nat k) ltac:(lia)) as [V M].
    pose proof (Forall_nth_range (fun x => 0 <= x <= 16) rc_i (Z.of_nat (8 * f + k)) Hr ltac:(lia)) as Hv. cbn beta in Hv. rewrite Nat2Z.id in Hv.
    destruct (dst_msym buf r st l _ (nth (8 * f + k) rc_i 0) Hb V ltac:(rewrite M; lia) D H1) as (st1 & r1 & E1 & D1). rewrite E1. cbn [bind].
    replace (Z.of_nat f * 8 + Z.of_nat k) with (Z.of_nat (8 * f + k)) by lia.
    rewrite store_ok by (unfold len; lia). cbn [bind]. rewrite Nat2Z.id.
    replace (Z.of_nat k + 1) with (Z.of_nat (S k)) by lia.
    destruct (IH (S k) st1 r1 _ (upd a (8 * f + k) (nth (8 * f + k) rc_i 0)) ltac:(lia) ltac:(now rewrite upd_length) D1 Hh) as (st2 & r2 & E2 & D2).
    exists st2, r2. split; [|exact D2]. rewrite E2. do 3 f_equal.
    unfold sub_list. replace (8 * f + S k)%nat with (S (8 * f + k)) by lia.
    assert (Es : skipn (8 * f + k) rc_i = nth (8 * f + k) rc_i 0 :: skipn (S (8 * f + k)) rc_i).
    { assert (Hlt : (8 * f + k < length rc_i)%nat) by (unfold len in Hl; lia). revert Hlt. generalize (8 * f + k)%nat. clear.
      induction rc_i as [|x l IH]; intros i Hi; [cbn in Hi; lia|]. destruct i; [reflexivity|]. cbn [skipn nth]. apply IH. cbn in Hi; lia. }
    rewrite Es. cbn [firstn fill]. reflexivity.
Qed.

(* coefficient indices of the filters f .. f + n - 1 written into an array *)
Fixpoint spec_fill (n f : nat) (rc_order rc_i a : list Z) : list Z :=
  match n with
  | O => a
  | S n' => spec_fill n' (S f) rc_order rc_i (fill a (8 * f) (sub_list rc_i (8 * f) (Z.to_nat (nth f rc_order 0))))
  end.

Lemma dec_tns_filters_ok buf w rc_order rc_i : bytes buf -> tns_params_ok rc_order rc_i -> 0 <= w < 2 ->
  forall n f st r l a flags, (f + n <= 2)%nat -> length flags = n -> (forall i, (i < n)%nat -> nth i flags 0 = if nth (f + i) rc_order 0 =? 0 then 0 else 1) ->
  length a = 16%nat -> dst buf r st l -> holds buf (l ++ filters_evs w rc_order rc_i f n) ->
  exists st' r', dec_tns_filters flags (Z.of_nat f) w buf r st a = Ok (sub_list rc_order f n, spec_fill n f rc_order rc_i a, st', r') /\
    dst buf r' st' (l ++ filters_evs w rc_order rc_i f n).
Proof.
  intros Hb (H1 & H2 & H3 & H4) Hw. induction n as [|n IH]; intros f st r l a flags Hf Lf Hfl La D Hh.
  - destruct flags; [|discriminate]. exists st, r. unfold filters_evs. cbn [dec_tns_filters sub_list firstn spec_fill seq map flat_map]. rewrite app_nil_r. auto.
  - destruct flags as [|fl flags]; [discriminate|]. cbn [dec_tns_filters]. unfold filters_evs in *. cbn [seq map flat_map] in *. fold (filters_evs w rc_order rc_i (S f) n) in *.
    rewrite Nat2Z.id in *.
    pose proof (Forall_nth_range (fun x => 0 <= x <= 8) rc_order (Z.of_nat f) H3 ltac:(lia)) as Ho. cbn beta in Ho. rewrite Nat2Z.id in Ho.
    replace (Z.of_nat f + 1) with (Z.of_nat (S f)) by lia.
    assert (Efl : fl = if nth f rc_order 0 =? 0 then 0 else 1). { specialize (Hfl 0%nat ltac:(lia)). rewrite Nat.add_0_r in Hfl. exact Hfl. }
    assert (Hfl' : forall i, (i < n)%nat -> nth i flags 0 = if nth (S f + i) rc_order 0 =? 0 then 0 else 1).
    { intros i Hi. specialize (Hfl (S i) ltac:(lia)). cbn [nth] in Hfl. rewrite Hfl. now replace (f + S i)%nat with (S f + i)%nat by lia. }
    assert (Hsub : sub_list rc_order f (S n) = nth f rc_order 0 :: sub_list rc_order (S f) n).
    { unfold sub_list. assert (Hlt : (f < length rc_order)%nat) by (unfold len in H1; lia). revert Hlt. clear. revert f.
      induction rc_order as [|x l IH]; intros i Hi; [cbn in Hi; lia|]. destruct i; [reflexivity|]. cbn [skipn nth]. apply IH. cbn in Hi; lia. }
    rewrite app_assoc in *. pose proof (holds_app _ _ _ Hh) as Hh1.
    destruct (Z.eqb_spec (nth f rc_order 0) 0) as [Hz|Hnz].
    + rewrite Efl. change (0 <? 0) with false. cbn iota.
      unfold tns_filter_evs in *. rewrite Hz in *. change (0 <? 0) with false in *. cbn iota in *. rewrite app_nil_r in *.
      destruct (IH (S f) st r l a flags ltac:(lia) ltac:(cbn in Lf; lia) Hfl' La D Hh) as (st1 & r1 & E1 & D1).
      exists st1, r1. rewrite E1. cbn [bind]. split; [|exact D1]. rewrite Hsub. cbn [spec_fill]. rewrite Hz. reflexivity.
    + rewrite Efl. change (0 <? 1) with true. cbn iota.
      rewrite filter_evs_pos in * by lia. rewrite app_cons in Hh1.
      destruct (tns_order_rows w ltac:(lia)) as [R1 R2]. rewrite R1, R2. cbn [bind].
      destruct (tns_order_model_ok w Hw) as [V M].
      destruct (dst_msym buf r st l _ (nth f rc_order 0 - 1) Hb V ltac:(rewrite M; lia) D (holds_app _ _ _ Hh1)) as (st1 & r1 & E1 & D1). rewrite E1. cbn [bind].
      replace (nth f rc_order 0 - 1 + 1) with (nth f rc_order 0) by lia.
      destruct (dec_tns_coefs_ok buf rc_i f (Z.to_nat (nth f rc_order 0)) Hb H2 H4 ltac:(lia) 0%nat st1 r1 _ a ltac:(lia) La D1 Hh1) as (st2 & r2 & E2 & D2).
      change (Z.of_nat 0) with 0 in E2. rewrite E2. cbn [bind]. rewrite Nat.add_0_r in *.
      rewrite <- app_cons in D2.
      destruct (IH (S f) st2 r2 _ (fill a (8 * f) (sub_list rc_i (8 * f) (Z.to_nat (nth f rc_order 0)))) flags ltac:(lia) ltac:(cbn in Lf; lia) Hfl' ltac:(now rewrite fill_length) D2 Hh) as (st3 & r3 & E3 & D3).
      exists st3, r3. rewrite E3. cbn [bind]. split; [|exact D3]. rewrite Hsub. reflexivity.
Qed.

(* ---- spectrum ---- *)
Lemma dec_levels_ok buf lsb t : bytes buf -> 0 <= t < 1024 ->
  forall n m a b lev sym x0 x1 r st l, (1 <= n)%nat -> (n <= S m)%nat -> 0 <= lev -> 0 <= a < 2 ^ (Z.of_nat n + 1) -> 0 <= b < 2 ^ (Z.of_nat n + 1) ->
  dst buf r st l -> holds buf (l ++ esc_evs m lsb t a b lev) ->
  let e := esc_lev m a b in
  let low v := (v mod 2 ^ e - (if lsb && (lev =? 0) && (0 <? e) then v mod 2 else 0)) * 2 ^ lev in
  exists st' r', dec_levels n lev t sym x0 x1 lsb buf r st = Ok (a / 2 ^ e + 4 * (b / 2 ^ e), lev + e, x0 + low a, x1 + low b, st', r') /\
    dst buf r' st' (l ++ esc_evs m lsb t a b lev) /\ 0 <= a / 2 ^ e < 4 /\ 0 <= b / 2 ^ e < 4.
Proof.
  intros Hb Ht. induction n as [|n IH]; intros m a b lev sym x0 x1 r st l Hn1 Hm Hl Ha Hb' D Hh; [lia|].
  cbn zeta. cbn [dec_levels].
  destruct (lk_rows t lev Ht Hl) as (pk & E1 & E2 & E3 & E4 & V & M). rewrite E1. cbn [bind]. rewrite E3, E4. cbn [bind].
  destruct m as [|m]; cbn [esc_evs esc_lev] in *.
  - (* no escape possible *)
    assert (n = 0%nat) by lia. subst n. change (2 ^ (Z.of_nat 1 + 1)) with 4 in *.
    destruct (Z.leb_spec 4 (Z.max a b)); [lia|].
    destruct (dst_msym buf r st l (lk t lev) (a + 4 * b) Hb V ltac:(rewrite M; lia) D Hh) as (st1 & r1 & E5 & D1). rewrite E5. cbn [bind].
    destruct (Z.ltb_spec (a + 4 * b) 16); [|lia].
    exists st1, r1. rewrite Z.pow_0_r, !Z.div_1_r, !Z.mod_1_r. change (0 <? 0) with false. rewrite andb_false_r.
    rewrite Z.sub_0_r, Z.mul_0_l, !Z.add_0_r. split; [reflexivity|]. split; [exact D1|lia].
  - destruct (Z.leb_spec 4 (Z.max a b)) as [Hbig|Hsmall].
    + (* escape *)
      assert (n <> 0%nat). { intros ->. change (2 ^ (Z.of_nat 1 + 1)) with 4 in *. lia. }
      rewrite app_cons in Hh.
      destruct (dst_msym buf r st l (lk t lev) 16 Hb V ltac:(rewrite M; lia) D (holds_app _ _ _ Hh)) as (st1 & r1 & E5 & D1). rewrite E5. cbn [bind].
      change (16 <? 16) with false. cbn iota.
      replace (Z.of_nat (S n) + 1) with (Z.of_nat n + 1 + 1) in * by lia.
      pose proof (half_bound a (Z.of_nat n + 1) ltac:(lia) Ha) as Ha2. pose proof (half_bound b (Z.of_nat n + 1) ltac:(lia) Hb') as Hb2.
      set (e := esc_lev m (a / 2) (b / 2)) in *.
      pose proof (esc_lev_nonneg m (a / 2) (b / 2)) as He. fold e in He.
      assert (Hmod : forall v, v mod 2 ^ (1 + e) = v mod 2 + 2 * ((v / 2) mod 2 ^ e)).
      { intros v. pose proof (pow2_pos e He). rewrite Z.pow_add_r by lia. change (2 ^ 1) with 2. rewrite Z.rem_mul_r by lia. reflexivity. }
      assert (Hp1 : 2 ^ (lev + 1) = 2 * 2 ^ lev) by (rewrite Z.pow_add_r by lia; change (2 ^ 1) with 2; lia).
      destruct (lsb && (lev =? 0)) eqn:El.
      * (* low bits deferred *)
        cbn [app] in Hh. assert (lsb = true /\ lev = 0) as [-> ->] by (destruct lsb; lia). cbn [negb orb]. change (0 <? 0) with false. cbn iota.
        destruct (IH m (a / 2) (b / 2) (0 + 1) 16 x0 x1 r1 st1 (l ++ [ESym (msym (lk t 0) 16)]) ltac:(lia) ltac:(lia) ltac:(lia) Ha2 Hb2 D1 Hh)
          as (st2 & r2 & E6 & D2 & B1 & B2). fold e in E6, B1, B2.
        exists st2, r2. rewrite E6. clear E6. rewrite !div_pow_succ in * by lia.
        split; [|split; [rewrite app_cons; exact D2|auto]].
        replace (0 <? 1 + e) with true by lia. cbn [andb]. change (0 + 1 =? 0) with false. cbn [andb].
        rewrite !Hmod. change (2 ^ (0 + 1)) with 2. rewrite Z.pow_0_r. do 3 f_equal; try lia. f_equal; [f_equal|]; try lia.
      * (* low bits read *)
        cbn [app] in Hh. rewrite (app_cons _ (EBit (Z.odd a))), (app_cons _ (EBit (Z.odd b))) in Hh.
        pose proof (holds_app _ _ _ Hh) as Hh1. pose proof (holds_app _ _ _ Hh1) as Hh2.
        replace (negb lsb || (0 <? lev)) with true by (destruct lsb; lia). cbn iota.
        destruct (dst_bit buf r1 st1 _ (Z.odd a) Hb D1 Hh2) as (r2 & E6 & D2). rewrite E6. cbn [bind].
        destruct (dst_bit buf r2 st1 _ (Z.odd b) Hb D2 Hh1) as (r3 & E7 & D3). rewrite E7. cbn [bind].
        destruct (IH m (a / 2) (b / 2) (lev + 1) 16 (x0 + Z.shiftl (b2z (Z.odd a)) lev) (x1 + Z.shiftl (b2z (Z.odd b)) lev) r3 st1 _ ltac:(lia) ltac:(lia) ltac:(lia) Ha2 Hb2 D3 Hh)
          as (st2 & r4 & E8 & D4 & B1 & B2). fold e in E8, B1, B2.
        exists st2, r4. rewrite E8. clear E8. rewrite !div_pow_succ in * by lia.
        cbn [app]. split; [|split; [rewrite (app_cons l), (app_cons _ (EBit (Z.odd a))), (app_cons _ (EBit (Z.odd b))); exact D4|auto]].
        cbn [andb]. replace (lsb && (lev + 1 =? 0)) with false by lia. cbn [andb].
        rewrite !Hmod, Hp1. rewrite !Z.shiftl_mul_pow2 by lia.
        assert (Hodd : forall v, b2z (Z.odd v) = v mod 2) by (intros v; rewrite Zmod_odd; destruct (Z.odd v); reflexivity).
        rewrite !Hodd.
        replace (lev + 1 + e) with (lev + (1 + e)) by lia.
        replace (x0 + a mod 2 * 2 ^ lev + ((a / 2) mod 2 ^ e - 0) * (2 * 2 ^ lev)) with (x0 + (a mod 2 + 2 * ((a / 2) mod 2 ^ e) - 0) * 2 ^ lev) by lia.
        replace (x1 + b mod 2 * 2 ^ lev + ((b / 2) mod 2 ^ e - 0) * (2 * 2 ^ lev)) with (x1 + (b mod 2 + 2 * ((b / 2) mod 2 ^ e) - 0) * 2 ^ lev) by lia.
        reflexivity.
    + destruct (dst_msym buf r st l (lk t lev) (a + 4 * b) Hb V ltac:(rewrite M; lia) D Hh) as (st1 & r1 & E5 & D1). rewrite E5. cbn [bind].
      destruct (Z.ltb_spec (a + 4 * b) 16); [|lia].
      exists st1, r1. rewrite Z.pow_0_r, !Z.div_1_r, !Z.mod_1_r. change (0 <? 0) with false. rewrite andb_false_r.
      rewrite Z.sub_0_r, Z.mul_0_l, !Z.add_0_r. split; [reflexivity|]. split; [exact D1|lia].
Qed.

(* value of a line without its deferred low bit *)
Definition base_val (lsb : bool) (e x : Z) : Z := if lsb && (0 <? e) then Z.sgn x * (2 * (Z.abs x / 2)) else x.

Lemma dec_sign_ok buf lsb e x r st l : bytes buf -> 0 <= e -> dst buf r st l -> holds buf (l ++ sign_evs (sent_mag lsb e x) x) ->
  exists r', dec_sign (Z.abs x - (if lsb && (0 <? e) then Z.abs x mod 2 else 0)) buf r = Ok (base_val lsb e x, r') /\
    dst buf r' st (l ++ sign_evs (sent_mag lsb e x) x).
Proof.
  intros Hb He D Hh. unfold dec_sign, sign_evs, sent_mag, base_val in *.
  destruct (lsb && (0 <? e)).
  - replace (Z.abs x - Z.abs x mod 2) with (2 * (Z.abs x / 2)) by dml.
    assert (0 <= Z.abs x / 2) by dml.
    destruct (Z.ltb_spec 0 (Z.abs x / 2)).
    + replace (0 <? 2 * (Z.abs x / 2)) with true by lia.
      destruct (dst_bit buf r st l _ Hb D Hh) as (r1 & E1 & D1). rewrite E1. cbn [bind]. exists r1. split; [|exact D1].
      do 2 f_equal. destruct (Z.ltb_spec x 0).
      * replace (Z.sgn x) with (-1) by lia. lia.
      * assert (x <> 0) by (intros ->; cbn in *; lia). replace (Z.sgn x) with 1 by lia. lia.
    + replace (0 <? 2 * (Z.abs x / 2)) with false by lia. replace (Z.abs x / 2) with 0 in * by lia. exists r. rewrite app_nil_r. split; [|exact D].
      do 2 f_equal. lia.
  - rewrite Z.sub_0_r. destruct (Z.ltb_spec 0 (Z.abs x)).
    + destruct (dst_bit buf r st l _ Hb D Hh) as (r1 & E1 & D1). rewrite E1. cbn [bind]. exists r1. split; [|exact D1].
      do 2 f_equal. destruct (Z.ltb_spec x 0); lia.
    + exists r. rewrite app_nil_r. split; [|exact D]. do 2 f_equal. lia.
Qed.

Lemma abs_split a e lsb : 0 <= e ->
  0 + (a mod 2 ^ e - (if lsb && (0 =? 0) && (0 <? e) then a mod 2 else 0)) * 2 ^ 0 + Z.shiftl (a / 2 ^ e) (0 + e) = a - (if lsb && (0 <? e) then a mod 2 else 0).
Proof.
  intros He. rewrite Z.shiftl_mul_pow2 by lia. rewrite Z.pow_0_r, andb_true_r. rewrite Z.add_0_l.
  pose proof (Z.div_mod a (2 ^ e) ltac:(pose proof (pow2_pos e He); lia)). rewrite Z.add_0_l. lia.
Qed.

Definition pair_lev (x0 x1 : Z) : Z := esc_lev 16 (Z.abs x0) (Z.abs x1).

Lemma dec_pair_ok buf lsb ne k c rate x0 x1 r st l : bytes buf -> 0 <= c < 256 -> rate = 0 \/ rate = 512 -> Z.abs x0 <= 32767 -> Z.abs x1 <= 32767 ->
  dst buf r st l -> holds buf (l ++ pair_evs lsb ne (2 * k) c rate x0 x1) ->
  exists st' r', dec_pair k c rate ne lsb buf r st =
      Ok (base_val lsb (pair_lev x0 x1) x0, base_val lsb (pair_lev x0 x1) x1, pair_lev x0 x1, pair_next c x0 x1, st', r') /\
    dst buf r' st' (l ++ pair_evs lsb ne (2 * k) c rate x0 x1).
Proof.
  intros Hb Hc Hr B0 B1 D Hh. unfold pair_evs in *. fold (pair_lev x0 x1) in *. cbn zeta in *. set (e := pair_lev x0 x1) in *.
  pose proof (pair_ctx_range ne (2 * k) c rate Hc Hr) as Ht.
  unfold dec_pair. replace (c + rate + (if ne / 2 <? k * 2 then 256 else 0)) with (pair_ctx ne (2 * k) c rate) by (unfold pair_ctx; rewrite (Z.mul_comm k 2); reflexivity).
  pose proof (esc_lev_nonneg 16 (Z.abs x0) (Z.abs x1)) as He. fold (pair_lev x0 x1) in He. fold e in He.
  rewrite !app_assoc in Hh. pose proof (holds_app _ _ _ Hh) as H1. pose proof (holds_app _ _ _ H1) as H0.
  edestruct (dec_levels_ok buf lsb (pair_ctx ne (2 * k) c rate) Hb Ht 14 16 (Z.abs x0) (Z.abs x1) 0 0 0 0 r st l) as (st1 & r1 & E1 & D1 & A1 & A2);
    [lia|lia|lia|change (2 ^ (Z.of_nat 14 + 1)) with 32768; lia|change (2 ^ (Z.of_nat 14 + 1)) with 32768; lia|exact D|exact H0|].
  fold (pair_lev x0 x1) in E1, A1, A2. fold e in E1, A1, A2. cbn zeta in E1. rewrite E1. cbn [bind]. clear E1.
  set (a := Z.abs x0 / 2 ^ e) in *. set (b := Z.abs x1 / 2 ^ e) in *.
  assert (Ea : Z.land (a + 4 * b) 3 = a). { change 3 with (Z.ones 2). rewrite Z.land_ones by lia. change (2 ^ 2) with 4. dml. }
  assert (Eb : Z.shiftr (a + 4 * b) 2 = b). { rewrite Z.shiftr_div_pow2 by lia. change (2 ^ 2) with 4. dml. }
  rewrite Ea, Eb. unfold a at 1, b at 1. rewrite !abs_split by lia.
  destruct (dec_sign_ok buf lsb e x0 r1 st1 _ Hb He D1 H1) as (r2 & E2 & D2). rewrite E2. cbn [bind].
  destruct (dec_sign_ok buf lsb e x1 r2 st1 _ Hb He D2 Hh) as (r3 & E3 & D3). rewrite E3. cbn [bind].
  exists st1, r3. rewrite !app_assoc. split; [|exact D3]. rewrite Z.add_0_l.
  do 4 f_equal. unfold next_ctx, pair_next. fold (pair_lev x0 x1). fold e. fold a. fold b. unfold ctx_next. cbn zeta. now rewrite land15.
Qed.

Fixpoint base_lines (n : nat) (lsb : bool) (k : Z) (xq : list Z) : list Z :=
  match n with
  | O => []
  | S n' =>
      let x0 := nth (Z.to_nat k) xq 0 in let x1 := nth (Z.to_nat (k + 1)) xq 0 in
      base_val lsb (pair_lev x0 x1) x0 :: base_val lsb (pair_lev x0 x1) x1 :: base_lines n' lsb (k + 2) xq
  end.
Fixpoint pair_levs (n : nat) (k : Z) (xq : list Z) : list Z :=
  match n with
  | O => []
  | S n' => pair_lev (nth (Z.to_nat k) xq 0) (nth (Z.to_nat (k + 1)) xq 0) :: pair_levs n' (k + 2) xq
  end.

Lemma dec_pairs_ok buf lsb ne rate xq : bytes buf -> rate = 0 \/ rate = 512 ->
  forall n k c r st l, 0 <= k -> 0 <= c < 256 -> (forall i, 0 <= i < 2 * k + 2 * Z.of_nat n -> Z.abs (nth (Z.to_nat i) xq 0) <= 32767) ->
  dst buf r st l -> holds buf (l ++ spec_evs n lsb ne (2 * k) c rate xq) ->
  exists st' r', dec_pairs n k c rate ne lsb buf r st = Ok (base_lines n lsb (2 * k) xq, pair_levs n (2 * k) xq, st', r') /\
    dst buf r' st' (l ++ spec_evs n lsb ne (2 * k) c rate xq).
Proof.
  intros Hb Hr. induction n as [|n IH]; intros k c r st l Hk Hc Hx D Hh; cbn [dec_pairs spec_evs base_lines pair_levs] in *.
  - exists st, r. rewrite app_nil_r. auto.
  - cbn zeta in *. set (x0 := nth (Z.to_nat (2 * k)) xq 0) in *. set (x1 := nth (Z.to_nat (2 * k + 1)) xq 0) in *.
    assert (B0 : Z.abs x0 <= 32767) by (apply Hx; lia). assert (B1 : Z.abs x1 <= 32767) by (apply Hx; lia).
    rewrite app_assoc in Hh. pose proof (holds_app _ _ _ Hh) as H1.
    destruct (dec_pair_ok buf lsb ne k c rate x0 x1 r st l Hb Hc Hr B0 B1 D H1) as (st1 & r1 & E1 & D1). rewrite E1. cbn [bind].
    replace (2 * k + 2) with (2 * (k + 1)) in * by lia.
    destruct (IH (k + 1) (pair_next c x0 x1) r1 st1 _ ltac:(lia) (pair_next_range c x0 x1 ltac:(lia) ltac:(lia)) ltac:(intros i Hi; apply Hx; lia) D1 Hh) as (st2 & r2 & E2 & D2).
    rewrite E2. cbn [bind]. exists st2, r2. rewrite app_assoc. split; [reflexivity|exact D2].
Qed.

Lemma base_lines_length n lsb xq : forall k, length (base_lines n lsb k xq) = (2 * n)%nat.
Proof. induction n; intros; cbn [base_lines length]; [reflexivity|]. cbn zeta. cbn [length]. rewrite IHn. lia. Qed.
Lemma pair_levs_length n xq : forall k, length (pair_levs n k xq) = n.
Proof. induction n; intros; cbn [pair_levs length]; [reflexivity|]. now rewrite IHn. Qed.

Lemma skipn_nth_cons {A} (l : list A) d : forall i, (i < length l)%nat -> skipn i l = nth i l d :: skipn (S i) l.
Proof. induction l as [|x l IH]; intros i Hi; [cbn in Hi; lia|]. destruct i; [reflexivity|]. cbn [skipn nth]. apply IH. cbn in Hi; lia. Qed.

Lemma base_lines_regular n xq : forall k, 0 <= k -> (Z.to_nat k + 2 * n <= length xq)%nat ->
  base_lines n false k xq = firstn (2 * n) (skipn (Z.to_nat k) xq).
Proof.
  induction n as [|n IH]; intros k Hk Hl; [reflexivity|]. cbn [base_lines]. cbn zeta. unfold base_val. cbn [andb].
  replace (2 * S n)%nat with (S (S (2 * n))) by lia.
  rewrite (skipn_nth_cons xq 0 (Z.to_nat k)) by lia. rewrite (skipn_nth_cons xq 0 (S (Z.to_nat k))) by lia. cbn [firstn].
  rewrite IH by lia. replace (Z.to_nat (k + 1)) with (S (Z.to_nat k)) by lia. replace (Z.to_nat (k + 2)) with (S (S (Z.to_nat k))) by lia. reflexivity.
Qed.

(* ---- residual bits, regular mode ---- *)
Definition nnz (l : list Z) : Z := len (filter (fun x => negb (x =? 0)) l).

Lemma nnz_cons x l : nnz (x :: l) = nnz l + (if x =? 0 then 0 else 1).
Proof. unfold nnz. cbn [filter]. destruct (x =? 0); cbn [negb]; [lia|]. now rewrite len_cons. Qed.
Lemma nnz_nonneg l : 0 <= nnz l.
Proof. apply len_nonneg. Qed.
Lemma nnz_le l : nnz l <= len l.
Proof. induction l as [|x l IH]; [cbn; lia|]. rewrite nnz_cons, len_cons. destruct (x =? 0); lia. Qed.

(* the bits of the buffer from tail position t on *)
Definition tail_bits (buf : list Z) (t : Z) (n : nat) : list bool := bits_of (be buf / 2 ^ t) n.

Lemma tail_bits_S buf t n : 0 <= t -> tail_bits buf t (S n) = Z.odd (be buf / 2 ^ t) :: tail_bits buf (t + 1) n.
Proof.
  intros Ht. unfold tail_bits. rewrite bits_of_S. f_equal. f_equal. rewrite Z.div2_div.
  rewrite Z.pow_add_r by lia. change (2 ^ 1) with 2. pose proof (pow2_pos t Ht). rewrite Z.div_div by lia. reflexivity.
Qed.

Lemma dec_res_bits_ok buf : bytes buf -> forall xs count nres r, 0 <= count -> 0 <= r_head r -> 0 <= r_tail r -> count <= nres ->
  nnz xs + count <= MAX_LEN_FREQUENCY -> r_tail r + (nres - count) + 8 * r_head r <= 8 * len buf + 24 -> r_tail r + (nres - count) <= 8 * len buf ->
  let n := Z.min (nres - count) (nnz xs) in
  dec_res_bits xs count nres buf r = Ok (tail_bits buf (r_tail r) (Z.to_nat n), mkReader (r_head r) (r_tail r + n)).
Proof.
  intros Hb. induction xs as [|x xs IH]; intros count nres r Hc Hh Ht Hcn Hn Hf1 Hf2; cbn zeta; cbn [dec_res_bits].
  - change (nnz []) with 0. rewrite Z.min_r by lia. cbn. rewrite Z.add_0_r. destruct r; reflexivity.
  - rewrite nnz_cons in *. pose proof (nnz_nonneg xs).
    destruct (Z.eqb_spec x 0).
    + rewrite Z.add_0_r in *. apply IH; auto.
    + destruct (Z.eqb_spec count nres).
      * rewrite Z.min_l by lia. replace (nres - count) with 0 by lia. cbn. rewrite Z.add_0_r. destruct r; reflexivity.
      * rewrite read_bool_at by (auto; lia). cbn [bind].
        destruct (Z.leb_spec MAX_LEN_FREQUENCY count); [lia|].
        rewrite (IH (count + 1) nres (mkReader (r_head r) (r_tail r + 1))) by (cbn [r_head r_tail]; lia). cbn [bind r_head r_tail].
        replace (Z.min (nres - count) (nnz xs + 1)) with (Z.min (nres - (count + 1)) (nnz xs) + 1) by lia.
        set (m := Z.min (nres - (count + 1)) (nnz xs)).
        replace (Z.to_nat (m + 1)) with (S (Z.to_nat m)) by (unfold m; lia).
        rewrite tail_bits_S by lia. do 3 f_equal. lia.
Qed.

Lemma bits_of_prefix v n bs : (n <= length bs)%nat -> v mod 2 ^ len bs = bval bs -> bits_of v n = firstn n bs.
Proof.
  revert v bs. induction n as [|n IH]; intros v bs Hl E; [reflexivity|].
  destruct bs as [|b bs]; [cbn in Hl; lia|]. rewrite len_cons in E. cbn [bval] in E. pose proof (len_nonneg bs).
  rewrite Z.pow_add_r in E by lia. change (2 ^ 1) with 2 in E. rewrite Z.mul_comm, Z.rem_mul_r in E by (pose proof (pow2_pos (len bs) ltac:(lia)); lia).
  pose proof (Zmod_odd v) as Ho. pose proof (b2z_range b).
  rewrite bits_of_S. cbn [firstn].
  assert (b2z (Z.odd v) = b2z b /\ (v / 2) mod 2 ^ len bs = bval bs).
  { assert (v mod 2 = b2z (Z.odd v)) by (rewrite Ho; destruct (Z.odd v); reflexivity). pose proof (b2z_range (Z.odd v)). lia. }
  destruct H1 as [E1 E2]. apply b2z_inj in E1. rewrite E1. f_equal. apply IH; [cbn in Hl; lia|]. now rewrite Z.div2_div.
Qed.

Lemma tail_bits_prefix buf t bs n : tail_at (be buf) t bs -> (n <= length bs)%nat -> tail_bits buf t n = firstn n bs.
Proof. intros T Hl. unfold tail_bits. apply bits_of_prefix; assumption. Qed.

Lemma bits_of_split v n m : (m <= n)%nat -> firstn m (bits_of v n) = bits_of v m.
Proof.
  intros H. replace n with (m + (n - m))%nat by lia. rewrite bits_of_app. rewrite firstn_app.
  assert (length (bits_of v m) = m) by (pose proof (bits_of_len v m); unfold len in *; lia).
  rewrite H0, Nat.sub_diag, firstn_O, app_nil_r. rewrite <- H0 at 1. apply firstn_all.
Qed.

(* ---- residual bits, lsb mode: only their effect on the magnitudes is bounded ---- *)
Definition nudged (a b : Z) : Prop := b = a \/ b = a + Z.sgn a \/ (a = 0 /\ (b = 1 \/ b = -1)).

Lemma read_res_bit_ok buf x r k nres : bytes buf -> 0 <= k < len x -> 0 <= nres -> 0 <= r_head r -> 0 <= r_tail r ->
  r_tail r + nres + 8 * r_head r <= 8 * len buf + 24 -> r_tail r + nres <= 8 * len buf ->
  exists go x' nres' r', read_res_bit x r buf k nres = Ok (go, x', nres', r') /\ len x' = len x /\ 0 <= nres' /\ r_head r' = r_head r /\
    0 <= r_tail r' /\ r_tail r' + nres' = r_tail r + nres /\
    nudged (nth (Z.to_nat k) x 0) (nth (Z.to_nat k) x' 0) /\ (forall i, i <> Z.to_nat k -> nth i x' 0 = nth i x 0).
Proof.
  intros Hb Hk Hn Hh Ht F1 F2. unfold read_res_bit.
  assert (Hself : nudged (nth (Z.to_nat k) x 0) (nth (Z.to_nat k) x 0)) by (left; reflexivity).
  destruct (Z.eqb_spec nres 0); [exists false, x, nres, r; repeat split; auto|].
  rewrite read_bool_at by (auto; lia). cbn [bind]. rewrite usub_ok by lia. cbn [bind].
  destruct (Z.odd (be buf / 2 ^ r_tail r)).
  2:{ eexists _, x, _, _. split; [reflexivity|]. cbn [r_head r_tail]. repeat split; auto; lia. }
  rewrite (idx_nth x k 0) by lia. cbn [bind]. set (v := nth (Z.to_nat k) x 0) in *.
  assert (Hs : forall w, nudged v w -> store x k w = Ok (upd x (Z.to_nat k) w) /\ len (upd x (Z.to_nat k) w) = len x /\
    nudged v (nth (Z.to_nat k) (upd x (Z.to_nat k) w) 0) /\ forall i, i <> Z.to_nat k -> nth i (upd x (Z.to_nat k) w) 0 = nth i x 0).
  { intros w Hw. split; [apply store_ok; lia|]. split; [apply len_upd|]. split.
    - rewrite nth_upd_any. replace ((Z.to_nat k =? Z.to_nat k)%nat && _) with true by (unfold len in *; lia). exact Hw.
    - intros i Hi. rewrite nth_upd_any. replace ((Z.to_nat k =? i)%nat) with false by lia. reflexivity. }
  destruct (Z.ltb_spec 0 v).
  { destruct (Hs (v + 1) ltac:(right; left; lia)) as (S1 & S2 & S3 & S4). rewrite S1. cbn [bind].
    eexists _, _, _, _. split; [reflexivity|]. cbn [r_head r_tail]. repeat split; auto; lia. }
  destruct (Z.ltb_spec v 0).
  { destruct (Hs (v - 1) ltac:(right; left; lia)) as (S1 & S2 & S3 & S4). rewrite S1. cbn [bind].
    eexists _, _, _, _. split; [reflexivity|]. cbn [r_head r_tail]. repeat split; auto; lia. }
  destruct (Z.eqb_spec (nres - 1) 0).
  { eexists _, x, _, _. split; [reflexivity|]. cbn [r_head r_tail]. repeat split; auto; lia. }
  rewrite read_bool_at by (cbn [r_head r_tail]; auto; lia). cbn [bind r_head r_tail]. rewrite usub_ok by lia. cbn [bind].
  set (w := if Z.odd (be buf / 2 ^ (r_tail r + 1)) then -1 else 1).
  destruct (Hs w ltac:(right; right; unfold w; destruct (Z.odd _); lia)) as (S1 & S2 & S3 & S4). rewrite S1. cbn [bind].
  eexists _, _, _, _. split; [reflexivity|]. cbn [r_head r_tail]. repeat split; auto; lia.
Qed.

Lemma dec_lsb_bits_ok buf save_lev : bytes buf -> forall n k x nres r, 0 <= k -> k + 2 * Z.of_nat n <= len x -> k + 2 * Z.of_nat n <= len save_lev -> 0 <= nres -> 0 <= r_head r -> 0 <= r_tail r ->
  r_tail r + nres + 8 * r_head r <= 8 * len buf + 24 -> r_tail r + nres <= 8 * len buf ->
  exists x' r', dec_lsb_bits n k x save_lev nres buf r = Ok (x', r') /\ len x' = len x /\
    (forall i, (i < Z.to_nat k)%nat -> nth i x' 0 = nth i x 0) /\
    (forall i, nudged (nth i x 0) (nth i x' 0)) /\ (forall i, (Z.to_nat k + 2 * n <= i)%nat -> nth i x' 0 = nth i x 0) /\
    (Forall (fun l => l = 0) save_lev -> x' = x).
Proof.
  intros Hb. induction n as [|n IH]; intros k x nres r Hk Lx Ls Hn Hh Ht F1 F2; cbn [dec_lsb_bits].
  - exists x, r. repeat split; auto. intros; left; reflexivity.
  - rewrite (idx_nth save_lev k 0) by lia. cbn [bind].
    destruct (Z.ltb_spec 0 (nth (Z.to_nat k) save_lev 0)) as [Hpos|Hz].
    2:{ destruct (IH (k + 2) x nres r) as (x' & r' & E & L' & A1 & A2 & A3 & A4); auto; try lia.
        exists x', r'. repeat split; auto; intros; [apply A1|apply A3]; lia. }
    assert (Hno : ~ Forall (fun l => l = 0) save_lev).
    { intros F. rewrite Forall_forall in F. specialize (F (nth (Z.to_nat k) save_lev 0) ltac:(apply nth_In; unfold len in *; lia)). lia. }
    destruct (read_res_bit_ok buf x r k nres Hb ltac:(lia) Hn Hh Ht F1 F2) as (go & x1 & n1 & r1 & E1 & L1 & N1 & H1 & T1 & S1 & U1 & O1).
    rewrite E1. cbn [bind].
    assert (Nud1 : forall i, nudged (nth i x 0) (nth i x1 0)).
    { intros i. destruct (Nat.eq_dec i (Z.to_nat k)) as [->|Hi]; [exact U1|]. left. now apply O1. }
    destruct go; cbn [negb].
    2:{ exists x1, r1. repeat split; auto; intros; [apply O1; lia|apply O1; lia|contradiction]. }
    destruct (read_res_bit_ok buf x1 r1 (k + 1) n1 Hb ltac:(lia) N1 ltac:(lia) T1 ltac:(lia) ltac:(lia)) as (go2 & x2 & n2 & r2 & E2 & L2 & N2 & H2 & T2 & S2 & U2 & O2).
    rewrite E2. cbn [bind].
    assert (Nud2 : forall i, nudged (nth i x 0) (nth i x2 0)).
    { intros i. destruct (Nat.eq_dec i (Z.to_nat (k + 1))) as [->|Hi].
      - rewrite (O1 (Z.to_nat (k + 1))) in U2 by lia. exact U2.
      - rewrite O2 by assumption. apply Nud1. }
    destruct go2; cbn [negb].
    2:{ exists x2, r2. repeat split; auto; try lia; intros; [rewrite O2, O1 by lia; auto|rewrite O2, O1 by lia; auto|contradiction]. }
    destruct (IH (k + 2) x2 n2 r2) as (x' & r' & E & L' & A1 & A2 & A3 & A4); auto; try lia.
    exists x', r'. split; [exact E|]. split; [lia|]. split; [|split; [|split]].
    + intros i Hi. rewrite A1, O2, O1 by lia. reflexivity.
    + intros i. destruct (Nat.lt_ge_cases i (Z.to_nat (k + 2))) as [Hi|Hi].
      * rewrite A1 by lia. apply Nud2.
      * specialize (A2 i). rewrite O2, O1 in A2 by lia. exact A2.
    + intros i Hi. rewrite A3, O2, O1 by lia. reflexivity.
    + intros F. contradiction.
Qed.
