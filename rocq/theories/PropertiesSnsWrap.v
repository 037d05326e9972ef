(* C64: the noise shaping quantiser in a build without overflow checks. *)
From Coq Require Import ZArith List Bool Lia Reals Lra.
From Coquelicot Require Import Complex.
From Flocq Require Import Core BinarySingleNaN.
From Verif Require Import Base Loops Scalar EncScalar F32 F32Round F32Lines EncF32 F32Size SideInfo FrameSpec SnsSize TablesSns Mpvq SnsProofs SnsIndex DecTotal TablesSnsF EncSns EncSnsOk ProjF32 SnsGrid PropertiesSnsFail MpvqProofs.
From Coq Require Import List.
Import ListNotations.
Local Open Scope Z_scope.

(* encoder/spectral_noise_shaping.rs:520-549 with a usize of w bits that wraps; `ls_indb as usize` extends the sign *)
Definition joint_wrap (w shape gind : Z) (y0 y1 y2 y3 : list Z) : res (Z * Z * Z) :=
  let wr v := v mod 2 ^ w in
  let lsb_gain := Z.land gind 1 in
  if shape =? 0 then
    '(ia, la) <- mvpq_enum 10 y0 ;;
    '(ib, lb) <- mvpq_enum 6 (skipn 10 y0) ;;
    Ok (wr (wr (wr (wr (2 * ib + wr lb) + 2) * 2390004) + ia), la, lb)
  else if shape =? 1 then
    '(ia, la) <- mvpq_enum 10 y1 ;; Ok (wr (lsb_gain * 2390004 + ia), la, 0)
  else if shape =? 2 then
    '(ia, la) <- mvpq_enum 16 y2 ;; Ok (wr ia, la, 0)
  else if shape =? 3 then
    '(ia, la) <- mvpq_enum 16 y3 ;; Ok (wr (15158272 + lsb_gain + 2 * ia), la, 0)
  else Panic.
(* 570-582 and 551-559, as EncSns.sns_quant *)
Definition sns_quant_wrap (w : Z) {F} (o : ops F) (e : eops F) (scf : list F) : res (sns_result * list F) :=
  '(lf, hf, st1, r1) <- sns_stage1 o e scf ;;
  let t2 := sns_rotate o r1 in
  '(y0, y1, y2, y3) <- sns_candidates o e t2 ;;
  '(j, i, _, g, xq) <- choose o e t2 (normalise o y0) (normalise o y1) (normalise o y2) (normalise o y3) ;;
  '(joint, la, lb) <- joint_wrap w j i y0 y1 y2 y3 ;;
  let row r := fold_left (fun a '(x, d) => fadd o a (fmul o x (flit o d))) (combine xq r) (fz o 0) in
  Ok (mkSr lf hf j i la lb joint, map (fun '(s, r) => fadd o s (fmul o g (row r))) (combine st1 D)).
(* the two fields bitstream_encoding.rs:199-200 writes of the index of shapes 0 and 1: 13 and 12 bits *)
Definition sent (joint : Z) : Z * Z := (joint mod 2 ^ 13, joint / 2 ^ 13 mod 2 ^ 12).

Lemma wrap_low w a : 25 <= w -> (a mod 2 ^ w) mod 2 ^ 25 = a mod 2 ^ 25.
Proof. intros H. symmetry. apply Znumtheory.Zmod_div_mod; [lia|apply Z.pow_pos_nonneg; lia|]. exists (2 ^ (w - 25)). rewrite <- Z.pow_add_r by lia. f_equal. lia. Qed.
Lemma wrap_all w ib lb ia : let wr v := v mod 2 ^ w in wr (wr (wr (wr (2 * ib + wr lb) + 2) * 2390004) + ia) = wr ((2 * ib + lb + 2) * 2390004 + ia).
Proof.
  intros wr. unfold wr. rewrite Zplus_mod_idemp_l. rewrite Zplus_mod_idemp_r. rewrite Zplus_mod_idemp_l. rewrite <- (Zplus_mod_idemp_l (_ mod _ * _)), Zmult_mod_idemp_l, Zplus_mod_idemp_l. reflexivity.
Qed.
Lemma sent_low a b : a mod 2 ^ 25 = b mod 2 ^ 25 -> sent a = sent b.
Proof. intros H. unfold sent. change (2 ^ 25) with 33554432 in H. change (2 ^ 13) with 8192. change (2 ^ 12) with 4096. f_equal; Z.div_mod_to_equations; lia. Qed.

(* the enumeration of any vector with few pulses returns; the leading sign is 0 or 1 as soon as there is a pulse *)
Lemma offset_total n k : 0 <= n < 16 -> 0 <= k < 11 -> exists v, offset n k = Ok v.
Proof.
  intros Hn Hk. unfold offset. destruct (Loops.idx_ok MPVQ_OFFSETS n) as (row & E); [change (len MPVQ_OFFSETS) with 16; lia|]. rewrite E. cbn [bind]. apply Loops.idx_ok.
  assert (C : forallb (fun r => len r =? 11) MPVQ_OFFSETS = true) by (vm_compute; reflexivity). rewrite forallb_forall in C. specialize (C row (LtpfSize.idx_In _ _ _ E)). apply Z.eqb_eq in C. lia.
Qed.
Lemma enum_total : forall vs index sign k n h, 0 <= k -> k + pulses vs <= 127 -> 0 <= n -> n + len vs <= 15 ->
  exists ind s, enum_loop vs index sign k n h = Ok (ind, s) /\ (s = 0 \/ s = 1 \/ s = sign /\ pulses vs = 0).
Proof.
  induction vs as [|v vs IH]; intros index sign k n h Hk Hp Hn Hl; [exists index, sign; split; [reflexivity|]; right; right; split; reflexivity|].
  change (pulses (v :: vs)) with (Z.abs v + pulses vs) in *. assert (P : 0 <= pulses vs) by (clear; induction vs as [|a vs IH]; [cbn; lia|change (pulses (a :: vs)) with (Z.abs a + pulses vs); lia]).
  assert (Ll : len (v :: vs) = len vs + 1) by (unfold len; cbn [length]; lia). assert (L0 : 0 <= len vs) by (unfold len; lia). cbn [enum_loop]. unfold enc_push_sign. destruct (Z.ltb_spec 127 (k + Z.abs v)); [lia|].
  set (n' := match vs with [] => n | _ :: _ => n + 1 end). assert (N' : n <= n' <= n + 1 /\ n' <= 14) by (unfold n'; destruct vs; [|unfold len in *; cbn [length] in *]; lia).
  assert (N2 : n' + len vs <= 15) by (unfold n'; destruct vs; [unfold len in *; cbn [length] in *|]; lia).
  assert (O : exists h', (if 11 <=? k + Z.abs v then offset (n' + 1) ((k + Z.abs v) mod 11) else offset n' (k + Z.abs v)) = Ok h').
  { destruct (Z.leb_spec 11 (k + Z.abs v)); apply offset_total; try lia. apply Z.mod_pos_bound. lia. }
  destruct O as (h' & ->). cbn [bind]. destruct (IH ((if (0 <=? sign) && negb (v =? 0) then 2 * index + sign else index) + h) (if v <? 0 then 1 else if 0 <? v then 0 else sign) (k + Z.abs v) n' h') as (ind & s & E & S); try lia.
  exists ind, s. split; [exact E|]. destruct S as [S|[S|[S P0]]]; [now left|now right; left|]. destruct (Z.ltb_spec v 0); [now right; left|]. destruct (Z.ltb_spec 0 v); [now left|]. right. right. split; [exact S|lia].
Qed.
Lemma pulses_rev l : pulses (rev l) = pulses l.
Proof.
  assert (A : forall a b, pulses (a ++ b) = pulses a + pulses b) by (induction a as [|v a IH]; intros b; [reflexivity|]; cbn [app]; change (pulses (v :: a ++ b)) with (Z.abs v + pulses (a ++ b)); change (pulses (v :: a)) with (Z.abs v + pulses a); rewrite IH; lia).
  induction l as [|v l IH]; [reflexivity|]. cbn [rev]. rewrite A, IH. change (pulses (v :: l)) with (Z.abs v + pulses l). change (pulses [v]) with (Z.abs v + 0). lia.
Qed.
Lemma enum_10 y : len y = 16 -> 1 <= pulses (firstn 10 y) <= 127 -> exists ia la, mvpq_enum 10 y = Ok (ia, la) /\ (la = 0 \/ la = 1).
Proof.
  intros L P. unfold mvpq_enum. rewrite L. cbn [Z.ltb Z.compare Pos.compare Pos.compare_cont bind]. destruct (offset_total 0 0 ltac:(lia) ltac:(lia)) as (h & ->). cbn [bind]. change (Z.to_nat 10) with 10%nat.
  destruct (enum_total (rev (firstn 10 y)) 0 i32_min 0 0 h) as (ia & la & E & S); try lia; rewrite ?pulses_rev; try lia; [unfold len in *; rewrite rev_length, firstn_length; lia|].
  exists ia, la. split; [exact E|]. rewrite pulses_rev in S. destruct S as [S|[S|[_ S]]]; auto; lia.
Qed.

(* eleven pulses, one of them at position 0: the table lookup after the last component is not used *)
Lemma enum_last x : x <> 0 -> Z.abs x <= 1 -> forall t s h ia la, (length t + length s = 9)%nat -> pulses t + pulses s = 10 -> h = A (length s) (Z.to_nat (pulses s)) ->
  enum_loop (rev t ++ [x]) (ix s) (sg s) (pulses s) (Z.of_nat (length s)) h = Ok (ia, la) -> ia = 2 * ix (t ++ s) + lead (t ++ s) + A 9 10.
Proof.
  intros X0 X1. induction t as [|v t IH] using rev_ind; intros s h ia la HL HP Hh E.
  - cbn [rev app length] in *. change (pulses []) with 0 in HP. assert (PS : pulses s = 10) by lia. cbn [enum_loop] in E. rewrite push_sign_spec in E by lia. destruct (127 <? pulses s + Z.abs x); [discriminate E|]. apply bind_Ok in E. destruct E as (h' & _ & E). cbn [enum_loop] in E.
    apply ParseBase.Ok_inj in E. apply pair_equal_spec in E. destruct E as [<- _]. rewrite PS in Hh |- *. destruct (Z.eqb_spec x 0); [lia|]. cbn [orb Z.eqb]. rewrite Hh. replace (length s) with 9%nat by lia. reflexivity.
  - rewrite rev_app_distr in E. change (rev [v] ++ rev t) with (v :: rev t) in E. rewrite app_length in HL. cbn [length] in HL. rewrite pulses_app, pulses_cons in HP. change (pulses []) with 0 in HP. pose proof (pulses_nonneg t). pose proof (pulses_nonneg s).
    cbn [app enum_loop] in E. rewrite push_sign_spec in E by lia. destruct (Z.ltb_spec 127 (pulses s + Z.abs v)); [lia|]. destruct (Z.leb_spec 11 (pulses s + Z.abs v)); [lia|].
    replace (pulses s + Z.abs v) with (pulses (v :: s)) in E by (rewrite pulses_cons; lia).
    assert (HI : (if (v =? 0) || (pulses s =? 0) then ix s else 2 * ix s + lead s) + h = ix (v :: s)) by (cbn [ix]; now rewrite Hh).
    rewrite HI in E. rewrite <- app_assoc. change ([v] ++ s) with (v :: s).
    destruct (rev t ++ [x]) as [|y l] eqn:ER; [apply (f_equal (@length Z)) in ER; rewrite app_length in ER; cbn [length] in ER; lia|].
    rewrite offset_A in E by (rewrite ?pulses_cons; lia). cbn [bind] in E. replace (Z.of_nat (length s) + 1) with (Z.of_nat (length (v :: s))) in E by (cbn [length]; lia). rewrite Nat2Z.id in E.
    apply (IH (v :: s) _ ia la) in E; [exact E|cbn [length]; lia|rewrite pulses_cons; lia|reflexivity].
Qed.
Lemma enum_11 y ia la : len y = 16 -> 1 <= pulses (firstn 10 y) <= 10 \/ Z.abs (hd 0 y) = 1 /\ pulses (firstn 10 y) = 11 -> mvpq_enum 10 y = Ok (ia, la) -> 0 <= ia < 2 * 2390004 /\ (la = 0 \/ la = 1).
Proof.
  intros L P E. assert (LA : la = 0 \/ la = 1) by (destruct (enum_10 y L ltac:(lia)) as (i' & l' & E' & ?); rewrite E in E'; apply ParseBase.Ok_inj in E'; assert (la = l') by congruence; now subst l').
  split; [|exact LA]. destruct P as [P|[X P]].
  - set (a := firstn 10 y) in *. assert (Ln : length a = 10%nat) by (unfold a, len in *; rewrite firstn_length; lia).
    destruct (enum_deenum a (skipn 10 y) ltac:(lia) P) as (ind & ls & E1 & _ & R1 & _). unfold a in E1 at 2. rewrite firstn_skipn in E1. unfold len in E1 at 1. rewrite Ln in E1. change (Z.of_nat 10) with 10 in E1. rewrite E in E1. apply ParseBase.Ok_inj in E1. apply pair_equal_spec in E1. destruct E1 as [<- _].
    rewrite Ln in R1. assert (C : forallb (fun k => size 10 k <=? 2390004) (seq 0 11) = true) by (vm_compute; reflexivity). rewrite forallb_forall in C. specialize (C (Z.to_nat (pulses a)) ltac:(apply in_seq; lia)). apply Z.leb_le in C. lia.
  - unfold mvpq_enum in E. rewrite L in E. cbn [Z.ltb Z.compare Pos.compare Pos.compare_cont bind] in E. rewrite offset_A in E by lia. cbn [bind] in E. change (Z.to_nat 10) with 10%nat in E. destruct y as [|x y]; [discriminate L|]. cbn [hd] in X. change (firstn 10 (x :: y)) with (x :: firstn 9 y) in E, P. rewrite pulses_cons in P. set (t := firstn 9 y) in *.
    assert (Lt : length t = 9%nat) by (unfold t, len in *; cbn [length] in L; rewrite firstn_length; lia). cbn [rev] in E.
    assert (Pt : pulses t = 10) by lia. assert (X0 : x <> 0) by (intros ->; discriminate X). assert (X1 : Z.abs x <= 1) by lia.
    assert (Q : ia = 2 * ix (t ++ []) + lead (t ++ []) + A 9 10) by (refine (enum_last x X0 X1 t [] (A 0 0) ia la _ _ eq_refl E); [cbn [length]; lia|change (pulses []) with 0; lia]).
    rewrite app_nil_r in Q. pose proof (ix_range t ltac:(lia) ltac:(lia)) as R. rewrite Lt in R. replace (Z.to_nat (pulses t)) with 10%nat in R by lia. pose proof (lead_range t). destruct (table_size 9 10 ltac:(lia) ltac:(lia)) as (T & _). rewrite size_10_10 in T. pose proof (A_pos 9 10 ltac:(lia) ltac:(lia)). lia.
Qed.
(* with set B empty the pulse meant for it is written to position 0 *)
Lemma pulse_at_0 {F} (o : ops F) (e : eops F) t2 y0 y1 y2 y3 : len t2 = 16 -> ~ set_b o e t2 -> sns_candidates o e t2 = Ok (y0, y1, y2, y3) -> Z.abs (hd 0 y0) = 1.
Proof.
  intros L SB E. unfold sns_candidates in E. set (ax := map (e_abs e) t2) in *. destruct (project o e ax) as [[p3 k] s]. destruct (k <? 0); [discriminate E|].
  apply bind_Ok in E. destruct E as ([z3 s3] & _ & E). apply bind_Ok in E. destruct E as ([z2 [cr en]] & _ & E). apply bind_Ok in E. destruct E as (z1 & _ & E). apply bind_Ok in E. destruct E as (t & _ & E). apply bind_Ok in E. destruct E as (at_ & Ea & E). cbv zeta in E.
  apply bind_Ok in E. destruct E as ([z1' s1] & _ & E). apply bind_Ok in E. destruct E as (z0 & Ep & E). apply ParseBase.Ok_inj in E. assert (y0 = signed o t2 z0) as -> by congruence.
  assert (La : len ax = 16) by (unfold ax; now rewrite len_map). rewrite sub_eq in Ea by lia. apply ParseBase.Ok_inj in Ea. change (Z.to_nat 10) with 10%nat in Ea.
  assert (Hb : largest o at_ 10 0 (fz o 0) = 0).
  { apply largest_none. apply Forall_forall. intros v Hv. subst at_. apply In_firstn in Hv. destruct (In_nth _ _ (e_abs e (fz o 0)) Hv) as (j & Hj & <-). rewrite EncPayload.nth_skipn. unfold ax. rewrite map_nth. rewrite skipn_length in Hj. unfold len in La.
    destruct (flt o (fz o 0) (e_abs e (nth (10 + j) t2 (fz o 0)))) eqn:B; [|reflexivity]. elim SB. exists (10 + Z.of_nat j). split; [lia|]. unfold getz. replace (Z.to_nat (10 + Z.of_nat j)) with (10 + j)%nat by lia. exact B. }
  rewrite Hb in Ep. unfold put in Ep. destruct ((0 <? 0) || _); [discriminate Ep|]. apply ParseBase.Ok_inj in Ep. subst z0. destruct t2 as [|v t2]; [discriminate L|]. destruct (z1' ++ repeat 0 6) as [|w l] eqn:EW; [destruct z1'; discriminate EW|].
  cbn [Z.to_nat upd]. unfold signed. cbn [combine map hd]. destruct (flt o v _); reflexivity.
Qed.

(* Without overflow checks the quantiser returns on any sixteen scale factors. Where it returns with the checks, the results are the same. Where it panics with them, the 25 bits sent are
   those of index 0 and a positive sign for set B, a pulse at its first position, although set B of the encoder's vector is empty. *)
Theorem C64_sns_without_overflow_checks : forall (lm : libm) (el : elibm) (w : Z) (scf : list f32), 32 <= w -> len scf = 16 ->
  exists r s, sns_quant_wrap w (f32_ops lm) (f32_eops el) scf = Ok (r, s) /\ len s = 16 /\ (sr_lsa r = 0 \/ sr_lsa r = 1) /\
    ((sns_quant (f32_ops lm) (f32_eops el) scf = Ok (r, s) /\ sr_legal r) \/
     ((forall r' s', sns_quant (f32_ops lm) (f32_eops el) scf <> Ok (r', s')) /\ sr_shape r = 0 /\ sr_lsb r = - 2 ^ 31 /\ 0 <= sr_lf r < 32 /\ 0 <= sr_hf r < 32 /\ 0 <= sr_gind r < 2 /\
      exists y0 ia, (exists lf hf st r1 y1 y2 y3, sns_stage1 (f32_ops lm) (f32_eops el) scf = Ok (lf, hf, st, r1) /\ sns_candidates (f32_ops lm) (f32_eops el) (sns_rotate (f32_ops lm) r1) = Ok (y0, y1, y2, y3)) /\ len y0 = 16 /\ pulses (skipn 10 y0) = 0 /\ 1 <= pulses y0 <= 11 /\ Z.abs (hd 0 y0) = 1 /\ mvpq_enum 10 y0 = Ok (ia, sr_lsa r) /\ sent (sr_joint r) = sent ((2 * 0 + 0 + 2) * 2390004 + ia))).
Proof.
  intros lm el w scf Hw L. set (o := f32_ops lm). set (e := f32_eops el). destruct (stage1_ok o e scf L) as ([[[lf hf] st1] r1] & E & H1 & H2 & H3 & H4).
  destruct (C63_sns_fails_exactly lm el scf L) as (lf' & hf' & st' & r1' & E' & _ & _ & C63 & OKS). fold o e in E', C63, OKS. rewrite E in E'. apply ParseBase.Ok_inj in E'. assert (r1' = r1) by congruence. subst r1'. clear E' st'. cbv zeta in C63.
  destruct (proj_always lm el (sns_rotate o r1) (rotate_len _ r1) (rotated_grid lm r1 (residual_grid lm el scf lf hf st1 r1 E))) as [A1 A2].
  destruct (candidates_any o e (sns_rotate o r1) (rotate_len _ r1) A1 A2) as ([[[y0 y1] y2] y3] & EC & P0 & _).
  destruct (choose_ok o e (sns_rotate o r1) (normalise o y0) (normalise o y1) (normalise o y2) (normalise o y3)) as ([[[[j i] d] g] xq] & EJ & Rj & Ri).
  destruct (sns_quant o e scf) as [[r s]| |] eqn:Q.
  { destruct (OKS r s eq_refl) as (SL & Ls & _). exists r, s. assert (LA : sr_lsa r = 0 \/ sr_lsa r = 1) by (destruct SL as [(q & SQ & _ & _ & _ & _ & -> & _)]; apply SQ).
    assert (JB : 0 <= sr_joint r < 2 ^ 25).
    { destruct SL as [(q & [_ _ _ SR] & _ & _ & _ & _ & _ & ->)]. change (2 ^ 25) with 33554432. unfold sns_joint. pose proof (Z.mod_pos_bound (q_g_ind q) 2 ltac:(lia)) as MB.
      destruct SR as [(-> & -> & R)|[(-> & -> & R)|[(-> & -> & R)|(-> & -> & R)]]]; cbn [Z.eqb]; lia. }
    split; [|split; [exact Ls|split; [exact LA|left; split; [reflexivity|exact SL]]]].
    assert (PW : 2 ^ 25 <= 2 ^ w) by (apply Z.pow_le_mono_r; lia).
    unfold sns_quant in Q. unfold sns_quant_wrap. rewrite E in Q |- *. cbn [bind] in Q |- *. cbv zeta in Q |- *. rewrite EC in Q |- *. cbn [bind] in Q |- *. rewrite EJ in Q |- *. cbn [bind] in Q |- *. apply bind_Ok in Q. destruct Q as ([[jt la] lb] & EI & Q). apply ParseBase.Ok_inj in Q. apply pair_equal_spec in Q. destruct Q as [Qr Qs].
    assert (EW : joint_wrap w j i y0 y1 y2 y3 = Ok (jt, la, lb)).
    { assert (JT : jt mod 2 ^ w = jt) by (apply Z.mod_small; rewrite <- Qr in JB; cbn [sr_joint] in JB; lia). unfold joint_index in EI. unfold joint_wrap. cbv zeta in EI |- *.
      destruct (j =? 0).
      - apply bind_Ok in EI. destruct EI as ([ia la'] & -> & EI). cbn [bind]. apply bind_Ok in EI. destruct EI as ([ib lb'] & -> & EI). cbn [bind]. destruct (lb' <? 0); [discriminate EI|]. apply ParseBase.Ok_inj in EI. rewrite wrap_all. congruence.
      - destruct (j =? 1); [|destruct (j =? 2); [|destruct (j =? 3); [|discriminate EI]]]; apply bind_Ok in EI; destruct EI as ([ia la'] & -> & EI); cbn [bind]; apply ParseBase.Ok_inj in EI; congruence. }
    rewrite EW. cbn [bind]. rewrite Qr. unfold sns_quant_wrap. f_equal. f_equal. exact Qs. }
  all: assert (NO : forall r' s', sns_quant o e scf <> Ok (r', s')) by (intros r' s'; rewrite Q; discriminate).
  all: destruct (proj1 C63 ltac:(intros r' s'; discriminate)) as [NB (z0 & z1 & z2 & z3 & i' & d' & g' & v' & EC' & EJ')]; rewrite EC in EC'; apply ParseBase.Ok_inj in EC'; assert (y0 = z0 /\ y1 = z1 /\ y2 = z2 /\ y3 = z3) as (<- & <- & <- & <-) by (repeat split; congruence); rewrite EJ in EJ'; apply ParseBase.Ok_inj in EJ'; assert (j = 0) by congruence; subst j; clear EC' EJ'.
  all: destruct P0 as [(SB & _)|(_ & PB & L0 & PY)]; [exfalso; exact (proj2 (set_b_f32 lm el _) NB SB)|].
  all: assert (PA : pulses (firstn 10 y0) = pulses y0) by (pose proof (pulses_app (firstn 10 y0) (skipn 10 y0)) as PP; rewrite firstn_skipn in PP; lia).
  all: destruct (enum_10 y0 L0 ltac:(lia)) as (ia & la & EA & LA).
  all: unfold sns_quant_wrap; rewrite E; cbn [bind]; cbv zeta; rewrite EC; cbn [bind]; rewrite EJ; cbn [bind]; unfold joint_wrap; cbn [Z.eqb]; rewrite EA; cbn [bind]; rewrite no_pulse by (first [exact PB|unfold len in *; rewrite skipn_length; lia]); cbn [bind]; rewrite wrap_all.
  all: eexists _, _; split; [reflexivity|]; split; [rewrite len_map, len_combine, H3; reflexivity|]; cbn [sr_lf sr_hf sr_gind sr_lsa sr_shape sr_lsb sr_joint]; split; [exact LA|right]; split; [intros; discriminate|]; split; [reflexivity|]; split; [reflexivity|]; split; [exact H1|]; split; [exact H2|]; split; [change (g_maxind 0) with 1 in Ri; lia|].
  all: exists y0, ia; split; [exists lf, hf, st1, r1, y1, y2, y3; split; first [reflexivity|exact E|exact EC]|]; split; [exact L0|]; split; [exact PB|]; split; [exact PY|]; split; [exact (pulse_at_0 o e _ y0 y1 y2 y3 (rotate_len _ r1) (proj2 (set_b_f32 lm el _) NB) EC)|]; split; [exact EA|]; apply sent_low; rewrite wrap_low by lia.
  all: replace ((2 * 0 + -2147483648 + 2) * 2390004 + ia) with ((2 * 0 + 0 + 2) * 2390004 + ia + (- 64 * 2390004) * 2 ^ 25) by (change (2 ^ 25) with 33554432; lia); apply Z_mod_plus_full.
Qed.
Print Assumptions C64_sns_without_overflow_checks.

(* what a decoder makes of such an index, for up to ten pulses in set A: a legal vector with a pulse at position 10, never the encoder's *)
Theorem C64_decoder_reads_another_vector : forall y0 ia la lf hf g, len y0 = 16 -> 1 <= pulses (firstn 10 y0) <= 10 -> pulses (skipn 10 y0) = 0 -> mvpq_enum 10 y0 = Ok (ia, la) -> 0 <= lf < 32 -> 0 <= hf < 32 -> 0 <= g < 2 ->
  exists q y, sns_legal q /\ q_ind_lf q = lf /\ q_ind_hf q = hf /\ q_g_ind q = g /\ q_ls_inda q = la /\ sns_joint q = (2 * 0 + 0 + 2) * 2390004 + ia /\ 2 * q_submode_msb q + q_submode_lsb q = 0 /\
    sns_vector q = Ok (y ++ [1; 0; 0; 0; 0; 0]) /\ len y = 10 /\ pulses y = 10 /\ y ++ [1; 0; 0; 0; 0; 0] <> y0 /\ (pulses (firstn 10 y0) = 10 -> y = firstn 10 y0).
Proof.
  intros y0 ia la lf hf g L PA PB E Hlf Hhf Hg. set (a := firstn 10 y0) in *. assert (La : length a = 10%nat) by (unfold a, len in *; rewrite firstn_length; lia).
  destruct (enum_deenum a (skipn 10 y0) ltac:(lia) PA) as (ind & ls & E1 & S1 & R1 & D1). unfold a in E1 at 2. rewrite firstn_skipn in E1. unfold len in E1 at 1. rewrite La in E1. change (Z.of_nat 10) with 10 in E1. rewrite E in E1. apply ParseBase.Ok_inj in E1. apply pair_equal_spec in E1. destruct E1 as [<- <-].
  assert (RI : 0 <= ia < 2390004).
  { rewrite La in R1. assert (C : forallb (fun k => size 10 k <=? 2390004) (seq 0 11) = true) by (vm_compute; reflexivity). rewrite forallb_forall in C. specialize (C (Z.to_nat (pulses a)) ltac:(apply in_seq; lia)). apply Z.leb_le in C. lia. }
  set (q := mkSnsVq lf hf la 0 ia 0 0 0 g).
  assert (Q : sns_legal q) by (constructor; cbn; try assumption; left; repeat split; try lia; now left).
  destruct (shape_of_legal q Q) as (v & V & [Lv SV] & _). change (2 * q_submode_msb q + q_submode_lsb q) with 0 in SV. destruct SV as [(_ & P1 & P2)|[(K & _)|[(K & _)|(K & _)]]]; try discriminate K.
  unfold sns_vector in V. change (Z.shiftl (q_submode_msb q) 1 + q_submode_lsb q =? 0) with true in V. cbv iota in V. apply bind_Ok in V. destruct V as (y & Y & V). change (mpvq_deenum 6 1 (q_ls_indb q) (q_idx_b q)) with (Ok [1; 0; 0; 0; 0; 0]) in V. cbn [bind] in V. apply ParseBase.Ok_inj in V. subst v.
  assert (Ly : length y = 10%nat) by (unfold len in Lv; rewrite app_length in Lv; cbn [length] in Lv; lia).
  assert (Fy : firstn 10 (y ++ [1; 0; 0; 0; 0; 0]) = y) by (rewrite firstn_app, Ly, Nat.sub_diag, <- Ly, firstn_all; cbn [firstn]; apply app_nil_r).
  exists q, y. repeat (split; [first [assumption|reflexivity]|]). split; [unfold sns_vector; change (Z.shiftl (q_submode_msb q) 1 + q_submode_lsb q =? 0) with true; cbv iota; rewrite Y; reflexivity|].
  split; [unfold len; lia|]. split; [rewrite Fy in P1; exact P1|]. split; [intros K; rewrite K in P2; lia|].
  intros P10. change (mpvq_deenum 10 10 la ia = Ok y) in Y. unfold len in D1. rewrite La, P10 in D1. change (Z.of_nat 10) with 10 in D1. rewrite Y in D1. now apply ParseBase.Ok_inj in D1.
Qed.
Print Assumptions C64_decoder_reads_another_vector.
Example C64_decoder_case : let y0 := [1; -1; 0; 2; 0; 0; 0; 0; -6; 0; 0; 0; 0; 0; 0; 0] in 1 <= pulses (firstn 10 y0) <= 10 /\ pulses (skipn 10 y0) = 0 /\ exists ia, mvpq_enum 10 y0 = Ok (ia, 0).
Proof. split; [vm_compute; split; discriminate|]. split; [reflexivity|]. eexists. vm_compute. reflexivity. Qed.

(* the whole way: where a build with the checks panics, the parameters and the 25 bits sent are those of a legal vector with ten pulses in set A and one in set B, and the encoder's own vector, from which
   it computes its quantised factors, has none in set B *)
Theorem C64_failing_frame_is_read_as_another : forall (lm : libm) (el : elibm) (w : Z) (scf : list f32), 32 <= w -> len scf = 16 -> (forall r s, sns_quant (f32_ops lm) (f32_eops el) scf <> Ok (r, s)) ->
  exists r s y0 q v, sns_quant_wrap w (f32_ops lm) (f32_eops el) scf = Ok (r, s) /\
    (exists lf hf st r1 y1 y2 y3, sns_stage1 (f32_ops lm) (f32_eops el) scf = Ok (lf, hf, st, r1) /\ sns_candidates (f32_ops lm) (f32_eops el) (sns_rotate (f32_ops lm) r1) = Ok (y0, y1, y2, y3)) /\
    sns_legal q /\ q_ind_lf q = sr_lf r /\ q_ind_hf q = sr_hf r /\ q_g_ind q = sr_gind r /\ q_ls_inda q = sr_lsa r /\ 2 * q_submode_msb q + q_submode_lsb q = sr_shape r /\ sent (sns_joint q) = sent (sr_joint r) /\
    sns_vector q = Ok v /\ len v = 16 /\ pulses (firstn 10 v) = 10 /\ pulses (skipn 10 v) = 1 /\ len y0 = 16 /\ pulses (skipn 10 y0) = 0.
Proof.
  intros lm el w scf Hw L NO. destruct (C64_sns_without_overflow_checks lm el w scf Hw L) as (r & s & E & _ & LA & [[Q _]|(_ & S0 & _ & Hlf & Hhf & Hg & y0 & ia & ENC & L0 & PB & PY & HD & EA & SE)]); [elim (NO r s Q)|].
  assert (PA : pulses (firstn 10 y0) = pulses y0) by (pose proof (pulses_app (firstn 10 y0) (skipn 10 y0)) as PP; rewrite firstn_skipn in PP; lia).
  destruct (enum_11 y0 ia (sr_lsa r) L0 ltac:(lia) EA) as [RI _].
  assert (C : exists c ib, (c = 0 \/ c = 1) /\ 0 <= ib < 2390004 /\ ia = c * 2390004 + ib) by (destruct (Z.ltb_spec ia 2390004); [exists 0, ia|exists 1, (ia - 2390004)]; lia).
  destruct C as (c & ib & Hc & Hib & ->). set (q := mkSnsVq (sr_lf r) (sr_hf r) (sr_lsa r) c ib 0 0 0 (sr_gind r)).
  assert (Q : sns_legal q) by (constructor; cbn; try assumption; left; repeat split; try lia; assumption).
  destruct (shape_of_legal q Q) as (v & V & [Lv SV] & _). change (2 * q_submode_msb q + q_submode_lsb q) with 0 in SV. destruct SV as [(_ & P1 & P2)|[(K & _)|[(K & _)|(K & _)]]]; try discriminate K.
  exists r, s, y0, q, v. split; [exact E|]. split; [exact ENC|]. split; [exact Q|]. do 4 (split; [reflexivity|]). split; [symmetry; exact S0|]. split.
  { rewrite SE. f_equal. change (sns_joint q) with ((2 * 0 + c + 2) * 2390004 + ib). lia. }
  auto 10.
Qed.
Print Assumptions C64_failing_frame_is_read_as_another.
Example C64_failing_frame_case : forall (lm : libm) (el : elibm), len failing32 = 16 /\ forall r s, sns_quant (f32_ops lm) (f32_eops el) failing32 <> Ok (r, s).
Proof. intros lm el. split; [reflexivity|exact (failing_fails lm el)]. Qed.

(* both cases occur: a code vector (C63_case), and the factors of C63_sns_always_succeeds_refuted *)
Example C64_case : forall (lm : libm) (el : elibm), exists r s, sns_quant_wrap 64 (f32_ops lm) (f32_eops el) failing32 = Ok (r, s) /\ sr_shape r = 0 /\ sr_lsb r = - 2 ^ 31.
Proof.
  intros lm el. destruct (C64_sns_without_overflow_checks lm el 64 failing32 ltac:(lia) eq_refl) as (r & s & E & _ & _ & [[Q _]|(_ & S & B & _)]); [elim (failing_fails lm el r s Q)|]. exists r, s. auto.
Qed.
