(* When does the post filter read exactly `lag` samples back? Always with 7.5 ms frames. With 10 ms frames, while the pitch changes, the ring of
   20 ms is too short for the longest lags: the second of the two filters then reads what the first one has just written. *)
From Coq Require Import ZArith List Bool Lia.
From Flocq Require Import BinarySingleNaN.
From Verif Require Import Base Config SideInfo FrameSpec Buffers TablesLtpf Loops Scalar DecSignal DecMdct DecLtpf Decoder DecTotal DecState DecRun ParseBase ParseTotal MdctSpec LtpfSpec F32.
Import ListNotations.
Local Open Scope Z_scope.

Section Exact.
Context {F : Type} (o : ops F).
Local Notation z0 := (fz o 0).

(* every filter reads its own true past: y for the second filter of a pitch change *)
Fixpoint ltpf_exact (c : config) (n : ltpf_lens) (prev : option (lt_in (F := F))) (hx hy : list F) (fs : list lt_in) (bs : list (list F)) : Prop :=
  match fs, bs with
  | [], [] => True
  | f :: fs, b :: bs =>
      let x t := getz z0 (hx ++ li_x f) (len hx + t) in
      let y t := getz z0 (hy ++ b) (len hy + t) in
      len b = nf c /\
      (exists z, (forall t, t < 0 -> z t = y t) /\ forall m, 0 <= m < nf c ->
         ltpf_rel o (spec_transition c prev f) (match prev with Some p => par_in o c n p | None => mkLtPar [] [] 0 end) (par_in o c n f) (nf c) (l_norm n) x y z y m) /\
      ltpf_exact c n (Some f) (hx ++ li_x f) (hy ++ b) fs bs
  | _, _ => False
  end.
(* the lag and half a filter fit in the ring less the cross fade *)
Definition reach_ok (c : config) (n : ltpf_lens) (i : Z) : Prop := lag_up (Config.fs c) i / 4 + l_cden n / 2 <= l_blocks n * nf c - l_norm n.
(* pitch changes only to lags that fit *)
Fixpoint changes_fit (c : config) (n : ltpf_lens) (prev : option (lt_in (F := F))) (fs : list lt_in) : Prop :=
  match fs with
  | [] => True
  | f :: fs => (spec_transition c prev f = ActivePitchChanged -> reach_ok c n (l_pitch (li_info f))) /\ changes_fit c n (Some f) fs
  end.
Lemma trace_exact c n : legal_config c -> ltpf_lengths c = Ok n -> forall fs prev hx hy bs, Forall (in_ok c) fs -> changes_fit c n prev fs -> ltpf_trace o c n prev hx hy fs bs -> ltpf_exact c n prev hx hy fs bs.
Proof.
  intros L E. induction fs as [|f fs IH]; intros prev hx hy [|b bs] HF HC HT; cbn [ltpf_trace ltpf_exact changes_fit] in *; try assumption. cbv zeta in *.
  destruct HT as (T1 & (z & Tz & Tr) & T3), HC as [C1 C2]. inversion HF as [|? ? [Hp Hl] HF']; subst. split; [exact T1|]. split; [|apply IH; assumption].
  exists z. split; [exact Tz|]. intros m Hm. specialize (Tr m Hm). destruct (spec_transition c prev f) eqn:ET; try exact Tr. cbn [ltpf_rel] in *.
  destruct (Z.ltb_spec m (l_norm n)); [|exact Tr]. destruct Tr as [R1 R2]. split; [exact R1|]. rewrite R2. f_equal. f_equal.
  destruct (par_of_ok o c n (li_info f) (li_bits f) L E Hp) as (P1 & P2 & P3 & _). specialize (C1 eq_refl). unfold reach_ok in C1. unfold par_in in *.
  apply read5_true; [lia|]. rewrite P2, P3. destruct (lengths_ok c L) as (n' & E' & [_ _ [_ Gc2] _ _]). rewrite E in E'. injection E' as <-. revert C1 Hm Gc2. generalize (lag_up (Config.fs c) (l_pitch (li_info f)) / 4). clear. intros. Z.div_mod_to_equations; lia.
Qed.
Lemma reach_75 f n i : ltpf_lengths (config_new f SevenPointFiveMs) = Ok n -> 0 <= i < 512 -> reach_ok (config_new f SevenPointFiveMs) n i.
Proof.
  intros E H. unfold reach_ok, lag_up, ltpf_p_up. assert (Hq : 0 <= lag_q i <= 912) by (unfold lag_q; bcase; lia). revert Hq. generalize (lag_q i). clear H. intros q Hq.
  destruct f; cbn in E; injection E as <-; cbn [l_cden l_blocks l_norm config_new cfg_fs Config.fs nf];
    match goal with |- context [ceil_div ?a ?b] => let v := eval vm_compute in (ceil_div a b) in change (ceil_div a b) with v end;
    repeat match goal with |- context [?e / 3] => let v := eval vm_compute in (e / 3) in progress change (e / 3) with v end; vm_compute (nf _); Z.div_mod_to_equations; lia.
Qed.
Lemma changes_75 f n : ltpf_lengths (config_new f SevenPointFiveMs) = Ok n -> forall fs prev, Forall (in_ok (config_new f SevenPointFiveMs)) fs -> changes_fit (config_new f SevenPointFiveMs) n prev fs.
Proof.
  intros E. induction fs as [|a fs IH]; intros prev HF; cbn [changes_fit]; [exact I|]. inversion HF as [|? ? [Hp _] HF']; subst. split; [|now apply IH]. intros _. now apply reach_75.
Qed.
End Exact.

(* ---- 10 ms: a history for which the exact statement is false, in binary32 ---- *)
Section Refutation.
Variable lm : libm.
Local Notation o := (f32_ops lm).
Definition zf : f32 := f32_of_Z 0.
Definition c8 : config := config_new Hz8000 TenMs.
Definition n8 : ltpf_lens := cfg_lens c8.
(* the state of a new decoder on cleared buffers *)
Definition st8 : ltpf f32 :=
  let z k := repeat zf (Z.to_nat k) in
  mkLtpfSt (z (l_cden n8)) false 0 (z (l_cnum n8)) (z (l_cden n8)) (z (l_cnum n8)) (z (l_cden n8)) 0 0 (z (l_xltpf n8)) (z (l_x n8)) (z (l_scratch n8)).
(* silence with pitch index 500, then an impulse at sample 17 with pitch index 511 *)
Definition fr1 : lt_in := mkLtIn (mkLtpf true true 500) 240 (repeat zf 80).
Definition fr2 : lt_in := mkLtIn (mkLtpf true true 511) 240 (repeat zf 17 ++ f32_of_Z 1 :: repeat zf 62).
Definition h8 : list f32 := repeat zf 160.
Lemma getz_repeat {A} (d : A) n j : getz d (repeat d n) j = d.
Proof. unfold getz. apply nth_repeat. Qed.
Lemma st8_ok : legal_config c8 /\ ltpf_lengths c8 = Ok n8 /\ ltpf_ok c8 n8 st8 /\ Forall (in_ok c8) [fr1; fr2] /\ prev_is o c8 n8 None st8 /\ l_blocks n8 * nf c8 <= len h8 /\
  (forall t, past o (l_blocks n8 * nf c8) (t_x st8) (t_blk st8) t = getz (fz o 0) h8 (len h8 + t)) /\ (forall t, past o (l_blocks n8 * nf c8) (t_xl st8) (t_blk st8) t = getz (fz o 0) h8 (len h8 + t)).
Proof.
  split; [eexists _, _; reflexivity|]. split; [reflexivity|]. split; [constructor; try (vm_compute; reflexivity); [exists 0; split; [reflexivity|vm_compute; split; [intros X; discriminate X|reflexivity]]|discriminate]|].
  split; [repeat constructor; vm_compute; intros X; discriminate X|]. split; [reflexivity|]. split; [vm_compute; intros X; discriminate X|].
  split; intros t; unfold past; change (fz o 0) with zf; unfold st8, h8; cbn [t_x t_xl]; now rewrite !getz_repeat.
Qed.
Definition out8 : list f32 * list f32 := match ltpf_frames o c8 st8 [fr1; fr2] with Ok ([b1; b2], _) => (b1, b2) | _ => ([], []) end.
Definition x8 (t : Z) : f32 := getz (fz o 0) ((h8 ++ li_x fr1) ++ li_x fr2) (len (h8 ++ li_x fr1) + t).
Definition y8 (t : Z) : f32 := getz (fz o 0) ((h8 ++ fst out8) ++ snd out8) (len (h8 ++ fst out8) + t).
Definition z8 (t : Z) : f32 :=
  if t <? 0 then y8 t else fsub o (x8 t) (ramp_out o (l_norm n8) t (pfilt o (par_in o c8 n8 fr1) x8 y8 t)).
(* sample 1 of the second frame is not 0 although the impulse comes 16 samples later *)
Theorem exact_lag_false bs s' : ltpf_frames o c8 st8 [fr1; fr2] = Ok (bs, s') -> ~ ltpf_exact o c8 n8 None h8 h8 [fr1; fr2] bs.
Proof.
  intros E H. destruct bs as [|b1 [|b2 [|? ?]]]; cbn [ltpf_exact] in H; try tauto. cbv zeta in H. destruct H as (_ & _ & _ & (z & Hz & R) & _).
  assert (EB : out8 = (b1, b2)) by (unfold out8; now rewrite E).
  assert (E1 : b1 = fst out8) by now rewrite EB. assert (E2 : b2 = snd out8) by now rewrite EB. clear E EB. subst b1 b2.
  change (forall t, t < 0 -> z t = y8 t) in Hz. change (forall m, 0 <= m < nf c8 -> ltpf_rel o ActivePitchChanged (par_in o c8 n8 fr1) (par_in o c8 n8 fr2) (nf c8) (l_norm n8) x8 y8 z y8 m) in R.
  assert (Z1 : forall m, 0 <= m <= 1 -> z m = z8 m).
  { intros m Hm. assert (Q : 0 <= m < nf c8) by (change (nf c8) with 80; lia). specialize (R m Q). cbn [ltpf_rel] in R. change (l_norm n8) with 20 in *. destruct (Z.ltb_spec m 20); [|lia]. destruct R as [-> _].
    unfold z8. destruct (Z.ltb_spec m 0); [lia|]. change (l_norm n8) with 20. do 2 f_equal. unfold pfilt. apply filt_ext; [reflexivity|]. intros j Hj. apply Hz.
    assert (K : lp_lag (par_in o c8 n8 fr1) = 135) by (vm_compute; reflexivity). assert (K2 : len (lp_den (par_in o c8 n8 fr1)) = 5) by (vm_compute; reflexivity). rewrite K, K2 in Hj. change ((5 - 1) / 2) with 2 in Hj. lia. }
  assert (Q : 0 <= 1 < nf c8) by (change (nf c8) with 80; lia). specialize (R 1 Q). cbn [ltpf_rel] in R. change (l_norm n8) with 20 in *. destruct (Z.ltb_spec 1 20); [|lia]. destruct R as [_ R].
  rewrite (Z1 1) in R by lia. assert (R' : y8 1 = fsub o (z8 1) (ramp_in o 20 1 (pfilt o (par_in o c8 n8 fr2) z8 y8 1))).
  { rewrite R. do 2 f_equal. unfold pfilt. apply filt_ext; [|reflexivity]. intros j Hj. assert (K2 : len (lp_num (par_in o c8 n8 fr2)) = 3) by (vm_compute; reflexivity). rewrite K2 in Hj.
    destruct (Z.ltb_spec j 0); [rewrite Hz by lia; unfold z8; destruct (Z.ltb_spec j 0); [reflexivity|lia]|apply Z1; lia]. }
  assert (C : f32_bits (y8 1) = Some (11010759, -34)) by (vm_compute; reflexivity). rewrite R' in C. vm_compute in C. discriminate C.
Qed.
End Refutation.
