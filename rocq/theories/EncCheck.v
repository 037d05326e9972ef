(* A decision procedure for the regularity conditions of EncOk and EncRun, for concrete frames. *)
From Coq Require Import ZArith Lia List Bool.
From Verif Require Import Base Config SnsIndex Buffers Loops Scalar EncScalar DecSignal EncMdct EncDetect EncSns SnsIndex EncSnsOk EncTns TnsOk EncLtpf EncQuant QuantSpec Decoder Encoder EncOk EncRun.
Import ListNotations.
Local Open Scope Z_scope.

Section Check.
Context {F : Type} (o : ops F) (e : eops F) (t : target).

Definition regular_b (t2 : list F) : bool :=
  let a := map (e_abs e) t2 in
  let p := map (proj o e a) a in
  forallb (fun v => 0 <=? v) p && (zsum p <=? 6) && existsb (fun n => flt o (fz o 0) (e_abs e (getz (fz o 0) t2 n))) [10; 11; 12; 13; 14; 15].
Definition sns_regular_b (c : config) (eb : list F) (attack : bool) : bool :=
  match sns_scale_factors o e c eb attack with
  | Ok scf => match sns_stage1 o e scf with Ok (_, _, _, r1) => regular_b (sns_rotate o r1) | _ => true end
  | _ => true
  end.
Definition coefs_in_range_b (c : config) (x : list F) (bw nbits : Z) (nn : bool) : bool :=
  match tns_coefs o e c x bw nbits nn with Ok rc => forallb (fun v => (0 <=? coef_index o e v) && (coef_index o e v <=? 16)) rc | _ => true end.
Definition frame_regular_b (c : config) (ch : echannel F) (x : list Z) (nbytes : Z) : bool :=
  match emdct_run o c (ec_mdct ch) x (ec_out ch) (ec_bands ch) with
  | Ok (nn, out, bands, _) =>
      match bw_run o (ec_bw ch) bands, attack_run o c (ec_attack ch) x nbytes with
      | Ok (bw, _), Ok (a, _) =>
          sns_regular_b c bands a &&
          match sns_encode o e c (firstn (Z.to_nat (ne c)) out) bands a with
          | Ok (_, l1) =>
              coefs_in_range_b c l1 bw (nbytes * 8) nn &&
              match tns_encode o e (t_chk t) c l1 bw (nbytes * 8) nn with Ok (_, l2) => gain_floor o e l2 (gg_off (fs_ind c) (nbytes * 8)) <=? 32767 | _ => true end
          | _ => true
          end
      | _, _ => true
      end
  | _ => true
  end.
Lemma regular_b_ok t2 : regular_b t2 = true -> regular o e t2.
Proof.
  unfold regular_b. intros H. apply andb_true_iff in H. destruct H as [H H3]. apply andb_true_iff in H. destruct H as [H1 H2]. constructor.
  - rewrite forallb_forall in H1. apply Forall_forall. intros a Ha. specialize (H1 _ (in_map (proj o e (map (e_abs e) t2)) _ _ Ha)). lia.
  - lia.
  - left. apply existsb_exists in H3. destruct H3 as (n & Hn & H3). exists n. split; [|exact H3]. cbn [In] in Hn. lia.
Qed.
Lemma frame_regular_b_ok c ch x nbytes : frame_regular_b c ch x nbytes = true -> frame_regular o e t c ch x nbytes.
Proof.
  unfold frame_regular_b. intros H nn out bands m bw nbw a at' E1 E2 E3. rewrite E1, E2, E3 in H. apply andb_true_iff in H. destruct H as [H1 H2]. split.
  - intros scf lf hf st1 r1 E4 E5. unfold sns_regular_b in H1. rewrite E4, E5 in H1. now apply regular_b_ok.
  - intros s l1 E4. rewrite E4 in H2. apply andb_true_iff in H2. destruct H2 as [H2 H3]. split.
    + intros rc E5. unfold coefs_in_range_b in H2. rewrite E5 in H2. rewrite forallb_forall in H2. apply Forall_forall. intros v Hv. specialize (H2 v Hv). lia.
    + intros tr l2 E5. rewrite E5 in H3. lia.
Qed.
Fixpoint calls_regular_b (en : encoder F) (cs : list ecall) : bool :=
  match cs with
  | [] => true
  | k :: cs =>
      match idx (e_channels en) (g_ch k) with Ok ch => frame_regular_b (e_config en) ch (g_x k) (len (g_buf k)) | _ => true end &&
      match cs with [] => true | _ => match encode_call o e t en (g_ch k) (g_x k) (g_buf k) with Ok (en', _) => calls_regular_b en' cs | _ => true end end
  end.
Lemma calls_regular_b_ok : forall cs en, calls_regular_b en cs = true -> calls_regular o e t en cs.
Proof.
  induction cs as [|k cs IH]; intros en H; cbn [calls_regular_b calls_regular] in *; [exact I|]. apply andb_true_iff in H. destruct H as [H1 H2]. split.
  - intros ch E. rewrite E in H1. now apply frame_regular_b_ok.
  - intros en' buf E. destruct cs as [|k' cs]; [exact I|]. rewrite E in H2. now apply IH.
Qed.
Definition call_ok_b (en : encoder F) (k : ecall) : bool :=
  (0 <=? g_ch k) && (g_ch k <? len (e_channels en)) && (len (g_x k) =? nf (e_config en)) && (20 <=? len (g_buf k)) && (len (g_buf k) <=? 400) && ((fs_ind (e_config en) <? 3) || (31 <=? len (g_buf k))).
Lemma call_ok_b_ok en cs : forallb (call_ok_b en) cs = true -> Forall (call_ok en) cs.
Proof.
  intros H. rewrite forallb_forall in H. apply Forall_forall. intros k Hk. specialize (H k Hk). unfold call_ok_b in H. repeat (apply andb_true_iff in H; let A := fresh in destruct H as [H A]).
  apply orb_true_iff in H0. unfold call_ok. lia.
Qed.
End Check.
