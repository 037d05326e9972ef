(* Every stage of the decoder keeps the lengths of its buffers and never panics (any scalar type). *)
From Coq Require Import ZArith List Bool Lia.
From Verif Require Import Base Config SideInfo SnsIndex SnsProofs Buffers FftFactor FactorProofs TablesSnsF TablesLtpf TablesWindow TablesBand Loops Scalar DecSignal Fft DecMdct DecLtpf.
From Verif Require Import FrameSpec.
Import ListNotations.
Local Open Scope Z_scope.

Definition okp {A} (m : res A) (P : A -> Prop) : Prop := exists a, m = Ok a /\ P a.
Lemma okp_ok {A} (a : A) (P : A -> Prop) : P a -> okp (Ok a) P.
Proof. intros H. exists a. auto. Qed.
Lemma okp_bind {A B} (m : res A) (k : A -> res B) (P : A -> Prop) (Q : B -> Prop) : okp m P -> (forall a, P a -> okp (k a) Q) -> okp (bind m k) Q.
Proof. intros (a & -> & H) K. cbn [bind]. auto. Qed.
Lemma okp_weaken {A} (m : res A) (P Q : A -> Prop) : okp m P -> (forall a, P a -> Q a) -> okp m Q.
Proof. intros (a & E & H) K. exists a. auto. Qed.
Lemma okp_idx {A} (l : list A) i : 0 <= i < len l -> okp (idx l i) (fun _ => True).
Proof. intros H. destruct (idx_ok l i H) as (v & E). exists v. auto. Qed.
Lemma okp_put {A} (l : list A) i v : 0 <= i < len l -> okp (put l i v) (fun l' => len l' = len l).
Proof. apply put_len. Qed.
Lemma okp_sub {A} (l : list A) a b : 0 <= a <= b -> b <= len l -> okp (sub l a b) (fun s => len s = b - a).
Proof. intros H1 H2. destruct (sub_ok l a b H1 H2) as (s & E & L & _). exists s. auto. Qed.
Lemma okp_blit {A} (l : list A) a b s : 0 <= a <= b -> b <= len l -> len s = b - a -> okp (blit l a b s) (fun l' => len l' = len l).
Proof. intros H1 H2 H3. destruct (blit_ok l a b s H1 H2 H3) as (l' & E & L & _). exists l'. auto. Qed.
Lemma okp_usub a b : b <= a -> okp (usub a b) (fun v => v = a - b).
Proof. intros H. unfold usub. destruct (Z.ltb_spec a b); [lia|]. apply okp_ok. reflexivity. Qed.
Lemma okp_assert b : b = true -> okp (assert b) (fun _ => True).
Proof. intros ->. apply okp_ok. exact I. Qed.
Lemma okp_for {S} (P : S -> Prop) lo hi body s : P s -> (forall j s, lo <= j < hi -> P s -> okp (body j s) P) -> okp (for_range lo hi body s) P.
Proof. intros H K. apply for_inv_same; assumption. Qed.
Lemma okp_for_rev {S} (P : S -> Prop) lo hi body s : lo <= hi -> P s -> (forall j s, lo <= j < hi -> P s -> okp (body j s) P) -> okp (for_rev lo hi body s) P.
Proof. intros L H K. apply (for_rev_inv (fun _ => P) lo hi body s L H). exact K. Qed.

Lemma len_nonneg {A} (l : list A) : 0 <= len l. Proof. unfold len. lia. Qed.
Lemma len_map {A B} (f : A -> B) l : len (map f l) = len l. Proof. unfold len. now rewrite map_length. Qed.
Lemma len_rev {A} (l : list A) : len (rev l) = len l. Proof. unfold len. now rewrite rev_length. Qed.
Lemma len_repeat {A} (x : A) n : len (repeat x n) = Z.of_nat n. Proof. unfold len. now rewrite repeat_length. Qed.
Lemma len_combine {A B} (a : list A) (b : list B) : len (combine a b) = Z.min (len a) (len b). Proof. unfold len. rewrite combine_length. lia. Qed.
Lemma len_app {A} (a b : list A) : len (a ++ b) = len a + len b. Proof. unfold len. rewrite app_length. lia. Qed.
Lemma len_seq a n : len (seq a n) = Z.of_nat n. Proof. unfold len. now rewrite seq_length. Qed.
Lemma len_zipmod {A B} (f : A -> B -> A) : forall l src, len (zipmod f l src) = len l.
Proof.
  induction l as [|x l IH]; intros [|s src]; cbn [zipmod]; try reflexivity. unfold len in *. cbn [length]. specialize (IH src). lia.
Qed.
Lemma In_firstn {A} (x : A) n l : In x (firstn n l) -> In x l.
Proof. intros H. rewrite <- (firstn_skipn n l). apply in_or_app. now left. Qed.
Lemma In_skipn {A} (x : A) n l : In x (skipn n l) -> In x l.
Proof. intros H. rewrite <- (firstn_skipn n l). apply in_or_app. now right. Qed.
Lemma okp_sub_Forall {A} (P : A -> Prop) (l : list A) a b : 0 <= a <= b -> b <= len l -> Forall P l -> okp (sub l a b) (fun s => len s = b - a /\ Forall P s).
Proof.
  intros H1 H2 HF. destruct (sub_ok l a b H1 H2) as (s & E & L & _). exists s. split; [assumption|]. split; [assumption|].
  unfold sub in E. destruct ((a <? 0) || (b <? a) || (len l <? b)); [discriminate E|]. injection E as <-.
  apply Forall_forall. intros x Hx. rewrite Forall_forall in HF. apply HF. eapply In_skipn, In_firstn, Hx.
Qed.
Lemma okp_zipsub {A B} (f : A -> B -> A) l a b (src : list B) : 0 <= a <= b -> b <= len l -> okp (zipsub f l a b src) (fun l' => len l' = len l).
Proof.
  intros H1 H2. unfold zipsub. eapply okp_bind; [apply okp_sub; assumption|]. intros s Hs. apply okp_blit; auto. now rewrite len_zipmod.
Qed.

Ltac liab := cbv beta iota in *; lia.
Ltac okstep := first
  [ eapply okp_bind; [first [apply okp_idx | apply okp_put | apply okp_usub | apply okp_assert]|intros ? ?; cbv beta in *]
  | eapply okp_bind; [apply okp_sub|intros ? ?; cbv beta in *]
  | eapply okp_bind; [apply okp_blit|intros ? ?; cbv beta in *]
  | eapply okp_bind; [apply okp_zipsub|intros ? ?; cbv beta in *] ].

Section Total.
Context {F : Type} (o : ops F).

Lemma residual_len bits : forall lines : list F, len (residual_decode o false bits lines) = len lines.
Proof.
  unfold residual_decode. intros lines. unfold len. f_equal. revert bits. induction lines as [|x t IH]; intros bits; cbn [residual_lines]; [reflexivity|].
  destruct (feq o x (fz o 0)); cbn [length]; [now rewrite IH|]. destruct bits as [|[|] bs]; cbn [length]; rewrite ?IH; reflexivity.
Qed.
Lemma residual_decode_len lsb bits (lines : list F) : len (residual_decode o lsb bits lines) = len lines.
Proof. destruct lsb; [reflexivity|apply residual_len]. Qed.

Lemma nf_next_ok chk s : 0 <= s < 65536 -> okp (nf_next chk s) (fun s' => 0 <= s' < 65536).
Proof.
  intros H. unfold nf_next, in_i32.
  replace (-2147483648 <=? s * 31821) with true by (symmetry; apply Z.leb_le; liab).
  replace (s * 31821 <=? 2147483647) with true by (symmetry; apply Z.leb_le; liab).
  replace (-2147483648 <=? 13849 + s * 31821) with true by (symmetry; apply Z.leb_le; liab).
  replace (13849 + s * 31821 <=? 2147483647) with true by (symmetry; apply Z.leb_le; liab).
  cbn [andb negb]. rewrite andb_false_r. apply okp_ok. change 65535 with (Z.ones 16). rewrite Z.land_ones by liab. apply Z.mod_pos_bound. reflexivity.
Qed.

Definition nf_ok (d : duration) (bw : Z) : Prop := 0 <= bw <= 4.
Lemma noise_fill_ok chk zf seed bw d factor spec (lines : list F) : 0 <= seed < 65536 -> 0 <= bw <= 4 -> len spec = 400 ->
  okp (noise_fill o chk zf seed bw d factor spec lines) (fun l => len l = len lines).
Proof.
  intros Hs Hb Hl. unfold noise_fill. destruct zf; [now apply okp_ok|].
  eapply okp_bind with (P := fun '(stop, start, width) => 0 < stop <= 400 /\ 0 <= width <= start).
  { unfold nf_params. destruct d; assert (C : bw = 0 \/ bw = 1 \/ bw = 2 \/ bw = 3 \/ bw = 4) by liab; destruct C as [->|[->|[->|[->| ->]]]]; (eexists; split; [reflexivity|]); cbv beta iota; liab. }
  intros [[stop start] width] (H1 & H2).
  eapply okp_bind with (P := fun '(s, l) => 0 <= s < 65536 /\ len l = len lines).
  - apply (okp_for (fun '(s, l) => 0 <= s < 65536 /\ len l = len lines)); [auto|]. intros k [s l] Hk [G1 G2]. unfold nf_line.
    eapply okp_bind; [apply okp_usub; liab|]. intros from ->.
    eapply okp_bind; [apply okp_sub; liab|]. intros w _. destruct (forallb _ w); [|now apply okp_ok].
    eapply okp_bind; [apply nf_next_ok; assumption|]. intros s' Hs'. okstep; [liab|]. apply okp_ok. split; [assumption|liab].
  - intros [s l] [_ H]. now apply okp_ok.
Qed.

Lemma global_gain_len nbits fsi gg (lines : list F) : len (global_gain o nbits fsi gg lines) = len lines.
Proof. apply len_map. Qed.

Lemma tns_step_ok rc offset order x (st : list F) : len rc = 16 -> len st = 8 -> 1 <= order <= 8 -> 0 <= offset <= 8 ->
  okp (tns_step o rc offset order x st) (fun '(_, st') => len st' = 8).
Proof.
  intros Hr Hst Ho Hf. unfold tns_step. okstep; [liab|]. okstep; [liab|].
  eapply okp_bind with (P := fun '(_, st') => len st' = 8).
  - apply (okp_for_rev (fun '(_, st') => len st' = 8)); [liab|assumption|]. intros k [t st'] Hk Hs. okstep; [liab|]. okstep; [liab|]. okstep; [liab|]. apply okp_ok. liab.
  - intros [t st'] Hs. okstep; [liab|]. apply okp_ok. liab.
Qed.
Lemma tns_filters_ok rc : len rc = 16 -> forall bands f orders (st lines : list F), len st = 8 -> 0 <= f -> f + len bands <= 2 ->
  Forall (fun '(lo, hi) => 0 <= lo /\ hi <= len lines) bands -> Forall (fun x => 0 <= x <= 8) orders ->
  okp (tns_filters o rc f bands orders st lines) (fun l => len l = len lines).
Proof.
  intros Hr. induction bands as [|[lo hi] bands IH]; intros f orders st lines Hs Hf Hl Hb Ho; cbn [tns_filters]; [now apply okp_ok|].
  destruct orders as [|order orders]; [now apply okp_ok|]. inversion Hb as [|? ? B Hb']; subst. cbv beta iota in B. destruct B as [B1 B2]. inversion Ho as [|? ? O1 Ho']; subst.
  unfold len in Hl. cbn [length] in Hl. fold (len bands) in Hl.
  eapply okp_bind with (P := fun '(st, l) => len st = 8 /\ len l = len lines).
  - destruct (Z.ltb_spec 0 order); [|now apply okp_ok].
    apply (okp_for (fun '(st, l) => len st = 8 /\ len l = len lines)); [auto|]. intros n [st' l] Hn [G1 G2]. okstep; [liab|].
    eapply okp_bind; [apply tns_step_ok; auto; pose proof (len_nonneg bands); liab|]. intros [x st2] G3. okstep; [liab|]. apply okp_ok. split; [assumption|liab].
  - intros [st' l] [G1 G2]. eapply okp_weaken; [apply IH; auto; try (unfold len in *; liab)|].
    + eapply Forall_impl; [|exact Hb']. intros [a b] G. rewrite G2. exact G.
    + intros l' E. liab.
Qed.
Lemma tns_decode_ok d bw num rc_order rc_i (lines : list F) : 0 <= bw <= 4 -> len rc_order = 2 -> Forall (fun x => 0 <= x <= 8) rc_order ->
  0 <= num <= 2 -> nth (Z.to_nat bw) (match d with TenMs => [80; 160; 240; 320; 400] | SevenPointFiveMs => [60; 120; 180; 240; 300] end) 0 <= len lines ->
  okp (tns_decode o d bw num rc_order rc_i lines) (fun l => len l = len lines).
Proof.
  intros Hb Hr Hf Hn Hl. unfold tns_decode.
  eapply okp_bind with (P := fun bands => 1 <= len bands <= 2 /\ Forall (fun '(lo, hi) => 0 <= lo /\ hi <= len lines) bands).
  { unfold tns_dec_bands.
    destruct d; assert (C : bw = 0 \/ bw = 1 \/ bw = 2 \/ bw = 3 \/ bw = 4) by liab; destruct C as [->|[->|[->|[->| ->]]]];
      (eexists; split; [reflexivity|]); unfold len at 1 2; cbn [length]; cbv [nth Z.to_nat Pos.to_nat Pos.iter_op Nat.add Init.Nat.add] in Hl;
      (split; [liab|]); idtac; repeat (apply Forall_nil || (apply Forall_cons; [liab|])). }
  intros bands [B1 B2]. okstep.
  { apply forallb_forall. intros [lo hi] Hi. rewrite Forall_forall in B2. apply Z.leb_le. exact (proj2 (B2 _ Hi)). }
  eapply okp_bind; [apply (okp_sub_Forall (fun x => 0 <= x <= 8)); [liab|liab|assumption]|]. intros orders [O1 O2].
  apply tns_filters_ok; auto; try liab. unfold tns_rc. now rewrite len_zipmod, len_repeat.
Qed.

(* ---- scale factors ---- *)
Lemma LFCB_len i : 0 <= i < 32 -> okp (idx LFCB i) (fun r => len r = 8).
Proof.
  intros H. assert (Q : forallb (fun r => len r =? 8) LFCB = true) by (vm_compute; reflexivity).
  destruct (idx_ok LFCB i) as (r & E); [change (len LFCB) with 32; liab|]. exists r. split; [assumption|].
  rewrite forallb_forall in Q. apply Z.eqb_eq, Q. unfold idx in E. destruct (i <? 0); [discriminate|]. destruct (nth_error LFCB (Z.to_nat i)) eqn:N; [|discriminate].
  injection E as <-. eapply nth_error_In, N.
Qed.
Lemma HFCB_len i : 0 <= i < 32 -> okp (idx HFCB i) (fun r => len r = 8).
Proof.
  intros H. assert (Q : forallb (fun r => len r =? 8) HFCB = true) by (vm_compute; reflexivity).
  destruct (idx_ok HFCB i) as (r & E); [change (len HFCB) with 32; liab|]. exists r. split; [assumption|].
  rewrite forallb_forall in Q. apply Z.eqb_eq, Q. unfold idx in E. destruct (i <? 0); [discriminate|]. destruct (nth_error HFCB (Z.to_nat i)) eqn:N; [|discriminate].
  injection E as <-. eapply nth_error_In, N.
Qed.
Lemma sns_gains_len shape : 0 <= shape < 4 -> okp (sns_gains shape) (fun g => len g = gain_table_len shape).
Proof.
  intros H. assert (C : shape = 0 \/ shape = 1 \/ shape = 2 \/ shape = 3) by liab. destruct C as [->|[->|[->| ->]]]; (eexists; split; [reflexivity|reflexivity]).
Qed.
Lemma sns_legal_ranges q : sns_legal q -> 0 <= q_ind_lf q < 32 /\ 0 <= q_ind_hf q < 32 /\ 0 <= q_submode_msb q <= 1 /\ 0 <= q_submode_lsb q <= 1.
Proof. intros [A B _ Hr]. destruct Hr as [Hr|[Hr|[Hr|Hr]]]; liab. Qed.
Lemma sns_factors_ok q : sns_legal q -> okp (sns_factors o q) (fun s => len s = 16).
Proof.
  intros Q. destruct (sns_legal_ranges q Q) as (A & B & M & L). destruct (shape_of_legal q Q) as (y & E & _ & G). unfold sns_factors.
  eapply okp_bind; [apply LFCB_len; assumption|]. intros lf Hlf. eapply okp_bind; [apply HFCB_len; assumption|]. intros hf Hhf.
  rewrite E. cbn [bind]. replace (Z.shiftl (q_submode_msb q) 1 + q_submode_lsb q) with (2 * q_submode_msb q + q_submode_lsb q) by (rewrite Z.shiftl_mul_pow2 by liab; liab).
  eapply okp_bind; [apply sns_gains_len; liab|]. intros gs Hg. okstep; [liab|]. apply okp_ok. rewrite len_map, len_combine, len_app, Hlf, Hhf. reflexivity.
Qed.
Lemma sns_interp_ok (q : list F) : len q = 16 -> okp (sns_interp o q) (fun s => len s = 64).
Proof.
  intros H. unfold sns_interp. okstep; [liab|]. assert (L : len (repeat (fz o 0) 64) = 64) by apply len_repeat.
  okstep; [liab|]. okstep; [liab|]. eapply okp_bind with (P := fun s => len s = 64).
  - apply (okp_for (fun s => len s = 64)); [liab|]. intros n s Hn Hs. do 5 (okstep; [liab|]). eapply okp_weaken; [apply okp_put; liab|]. intros s' E. liab.
  - intros s Hs. do 3 (okstep; [liab|]). eapply okp_weaken; [apply okp_put; liab|]. intros s' E. liab.
Qed.
Lemma sns_reduce_ok nb (s : list F) : len s = 64 -> 32 <= nb <= 64 -> okp (sns_reduce o nb s) (fun s => len s = 64).
Proof.
  intros H Hn. unfold sns_reduce. eapply okp_bind; [apply okp_usub; liab|]. intros n2 ->. destruct (Z.eqb_spec (64 - nb) 0); [now apply okp_ok|].
  eapply okp_bind with (P := fun s => len s = 64).
  - apply (okp_for (fun s => len s = 64)); [liab|]. intros j s' Hj Hs. do 2 (okstep; [liab|]). eapply okp_weaken; [apply okp_put; liab|]. intros ? E. liab.
  - intros s1 Hs1. apply (okp_for (fun s => len s = 64)); [liab|]. intros j s' Hj Hs. do 1 (okstep; [liab|]). eapply okp_weaken; [apply okp_put; liab|]. intros ? E. liab.
Qed.
(* band edges: from 0, strictly increasing, n bands, ending at `last` *)
Definition edges_ok (edges : list Z) (n last : Z) : Prop :=
  len edges = n + 1 /\ getz 0 edges 0 = 0 /\ getz 0 edges n = last /\ forall b, 0 <= b < n -> getz 0 edges b < getz 0 edges (b + 1).
Lemma edges_mono edges n last : edges_ok edges n last -> forall a b, 0 <= a <= b -> b <= n -> getz 0 edges a <= getz 0 edges b.
Proof.
  intros (_ & _ & _ & H) a b Hab Hb. replace b with (a + Z.of_nat (Z.to_nat (b - a))) in * by liab. induction (Z.to_nat (b - a)) as [|k IH]; [rewrite Z.add_0_r; liab|].
  replace (a + Z.of_nat (S k)) with (a + Z.of_nat k + 1) in * by liab. specialize (H (a + Z.of_nat k) ltac:(lia)). liab.
Qed.
Lemma sns_shape_ok edges (gains lines : list F) last : edges_ok edges (len gains) last -> last <= len lines ->
  okp (sns_shape o edges gains lines) (fun l => len l = len lines).
Proof.
  intros E Hl. pose proof (edges_mono _ _ _ E) as M. destruct E as (L & Z0 & ZL & S). unfold sns_shape.
  apply (okp_for (fun l => len l = len lines)); [reflexivity|]. intros b l Hb Hs. okstep; [liab|].
  rewrite (idx_get 0 edges b), (idx_get 0 edges (b + 1)) by liab. cbn [bind].
  pose proof (M 0 b ltac:(lia) ltac:(lia)). pose proof (M (b + 1) (len gains) ltac:(lia) ltac:(lia)). specialize (S b Hb).
  okstep; [liab|liab|]. apply (okp_for (fun l => len l = len lines)); [assumption|]. intros n l' Hn Hl'. okstep; [liab|].
  eapply okp_weaken; [apply okp_put; liab|]. intros ? E. liab.
Qed.
End Total.

(* ---- band tables (C34) ---- *)
Fixpoint increasingb (l : list Z) : bool := match l with a :: (b :: _) as t => (a <? b) && increasingb t | _ => true end.
Definition edges_okb (edges : list Z) (n last : Z) : bool :=
  (len edges =? n + 1) && (getz 0 edges 0 =? 0) && (getz 0 edges n =? last) && increasingb edges.
Lemma increasingb_nth : forall l i, increasingb l = true -> (S i < length l)%nat -> nth i l 0 < nth (S i) l 0.
Proof.
  induction l as [|a l IH]; intros i H L; [cbn in L; liab|]. destruct l as [|b l]; [cbn in L; liab|]. cbn [increasingb] in H. apply andb_prop in H as [H1 H2].
  destruct i as [|i]; [cbn [nth]; apply Z.ltb_lt; assumption|]. apply (IH i H2). cbn [length] in *. liab.
Qed.
Lemma edges_okb_ok edges n last : 0 <= n -> edges_okb edges n last = true -> edges_ok edges n last.
Proof.
  unfold edges_okb. intros Hn H. apply andb_prop in H as [H H4]. apply andb_prop in H as [H H3]. apply andb_prop in H as [H1 H2].
  apply Z.eqb_eq in H1, H2, H3. repeat split; auto. intros b Hb. unfold getz. replace (Z.to_nat (b + 1)) with (S (Z.to_nat b)) by liab.
  apply increasingb_nth; [assumption|]. unfold len in H1. liab.
Qed.
Lemma band_table_ok f d : okp (band_table (config_new f d)) (fun e => edges_ok e (nb (config_new f d)) (ne (config_new f d))).
Proof.
  destruct f, d; (eexists; split; [reflexivity|]); apply edges_okb_ok; (discriminate || (vm_compute; reflexivity)).
Qed.
