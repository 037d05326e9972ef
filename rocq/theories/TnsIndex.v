(* When temporal noise shaping in the encoder fails: exactly when a coefficient has an index outside the tables (the converse of TnsOk.tns_encode_ok). *)
From Coq Require Import ZArith List Bool Lia.
From Verif Require Import Base Config Loops Scalar EncScalar DecSignal TablesTns DecState DecTotal DetectSpec ParseBase F32Size SnsSize LtpfSize EncTns EncFrame EstimateSpec QuantSpec FrameSpec TnsOk.
Import ListNotations.
Local Open Scope Z_scope.

Section Index.
Context {F : Type} (o : ops F) (e : eops F).
Local Notation f0 := (fz o 0).

(* the index as stored: 8 bits, then cast to usize *)
Definition in_tables (v : Z) : Prop := 0 <= v <= 16.
Lemma stored_index chk x i : i8c chk (coef_index o e x) = Ok i -> ~ in_tables (coef_index o e x) -> ~ in_tables (i mod 2 ^ 64).
Proof.
  intros E N. assert (B : -120 <= coef_index o e x <= 135) by (unfold coef_index, to_int, as_i8; destruct (fge _ _ _); lia). set (v := coef_index o e x) in *. clearbody v. unfold in_tables in *.
  assert (D : i = v /\ -120 <= v <= 127 \/ i = v - 256 /\ 128 <= v).
  { unfold i8c in E. destruct (Z.leb_spec (-128) v); [|lia]. destruct (Z.leb_spec v 127); cbn [andb] in E; [apply Ok_inj in E; left; lia|]. destruct chk; [discriminate E|]. apply Ok_inj in E. right. split; [|lia]. rewrite <- E. clear -B H0.
    assert (C : v = 128 \/ v = 129 \/ v = 130 \/ v = 131 \/ v = 132 \/ v = 133 \/ v = 134 \/ v = 135) by lia. repeat (destruct C as [->|C]; [reflexivity|]). subst v. reflexivity. }
  assert (M : i mod 2 ^ 64 = i /\ 0 <= i \/ i mod 2 ^ 64 = i + 2 ^ 64 /\ i < 0).
  { destruct (Z_lt_le_dec i 0) as [A|A]; [right|left]; (split; [|exact A]). - symmetry. apply (Z.mod_unique_pos i (2 ^ 64) (-1)); lia. - apply Z.mod_small. lia. }
  lia.
Qed.
Lemma order_above f rc_i n m : tns_order n f rc_i = Ok m -> 0 <= f -> forall k, 0 <= k < Z.of_nat n -> getz 0 rc_i (f * 8 + k) <> 8 -> k < m.
Proof.
  induction n as [|n IH]; intros E Hf k Hk H; [lia|]. cbn [tns_order] in E. apply bind_Ok in E. destruct E as (v & Ev & E).
  assert (Gv : v = getz 0 rc_i (f * 8 + Z.of_nat n)) by (unfold idx in Ev; destruct (_ <? _); [discriminate Ev|]; destruct (nth_error rc_i _) eqn:En; [|discriminate Ev]; apply Ok_inj in Ev; subst; unfold getz; symmetry; now apply nth_error_nth).
  destruct (Z.eqb_spec v 8) as [E8|N8]; [|apply Ok_inj in E; lia]. apply IH; auto. destruct (Z.eq_dec k (Z.of_nat n)) as [->|]; [congruence|lia].
Qed.
(* after filter f: coefficients still to come untouched, bad indices show in the table and below the order *)
Definition marks (rc0 : list F) (f : Z) (s : list F * list Z * list Z) : Prop :=
  let '(q, i, ord) := s in len q = 16 /\ len i = 16 /\ len ord = 2 /\ (forall j, f * 8 <= j < 16 -> getz f0 q j = getz f0 rc0 j) /\
  forall g k, 0 <= g < f -> 0 <= k < 8 -> ~ in_tables (coef_index o e (getz f0 rc0 (g * 8 + k))) -> ~ in_tables (getz 0 i (g * 8 + k)) /\ k < getz 0 ord g.
Lemma quantise_marks chk rc0 f s s' : 0 <= f < 2 -> marks rc0 f s -> tns_quantise o e chk f s = Ok s' -> marks rc0 (f + 1) s'.
Proof.
  intros Hf M E. destruct s as [[q i] ord]. destruct M as (L1 & L2 & L3 & K & B). unfold tns_quantise in E. apply bind_Ok in E. destruct E as ([q1 i1] & E1 & E).
  pose proof (for_keep_i (fun k '(q', i') => len q' = 16 /\ len i' = 16 /\ (forall j, k <= j < 16 -> getz f0 q' j = getz f0 rc0 j) /\ (forall j, 0 <= j < f * 8 -> getz 0 i' j = getz 0 i j) /\
    forall j, f * 8 <= j < k -> ~ in_tables (coef_index o e (getz f0 rc0 j)) -> ~ in_tables (getz 0 i' j)) _ (f * 8) (f * 8 + 8) (q, i) (q1, i1) ltac:(lia) E1) as P. cbv beta in P.
  destruct P as (P1 & P2 & P3 & P4 & P5).
  - split; [exact L1|]. split; [exact L2|]. split; [exact K|]. split; [reflexivity|lia].
  - intros k [q2 i2] [q3 i3] Hk Ek (R1 & R2 & R3 & R4 & R5). rewrite (idx_get f0 q2 k) in Ek by lia. cbn [bind] in Ek. rewrite R3 in Ek by lia. fold (coef_index o e (getz f0 rc0 k)) in Ek.
    apply bind_Ok in Ek. destruct Ek as (v & Ev & Ek). cbv zeta in Ek. destruct (put_ok 0 i2 k (v mod 2 ^ 64) ltac:(lia)) as (i4 & Ei & Li & Ti). rewrite Ei in Ek. cbn [bind] in Ek.
    destruct (put_ok f0 q2 k (fsin17 o (v mod 2 ^ 64 - 8)) ltac:(lia)) as (q4 & Eq & Lq & Tq). rewrite Eq in Ek. cbn [bind] in Ek. apply Ok_inj in Ek. apply pair_equal_spec in Ek. destruct Ek as [-> ->].
    split; [lia|]. split; [lia|]. split; [intros j Hj; rewrite Tq by lia; destruct (Z.eqb_spec j k); [lia|apply R3; lia]|]. split; [intros j Hj; rewrite Ti by lia; destruct (Z.eqb_spec j k); [lia|apply R4; lia]|].
    intros j Hj HN. rewrite Ti by lia. destruct (Z.eqb_spec j k) as [->|]; [exact (stored_index chk _ v Ev HN)|apply R5; [lia|exact HN]].
  - apply bind_Ok in E. destruct E as (n & En & E). destruct (put_ok 0 ord f n ltac:(lia)) as (o1 & Eo & Lo & To). rewrite Eo in E. cbn [bind] in E. apply Ok_inj in E. subst s'. split; [exact P1|]. split; [exact P2|]. split; [lia|]. split; [intros j Hj; apply P3; lia|].
    intros g k Hg Hk HN. rewrite To by lia. destruct (Z.eqb_spec g f) as [->|N].
    + assert (X : ~ in_tables (getz 0 i1 (f * 8 + k))) by (apply P5; [lia|exact HN]). split; [exact X|]. apply (order_above f i1 8 n En); [lia|change (Z.of_nat 8) with 8; lia|]. unfold in_tables in X. lia.
    + rewrite P4 by lia. apply B; lia || exact HN.
Qed.
Lemma unused_marks rc0 n f s s' : 0 <= n <= f -> f < 2 -> marks rc0 n s -> tns_unused o f s = Ok s' -> marks rc0 n s' \/ len (fst (fst s')) = 16 /\ len (snd (fst s')) = 16 /\ len (snd s') = 2 /\
  forall g k, 0 <= g < n -> 0 <= k < 8 -> ~ in_tables (coef_index o e (getz f0 rc0 (g * 8 + k))) -> ~ in_tables (getz 0 (snd (fst s')) (g * 8 + k)) /\ k < getz 0 (snd s') g.
Proof.
  intros Hn Hf M E. right. destruct s as [[q i] ord]. destruct M as (L1 & L2 & L3 & K & B). unfold tns_unused in E.
  destruct (for_put 0 (f * 8) (f * 8 + 8) (fun k l => put l k 8) (fun _ => 8) i) as (i1 & E1 & M1 & M2); [lia|lia|reflexivity|]. rewrite E1 in E. cbn [bind] in E.
  destruct (for_put f0 (f * 8) (f * 8 + 8) (fun k l => put l k (fz o 0)) (fun _ => fz o 0) q) as (q1 & E2 & N1 & N2); [lia|lia|reflexivity|]. rewrite E2 in E. cbn [bind] in E.
  destruct (put_ok 0 ord f 0) as (ord1 & E3 & LO & KO); [lia|]. rewrite E3 in E. cbn [bind] in E. apply Ok_inj in E. subst s'. cbn [fst snd]. split; [lia|]. split; [lia|]. split; [lia|].
  intros g k Hg Hk HN. rewrite M2, KO by lia. destruct (Z.leb_spec (f * 8) (g * 8 + k)); [lia|]. cbn [andb]. destruct (Z.eqb_spec g f); [lia|]. now apply B.
Qed.
Lemma coef_row k v b : idx2 AC_TNS_COEF_BITS k v = Ok b -> in_tables v.
Proof.
  intros E. unfold idx2 in E. apply bind_Ok in E. destruct E as (r & Er & E).
  assert (L : len r = 17) by (refine (Forall_idx (fun r => len r = 17) AC_TNS_COEF_BITS k r Er _); repeat constructor).
  unfold in_tables, idx in *. destruct (Z.ltb_spec v 0); [discriminate E|]. destruct (nth_error r (Z.to_nat v)) eqn:En; [|discriminate E]. assert (H1 : nth_error r (Z.to_nat v) <> None) by congruence. apply nth_error_Some in H1. unfold len in L. lia.
Qed.
Lemma bits_in_tables w rc_i ord f b : tns_filter_bits o e w rc_i ord f = Ok b -> 0 <= f < len ord -> 0 <= f * 8 -> len rc_i = 16 -> forall k, 0 <= k < 8 -> k < getz 0 ord f -> f * 8 + k < 16 -> in_tables (getz 0 rc_i (f * 8 + k)).
Proof.
  intros E Hf Hf8 L k Hk Ho H16. unfold tns_filter_bits in E. rewrite (idx_get 0 ord f) in E by lia. cbn [bind] in E. set (n := getz 0 ord f) in *. clearbody n. apply bind_Ok in E. destruct E as (ob & _ & E). apply bind_Ok in E. destruct E as (u & _ & E). apply bind_Ok in E. destruct E as (cb & Ec & _).
  pose proof (for_keep_i (fun m (s : Z) => forall k, 0 <= k < m -> f * 8 + k < 16 -> in_tables (getz 0 rc_i (f * 8 + k))) _ 0 n 0 cb ltac:(lia) Ec ltac:(cbv beta; intros; exfalso; lia)) as P. cbv beta in P. apply P; [|lia|exact H16].
  intros m s s' Hm Em IH k' Hk' H'. destruct (Z.eq_dec k' m) as [->|N]; [|apply IH; lia]. rewrite (idx_get 0 rc_i) in Em by lia. cbn [bind] in Em. apply bind_Ok in Em. destruct Em as (b' & Eb & _). exact (coef_row _ _ _ Eb).
Qed.
(* success needs every index of the filters in use to be in the tables *)
Theorem encode_needs_tables chk c x bw nbits nn r y rc : legal_config c -> len x = ne c -> 0 <= bw <= fs_ind c -> tns_encode o e chk c x bw nbits nn = Ok (r, y) -> tns_coefs o e c x bw nbits nn = Ok rc ->
  forall j, 0 <= j < tr_num r * 8 -> in_tables (coef_index o e (getz f0 rc j)).
Proof.
  intros Hc Lx Hb E Erc j Hj. destruct (coded_ne c bw Hc Hb) as [Hb4 Hn]. destruct (enc_params (n_ms c) bw Hb4) as (params & EP & _ & LP & _). destruct (tns_coefs_ok o e c x bw nbits nn Hc Lx Hb) as (rc0 & E0 & L0). rewrite Erc in E0. apply Ok_inj in E0. subst rc0.
  unfold tns_coefs in Erc. rewrite EP in Erc. cbn [bind] in Erc. unfold tns_encode in E. rewrite Lx, Z.eqb_refl in E. cbn [assert bind] in E. rewrite EP in E. cbn [bind] in E. cbv zeta in E. rewrite Erc in E. cbn [bind] in E.
  apply bind_Ok in E. destruct E as (s1 & E1 & E). apply bind_Ok in E. destruct E as ([[rc_q rc_i] ord] & E2 & E). apply bind_Ok in E. destruct E as (nb & E3 & E). apply bind_Ok in E. destruct E as (y' & _ & E). apply Ok_inj in E. apply pair_equal_spec in E. destruct E as [<- _]. cbn [tr_num] in Hj.
  pose proof (for_keep_i (marks rc) _ 0 (len params) _ s1 ltac:(lia) E1) as M1. assert (M : marks rc (len params) s1).
  { apply M1. - split; [exact L0|]. split; [reflexivity|]. split; [reflexivity|]. split; [reflexivity|]. lia. - intros f s s' Hf Ef Hs. apply (quantise_marks chk rc f s s'); auto. lia. }
  assert (M2 : len rc_i = 16 /\ len ord = 2 /\ forall g k, 0 <= g < len params -> 0 <= k < 8 -> ~ in_tables (coef_index o e (getz f0 rc (g * 8 + k))) -> ~ in_tables (getz 0 rc_i (g * 8 + k)) /\ k < getz 0 ord g).
  { destruct LP as [D|D]; rewrite D in *.
    - change (for_range 1 2 (tns_unused o) s1) with (s <- tns_unused o 1 s1 ;; Ok s) in E2. apply bind_Ok in E2. destruct E2 as (s2 & E2 & Es). apply Ok_inj in Es. subst s2.
      destruct (unused_marks rc 1 1 s1 _ ltac:(lia) ltac:(lia) M E2) as [(A1 & A2 & A3 & A4 & A5)|(A1 & A2 & A3 & A4)]; auto.
    - change (for_range 2 2 (tns_unused o) s1) with (Ok s1) in E2. apply Ok_inj in E2. subst s1. destruct M as (A1 & A2 & A3 & A4 & A5). auto. }
  destruct M2 as (Li & Lo & MB). destruct (Z_le_dec 0 (coef_index o e (getz f0 rc j))) as [A|A]; [destruct (Z_le_dec (coef_index o e (getz f0 rc j)) 16) as [B|B]; [split; assumption|]|]; exfalso.
  all: assert (Dj : j = j / 8 * 8 + j mod 8) by (pose proof (Z.div_mod j 8); lia); pose proof (Z.mod_pos_bound j 8 ltac:(lia)) as Mj; assert (Gj : 0 <= j / 8 < len params) by (split; [apply Z.div_pos; lia|apply Z.div_lt_upper_bound; lia]).
  all: destruct (MB (j / 8) (j mod 8) Gj Mj) as [X1 X2]; [rewrite <- Dj; unfold in_tables; lia|]; apply X1.
  all: pose proof (for_keep_i (fun m (s : Z) => forall g, 0 <= g < m -> exists b, tns_filter_bits o e (tns_weighting (n_ms c) nbits) rc_i ord g = Ok b) _ 0 (len params) 0 nb ltac:(lia) E3 ltac:(cbv beta; intros; exfalso; lia)) as P; cbv beta in P.
  all: destruct P with (g := j / 8) as (b & Eb); [intros m s s' Hm Em IH g Hg; destruct (Z.eq_dec g m) as [->|N]; [apply bind_Ok in Em; destruct Em as (b & Eb & _); now exists b|apply IH; lia]|lia|].
  all: apply (bits_in_tables _ rc_i ord (j / 8) b Eb); try lia.
Qed.
End Index.
