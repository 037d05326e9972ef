(* MPVQ enumeration is a bijection between pulse vectors and pairs (leading sign, index). *)
From Coq Require Import ZArith List Bool Lia.
From Verif Require Import Base BufLemmas TablesSns Mpvq.
Import ListNotations.
Local Open Scope Z_scope.

(* ---- specification ---- *)

(* number of unit pulses of a vector *)
Definition pulses (v : list Z) : Z := fold_right (fun x a => Z.abs x + a) 0 v.

(* number of integer vectors of dimension n with k pulses, from the first component: 0, or +-j *)
Fixpoint count (n : nat) (k : nat) : Z :=
  match n with
  | O => if Nat.eqb k 0 then 1 else 0
  | S m => count m k + fold_right (fun j a => 2 * count m j + a) 0 (seq 0 k)
  end.
(* half of them have a positive leading component *)
Definition size (n k : nat) : Z := count n k / 2.

(* leading sign: 1 if the first non-zero component is negative *)
Fixpoint lead (v : list Z) : Z :=
  match v with
  | [] => 0
  | x :: t => if x =? 0 then lead t else if x <? 0 then 1 else 0
  end.

Definition A (n k : nat) : Z := nth k (nth n MPVQ_OFFSETS []) 0.

(* index of a vector *)
Fixpoint ix (v : list Z) : Z :=
  match v with
  | [] => 0
  | x :: t => (if (x =? 0) || (pulses t =? 0) then ix t else 2 * ix t + lead t) + A (length t) (Z.to_nat (pulses t))
  end.

(* ---- the table ---- *)
(* rows of `count`, computed without repetition *)
Definition crow (n : nat) : list Z := map (count n) (seq 0 11).
Definition cstep (r : list Z) : list Z := map (fun k => nth k r 0 + fold_right (fun j a => 2 * nth j r 0 + a) 0 (seq 0 k)) (seq 0 11).
Lemma crow_nth n k : (k < 11)%nat -> nth k (crow n) 0 = count n k.
Proof. intros H. unfold crow. rewrite (nth_indep _ 0 (count n 0)) by (rewrite map_length, seq_length; lia). rewrite map_nth, seq_nth by lia. reflexivity. Qed.
Lemma crow_step n : crow (S n) = cstep (crow n).
Proof.
  unfold crow at 1, cstep. apply map_ext_in. intros k Hk. apply in_seq in Hk. cbn [count]. rewrite crow_nth by lia. f_equal.
  assert (G : forall l, (forall j, In j l -> (j < 11)%nat) -> fold_right (fun j a => 2 * count n j + a) 0 l = fold_right (fun j a => 2 * nth j (crow n) 0 + a) 0 l).
  { induction l as [|j l IH]; intros Hl; [reflexivity|]. cbn [fold_right]. rewrite crow_nth by (apply Hl; now left). rewrite IH; [reflexivity|]. intros i Hi. apply Hl. now right. }
  apply G. intros j Hj. apply in_seq in Hj. lia.
Qed.

(* what the table says about rows n and n + 1, given row n of the counts *)
Definition row_ok (n : nat) (r : list Z) : bool :=
  let r' := cstep r in
  (A n 0 =? 0) && (A n 1 =? 1) && forallb (fun k => A n (S k) =? A n k + 2 * (nth k r 0 / 2)) (seq 1 9) &&
  forallb (fun k => (2 * (nth k r 0 / 2) =? nth k r 0) && (2 * (nth k r' 0 / 2) =? nth k r' 0) && (nth k r' 0 / 2 =? A n k + nth k r 0 / 2) && (0 <=? nth k r 0 / 2)) (seq 1 10).
Fixpoint rows_ok (fuel n : nat) (r : list Z) : bool :=
  match fuel with O => true | S f => row_ok n r && rows_ok f (S n) (cstep r) end.
Lemma rows_ok_spec f : forall n, rows_ok f n (crow n) = true -> forall m, (n <= m < n + f)%nat -> row_ok m (crow m) = true.
Proof.
  induction f; intros n H m Hm; [lia|]. cbn [rows_ok] in H. apply andb_true_iff in H as [H1 H2]. destruct (Nat.eq_dec m n); [now subst|].
  rewrite <- crow_step in H2. apply (IHf (S n)); [exact H2|lia].
Qed.
Lemma table_check : rows_ok 16 0 (crow 0) = true.
Proof. vm_compute. reflexivity. Qed.

Lemma table_A n : (n < 16)%nat -> A n 0 = 0 /\ A n 1 = 1 /\ forall k, (1 <= k < 10)%nat -> A n (S k) = A n k + 2 * size n k.
Proof.
  intros Hn. pose proof (rows_ok_spec 16 0 table_check n ltac:(lia)) as T. unfold row_ok in T. cbn zeta in T.
  apply andb_true_iff in T as [T _]. apply andb_true_iff in T as [T T3]. apply andb_true_iff in T as [T1 T2]. apply Z.eqb_eq in T1, T2.
  split; [exact T1|]. split; [exact T2|]. intros k Hk. rewrite forallb_forall in T3. specialize (T3 k ltac:(apply in_seq; lia)).
  apply Z.eqb_eq in T3. rewrite crow_nth in T3 by lia. exact T3.
Qed.
Lemma table_size n k : (n < 16)%nat -> (1 <= k <= 10)%nat -> size (S n) k = A n k + size n k /\ 0 <= size n k /\ 2 * size n k = count n k /\ 2 * size (S n) k = count (S n) k.
Proof.
  intros Hn Hk. pose proof (rows_ok_spec 16 0 table_check n ltac:(lia)) as T. unfold row_ok in T. cbn zeta in T. rewrite <- crow_step in T.
  apply andb_true_iff in T as [_ T]. rewrite forallb_forall in T. specialize (T k ltac:(apply in_seq; lia)). rewrite !crow_nth in T by lia.
  apply andb_true_iff in T as [T T4]. apply andb_true_iff in T as [T T3]. apply andb_true_iff in T as [T1 T2].
  apply Z.eqb_eq in T1, T2, T3. apply Z.leb_le in T4. unfold size. auto.
Qed.
Lemma size_0 k : (1 <= k)%nat -> size 0 k = 0.
Proof. intros H. unfold size, count. destruct (Nat.eqb_spec k 0); [lia|reflexivity]. Qed.

Lemma A_mono n j k : (n < 16)%nat -> (j <= k <= 10)%nat -> A n j <= A n k.
Proof.
  intros Hn. destruct (table_A n Hn) as (T0 & T1 & T2). intros [H1 H2]. induction H1 as [|k Hj IH]; [lia|]. specialize (IH ltac:(lia)).
  destruct (Nat.eq_dec k 0) as [E0|E0].
  - assert (j = 0)%nat by lia. subst. lia.
  - specialize (T2 k ltac:(lia)). destruct (table_size n k Hn ltac:(lia)) as (_ & S1 & _ & _). lia.
Qed.
Lemma A_pos n k : (n < 16)%nat -> (1 <= k <= 10)%nat -> 1 <= A n k.
Proof. intros Hn Hk. destruct (table_A n Hn) as (_ & T1 & _). rewrite <- T1. apply A_mono; auto; lia. Qed.

Lemma offset_A n k : 0 <= n < 16 -> 0 <= k <= 10 -> offset n k = Ok (A (Z.to_nat n) (Z.to_nat k)).
Proof.
  intros Hn Hk. unfold offset. rewrite (idx_nth MPVQ_OFFSETS n []) by (change (len MPVQ_OFFSETS) with 16; lia). cbn [bind].
  apply idx_nth. assert (L : forallb (fun r => len r =? 11) MPVQ_OFFSETS = true) by (vm_compute; reflexivity).
  rewrite forallb_forall in L. specialize (L (nth (Z.to_nat n) MPVQ_OFFSETS [])).
  assert (In (nth (Z.to_nat n) MPVQ_OFFSETS []) MPVQ_OFFSETS) by (apply nth_In; change (length MPVQ_OFFSETS) with 16%nat; lia).
  apply L in H. lia.
Qed.

(* ---- pulses, lead, ix ---- *)
Lemma pulses_cons x t : pulses (x :: t) = Z.abs x + pulses t.
Proof. reflexivity. Qed.
Lemma pulses_nonneg v : 0 <= pulses v.
Proof. unfold pulses. induction v; cbn [fold_right]; lia. Qed.
Lemma pulses_app a b : pulses (a ++ b) = pulses a + pulses b.
Proof. induction a; [reflexivity|]. rewrite <- app_comm_cons, !pulses_cons. lia. Qed.
Lemma pulses_0 v : pulses v = 0 -> v = repeat 0 (length v).
Proof.
  induction v as [|x t IH]; intros H; [reflexivity|]. rewrite pulses_cons in H. pose proof (pulses_nonneg t).
  cbn [length repeat]. f_equal; [lia|apply IH; lia].
Qed.
Lemma pulses_zeros n : pulses (repeat 0 n) = 0.
Proof. induction n; [reflexivity|]. cbn [repeat]. rewrite pulses_cons. lia. Qed.
Lemma lead_range v : 0 <= lead v <= 1.
Proof. induction v as [|x t IH]; cbn [lead]; [lia|]. destruct (x =? 0); [exact IH|destruct (x <? 0); lia]. Qed.

Lemma ix_zero v : (length v <= 16)%nat -> pulses v = 0 -> ix v = 0.
Proof.
  induction v as [|x t IH]; intros HL HP; [reflexivity|]. rewrite pulses_cons in HP. pose proof (pulses_nonneg t). cbn [length] in HL.
  assert (pulses t = 0) by lia. assert (x = 0) by lia. subst x. cbn [ix]. rewrite H0. cbn [Z.eqb orb]. rewrite IH by (auto; lia).
  change (Z.to_nat 0) with 0%nat. destruct (table_A (length t) ltac:(lia)) as (-> & _). reflexivity.
Qed.

(* the index of a vector with K >= 1 pulses is below the published size *)
Lemma ix_range v : (length v <= 16)%nat -> 1 <= pulses v <= 10 -> 0 <= ix v < size (length v) (Z.to_nat (pulses v)).
Proof.
  induction v as [|x t IH]; intros HL HP; [unfold pulses in HP; cbn in HP; lia|]. rewrite pulses_cons in *. pose proof (pulses_nonneg t) as Pt. cbn [length] in *.
  set (j := pulses t) in *. pose proof (table_size (length t) (Z.to_nat (Z.abs x + j)) ltac:(lia) ltac:(lia)) as (S1 & S2 & _ & _).
  cbn [ix]. fold j. rewrite S1. destruct (Z.eqb_spec x 0) as [X0|X0]; cbn [orb].
  - subst x. change (Z.abs 0) with 0 in *. rewrite Z.add_0_l in *. specialize (IH ltac:(lia) ltac:(lia)).
    pose proof (A_pos (length t) (Z.to_nat j) ltac:(lia) ltac:(lia)). lia.
  - pose proof (A_pos (length t) (Z.to_nat (Z.abs x + j)) ltac:(lia) ltac:(lia)). destruct (Z.eqb_spec j 0) as [J0|J0].
    + rewrite ix_zero by (auto; lia). rewrite J0. change (Z.to_nat 0) with 0%nat. destruct (table_A (length t) ltac:(lia)) as (-> & _). rewrite J0 in *. lia.
    + specialize (IH ltac:(lia) ltac:(lia)). pose proof (lead_range t). destruct (table_A (length t) ltac:(lia)) as (_ & _ & T).
      specialize (T (Z.to_nat j) ltac:(lia)). pose proof (A_mono (length t) (S (Z.to_nat j)) (Z.to_nat (Z.abs x + j)) ltac:(lia) ltac:(lia)).
      pose proof (A_pos (length t) (Z.to_nat j) ltac:(lia) ltac:(lia)). lia.
Qed.

(* ---- the encoder computes ix and lead ---- *)
Definition sg (v : list Z) : Z := if pulses v =? 0 then i32_min else lead v.

Lemma push_sign_spec x t : (length t <= 16)%nat -> enc_push_sign x (sg t) (ix t) = ((if (x =? 0) || (pulses t =? 0) then ix t else 2 * ix t + lead t), sg (x :: t)).
Proof.
  intros HL. unfold enc_push_sign, sg. rewrite pulses_cons. pose proof (pulses_nonneg t). pose proof (lead_range t). cbn [lead].
  destruct (Z.eqb_spec (pulses t) 0) as [P|P].
  - rewrite P. change (0 <=? i32_min) with false. cbn [andb]. rewrite orb_true_r. f_equal.
    destruct (Z.eqb_spec x 0); [subst; reflexivity|]. destruct (Z.eqb_spec (Z.abs x + 0) 0); [lia|].
    destruct (Z.ltb_spec x 0); [reflexivity|]. destruct (Z.ltb_spec 0 x); [reflexivity|lia].
  - destruct (Z.leb_spec 0 (lead t)); [|lia]. cbn [andb]. rewrite orb_false_r.
    destruct (Z.eqb_spec (Z.abs x + pulses t) 0); [lia|]. destruct (Z.eqb_spec x 0); cbn [negb]; f_equal.
    + subst. reflexivity.
    + destruct (Z.ltb_spec x 0); [reflexivity|]. destruct (Z.ltb_spec 0 x); [reflexivity|lia].
Qed.

Lemma enum_loop_spec p : forall s h, (length p + length s <= 16)%nat -> pulses p + pulses s <= 10 ->
  h = A (length s) (Z.to_nat (pulses s)) ->
  enum_loop (rev p) (ix s) (sg s) (pulses s) (Z.of_nat (length s)) h = Ok (ix (p ++ s), sg (p ++ s)).
Proof.
  induction p as [|v p IH] using rev_ind; intros s h HL HP Hh; [reflexivity|].
  rewrite rev_app_distr. change (rev [v] ++ rev p) with (v :: rev p). rewrite app_length in HL. cbn [length] in HL.
  rewrite pulses_app, pulses_cons in HP. change (pulses []) with 0 in HP. pose proof (pulses_nonneg p). pose proof (pulses_nonneg s).
  cbn [enum_loop]. rewrite push_sign_spec by lia. destruct (Z.ltb_spec 127 (pulses s + Z.abs v)); [lia|].
  destruct (Z.leb_spec 11 (pulses s + Z.abs v)); [lia|].
  replace (pulses s + Z.abs v) with (pulses (v :: s)) by (rewrite pulses_cons; lia).
  assert (HI : (if (v =? 0) || (pulses s =? 0) then ix s else 2 * ix s + lead s) + h = ix (v :: s)) by (cbn [ix]; now rewrite Hh).
  rewrite HI. rewrite <- app_assoc. change ([v] ++ s) with (v :: s).
  destruct p as [|w p'].
  - change (rev []) with (@nil Z). cbn [enum_loop]. rewrite offset_A by (rewrite ?pulses_cons; lia). reflexivity.
  - destruct (rev (w :: p')) as [|y l] eqn:ER; [apply (f_equal (@length Z)) in ER; rewrite rev_length in ER; discriminate ER|].
    cbn [length] in HL.
    rewrite offset_A by (rewrite ?pulses_cons; lia). cbn [bind].
    replace (Z.of_nat (length s) + 1) with (Z.of_nat (length (v :: s))) by (cbn [length]; lia). rewrite Nat2Z.id.
    apply IH; [cbn [length]; lia|rewrite (pulses_cons v); lia|reflexivity].
Qed.

Theorem mvpq_enum_spec v w : (length v <= 16)%nat -> 1 <= pulses v <= 10 -> mvpq_enum (len v) (v ++ w) = Ok (ix v, lead v).
Proof.
  intros HL HP. unfold mvpq_enum. rewrite len_app. destruct (Z.ltb_spec (len v + len w) (len v)); [pose proof (len_nonneg w); lia|]. cbn [bind].
  unfold len at 1. rewrite Nat2Z.id, firstn_app, Nat.sub_diag, firstn_all. cbn [firstn]. rewrite app_nil_r.
  rewrite offset_A by lia. cbn [bind]. change (Z.to_nat 0) with 0%nat.
  pose proof (enum_loop_spec v [] (A 0 0) ltac:(cbn [length]; lia) ltac:(change (pulses []) with 0; lia) eq_refl) as E.
  rewrite app_nil_r in E. unfold sg in E at 2. destruct (Z.eqb_spec (pulses v) 0); [lia|]. exact E.
Qed.

(* ---- the decoder inverts ---- *)
Lemma find_kacc_spec m ind j : (m < 16)%nat -> A m j <= ind -> forall k f, (j <= k <= 10)%nat -> (k <= f)%nat ->
  (forall i, (j < i <= k)%nat -> ind < A m i) ->
  find_kacc f (nth m MPVQ_OFFSETS []) ind (Z.of_nat k) = Ok (Z.of_nat j, ind - A m j).
Proof.
  intros Hm HA. induction k; intros f Hk Hf Hi.
  - assert (j = 0)%nat by lia. subst j. destruct f; cbn [find_kacc];
      (replace (idx (nth m MPVQ_OFFSETS []) (Z.of_nat 0)) with (offset (Z.of_nat m) 0) by (unfold offset; rewrite (idx_nth MPVQ_OFFSETS (Z.of_nat m) []) by (change (len MPVQ_OFFSETS) with 16; lia); rewrite Nat2Z.id; reflexivity));
      rewrite offset_A by lia; cbn [bind]; rewrite Nat2Z.id; change (Z.to_nat 0) with 0%nat; (destruct (Z.ltb_spec ind (A m 0)); [lia|reflexivity]).
  - assert (EO : idx (nth m MPVQ_OFFSETS []) (Z.of_nat (S k)) = Ok (A m (S k))).
    { pose proof (offset_A (Z.of_nat m) (Z.of_nat (S k)) ltac:(lia) ltac:(lia)) as O. unfold offset in O.
      rewrite (idx_nth MPVQ_OFFSETS (Z.of_nat m) []) in O by (change (len MPVQ_OFFSETS) with 16; lia). rewrite !Nat2Z.id in O. exact O. }
    destruct f as [|f]; [lia|]. cbn [find_kacc]. rewrite EO. cbn [bind]. destruct (Z.ltb_spec ind (A m (S k))) as [L|L].
    + unfold usub. destruct (Z.ltb_spec (Z.of_nat (S k)) 1); [lia|]. cbn [bind]. replace (Z.of_nat (S k) - 1) with (Z.of_nat k) by lia.
      destruct (Nat.eq_dec j (S k)) as [E|E]; [subst; lia|]. apply IHk; [lia|lia|]. intros i Hi'. apply Hi. lia.
    + destruct (Nat.eq_dec j (S k)) as [E|E]; [now subst|]. specialize (Hi (S k) ltac:(lia)). lia.
Qed.

Lemma find_exists m ind K : (m < 16)%nat -> 0 < ind -> (1 <= K <= 10)%nat -> exists j, (1 <= j <= K)%nat /\ A m j <= ind /\ forall i, (j < i <= K)%nat -> ind < A m i.
Proof.
  intros Hm Hi HK. destruct (table_A m Hm) as (_ & T1 & _). induction K as [|K IH]; [lia|]. destruct (Z.le_gt_cases (A m (S K)) ind).
  - exists (S K). split; [lia|]. split; [auto|]. intros; lia.
  - destruct (Nat.eq_dec K 0); [subst; lia|]. destruct (IH ltac:(lia)) as (j & J1 & J2 & J3). exists j. split; [lia|]. split; [auto|].
    intros i Hi'. destruct (Nat.eq_dec i (S K)); [subst; lia|]. apply J3. lia.
Qed.

Definition sgn_of (ls : Z) : Z := if ls =? 0 then 1 else -1.
Lemma mind2vec_spec x ls : (x =? 0) = false -> ls = (if x <? 0 then 1 else 0) -> mind2vec_one (Z.abs x) (sgn_of ls) = x.
Proof. intros H ->. unfold mind2vec_one, sgn_of. destruct (Z.ltb_spec x 0); cbn; lia. Qed.

(* de-enumeration is defined on the whole index range and ix, lead invert it *)
Lemma deenum_total n : (n <= 16)%nat -> forall K ls ind, (1 <= K <= 10)%nat -> ls = 0 \/ ls = 1 -> 0 <= ind < size n K ->
  exists v, deenum_loop n (Z.of_nat K) (sgn_of ls) ind = Ok v /\ length v = n /\ pulses v = Z.of_nat K /\ ix v = ind /\ lead v = ls.
Proof.
  induction n as [|m IH]; intros Hn K ls ind HK Hls Hi; [rewrite size_0 in Hi; lia|].
  specialize (IH ltac:(lia)). destruct (table_A m ltac:(lia)) as (T0 & T1 & T2). destruct (table_size m K ltac:(lia) HK) as (S1 & S2 & _ & _).
  cbn [deenum_loop]. rewrite (idx_nth MPVQ_OFFSETS (Z.of_nat m) []) by (change (len MPVQ_OFFSETS) with 16; lia). rewrite Nat2Z.id. cbn [bind].
  destruct (Z.eqb_spec ind 0) as [E0|E0].
  - exists (mind2vec_one (Z.of_nat K) (sgn_of ls) :: repeat 0 m). split; [reflexivity|]. split; [cbn [length]; now rewrite repeat_length|].
    rewrite pulses_cons, pulses_zeros. cbn [ix lead]. rewrite pulses_zeros, repeat_length, ix_zero by (rewrite ?repeat_length, ?pulses_zeros; auto; lia).
    change (Z.to_nat 0) with 0%nat. rewrite T0. cbn [Z.eqb]. rewrite orb_true_r. subst ind.
    unfold mind2vec_one, sgn_of. destruct Hls; subst ls; cbn [Z.eqb Z.ltb Z.compare].
    + destruct (Z.eqb_spec (Z.of_nat K) 0); [lia|]. destruct (Z.ltb_spec (Z.of_nat K) 0); [lia|]. repeat split; lia.
    + destruct (Z.eqb_spec (- Z.of_nat K) 0); [lia|]. destruct (Z.ltb_spec (- Z.of_nat K) 0); [|lia]. repeat split; lia.
  - destruct (find_exists m ind K ltac:(lia) ltac:(lia) HK) as (j & J1 & J2 & J3).
    rewrite (find_kacc_spec m ind j ltac:(lia) J2 K) by (auto; lia). cbn [bind].
    unfold usub at 1. destruct (Z.ltb_spec (Z.of_nat K) (Z.of_nat j)); [lia|]. cbn [bind].
    destruct (Z.eqb_spec (Z.of_nat K - Z.of_nat j) 0) as [EK|EK].
    + assert (j = K) by lia. subst j. destruct (IH K ls (ind - A m K) HK Hls ltac:(lia)) as (t & D & L & P & X & Le).
      rewrite D. cbn [bind]. exists (0 :: t). split; [reflexivity|]. split; [cbn [length]; lia|]. rewrite pulses_cons. cbn [ix lead].
      change (0 =? 0) with true. cbn [orb]. rewrite P, L, Nat2Z.id. repeat split; auto; lia.
    + specialize (J3 (S j) ltac:(lia)). rewrite T2 in J3 by lia. set (i' := ind - A m j) in *.
      unfold usub. destruct (Z.ltb_spec (Z.of_nat K) (Z.of_nat K - Z.of_nat j)); [lia|]. cbn [bind].
      replace (Z.of_nat K - (Z.of_nat K - Z.of_nat j)) with (Z.of_nat j) by lia.
      replace (if Z.odd i' then -1 else 1) with (sgn_of (i' mod 2)).
      2:{ rewrite Zmod_odd. unfold sgn_of. destruct (Z.odd i'); reflexivity. }
      rewrite Z.shiftr_div_pow2 by lia. change (2 ^ 1) with 2.
      assert (Q : i' = 2 * (i' / 2) + i' mod 2 /\ 0 <= i' mod 2 < 2) by (split; [apply Z.div_mod; lia|apply Z.mod_pos_bound; lia]).
      destruct (IH j (i' mod 2) (i' / 2) ltac:(lia) ltac:(lia) ltac:(unfold i' in *; lia)) as (t & D & L & P & X & Le).
      rewrite D. cbn [bind]. set (x := mind2vec_one (Z.of_nat K - Z.of_nat j) (sgn_of ls)).
      assert (Hx : Z.abs x = Z.of_nat K - Z.of_nat j /\ (x =? 0) = false /\ (if x <? 0 then 1 else 0) = ls).
      { unfold x, mind2vec_one, sgn_of. destruct Hls; subst ls; cbn [Z.eqb Z.ltb Z.compare].
        - destruct (Z.eqb_spec (Z.of_nat K - Z.of_nat j) 0); [lia|]. destruct (Z.ltb_spec (Z.of_nat K - Z.of_nat j) 0); [lia|]. lia.
        - destruct (Z.eqb_spec (- (Z.of_nat K - Z.of_nat j)) 0); [lia|]. destruct (Z.ltb_spec (- (Z.of_nat K - Z.of_nat j)) 0); [|lia]. lia. }
      destruct Hx as (X1 & X2 & X3). exists (x :: t). split; [reflexivity|]. split; [cbn [length]; lia|]. rewrite pulses_cons. cbn [ix lead].
      rewrite X2, X1, X3, P, L, X, Le. destruct (Z.eqb_spec (Z.of_nat j) 0); [lia|]. cbn [orb]. rewrite Nat2Z.id. unfold i' in *. repeat split; lia.
Qed.

(* de-enumeration of the index of a vector gives the vector back *)
Lemma deenum_ix v : (length v <= 16)%nat -> 1 <= pulses v <= 10 -> deenum_loop (length v) (pulses v) (sgn_of (lead v)) (ix v) = Ok v.
Proof.
  induction v as [|x t IH]; intros HL HP; [unfold pulses in HP; cbn in HP; lia|]. cbn [length] in HL. pose proof (pulses_nonneg t) as Pt.
  destruct (table_A (length t) ltac:(lia)) as (T0 & T1 & T2).
  cbn [length deenum_loop]. rewrite (idx_nth MPVQ_OFFSETS (Z.of_nat (length t)) []) by (change (len MPVQ_OFFSETS) with 16; lia). rewrite Nat2Z.id. cbn [bind].
  destruct (Z.eq_dec (pulses t) 0) as [P0|P0].
  - assert (E : ix (x :: t) = 0).
    { cbn [ix]. rewrite P0. change (0 =? 0) with true. rewrite orb_true_r, ix_zero by (auto; lia). change (Z.to_nat 0) with 0%nat. lia. }
    rewrite E. change (0 =? 0) with true. cbn iota. rewrite pulses_cons, P0, Z.add_0_r in *. f_equal. f_equal.
    + cbn [lead]. assert (X : (x =? 0) = false) by (apply Z.eqb_neq; lia). rewrite X. apply mind2vec_spec; auto.
    + symmetry. now apply pulses_0.
  - rewrite pulses_cons in *. set (j := pulses t) in *. pose proof (ix_range t ltac:(lia) ltac:(fold j; lia)) as R. fold j in R.
    pose proof (A_pos (length t) (Z.to_nat j) ltac:(lia) ltac:(lia)) as AP. pose proof (lead_range t) as LR.
    assert (HV : A (length t) (Z.to_nat j) <= ix (x :: t) /\ forall i, (Z.to_nat j < i <= Z.to_nat (Z.abs x + j))%nat -> ix (x :: t) < A (length t) i).
    { cbn [ix]. fold j. destruct (Z.eqb_spec j 0); [lia|]. rewrite orb_false_r. destruct (Z.eqb_spec x 0) as [X0|X0].
      - split; [lia|]. intros i Hi. subst x. lia.
      - split; [lia|]. intros i Hi. specialize (T2 (Z.to_nat j) ltac:(lia)). pose proof (A_mono (length t) (S (Z.to_nat j)) i ltac:(lia) ltac:(lia)). lia. }
    destruct HV as [HV1 HV2]. destruct (Z.eqb_spec (ix (x :: t)) 0); [lia|].
    pose proof (find_kacc_spec (length t) (ix (x :: t)) (Z.to_nat j) ltac:(lia) HV1 (Z.to_nat (Z.abs x + j)) (Z.to_nat (Z.abs x + j)) ltac:(lia) ltac:(lia) HV2) as F.
    rewrite !Z2Nat.id in F by lia. rewrite F. cbn [bind]. unfold usub at 1. destruct (Z.ltb_spec (Z.abs x + j) j); [lia|]. cbn [bind].
    replace (Z.abs x + j - j) with (Z.abs x) by lia.
    destruct (Z.eqb_spec x 0) as [X0|X0].
    + subst x. change (Z.abs 0) with 0. change (0 =? 0) with true. cbn iota. cbn [ix lead]. change (0 =? 0) with true. cbn [orb]. fold j.
      replace (ix t + A (length t) (Z.to_nat j) - A (length t) (Z.to_nat j)) with (ix t) by lia. rewrite Z.add_0_l, IH by lia. reflexivity.
    + destruct (Z.eqb_spec (Z.abs x) 0); [lia|]. unfold usub. destruct (Z.ltb_spec (Z.abs x + j) (Z.abs x)); [lia|]. cbn [bind].
      replace (Z.abs x + j - Z.abs x) with j by lia. cbn [ix lead]. destruct (Z.eqb_spec x 0); [lia|]. fold j. destruct (Z.eqb_spec j 0); [lia|]. cbn [orb].
      replace (2 * ix t + lead t + A (length t) (Z.to_nat j) - A (length t) (Z.to_nat j)) with (2 * ix t + lead t) by lia.
      assert (O : (if Z.odd (2 * ix t + lead t) then -1 else 1) = sgn_of (lead t)).
      { rewrite Z.add_comm, Z.odd_add_mul_2. destruct (Z.eq_dec (lead t) 0) as [->|]; [reflexivity|]. replace (lead t) with 1 by lia. reflexivity. }
      rewrite O. rewrite Z.shiftr_div_pow2 by lia. change (2 ^ 1) with 2. replace ((2 * ix t + lead t) / 2) with (ix t) by (Z.div_mod_to_equations; lia).
      rewrite IH by lia. cbn [bind]. f_equal. f_equal. apply mind2vec_spec; [now apply Z.eqb_neq|reflexivity].
Qed.

(* ---- bijection ---- *)
Theorem enum_deenum v w : (length v <= 16)%nat -> 1 <= pulses v <= 10 ->
  exists ind ls, mvpq_enum (len v) (v ++ w) = Ok (ind, ls) /\ (ls = 0 \/ ls = 1) /\ 0 <= ind < size (length v) (Z.to_nat (pulses v)) /\
    mpvq_deenum (len v) (pulses v) ls ind = Ok v.
Proof.
  intros HL HP. exists (ix v), (lead v). split; [now apply mvpq_enum_spec|]. split; [pose proof (lead_range v); lia|].
  split; [now apply ix_range|]. unfold mpvq_deenum, len. rewrite Nat2Z.id. now apply deenum_ix.
Qed.
Theorem deenum_enum n K ls ind : (n <= 16)%nat -> (1 <= K <= 10)%nat -> ls = 0 \/ ls = 1 -> 0 <= ind < size n K ->
  exists v, mpvq_deenum (Z.of_nat n) (Z.of_nat K) ls ind = Ok v /\ length v = n /\ pulses v = Z.of_nat K /\
    mvpq_enum (Z.of_nat n) v = Ok (ind, ls).
Proof.
  intros Hn HK Hls Hi. unfold mpvq_deenum. rewrite Nat2Z.id. destruct (deenum_total n Hn K ls ind HK Hls Hi) as (v & D & L & P & X & Le).
  exists v. split; [exact D|]. split; [exact L|]. split; [exact P|]. pose proof (mvpq_enum_spec v [] ltac:(lia) ltac:(lia)) as E.
  rewrite app_nil_r in E. unfold len in E. rewrite L, X, Le in E. exact E.
Qed.

(* the size counts vectors: count n k is the number of integer vectors, shown on the list of all of them *)
Fixpoint all_vectors (n k : nat) : list (list Z) :=
  match n with
  | O => if Nat.eqb k 0 then [[]] else []
  | S m => map (cons 0) (all_vectors m k) ++
           flat_map (fun j => map (cons (Z.of_nat (k - j))) (all_vectors m j) ++ map (cons (- Z.of_nat (k - j))) (all_vectors m j)) (seq 0 k)
  end.
Lemma all_vectors_count n : forall k, Z.of_nat (length (all_vectors n k)) = count n k.
Proof.
  induction n as [|m IH]; intros k; [cbn; destruct (Nat.eqb k 0); reflexivity|]. cbn [all_vectors count].
  rewrite app_length, map_length, Nat2Z.inj_add, IH. f_equal.
  induction (seq 0 k) as [|j l IHl]; [reflexivity|]. cbn [flat_map fold_right]. rewrite !app_length, !map_length, !Nat2Z.inj_add, IHl, IH. lia.
Qed.
Lemma all_vectors_spec n : forall k v, In v (all_vectors n k) <-> length v = n /\ pulses v = Z.of_nat k.
Proof.
  induction n as [|m IH]; intros k v.
  - cbn [all_vectors]. destruct (Nat.eqb_spec k 0).
    + subst. split; [intros [<-|[]]; auto|]. intros [H _]. destruct v; [now left|discriminate H].
    + split; [intros []|]. intros [H1 H2]. destruct v; [change (pulses []) with 0 in H2; lia|discriminate H1].
  - cbn [all_vectors]. rewrite in_app_iff, in_map_iff, in_flat_map. split.
    + intros [(t & <- & Ht)|(j & Hj & H)].
      * apply IH in Ht as [? ?]. rewrite pulses_cons. cbn [length]. lia.
      * apply in_seq in Hj. rewrite in_app_iff, !in_map_iff in H. destruct H as [(t & <- & Ht)|(t & <- & Ht)]; apply IH in Ht as [? ?]; rewrite pulses_cons; cbn [length]; lia.
    + intros [H1 H2]. destruct v as [|x t]; [discriminate H1|]. cbn [length] in H1. rewrite pulses_cons in H2. pose proof (pulses_nonneg t).
      destruct (Z.eq_dec x 0) as [->|X0].
      * left. exists t. split; [reflexivity|]. apply IH. lia.
      * right. exists (Z.to_nat (pulses t)). split; [apply in_seq; lia|]. rewrite in_app_iff, !in_map_iff. destruct (Z.lt_ge_cases x 0).
        -- right. exists t. split; [f_equal; lia|]. apply IH. lia.
        -- left. exists t. split; [f_equal; lia|]. apply IH. lia.
Qed.
Lemma size_count n k : (n <= 16)%nat -> (1 <= k <= 10)%nat -> 2 * size n k = count n k.
Proof.
  intros Hn Hk. destruct n as [|n]; [rewrite size_0 by lia; cbn [count]; destruct (Nat.eqb_spec k 0); [lia|reflexivity]|].
  apply table_size; lia.
Qed.
