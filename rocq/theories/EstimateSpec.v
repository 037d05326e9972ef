(* What the spectral data of a frame costs, counted on the events of PayloadSpec; the encoder's estimator against it. *)
From Coq Require Import ZArith List Bool Lia ZifyBool.
From Verif Require Import Base Config Loops Scalar EncScalar EncF32 AcSpec AcSpecProofs AcDecProofs AcStreamProofs BufLemmas TablesProofs TablesSpec FrameEnc PayloadSpec Events EncPayload EncQuant.
Import ListNotations.
Local Open Scope Z_scope.

(* cost of a symbol of the given frequency in units of 1/2048 bit: 2048 log2 (1024 / f), rounded up *)
Definition price (f : Z) : Z := Z.log2_up (- (- 1024 ^ 2048 / f ^ 2048)).
Fixpoint prices (l : list sym) : Z := match l with [] => 0 | y :: l => price (snd y) + prices l end.
Lemma prices_app a b : prices (a ++ b) = prices a + prices b.
Proof. induction a; cbn [prices app]; lia. Qed.
(* bits at the end of the frame count 2048 each *)
Definition ev_cost (l : list ev) : Z := 2048 * tbits l + prices (ev_syms l).
(* the signs that move from the spectral data to the lsb part in lsb mode: lines of magnitude 1 in escaped pairs *)
Definition moved (x : Z) : Z := if Z.abs x =? 1 then 1 else 0.
Definition pair_moved (mode : bool) (x0 x1 : Z) : Z :=
  if mode && (4 <=? Z.max (Z.abs x0) (Z.abs x1)) then moved x0 + moved x1 else 0.
Fixpoint spec_moved (n : nat) (mode : bool) (k : Z) (xq : list Z) : Z :=
  match n with
  | O => 0
  | S n' => pair_moved mode (nth (Z.to_nat k) xq 0) (nth (Z.to_nat (k + 1)) xq 0) + spec_moved n' mode (k + 2) xq
  end.
Definition spec_cost_of (n : nat) (mode : bool) (ne k c rate : Z) (xq : list Z) : Z :=
  ev_cost (spec_evs n mode ne k c rate xq) + 2048 * spec_moved n mode k xq.

Lemma up_unique a q c : 0 < q -> 1 <= c -> a <= 2 ^ c * q -> 2 ^ (c - 1) * q < a -> Z.log2_up (- (- a / q)) = c.
Proof.
  intros P Hc A B. set (u := - (- a / q)). assert (U : a <= u * q /\ (u - 1) * q < a).
  { pose proof (Z.div_mod (- a) q ltac:(lia)) as D. pose proof (Z.mod_pos_bound (- a) q P). unfold u. nia. }
  assert (P2 : 0 < 2 ^ (c - 1)) by (apply Z.pow_pos_nonneg; lia).
  apply Z.log2_up_unique; [lia|]. replace (Z.pred c) with (c - 1) by lia. split.
  - apply Z.lt_nge. intros H. nia.
  - apply Z.le_ngt. intros H. assert (2 ^ c <= u - 1) by lia. nia.
Qed.
Lemma up_le a q : 0 <= a -> 0 < q -> - (- a / q) <= a.
Proof. intros A P. pose proof (Z.div_mod (- a) q ltac:(lia)) as D. pose proof (Z.mod_pos_bound (- a) q P). nia. Qed.
Lemma price_unique c f : 0 < f -> 1 <= c -> cost_is_ceil c f -> price f = c.
Proof. intros Hf Hc [A B]. apply up_unique; [apply Z.pow_pos_nonneg; [exact Hf|discriminate]|exact Hc|exact A|exact B]. Qed.
Lemma price_range f : 0 < f <= 1024 -> 0 <= price f <= 20480.
Proof.
  intros [H _]. unfold price. split; [apply Z.log2_up_nonneg|].
  transitivity (Z.log2_up (1024 ^ 2048)).
  - apply Z.log2_up_le_mono. apply up_le; [apply Z.pow_nonneg; discriminate|apply Z.pow_pos_nonneg; [exact H|discriminate]].
  - rewrite pow_1024. rewrite Z.log2_up_pow2; [apply Z.le_refl|discriminate].
Qed.
Lemma price_ge f : 0 < f -> 1024 ^ 2048 <= 2 ^ price f * f ^ 2048.
Proof.
  intros H. unfold price. assert (P : 0 < f ^ 2048) by (apply Z.pow_pos_nonneg; [exact H|discriminate]). generalize dependent (f ^ 2048). generalize (1024 ^ 2048). intros a q P.
  pose proof (Z.div_mod (- a) q ltac:(lia)) as D. pose proof (Z.mod_pos_bound (- a) q P) as M. set (u := - (- a / q)) in *. assert (A : a <= u * q) by (unfold u; nia).
  destruct (Z.le_gt_cases u 1) as [U|U].
  - pose proof (Z.log2_up_nonneg u). pose proof (Z.pow_pos_nonneg 2 (Z.log2_up u) ltac:(lia) ltac:(lia)). nia.
  - pose proof (Z.log2_up_spec u U). nia.
Qed.
Global Opaque price.

Lemma ev_cost_app a b : ev_cost (a ++ b) = ev_cost a + ev_cost b.
Proof. unfold ev_cost. rewrite tbits_app, ev_syms_app, prices_app. ring. Qed.
Lemma ev_cost_bit b l : ev_cost (EBit b :: l) = 2048 + ev_cost l.
Proof. unfold ev_cost, tbits. cbn [ev_bits ev_syms flat_map app]. rewrite len_cons. fold (ev_bits l) (ev_syms l). ring. Qed.
Lemma ev_cost_sym y l : ev_cost (ESym y :: l) = price (snd y) + ev_cost l.
Proof. unfold ev_cost, tbits. cbn [ev_bits ev_syms flat_map app prices]. fold (ev_bits l) (ev_syms l). ring. Qed.
Lemma ev_cost_nil : ev_cost [] = 0.
Proof. reflexivity. Qed.

Lemma lk_bits t lev s : 0 <= t < 1024 -> 0 <= lev -> 0 <= s < 17 -> exists pk, idx AC_SPEC_LOOKUP (t + Z.min lev 3 * 1024) = Ok pk /\
  idx2 AC_SPEC_BITS pk s = Ok (price (snd (msym (lk t lev) s))) /\ 0 <= price (snd (msym (lk t lev) s)) <= 20480.
Proof.
  intros Ht Hl Hs. destruct (lookup_ok (t + Z.min lev 3 * 1024) ltac:(lia)) as (pk & E & Hp). exists pk. split; [exact E|].
  assert (Elk : lk t lev = spec_model pk) by (unfold lk; f_equal; rewrite (idx_nth _ _ 0) in E by (destruct lookup_check as [_ ->]; lia); congruence).
  rewrite Elk. destruct (spec_model_ok pk Hp) as [V M]. pose proof (vm_len _ V) as VL. unfold msize in M.
  pose proof (msym_valid _ s V ltac:(unfold msize; lia)) as VS. destruct VS as (VS1 & VS2 & VS3).
  assert (Fr : 0 < snd (msym (spec_model pk) s) <= 1024) by lia.
  split; [|apply price_range; exact Fr].
  unfold idx2. rewrite (idx_nth AC_SPEC_BITS pk []) by (change (len AC_SPEC_BITS) with 64; lia). cbn [bind].
  unfold spec_model in VL, M. cbn [fst snd] in VL, M.
  destruct (costs_ok_nth AC_SPEC_BITS AC_SPEC_FREQ (Z.to_nat pk) (Z.to_nat s) spec_costs_check) as [LB C]; [change (length AC_SPEC_FREQ) with 64%nat; lia|unfold len in M; lia|].
  rewrite (idx_nth _ s 0) by (unfold len; lia). f_equal. symmetry. apply price_unique.
  - exact (proj1 Fr).
  - pose proof (zrange_forall (fun p => forallb (fun s => 1 <=? nth (Z.to_nat s) (nth (Z.to_nat p) AC_SPEC_BITS []) 0) (zrange 17)) 64 ltac:(vm_compute; reflexivity) pk Hp) as Q.
    cbn beta in Q. pose proof (zrange_forall _ 17 Q s Hs) as Q2. cbn beta in Q2. lia.
  - exact C.
Qed.

Lemma bc_levels_spec mode t fuel : 0 <= t < 1024 -> forall lev a b est lsb,
  0 <= a < 2 ^ (Z.of_nat fuel + 2) -> 0 <= b < 2 ^ (Z.of_nat fuel + 2) -> 0 <= lev ->
  let e := esc_lev fuel a b in
  bc_levels fuel mode t a b (Z.min lev 3) est lsb =
    Ok (a / 2 ^ e, b / 2 ^ e, Z.min (lev + e) 3, est + ev_cost (esc_pre fuel mode t a b lev), lsb + (if mode && (lev =? 0) && (0 <? e) then 2 else 0)).
Proof.
  intros Ht. induction fuel as [|f IH]; intros lev a b est lsb Ha Hb Hl; cbn [bc_levels esc_pre esc_lev].
  - change (2 ^ (Z.of_nat 0 + 2)) with 4 in *. destruct (Z.leb_spec 4 (Z.max a b)); [lia|]. cbv zeta.
    rewrite !Z.div_1_r, Z.add_0_r, ev_cost_nil, !andb_false_r, !Z.add_0_r. reflexivity.
  - destruct (Z.leb_spec 4 (Z.max a b)) as [G|G].
    + replace (Z.of_nat (S f) + 2) with (Z.of_nat f + 2 + 1) in * by lia. apply half_bound in Ha, Hb; try lia.
      destruct (lk_bits t lev 16 Ht Hl ltac:(lia)) as (pk & E1 & E2 & _). rewrite E1. cbn [bind]. rewrite E2. cbn [bind]. cbv zeta.
      rewrite !shiftr1. replace (Z.min 3 (Z.min lev 3 + 1)) with (Z.min (lev + 1) 3) by lia. rewrite (IH (lev + 1)) by (assumption || lia).
      pose proof (esc_lev_nonneg f (a / 2) (b / 2)) as He. rewrite <- !div_pow_succ by lia.
      destruct (Z.ltb_spec 0 (1 + esc_lev f (a / 2) (b / 2))); [|lia].
      replace (lev + 1 =? 0) with false by lia. rewrite andb_false_r. cbn [andb]. replace (Z.min lev 3 =? 0) with (lev =? 0) by lia. rewrite andb_true_r.
      rewrite ev_cost_sym, ev_cost_app, (andb_comm mode). 
      match goal with |- Ok (_, ?l1, ?e1, ?n1) = Ok (_, ?l2, ?e2, ?n2) => assert (El : l1 = l2) by lia; assert (Ee : e1 = e2); [|assert (En : n1 = n2); [|rewrite El, Ee, En; reflexivity]] end.
      * destruct ((lev =? 0) && mode); rewrite ?ev_cost_bit, ?ev_cost_nil; lia.
      * destruct ((lev =? 0) && mode); lia.
    + cbv zeta. rewrite !Z.div_1_r, Z.add_0_r, ev_cost_nil, !andb_false_r, !Z.add_0_r. reflexivity.
Qed.

Lemma esc_lev_pos a b : 0 < esc_lev 16 a b <-> 4 <= Z.max a b.
Proof. change (esc_lev 16 a b) with (if 4 <=? Z.max a b then 1 + esc_lev 15 (a / 2) (b / 2) else 0). pose proof (esc_lev_nonneg 15 (a / 2) (b / 2)). destruct (Z.leb_spec 4 (Z.max a b)); lia. Qed.

Section Est.
Context {F : Type} (o : ops F) (e : eops F).

Definition bits_ok (x : Z) : Prop := Z.abs x <= 32768.

Lemma sign_cost mag x : ev_cost (sign_evs mag x) = if 0 <? mag then 2048 else 0.
Proof. unfold sign_evs. destruct (0 <? mag); [rewrite ev_cost_bit, ev_cost_nil|rewrite ev_cost_nil]; reflexivity. Qed.
Lemma sent_cost mode lev x : 0 <= lev -> ev_cost (sign_evs (sent_mag mode lev x) x) = (if 0 <? Z.abs x then 2048 else 0) - 2048 * (if mode && (0 <? lev) then moved x else 0).
Proof.
  intros Hl. rewrite sign_cost. unfold sent_mag, moved. destruct (mode && (0 <? lev)); [|lia].
  destruct (Z.eqb_spec (Z.abs x) 1) as [->|N]; [reflexivity|]. destruct (Z.ltb_spec 0 (Z.abs x)), (Z.ltb_spec 0 (Z.abs x / 2)); try reflexivity; dml.
Qed.
Lemma lsb_one_len x : len (lsb_one x) = 1 + moved x.
Proof.
  unfold lsb_one, moved. rewrite len_cons. destruct (Z.eqb_spec (Z.abs x / 2) 0) as [E|E], (Z.eqb_spec x 0) as [N|N], (Z.eqb_spec (Z.abs x) 1) as [M|M];
    cbn [andb negb]; rewrite ?len_cons; change (len (@nil Z)) with 0; try lia; dml.
Qed.

Lemma bc_pair_spec ne rate B mode k x0 x1 s : 0 <= bc_c s < 256 -> rate = 0 \/ rate = 512 -> bits_ok x0 -> bits_ok x1 ->
  let est := bc_est s + ev_cost (pair_evs mode ne k (bc_c s) rate x0 x1) + 2048 * pair_moved mode x0 x1 in
  let keep := (negb (x0 =? 0) || negb (x1 =? 0)) && (cost_bits o e est <=? B) in
  bc_pair o e ne rate B mode k x0 x1 s =
    Ok (mkBc (pair_next (bc_c s) x0 x1) est (bc_lsb s + len (pair_lsbs mode x0 x1)) (if keep then k + 2 else bc_last s) (if keep then est else bc_trunc s)).
Proof.
  intros Hc Hr H0 H1. pose proof (pair_ctx_range ne k _ rate Hc Hr) as Ht. pose proof (pair_mag _ H0) as M0. pose proof (pair_mag _ H1) as M1.
  unfold bc_pair. cbv zeta. fold (pair_ctx ne k (bc_c s) rate). set (t := pair_ctx ne k (bc_c s) rate) in *.
  pose proof (bc_levels_spec mode t 16 Ht 0 _ _ (bc_est s) (bc_lsb s) M0 M1 ltac:(lia)) as E. cbv zeta in E. change (Z.min 0 3) with 0 in E. rewrite E. clear E.
  cbn [bind]. destruct (esc_div_range _ _ M0 M1) as [A Bd]. pose proof (esc_lev_nonneg 16 (Z.abs x0) (Z.abs x1)) as He. pose proof (esc_lev_pos (Z.abs x0) (Z.abs x1)) as Hp.
  destruct (esc_evs_split 16 mode t (Z.abs x0) (Z.abs x1) 0 M0 M1) as (Es & _). unfold pair_evs, pair_next, pair_lsbs, pair_moved. cbv zeta. fold t. rewrite Es. clear Es. cbv zeta.
  set (lv := esc_lev 16 (Z.abs x0) (Z.abs x1)) in *. rewrite Z.add_0_l in *.
  set (a := Z.abs x0 / 2 ^ lv) in *. set (b := Z.abs x1 / 2 ^ lv) in *.
  destruct (lk_bits t lv (a + 4 * b) Ht He ltac:(lia)) as (pk & E1 & E2 & _). rewrite E1. cbn [bind]. rewrite E2. cbn [bind].
  change (0 =? 0) with true. rewrite andb_true_r. cbn [andb].
  replace (0 <? Z.min lv 3) with (0 <? lv) by lia. assert (Hp' : (4 <=? Z.max (Z.abs x0) (Z.abs x1)) = (0 <? lv)) by lia. rewrite Hp'.
  rewrite !ev_cost_app, ev_cost_sym, ev_cost_nil, !sent_cost by exact He.
  match goal with |- Ok (mkBc ?c1 ?e1 ?l1 _ _) = Ok (mkBc ?c2 ?e2 ?l2 _ _) => assert (Ee : e1 = e2); [|assert (El : l1 = l2); [|assert (Ec : c1 = c2)]] end.
  - destruct (mode && (0 <? lv)); lia.
  - rewrite (andb_comm (0 <? lv)). destruct (mode && (0 <? lv)); [|reflexivity].
    rewrite len_app, !lsb_one_len, !shiftr1. unfold moved.
    replace ((Z.abs x0 / 2 =? 0) && negb (x0 =? 0)) with (Z.abs x0 =? 1) by dml. replace ((Z.abs x1 / 2 =? 0) && negb (x1 =? 0)) with (Z.abs x1 =? 1) by dml. lia.
  - unfold ctx_next. rewrite land15. reflexivity.
  - rewrite Ee, El, Ec. reflexivity.
Qed.

Lemma spec_cost_S n mode ne k c rate xq : spec_cost_of (S n) mode ne k c rate xq =
  let x0 := nth (Z.to_nat k) xq 0 in let x1 := nth (Z.to_nat (k + 1)) xq 0 in
  ev_cost (pair_evs mode ne k c rate x0 x1) + 2048 * pair_moved mode x0 x1 + spec_cost_of n mode ne (k + 2) (pair_next c x0 x1) rate xq.
Proof. unfold spec_cost_of. cbn [spec_evs spec_moved]. cbv zeta. rewrite ev_cost_app. ring. Qed.

Definition nz_pair (xq : list Z) (k : Z) : bool := negb (nth (Z.to_nat k) xq 0 =? 0) || negb (nth (Z.to_nat (k + 1)) xq 0 =? 0).

Lemma bc_pairs_spec ne rate B mode xq n : rate = 0 \/ rate = 512 -> Forall bits_ok xq -> forall k s,
  0 <= k -> k + 2 * Z.of_nat n <= len xq -> 0 <= bc_c s < 256 ->
  exists c last trunc,
    bc_pairs o e n ne rate B mode k xq s =
      Ok (mkBc c (bc_est s + spec_cost_of n mode ne k (bc_c s) rate xq) (bc_lsb s + len (spec_lsbs n mode k xq)) last trunc) /\
    let E j := bc_est s + spec_cost_of j mode ne k (bc_c s) rate xq in
    let open j := nz_pair xq (k + 2 * Z.of_nat j) && (cost_bits o e (E (S j)) <=? B) in
    ((exists m, (m < n)%nat /\ open m = true /\ last = k + 2 * Z.of_nat m + 2 /\ trunc = E (S m) /\ (forall j, (m < j < n)%nat -> open j = false)) \/
     (last = bc_last s /\ trunc = bc_trunc s /\ forall j, (j < n)%nat -> open j = false)).
Proof.
  intros Hr FX. induction n as [|n IH]; intros k s Hk Hl Hc; cbn [bc_pairs].
  - exists (bc_c s), (bc_last s), (bc_trunc s). split.
    + unfold spec_cost_of. cbn [spec_evs spec_moved spec_lsbs]. rewrite ev_cost_nil. change (len (@nil Z)) with 0. rewrite Z.mul_0_r, !Z.add_0_r. destruct s; reflexivity.
    + right. split; [reflexivity|]. split; [reflexivity|]. intros j Hj. lia.
  - rewrite (idx_nth xq k 0), (idx_nth xq (k + 1) 0) by lia. cbn [bind].
    set (x0 := nth (Z.to_nat k) xq 0) in *. set (x1 := nth (Z.to_nat (k + 1)) xq 0) in *.
    assert (B0 : bits_ok x0) by (apply Forall_nth_range; [exact FX|lia]). assert (B1 : bits_ok x1) by (apply Forall_nth_range; [exact FX|lia]).
    pose proof (bc_pair_spec ne rate B mode k x0 x1 s Hc Hr B0 B1) as EP. cbv zeta in EP. rewrite EP. clear EP. cbn [bind].
    match goal with |- context [bc_pairs _ _ _ _ _ _ _ _ _ ?st] => set (s1 := st) end.
    destruct (IH (k + 2) s1) as (c & last & trunc & E1 & D); [lia|lia|apply pair_next_range; assumption|]. exists c, last, trunc. split.
    + rewrite E1. unfold s1 at 1 2 3. cbn [bc_est bc_lsb bc_c]. rewrite spec_cost_S. cbv zeta. fold x0 x1. cbn [spec_lsbs]. fold x0 x1. rewrite len_app. do 2 f_equal; lia.
    + cbv zeta in *.
      assert (ES : forall j, bc_est s + spec_cost_of (S j) mode ne k (bc_c s) rate xq = bc_est s1 + spec_cost_of j mode ne (k + 2) (bc_c s1) rate xq).
      { intros j. rewrite spec_cost_S. cbv zeta. fold x0 x1. unfold s1. cbn [bc_est bc_c]. lia. }
      assert (Z0 : forall c, spec_cost_of 0 mode ne (k + 2) c rate xq = 0) by (intros; unfold spec_cost_of; cbn [spec_evs spec_moved]; rewrite ev_cost_nil; reflexivity).
      destruct D as [(m & Hm & Om & Lm & Tm & Rm)|(Ll & Lt & R)].
      * left. exists (S m). split; [lia|]. rewrite ES. split; [rewrite <- Om; do 2 f_equal; lia|]. split; [lia|]. split; [exact Tm|].
        intros [|j] Hj; [lia|]. rewrite ES. rewrite <- (Rm j) by lia. do 2 f_equal; lia.
      * assert (R' : forall j, (0 < j < S n)%nat -> nz_pair xq (k + 2 * Z.of_nat j) && (cost_bits o e (bc_est s + spec_cost_of (S j) mode ne k (bc_c s) rate xq) <=? B) = false).
        { intros [|j] Hj; [lia|]. rewrite ES. rewrite <- (R j) by lia. do 2 f_equal; lia. }
        destruct (nz_pair xq k && (cost_bits o e (bc_est s1) <=? B)) eqn:K.
        -- left. exists O. split; [lia|]. rewrite ES, Z0. rewrite ?Z.add_0_r. change (2 * Z.of_nat 0) with 0. rewrite ?Z.add_0_r. split; [exact K|].
           rewrite Ll, Lt. unfold nz_pair in K. fold x0 x1 in K. unfold s1 in K |- *. cbn [bc_est bc_last bc_trunc] in K |- *. rewrite K. auto.
        -- right. rewrite Ll, Lt. unfold nz_pair in K. fold x0 x1 in K. unfold s1 in K |- *. cbn [bc_est bc_last bc_trunc] in K |- *. rewrite K. split; [reflexivity|]. split; [reflexivity|].
           intros [|j] Hj; [|apply R'; lia]. rewrite ES, Z0. change (2 * Z.of_nat 0) with 0. rewrite ?Z.add_0_r. unfold nz_pair, s1. cbn [bc_est]. exact K.
Qed.
End Est.

(* ---- bounds on the cost ---- *)
Lemma tbits_cost l : 0 <= 2048 * tbits l.
Proof. pose proof (tbits_nonneg l). lia. Qed.
Lemma esc_pre_cost fuel mode t : 0 <= t < 1024 -> forall a b lev, 0 <= lev -> 0 <= ev_cost (esc_pre fuel mode t a b lev) <= 24576 * Z.of_nat fuel.
Proof.
  intros Ht. induction fuel; intros a b lev Hl; cbn [esc_pre]; destruct (4 <=? Z.max a b); rewrite ?ev_cost_nil; try lia.
  destruct (lk_bits t lev 16 Ht Hl ltac:(lia)) as (_ & _ & _ & P). rewrite ev_cost_sym, ev_cost_app. specialize (IHfuel (a / 2) (b / 2) (lev + 1) ltac:(lia)).
  destruct (mode && (lev =? 0)); rewrite ?ev_cost_bit, ?ev_cost_nil; lia.
Qed.
Lemma pair_cost_range mode ne k c rate x0 x1 : 0 <= c < 256 -> rate = 0 \/ rate = 512 -> bits_ok x0 -> bits_ok x1 ->
  0 <= ev_cost (pair_evs mode ne k c rate x0 x1) + 2048 * pair_moved mode x0 x1 <= 420000.
Proof.
  intros Hc Hr H0 H1. pose proof (pair_ctx_range ne k _ rate Hc Hr) as Ht. pose proof (pair_mag _ H0) as M0. pose proof (pair_mag _ H1) as M1.
  unfold pair_evs, pair_moved. cbv zeta. set (t := pair_ctx ne k c rate) in *. destruct (esc_evs_split 16 mode t (Z.abs x0) (Z.abs x1) 0 M0 M1) as (Es & _). rewrite Es. clear Es. cbv zeta.
  destruct (esc_div_range _ _ M0 M1) as [A Bd]. pose proof (esc_lev_nonneg 16 (Z.abs x0) (Z.abs x1)) as He. pose proof (esc_lev_pos (Z.abs x0) (Z.abs x1)) as Hp.
  set (lv := esc_lev 16 (Z.abs x0) (Z.abs x1)) in *. rewrite Z.add_0_l in *.
  destruct (lk_bits t lv (Z.abs x0 / 2 ^ lv + 4 * (Z.abs x1 / 2 ^ lv)) Ht He ltac:(lia)) as (_ & _ & _ & P).
  pose proof (esc_pre_cost 16 mode t Ht (Z.abs x0) (Z.abs x1) 0 ltac:(lia)) as Q. change (24576 * Z.of_nat 16) with 393216 in Q.
  rewrite !ev_cost_app, ev_cost_sym, ev_cost_nil, !sent_cost by exact He.
  assert (Hp' : (4 <=? Z.max (Z.abs x0) (Z.abs x1)) = (0 <? lv)) by lia. rewrite Hp'. destruct (mode && (0 <? lv)), (0 <? Z.abs x0), (0 <? Z.abs x1); lia.
Qed.
Lemma spec_cost_range mode ne rate xq n : rate = 0 \/ rate = 512 -> Forall bits_ok xq -> forall k c, 0 <= k -> k + 2 * Z.of_nat n <= len xq -> 0 <= c < 256 ->
  0 <= spec_cost_of n mode ne k c rate xq <= 420000 * Z.of_nat n.
Proof.
  intros Hr FX. induction n as [|n IH]; intros k c Hk Hl Hc; [unfold spec_cost_of; cbn [spec_evs spec_moved]; rewrite ev_cost_nil; lia|].
  rewrite spec_cost_S. cbv zeta. set (x0 := nth (Z.to_nat k) xq 0) in *. set (x1 := nth (Z.to_nat (k + 1)) xq 0) in *.
  assert (B0 : bits_ok x0) by (apply Forall_nth_range; [exact FX|lia]). assert (B1 : bits_ok x1) by (apply Forall_nth_range; [exact FX|lia]).
  pose proof (pair_cost_range mode ne k c rate x0 x1 Hc Hr B0 B1). specialize (IH (k + 2) (pair_next c x0 x1) ltac:(lia) ltac:(lia) ltac:(now apply pair_next_range)). lia.
Qed.
(* the cost of a prefix does not decrease with its length *)
Lemma spec_cost_mono mode ne rate xq m n : rate = 0 \/ rate = 512 -> Forall bits_ok xq -> (m <= n)%nat -> forall k c, 0 <= k -> k + 2 * Z.of_nat n <= len xq -> 0 <= c < 256 ->
  spec_cost_of m mode ne k c rate xq <= spec_cost_of n mode ne k c rate xq.
Proof.
  intros Hr FX. revert n. induction m as [|m IH]; intros n Hmn k c Hk Hl Hc.
  - pose proof (spec_cost_range mode ne rate xq n Hr FX k c Hk Hl Hc) as P. replace (spec_cost_of 0 mode ne k c rate xq) with 0; [lia|]. unfold spec_cost_of; cbn [spec_evs spec_moved]; rewrite ev_cost_nil; reflexivity.
  - destruct n as [|n]; [lia|]. rewrite !spec_cost_S. cbv zeta. set (x0 := nth (Z.to_nat k) xq 0) in *. set (x1 := nth (Z.to_nat (k + 1)) xq 0) in *.
    assert (B0 : bits_ok x0) by (apply Forall_nth_range; [exact FX|lia]). assert (B1 : bits_ok x1) by (apply Forall_nth_range; [exact FX|lia]).
    specialize (IH n ltac:(lia) (k + 2) (pair_next c x0 x1) ltac:(lia) ltac:(lia) ltac:(now apply pair_next_range)). lia.
Qed.
(* without lsb mode the low bits of the first halving are sent in place *)
Lemma pair_cost_modes ne k c rate x0 x1 : bits_ok x0 -> bits_ok x1 ->
  ev_cost (pair_evs false ne k c rate x0 x1) = ev_cost (pair_evs true ne k c rate x0 x1) + 2048 * len (pair_lsbs true x0 x1).
Proof.
  intros H0 H1. pose proof (pair_mag _ H0) as M0. pose proof (pair_mag _ H1) as M1. unfold pair_evs, pair_lsbs. cbv zeta. pose proof (esc_lev_nonneg 16 (Z.abs x0) (Z.abs x1)) as He. pose proof (esc_lev_pos (Z.abs x0) (Z.abs x1)) as Hp.
  set (lv := esc_lev 16 (Z.abs x0) (Z.abs x1)) in *. rewrite !ev_cost_app, !sent_cost by exact He. cbn [andb].
  assert (EQ : forall fuel t a b lev, 0 < lev -> esc_evs fuel false t a b lev = esc_evs fuel true t a b lev).
  { induction fuel; intros t a b lev Hl; cbn [esc_evs]; destruct (4 <=? Z.max a b); try reflexivity. replace (lev =? 0) with false by lia. cbn [andb]. now rewrite IHfuel by lia. }
  set (t := pair_ctx ne k c rate). set (a := Z.abs x0) in *. set (b := Z.abs x1) in *.
  assert (U : forall l, esc_evs 16 l t a b 0 = if 4 <=? Z.max a b then ESym (msym (lk t 0) 16) :: (if l && (0 =? 0) then [] else [EBit (Z.odd a); EBit (Z.odd b)]) ++ esc_evs 15 l t (a / 2) (b / 2) 1 else [ESym (msym (lk t 0) (a + 4 * b))]) by reflexivity.
  rewrite !U. change (0 =? 0) with true. cbn [andb].
  destruct (Z.leb_spec 4 (Z.max a b)) as [G|G].
  - replace (0 <? lv) with true by lia. rewrite !ev_cost_sym, !ev_cost_app, EQ, !ev_cost_bit, ev_cost_nil by lia. rewrite len_app, !lsb_one_len. lia.
  - replace (0 <? lv) with false by lia. change (len (@nil Z)) with 0. lia.
Qed.
Lemma spec_cost_modes ne rate xq n : Forall bits_ok xq -> forall k c, 0 <= k -> k + 2 * Z.of_nat n <= len xq ->
  ev_cost (spec_evs n false ne k c rate xq) = ev_cost (spec_evs n true ne k c rate xq) + 2048 * len (spec_lsbs n true k xq).
Proof.
  intros FX. induction n as [|n IH]; intros k c Hk Hl; cbn [spec_evs spec_lsbs]; [reflexivity|]. cbv zeta. set (x0 := nth (Z.to_nat k) xq 0) in *. set (x1 := nth (Z.to_nat (k + 1)) xq 0) in *.
  assert (B0 : bits_ok x0) by (apply Forall_nth_range; [exact FX|lia]). assert (B1 : bits_ok x1) by (apply Forall_nth_range; [exact FX|lia]).
  rewrite !ev_cost_app, len_app, IH, pair_cost_modes by (assumption || lia). lia.
Qed.
Lemma spec_moved_range mode xq n : forall k, 0 <= spec_moved n mode k xq /\ (mode = false -> spec_moved n mode k xq = 0).
Proof.
  induction n as [|n IH]; intros k; cbn [spec_moved]; [lia|]. destruct (IH (k + 2)) as [I1 I2]. unfold pair_moved, moved. split.
  - repeat match goal with |- context [if ?b then _ else _] => destruct b end; lia.
  - intros ->. cbn [andb]. now apply I2.
Qed.
Lemma spec_lsbs_off xq n : forall k, spec_lsbs n false k xq = [].
Proof. induction n; intros; cbn [spec_lsbs]; [reflexivity|]. unfold pair_lsbs. cbn [andb app]. apply IHn. Qed.
(* only the lines of the first n pairs matter *)
Lemma spec_evs_ext n lsb ne rate xq yq : forall k c, (forall i, k <= i < k + 2 * Z.of_nat n -> nth (Z.to_nat i) xq 0 = nth (Z.to_nat i) yq 0) ->
  spec_evs n lsb ne k c rate xq = spec_evs n lsb ne k c rate yq.
Proof.
  induction n as [|n IH]; intros k c H; cbn [spec_evs]; [reflexivity|]. cbv zeta. rewrite (H k), (H (k + 1)) by lia. f_equal. apply IH. intros i Hi. apply H. lia.
Qed.
Lemma spec_lsbs_ext n lsb xq yq : forall k, (forall i, k <= i < k + 2 * Z.of_nat n -> nth (Z.to_nat i) xq 0 = nth (Z.to_nat i) yq 0) ->
  spec_lsbs n lsb k xq = spec_lsbs n lsb k yq.
Proof. induction n as [|n IH]; intros k H; cbn [spec_lsbs]; [reflexivity|]. rewrite (H k), (H (k + 1)) by lia. f_equal. apply IH. intros i Hi. apply H. lia. Qed.
Lemma spec_lsbs_mono mode xq m : forall n k, (m <= n)%nat -> len (spec_lsbs m mode k xq) <= len (spec_lsbs n mode k xq).
Proof.
  induction m as [|m IH]; intros n k H; cbn [spec_lsbs]; [change (len (@nil Z)) with 0; apply len_nonneg|]. destruct n; [lia|]. cbn [spec_lsbs]. rewrite !len_app. specialize (IH n (k + 2) ltac:(lia)). lia.
Qed.

(* ---- the last non-zero pair ---- *)
Lemma last_nz_spec xq : forall fuel n, (n <= fuel)%nat -> 2 * Z.of_nat n + 2 <= len xq ->
  exists m, last_nz fuel xq (2 * Z.of_nat n + 2) = Ok (2 * Z.of_nat m + 2) /\ (m <= n)%nat /\
    (forall i, 2 * Z.of_nat m + 2 <= i < 2 * Z.of_nat n + 2 -> nth (Z.to_nat i) xq 0 = 0) /\ ((0 < m)%nat -> nz_pair xq (2 * Z.of_nat m) = true).
Proof.
  induction fuel as [|f IH]; intros n Hf Hn.
  - assert (n = O) as -> by lia. exists O. split; [reflexivity|]. split; [lia|]. split; intros; lia.
  - destruct n as [|n].
    + exists O. split; [reflexivity|]. split; [lia|]. split; intros; lia.
    + cbn [last_nz]. replace (2 * Z.of_nat (S n) + 2 - 2) with (2 * Z.of_nat n + 2) by lia. replace (2 * Z.of_nat (S n) + 2 - 1) with (2 * Z.of_nat n + 3) by lia.
      destruct (Z.ltb_spec 2 (2 * Z.of_nat (S n) + 2)); [|lia]. rewrite !(idx_nth xq _ 0) by lia. cbn [bind].
      assert (NP : nz_pair xq (2 * Z.of_nat (S n)) = negb (nth (Z.to_nat (2 * Z.of_nat n + 2)) xq 0 =? 0) || negb (nth (Z.to_nat (2 * Z.of_nat n + 3)) xq 0 =? 0)).
      { unfold nz_pair. replace (2 * Z.of_nat (S n)) with (2 * Z.of_nat n + 2) by lia. replace (2 * Z.of_nat n + 2 + 1) with (2 * Z.of_nat n + 3) by lia. reflexivity. }
      destruct (Z.eqb_spec (nth (Z.to_nat (2 * Z.of_nat n + 3)) xq 0) 0) as [Z1|Z1]; cbn [bind].
      * destruct (Z.eqb_spec (nth (Z.to_nat (2 * Z.of_nat n + 2)) xq 0) 0) as [Z2|Z2].
        -- destruct (IH n ltac:(lia) ltac:(lia)) as (m & E & Hm & Hz & Hp). exists m. split; [exact E|]. split; [lia|]. split; [|exact Hp].
           intros i Hi. destruct (Z.eq_dec i (2 * Z.of_nat n + 3)) as [->|]; [exact Z1|]. destruct (Z.eq_dec i (2 * Z.of_nat n + 2)) as [->|]; [exact Z2|]. apply Hz. lia.
        -- exists (S n). split; [reflexivity|]. split; [lia|]. split; [intros; lia|]. intros _. rewrite NP. reflexivity.
      * exists (S n). split; [reflexivity|]. split; [lia|]. split; [intros; lia|]. intros _. rewrite NP. cbn [negb]. apply orb_true_r.
Qed.
