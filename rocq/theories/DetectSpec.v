(* What the detectors of the encoder compute, by formulas on the input (specification), and the proofs that the loops do so. *)
From Coq Require Import ZArith List Bool Lia.
From Verif Require Import Base Config FrameSpec Loops Scalar EncScalar DecTotal EncDetect.
Import ListNotations.
Local Open Scope Z_scope.

Definition iota (n : Z) : list Z := map Z.of_nat (seq 0 (Z.to_nat n)).
Lemma len_iota n : 0 <= n -> len (iota n) = n.
Proof. intros H. unfold iota. rewrite len_map, len_seq. lia. Qed.
Lemma getz_iota d n j : 0 <= j < n -> getz d (iota n) j = j.
Proof.
  intros H. unfold iota, getz. rewrite (nth_indep _ d (Z.of_nat 0)) by (rewrite map_length, seq_length; lia). rewrite map_nth, seq_nth by lia. lia.
Qed.
Lemma getz_map {A B} (f : A -> B) da db l j : 0 <= j < len l -> getz db (map f l) j = f (getz da l j).
Proof. intros H. unfold getz, len in *. rewrite (nth_indep _ db (f da)) by (rewrite map_length; lia). apply map_nth. Qed.
Lemma iota_S n : 0 <= n -> iota (n + 1) = iota n ++ [n].
Proof. intros H. unfold iota. replace (Z.to_nat (n + 1)) with (Z.to_nat n + 1)%nat by lia. rewrite seq_app, map_app. cbn [seq map Nat.add]. now rewrite Z2Nat.id by lia. Qed.
Lemma in_iota n j : In j (iota n) <-> 0 <= j < n.
Proof.
  unfold iota. rewrite in_map_iff. split.
  - intros (k & <- & H). apply in_seq in H. lia.
  - intros H. exists (Z.to_nat j). split; [lia|]. apply in_seq. lia.
Qed.
Lemma sub_map {A} (d : A) l a b : 0 <= a <= b -> b <= len l -> sub l a b = Ok (map (fun i => getz d l (a + i)) (iota (b - a))).
Proof.
  intros H1 H2. destruct (sub_ok l a b H1 H2) as (s & E & L & K). rewrite E. f_equal. apply (list_eq_getz d).
  - rewrite len_map, len_iota; lia.
  - intros j Hj. rewrite L in Hj. rewrite (getz_map _ 0) by (rewrite len_iota; lia). rewrite getz_iota by lia. now apply K.
Qed.
(* filling a list entry by entry *)
Lemma for_put {A} (d : A) (lo hi : Z) (body : Z -> list A -> res (list A)) (g : Z -> A) l : 0 <= lo <= hi -> hi <= len l ->
  (forall n l', lo <= n < hi -> len l' = len l -> body n l' = put l' n (g n)) ->
  exists l', for_range lo hi body l = Ok l' /\ len l' = len l /\ forall j, 0 <= j -> getz d l' j = if (lo <=? j) && (j <? hi) then g j else getz d l j.
Proof.
  intros H1 H2 K.
  destruct (for_inv (fun n l' => len l' = len l /\ forall j, 0 <= j -> getz d l' j = if (lo <=? j) && (j <? n) then g j else getz d l j) lo hi body l) as (l' & E & L & G); [lia| | |].
  - split; [reflexivity|]. intros j Hj. destruct (Z.leb_spec lo j), (Z.ltb_spec j lo); cbn [andb]; try reflexivity; lia.
  - intros n l' Hn [L G]. destruct (put_ok d l' n (g n)) as (l2 & E2 & L2 & G2); [lia|]. exists l2. split; [rewrite K by (auto; lia); exact E2|]. split; [lia|].
    intros j Hj. rewrite G2 by exact Hj. destruct (Z.eqb_spec j n) as [->|N].
    + destruct (Z.leb_spec lo n), (Z.ltb_spec n (n + 1)); cbn [andb]; try reflexivity; lia.
    + rewrite G by exact Hj. destruct (Z.leb_spec lo j), (Z.ltb_spec j n), (Z.ltb_spec j (n + 1)); cbn [andb]; try reflexivity; lia.
  - exists l'. auto.
Qed.

(* the greatest n < k with P n, or -1 *)
Fixpoint last_where (P : Z -> bool) (k : nat) : Z :=
  match k with O => -1 | S k' => if P (Z.of_nat k') then Z.of_nat k' else last_where P k' end.
Lemma last_where_range P k : -1 <= last_where P k < Z.of_nat k.
Proof. induction k as [|k IH]; cbn [last_where]; [lia|]. destruct (P _); lia. Qed.
Lemma last_where_max P k n : 0 <= n < Z.of_nat k -> P n = true -> n <= last_where P k.
Proof.
  induction k as [|k IH]; intros H E; [lia|]. cbn [last_where]. destruct (P (Z.of_nat k)) eqn:Q; [lia|].
  destruct (Z.eq_dec n (Z.of_nat k)) as [->|]; [congruence|]. apply IH; [lia|assumption].
Qed.
Lemma last_where_true P k : 0 <= last_where P k -> P (last_where P k) = true.
Proof. induction k as [|k IH]; cbn [last_where]; [lia|]. destruct (P (Z.of_nat k)) eqn:Q; [auto|apply IH]. Qed.

Section Attack.
Context {F : Type} (o : ops F).

(* sums of nf / nd consecutive samples; before the frame, the last two sums of the last frame analysed *)
Definition block_sum (c : config) (nd : Z) (st : attack F) (x : list Z) (n : Z) : Z :=
  if n <? 0 then (if n =? -1 then at_d1 st else at_d2 st)
  else fold_left Z.add (map (fun i => getz 0 x (nf c / nd * n + i)) (iota (nf c / nd))) 0.
(* the high-pass 0.375 - 0.5 z^-1 + 0.125 z^-2 *)
Definition high (c : config) (nd : Z) (st : attack F) (x : list Z) (n : Z) : F :=
  let s k := fz o (block_sum c nd st x (n - k)) in
  fadd o (fsub o (fmul o (flit o (375, -3)) (s 0)) (fmul o (flit o (5, -1)) (s 1))) (fmul o (flit o (125, -3)) (s 2)).
(* energy of subblock b of 40 values *)
Definition sub_energy (c : config) (nd : Z) (st : attack F) (x : list Z) (b : Z) : F :=
  fold_left (fun a i => let h := high c nd st x (40 * b + i) in fadd o a (fmul o h h)) (iota 40) (fz o 0).
(* the decaying maximum the energy of subblock b is compared with *)
Fixpoint reference (c : config) (nd : Z) (st : attack F) (x : list Z) (b : nat) : F :=
  match b with
  | O => fmax o (fmul o (flit o (25, -2)) (at_max st)) (at_energy st)
  | S b' => fmax o (fmul o (flit o (25, -2)) (reference c nd st x b')) (sub_energy c nd st x (Z.of_nat b'))
  end.
Definition is_attack (c : config) (nd : Z) (st : attack F) (x : list Z) (b : Z) : bool :=
  flt o (fmul o (flit o (85, -1)) (reference c nd st x (Z.to_nat b))) (sub_energy c nd st x b).
Definition nd_of (d : duration) : Z := match d with TenMs => 160 | SevenPointFiveMs => 120 end.
Definition attack_position (c : config) (st : attack F) (x : list Z) : Z := last_where (is_attack c (nd_of (n_ms c)) st x) (Z.to_nat (nd_of (n_ms c) / 40)).

Lemma downsample_spec c st x : legal_config c -> len x = nf c -> let nd := nd_of (n_ms c) in
  exists d, downsample c nd x (repeat 0 (Z.to_nat nd)) = Ok d /\ len d = nd /\ forall n, 0 <= n < nd -> getz 0 d n = block_sum c nd st x n.
Proof.
  intros L Lx nd. assert (Hnd : 120 <= nd <= 160 /\ 0 <= nf c / nd /\ nf c / nd * nd <= nf c).
  { unfold nd. destruct L as (f & d & ->). destruct f, d; vm_compute; intuition discriminate. }
  unfold downsample. set (bl := nf c / nd) in *. set (out := repeat 0 (Z.to_nat nd)).
  assert (Lo : len out = nd) by (unfold out; rewrite len_repeat; lia).
  destruct (for_put 0 0 (len out) (fun n out => s <- sub x (bl * n) (bl * n + bl) ;; put out n (fold_left Z.add s 0)) (block_sum c nd st x) out) as (d & E & Ld & G).
  - lia.
  - lia.
  - intros n l' Hn _. assert (bl * n + bl <= len x) by nia. rewrite (sub_map 0) by nia. cbn [bind]. f_equal. unfold block_sum. destruct (Z.ltb_spec n 0); [lia|].
    replace (bl * n + bl - bl * n) with bl by lia. reflexivity.
  - exists d. split; [exact E|]. split; [lia|]. intros n Hn. rewrite G by lia. destruct (Z.leb_spec 0 n), (Z.ltb_spec n (len out)); try lia. reflexivity.
Qed.
Lemma highpass_spec c st x d nd : 120 <= nd <= 160 -> len d = nd -> (forall n, 0 <= n < nd -> getz 0 d n = block_sum c nd st x n) ->
  exists h, highpass o st d (repeat (fz o 0) (Z.to_nat nd)) = Ok h /\ len h = nd /\ forall n, 0 <= n < nd -> getz (fz o 0) h n = high c nd st x n.
Proof.
  intros Hnd Ld Hd. unfold highpass. rewrite (idx_get 0 d 0), (idx_get 0 d 1) by lia. cbn [bind]. rewrite !Hd by lia.
  set (out := repeat (fz o 0) (Z.to_nat nd)). assert (Lo : len out = nd) by (unfold out; rewrite len_repeat; lia).
  destruct (put_ok (fz o 0) out 0 (hp o (fz o (block_sum c nd st x 0)) (fz o (at_d1 st)) (fz o (at_d2 st)))) as (l0 & E0 & L0 & G0); [lia|]. rewrite E0. cbn [bind].
  destruct (put_ok (fz o 0) l0 1 (hp o (fz o (block_sum c nd st x 1)) (fz o (block_sum c nd st x 0)) (fz o (at_d1 st)))) as (l1 & E1 & L1 & G1); [lia|]. rewrite E1. cbn [bind].
  destruct (for_put (fz o 0) 2 (len l1) (fun n out => a <- idx d n ;; b <- idx d (n - 1) ;; c <- idx d (n - 2) ;; put out n (hp o (fz o a) (fz o b) (fz o c))) (high c nd st x) l1) as (h & E & Lh & G).
  - lia.
  - lia.
  - intros n l' Hn _. rewrite (idx_get 0 d n), (idx_get 0 d (n - 1)), (idx_get 0 d (n - 2)) by lia. cbn [bind]. rewrite !Hd by lia. f_equal. unfold high. cbv zeta. rewrite Z.sub_0_r. reflexivity.
  - exists h. split; [exact E|]. split; [lia|]. intros n Hn. rewrite G by lia. destruct (Z.leb_spec 2 n), (Z.ltb_spec n (len l1)); try lia; cbn [andb]; [reflexivity|].
    rewrite G1, G0 by lia. assert (n = 0 \/ n = 1) as [-> | ->] by lia; reflexivity.
Qed.
Lemma attack_block_spec c nd st x h n en mx pos : 120 <= nd -> len h = nd -> (forall n, 0 <= n < nd -> getz (fz o 0) h n = high c nd st x n) -> 0 <= n -> 40 * n + 40 <= nd ->
  attack_block o h n (en, mx, pos) =
    Ok (sub_energy c nd st x n, fmax o (fmul o (flit o (25, -2)) mx) en,
        if flt o (fmul o (flit o (85, -1)) (fmax o (fmul o (flit o (25, -2)) mx) en)) (sub_energy c nd st x n) then n else pos).
Proof.
  intros Hnd Lh Hh H0 H1. unfold attack_block. rewrite (sub_map (fz o 0)) by lia. cbn [bind].
  assert (E : fold_left (fun a x0 => fadd o a (fmul o x0 x0)) (map (fun i => getz (fz o 0) h (40 * n + i)) (iota (40 * n + 40 - 40 * n))) (fz o 0) = sub_energy c nd st x n).
  { replace (40 * n + 40 - 40 * n) with 40 by lia. unfold sub_energy. assert (K : forall j, In j (iota 40) -> getz (fz o 0) h (40 * n + j) = high c nd st x (40 * n + j)) by (intros j Hj; apply in_iota in Hj; apply Hh; lia).
    generalize (fz o 0) at 2 3. revert K. generalize (iota 40). induction l as [|j l IH]; intros K a; cbn [map fold_left]; [reflexivity|]. rewrite K by now left. apply IH. intros i Hi. apply K. now right. }
  rewrite E. reflexivity.
Qed.
Lemma attack_run_inactive c st x nbytes : len x = nf c -> attack_active c nbytes = false ->
  attack_run o c st x nbytes = Ok (false, mkAttack (fz o 0) (fz o 0) (-1) (at_d1 st) (at_d2 st)).
Proof. intros L A. unfold attack_run. rewrite L, Z.eqb_refl, A. reflexivity. Qed.
Lemma attack_run_active c st x nbytes : legal_config c -> len x = nf c -> attack_active c nbytes = true -> let nd := nd_of (n_ms c) in
  exists st', attack_run o c st x nbytes = Ok ((0 <=? attack_position c st x) || (nd / 80 <=? at_pos st), st') /\
    at_pos st' = attack_position c st x /\ at_d1 st' = block_sum c nd st x (nd - 1) /\ at_d2 st' = block_sum c nd st x (nd - 2) /\
    at_energy st' = sub_energy c nd st x (nd / 40 - 1) /\ at_max st' = reference c nd st x (Z.to_nat (nd / 40 - 1)).
Proof.
  intros L Lx A nd. unfold attack_run. rewrite Lx, Z.eqb_refl, A. cbn [assert bind negb].
  assert (Hnd : 120 <= nd <= 160) by (unfold nd; destruct (n_ms c); cbn; lia).
  assert (EP : attack_params (n_ms c) = (nd, nd / 40, nd / 80)) by (unfold nd, attack_params, nd_of; destruct (n_ms c); reflexivity). rewrite EP.
  destruct (downsample_spec c st x L Lx) as (d & Ed & Ld & Hd). fold nd in Ed, Ld, Hd. rewrite Ed. cbn [bind].
  destruct (highpass_spec c st x d nd Hnd Ld Hd) as (h & Eh & Lh & Hh). rewrite Eh. cbn [bind].
  rewrite (idx_get 0 d (len d - 1)), (idx_get 0 d (len d - 2)) by lia. cbn [bind]. rewrite !Hd by lia. rewrite Ld.
  assert (Hq : 40 * (nd / 40) <= nd /\ 3 <= nd / 40) by (Z.div_mod_to_equations; lia).
  destruct (for_inv (fun n s => let '(en, mx, pos) := s in pos = last_where (is_attack c nd st x) (Z.to_nat n) /\
      (n = 0 -> en = at_energy st /\ mx = at_max st) /\ (0 < n -> en = sub_energy c nd st x (n - 1) /\ mx = reference c nd st x (Z.to_nat (n - 1)))) 0 (nd / 40) (attack_block o h) (at_energy st, at_max st, -1)) as (s & Es & Hs).
  - lia.
  - cbn [last_where Z.to_nat]. split; [reflexivity|]. split; [auto|lia].
  - intros n [[en mx] pos] Hn (Hp & H0 & H1).
    pose proof (attack_block_spec c nd st x h n en mx pos ltac:(lia) Lh Hh ltac:(lia) ltac:(lia)) as E. eexists. split; [exact E|].
    assert (R : fmax o (fmul o (flit o (25, -2)) mx) en = reference c nd st x (Z.to_nat n)).
    { destruct (Z.eq_dec n 0) as [->|N]; [destruct (H0 eq_refl) as [-> ->]; reflexivity|]. destruct (H1 ltac:(lia)) as [-> ->].
      replace (Z.to_nat n) with (S (Z.to_nat (n - 1))) by lia. cbn [reference]. rewrite Z2Nat.id by lia. reflexivity. }
    rewrite R. split; [|split; [lia|]].
    + replace (Z.to_nat (n + 1)) with (S (Z.to_nat n)) by lia. cbn [last_where]. rewrite Z2Nat.id by lia. unfold is_attack at 1. rewrite <- Hp. reflexivity.
    + intros _. replace (n + 1 - 1) with n by lia. auto.
  - rewrite Es. cbn [bind]. destruct s as [[en mx] pos]. destruct Hs as (-> & _ & Hs). destruct (Hs ltac:(lia)) as [-> ->]. eexists. split; [reflexivity|]. cbn [at_pos at_d1 at_d2 at_energy at_max]. auto.
Qed.
End Attack.

(* ---- bandwidth ---- *)
Section Bandwidth.
Context {F : Type} (o : ops F).
(* mean energy of bands start .. stop *)
Definition mean_energy (eb : list F) (start stop : Z) : F :=
  fold_left (fun q i => fadd o q (fdiv o (getz (fz o 0) eb (start + i)) (fz o (stop + 1 - start)))) (iota (stop + 1 - start)) (fz o 0).
Definition loud (b : bwdet) (eb : list F) (k : Z) : bool :=
  fge o (mean_energy eb (getz 0 (bd_start b) k) (getz 0 (bd_stop b) k)) (fz o (getz 0 [20; 10; 10; 10] k)).
(* one more than the highest loud region *)
Definition candidate (b : bwdet) (eb : list F) : Z := last_where (loud b eb) (Z.to_nat (bd_ind b)) + 1.
(* the largest ratio of energies l bands apart below the start of region k *)
Definition energy_drop (b : bwdet) (eb : list F) (k : Z) : F :=
  let l := getz 0 (bd_l b) k in
  let s := getz 0 (bd_start b) k in
  fold_left (fun m i => fmax o (fdiv o (getz (fz o 0) eb (s + 1 - l + i - l)) (getz (fz o 0) eb (s + 1 - l + i))) m) (iota (l - 1)) (fz o 0).
Definition dropped (b : bwdet) (eb : list F) (k : Z) : bool := flt o (fz o (getz 0 [15; 23; 20; 20] k)) (energy_drop b eb k).

Definition bw_geom (b : bwdet) (n : Z) : Prop :=
  1 <= bd_ind b <= 4 /\ len (bd_start b) = 4 /\ len (bd_stop b) = 4 /\ len (bd_l b) = 4 /\
  forall k, 0 <= k < bd_ind b -> 8 <= getz 0 (bd_start b) k <= getz 0 (bd_stop b) k /\ getz 0 (bd_stop b) k < n /\ 1 <= getz 0 (bd_l b) k <= 4.

Lemma fold_map {A B C} (f : A -> B -> A) (g : C -> B) l : forall a, fold_left f (map g l) a = fold_left (fun a c => f a (g c)) l a.
Proof. induction l as [|c l IH]; intros a; cbn [map fold_left]; [reflexivity|apply IH]. Qed.
(* a loop that only accumulates *)
Lemma for_fold {S} (body : Z -> S -> res S) (g : S -> Z -> S) lo hi s : (forall n s, lo <= n < hi -> body n s = Ok (g s n)) ->
  for_range lo hi body s = Ok (fold_left (fun s i => g s (lo + i)) (iota (hi - lo)) s).
Proof.
  intros K. destruct (Z_le_gt_dec hi lo) as [H|H]; [unfold for_range, iota; replace (Z.to_nat (hi - lo)) with O by lia; reflexivity|].
  destruct (for_inv (fun n s' => s' = fold_left (fun s i => g s (lo + i)) (iota (n - lo)) s) lo hi body s) as (s' & E & ->); [lia| | |assumption].
  - unfold iota. replace (Z.to_nat (lo - lo)) with O by lia. reflexivity.
  - intros n s' Hn ->. eexists. split; [apply K; lia|]. replace (n + 1 - lo) with (n - lo + 1) by lia. rewrite iota_S, fold_left_app by lia. cbn [fold_left]. f_equal. lia.
Qed.

Lemma bw_candidate_spec b eb : bw_geom b (len eb) -> forall k, Z.of_nat k <= bd_ind b -> bw_candidate o b eb k = Ok (last_where (loud b eb) k + 1).
Proof.
  intros (Hi & L1 & L2 & L3 & G). induction k as [|k IH]; intros Hk; cbn [bw_candidate last_where]; [reflexivity|]. cbv zeta.
  destruct (G (Z.of_nat k) ltac:(lia)) as (G1 & G2 & _). rewrite (idx_get 0 (bd_start b)), (idx_get 0 (bd_stop b)) by lia. cbn [bind].
  unfold usub. destruct (Z.ltb_spec (getz 0 (bd_stop b) (Z.of_nat k) + 1) (getz 0 (bd_start b) (Z.of_nat k))); [lia|]. cbn [bind].
  rewrite (sub_map (fz o 0)) by lia. cbn [bind]. rewrite (idx_get 0 QUIETNESS) by (change (len QUIETNESS) with 4; lia). cbn [bind]. rewrite fold_map.
  change (fge o _ _) with (loud b eb (Z.of_nat k)). destruct (loud b eb (Z.of_nat k)); [reflexivity|]. apply IH. lia.
Qed.
Lemma bw_run_spec b eb n : bw_geom b (len eb) -> idx NBITS_BW (bd_ind b) = Ok n ->
  bw_run o b eb = Ok (if (candidate b eb =? bd_ind b) || dropped b eb (candidate b eb) then candidate b eb else bd_ind b, n).
Proof.
  intros G En. pose proof G as (Hi & L1 & L2 & L3 & G'). unfold bw_run. rewrite En. cbn [bind]. destruct (Z.eqb_spec (bd_ind b) 0); [lia|].
  rewrite (bw_candidate_spec b eb G) by lia. cbn [bind]. fold (candidate b eb). rewrite (Z.eqb_sym (bd_ind b)). destruct (Z.eqb_spec (candidate b eb) (bd_ind b)) as [E|N]; [reflexivity|]. cbn [orb].
  assert (Hc : 0 <= candidate b eb < bd_ind b). { pose proof (last_where_range (loud b eb) (Z.to_nat (bd_ind b))). unfold candidate in *. lia. }
  destruct (G' _ Hc) as (G1 & G2 & G3). set (k := candidate b eb) in *. rewrite (idx_get 0 (bd_l b)), (idx_get 0 (bd_start b)) by lia. cbn [bind].
  unfold usub at 1. destruct (Z.ltb_spec (getz 0 (bd_start b) k + 1) (getz 0 (bd_l b) k)); [lia|]. cbn [bind].
  rewrite (for_fold _ (fun m i => fmax o (fdiv o (getz (fz o 0) eb (i - getz 0 (bd_l b) k)) (getz (fz o 0) eb i)) m)).
  - cbn [bind]. rewrite (idx_get 0 CUTOFF) by (change (len CUTOFF) with 4; lia). cbn [bind].
    replace (getz 0 (bd_start b) k - (getz 0 (bd_start b) k + 1 - getz 0 (bd_l b) k)) with (getz 0 (bd_l b) k - 1) by lia.
    match goal with |- context [flt o ?x ?y] => change (flt o x y) with (dropped b eb k) end. destruct (dropped b eb k); reflexivity.
  - intros i m Hi2. unfold usub. destruct (Z.ltb_spec i (getz 0 (bd_l b) k)); [lia|]. cbn [bind]. rewrite !(idx_get (fz o 0) eb) by lia. reflexivity.
Qed.
Lemma bwdet_new_spec f d : f <> Hz8000 -> exists b, bwdet_new d (cfg_fs_ind f) = Ok b /\ bd_ind b = cfg_fs_ind f /\ bw_geom b (nb (config_new f d)).
Proof.
  intros H. destruct f; try contradiction; destruct d; (eexists; split; [reflexivity|]; split; [reflexivity|]; split; [vm_compute; intuition discriminate|]; split; [reflexivity|]; split; [reflexivity|]; split; [reflexivity|];
    intros k Hk; cbn [bd_ind cfg_fs_ind] in Hk; assert (k = 0 \/ k = 1 \/ k = 2 \/ k = 3) as [-> | [-> | [-> | ->]]] by lia; vm_compute; try (intuition discriminate); lia).
Qed.
End Bandwidth.

(* ---- residual bits and noise level ---- *)
Section Residual.
Context {F : Type} (o : ops F) (e : eops F).
(* one bit per non-zero line, in order: is the line at or above its quantised value? *)
Definition directions (gg : F) (lines : list F) (xq : list Z) : list bool :=
  map (fun '(x, q) => fge o x (fmul o (fz o q) gg)) (filter (fun '(x, q) => negb (q =? 0)) (combine lines xq)).
Lemma residual_bits_spec gg : forall lines xq fuel max n, (length (directions gg lines xq) <= fuel)%nat ->
  residual_bits o fuel max n gg lines xq = Ok (firstn (Z.to_nat (max - n)) (directions gg lines xq)).
Proof.
  unfold directions. induction lines as [|x lines IH]; intros [|q xq] fuel max n Hf; cbn [combine filter map residual_bits]; rewrite ?firstn_nil; try reflexivity.
  destruct (Z.leb_spec max n); [replace (Z.to_nat (max - n)) with O by lia; reflexivity|].
  cbn [combine filter] in Hf. destruct (q =? 0); cbn [negb] in *; [now apply IH|]. cbn [map length] in Hf. destruct fuel as [|fuel]; [lia|].
  rewrite IH by lia. cbn [bind map]. replace (Z.to_nat (max - n)) with (S (Z.to_nat (max - (n + 1)))) by lia. reflexivity.
Qed.
Lemma directions_len gg lines xq : (length (directions gg lines xq) <= length xq)%nat.
Proof.
  unfold directions. rewrite map_length. revert xq. induction lines as [|x lines IH]; intros [|q xq]; cbn [combine filter length]; try lia. specialize (IH xq). destruct (negb (q =? 0)); cbn [length]; lia.
Qed.
Lemma residual_encode_spec spec trunc ne gg lines xq : 0 <= ne <= 400 -> len lines = ne -> len xq = ne ->
  residual_encode o spec trunc ne gg lines xq = Ok (firstn (Z.to_nat (spec - trunc + 4)) (directions gg lines xq)).
Proof.
  intros Hn L1 L2. unfold residual_encode. cbv zeta. destruct (Z.ltb_spec 0 (Z.max 0 (spec - trunc + 4))) as [H|H].
  - assert (S : forall A (l : list A), len l = ne -> sub l 0 ne = Ok l).
    { intros A l Hl. unfold sub. rewrite Hl, !Z.ltb_irrefl. destruct (Z.ltb_spec ne 0); [lia|]. cbn [orb Z.to_nat skipn]. f_equal. apply firstn_all2. unfold len in Hl. lia. }
    rewrite !S by assumption. cbn [bind]. pose proof (directions_len gg lines xq). unfold len in L2. rewrite residual_bits_spec by lia. do 2 f_equal. lia.
  - replace (Z.to_nat (spec - trunc + 4)) with O by lia. reflexivity.
Qed.

(* the lines whose quantised neighbourhood is zero *)
Definition quiet_line (xq : list Z) (stop width k : Z) : bool :=
  forallb (fun i => getz 0 xq (k - width + i) =? 0) (iota (Z.min stop (k + width + 1) - (k - width))).
Definition quiet_lines (d : duration) (ne bw : Z) (xq : list Z) : list Z :=
  let per := match d with TenMs => 80 | SevenPointFiveMs => 60 end in
  let start := match d with TenMs => 24 | SevenPointFiveMs => 18 end in
  let width := match d with TenMs => 3 | SevenPointFiveMs => 2 end in
  filter (quiet_line xq (per * (bw + 1)) width) (map (fun i => start + i) (iota (Z.min ne (per * (bw + 1)) - start))).
Definition noise_level (d : duration) (ne bw : Z) (xf : list F) (xq : list Z) (gg : F) : F :=
  match quiet_lines d ne bw xq with
  | [] => fz o 0
  | ks => fdiv o (fold_left (fun s k => fadd o s (fdiv o (e_abs e (getz (fz o 0) xf k)) gg)) ks (fz o 0)) (fz o (len ks))
  end.
Lemma forallb_map {A B} (f : A -> B) p l : forallb p (map f l) = forallb (fun a => p (f a)) l.
Proof. induction l as [|a l IH]; cbn [map forallb]; [reflexivity|now rewrite IH]. Qed.
Lemma fold_filter (g : F -> Z -> F) (p : Z -> bool) l : forall s n, fold_left (fun s k => if p k then (g (fst s) k, snd s + 1) else s) l (s, n) = (fold_left g (filter p l) s, n + len (filter p l)).
Proof.
  induction l as [|k l IH]; intros s n; cbn [filter fold_left]; [unfold len; cbn [length]; f_equal; lia|]. destruct (p k); cbn [fold_left fst snd]; [|apply IH]. rewrite IH. f_equal. unfold len. cbn [length]. lia.
Qed.
Lemma noise_factor_spec d ne xf xq bw gg : 0 <= bw <= 4 -> len xf = ne -> len xq = ne -> match d with TenMs => 80 * (bw + 1) | SevenPointFiveMs => 60 * (bw + 1) end <= ne ->
  noise_factor o e d ne xf xq bw gg =
    Ok (let diff := fsub o (fz o 8) (fmul o (fz o 16) (noise_level d ne bw xf xq gg)) in
        if fge o diff (fz o 0) then Z.min 7 (f_i32 o (fadd o diff (flit o (5, -1)))) mod 2 ^ 64 else 0).
Proof.
  intros Hb L1 L2 Hs. unfold noise_factor.
  set (stop := match d with TenMs => 80 * (bw + 1) | SevenPointFiveMs => 60 * (bw + 1) end) in *.
  set (start := match d with TenMs => 24 | SevenPointFiveMs => 18 end).
  set (width := match d with TenMs => 3 | SevenPointFiveMs => 2 end).
  assert (E : nle_params d bw = Ok (stop, start, width)).
  { unfold stop, start, width. assert (bw = 0 \/ bw = 1 \/ bw = 2 \/ bw = 3 \/ bw = 4) as [-> | [-> | [-> | [-> | ->]]]] by lia; destruct d; reflexivity. }
  rewrite E. cbn [bind]. assert (W : 2 <= width <= 3 /\ 18 <= start) by (unfold width, start; destruct d; lia).
  rewrite L1. replace (Z.min (Z.min ne stop) ne) with (Z.min ne stop) by lia.
  rewrite (for_fold _ (fun s k => if quiet_line xq stop width k then (fadd o (fst s) (fdiv o (e_abs e (getz (fz o 0) xf k)) gg), snd s + 1) else s)).
  - rewrite <- (fold_map (fun (s : F * Z) k => if quiet_line xq stop width k then (fadd o (fst s) (fdiv o (e_abs e (getz (fz o 0) xf k)) gg), snd s + 1) else s) (fun i => start + i)).
    rewrite (fold_filter (fun s k => fadd o s (fdiv o (e_abs e (getz (fz o 0) xf k)) gg))). cbn [bind].
    assert (Q : filter (quiet_line xq stop width) (map (fun i => start + i) (iota (Z.min ne stop - start))) = quiet_lines d ne bw xq) by (unfold quiet_lines, stop, start, width; destruct d; reflexivity).
    rewrite Q. rewrite Z.add_0_l. unfold noise_level. destruct (quiet_lines d ne bw xq) as [|k ks]; [reflexivity|].
    destruct (Z.ltb_spec 0 (len (k :: ks))) as [_|H]; [reflexivity|]. unfold len in H. cbn [length] in H. lia.
  - intros k s Hk. unfold nle_line. rewrite (idx_get (fz o 0)) by lia. cbn [bind]. unfold usub. destruct (Z.ltb_spec k width); [lia|]. cbn [bind].
    rewrite (sub_map 0) by lia. cbn [bind]. rewrite forallb_map. unfold quiet_line.
    assert (X : forall l, forallb (fun a => 0 =? getz 0 xq (k - width + a)) l = forallb (fun i => getz 0 xq (k - width + i) =? 0) l) by (intros l; induction l as [|a l IH]; cbn [forallb]; [reflexivity|rewrite IH; f_equal; apply Z.eqb_sym]).
    rewrite X. destruct (forallb _ _); reflexivity.
Qed.
End Residual.
