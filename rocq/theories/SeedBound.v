(* How large the noise filling seed sum of a frame of given length can get: every unit of magnitude is paid for with
   tail bits and with arithmetic code bytes. The best ratio over all context sequences is bounded by dynamic programming. *)
From Coq Require Import ZArith List Bool Lia Psatz.
From Verif Require Import Base Config Reader AcDec AcSpec BufLemmas AcDecProofs TablesProofs TablesSpec ArithDec ParseBase.
Import ListNotations.
Local Open Scope Z_scope.

(* row of symbol costs used at level lev in context t *)
Definition brow (t lev : Z) : list Z :=
  nth (Z.to_nat (nth (Z.to_nat (t + Z.min lev 3 * 1024)) AC_SPEC_LOOKUP 0)) AC_SPEC_BITS [].
Definition rcost (row : list Z) (s : Z) : Z := nth (Z.to_nat s) row 0 - 1.
Lemma scost_row t lev s : scost t lev s = rcost (brow t lev) s.
Proof. reflexivity. Qed.
Lemma brow_3 t lev : 3 <= lev -> brow t lev = brow t 3.
Proof. intros H. unfold brow. now rewrite !Z.min_r by lia. Qed.

(* symbol cost plus the sign bits of the lines it makes non zero *)
Definition sb (row : list Z) (s : Z) : Z := rcost row s + E * ((if 0 <? s mod 4 then 1 else 0) + (if 0 <? s / 4 then 1 else 0)).
Definition syms_with (q : Z) : list Z := filter (fun s => s mod 4 + s / 4 =? q) (zrange 16).
Definition gmin (f : Z -> Z) (l : list Z) : Z := fold_right (fun s m => Z.min (f s) m) 1000000000 l.

Lemma gmin_le f l s : In s l -> gmin f l <= f s.
Proof. induction l; cbn [In gmin fold_right]; [easy|]. intros [->|H]; [lia|]. specialize (IHl H). unfold gmin in IHl. lia. Qed.

(* what a pair can do in context t: (low nibble of the next context, sum of magnitudes, cost in 1/E bit) *)
Definition opts_r (r0 r1 r2 r3 : list Z) : list (Z * Z * Z) :=
  let e1 := rcost r0 16 in
  let e2 := e1 + rcost r1 16 in
  let e3 := e2 + rcost r2 16 in
  let e := rcost r3 16 in
  let m3 := gmin (sb r3) (zrange 16) in
  map (fun q => (1 + q, q, gmin (sb r0) (syms_with q))) (zrange 7) ++
  map (fun q => (1 + 2 * q, 2 + 2 * q, e1 + gmin (sb r1) (syms_with q))) (zrange 7) ++
  (14, 30, e2 + 2 * E + gmin (sb r2) (zrange 16)) ::
  map (fun j => (15, 8 * 2 ^ (j + 3) - 2, e3 + j * e + 2 * E * (j + 2) + m3)) (zrange 11) ++
  [(15, 98302, e3 + 11 * e + 26 * E)].
Definition opts (t : Z) : list (Z * Z * Z) := opts_r (brow t 0) (brow t 1) (brow t 2) (brow t 3).

Lemma ecost_3 t j : ecost t (3 + j) = ecost t 3 + Z.of_nat j * rcost (brow t 3) 16.
Proof.
  induction j as [|j IH]; [rewrite Nat.add_0_r; lia|]. rewrite Nat.add_succ_r.
  change (ecost t (S (3 + j))) with (ecost t (3 + j) + scost t (Z.of_nat (3 + j)) 16). rewrite IH, scost_row, (brow_3 t (Z.of_nat (3 + j))) by lia. lia.
Qed.

Lemma zrange_In n x : 0 <= x < Z.of_nat n -> In x (zrange n).
Proof. apply zrange_in. Qed.

Lemma pair_option t c lsb lev sym y0 y1 : 0 <= lev <= 14 -> 0 <= y0 < 2 ^ lev -> 0 <= y1 < 2 ^ lev -> 0 <= sym <= 16 ->
  (lev < 14 -> sym < 16) -> (lev = 14 -> sym = 16) ->
  let a := Z.land sym 3 in let b := Z.shiftr sym 2 in
  let x0 := y0 + Z.shiftl a lev in
  let x1 := y1 + Z.shiftl b lev in
  exists nib X bits, In (nib, X, bits) (opts t) /\ next_ctx c lev a b = c mod 16 * 16 + nib /\ 0 <= nib < 16 /\ x0 + x1 <= X /\
    bits <= pcost t lev sym + E * (esc_bits lsb lev + Z.sgn x0 + Z.sgn x1).
Proof.
  intros Hl H0 H1 Hs Hs1 Hs2 a b x0 x1.
  assert (Ea : a = sym mod 4) by (unfold a; change 3 with (Z.ones 2); now rewrite Z.land_ones by lia).
  assert (Eb : b = sym / 4) by (unfold b; now rewrite Z.shiftr_div_pow2 by lia).
  clearbody a b. unfold x0, x1. clear x0 x1. rewrite !Z.shiftl_mul_pow2 by lia.
  unfold next_ctx. change 15 with (Z.ones 4). rewrite Z.land_ones by lia. change (2 ^ 4) with 16.
  assert (Hab : 0 <= a <= 3 /\ 0 <= b <= 4 /\ (sym < 16 -> b <= 3) /\ (sym = 16 -> a = 0 /\ b = 4)) by (subst a b; dml).
  pose proof E_pos as HE.
  assert (Hsb : forall row, sym < 16 -> sb row sym <= rcost row sym + E * (Z.sgn (y0 + a * 2 ^ lev) + Z.sgn (y1 + b * 2 ^ lev))).
  { intros row _. unfold sb. rewrite <- Ea, <- Eb.
    assert (0 < 2 ^ lev) by (apply Z.pow_pos_nonneg; lia).
    assert ((if 0 <? a then 1 else 0) <= Z.sgn (y0 + a * 2 ^ lev)) by (destruct (Z.ltb_spec 0 a); [rewrite Z.sgn_pos; nia|apply Z.sgn_nonneg; nia]).
    assert ((if 0 <? b then 1 else 0) <= Z.sgn (y1 + b * 2 ^ lev)) by (destruct (Z.ltb_spec 0 b); [rewrite Z.sgn_pos; nia|apply Z.sgn_nonneg; nia]).
    nia. }
  assert (Hin : sym < 16 -> In sym (syms_with (a + b)) /\ In sym (zrange 16)).
  { intros Hlt. assert (I16 : In sym (zrange 16)) by (apply zrange_In; lia). split; [|exact I16].
    unfold syms_with. apply filter_In. split; [exact I16|]. rewrite Ea, Eb. apply Z.eqb_refl. }
  unfold opts, opts_r, pcost.
  destruct (Z.eq_dec lev 14) as [->|N14].
  - (* 14 escapes *)
    exists 15, 98302, (rcost (brow t 0) 16 + rcost (brow t 1) 16 + rcost (brow t 2) 16 + 11 * rcost (brow t 3) 16 + 26 * E).
    split; [do 2 (apply in_or_app; right); right; apply in_or_app; right; left; reflexivity|].
    split; [reflexivity|]. split; [lia|]. specialize (Hs2 eq_refl). destruct Hab as (? & ? & ? & Hab). destruct (Hab Hs2) as [-> ->].
    change (2 ^ 14) with 16384 in *. split; [lia|].
    replace (Z.to_nat 14) with (3 + 11)%nat by reflexivity. rewrite ecost_3. cbn [ecost]. rewrite !scost_row.
    change (14 <? 14) with false. cbv iota. change (Z.of_nat 0) with 0. change (Z.of_nat 1) with 1. change (Z.of_nat 2) with 2. change (Z.of_nat 11) with 11.
    assert (0 <= Z.sgn (y0 + 0 * 16384)) by (apply Z.sgn_nonneg; lia). assert (0 <= Z.sgn (y1 + 4 * 16384)) by (apply Z.sgn_nonneg; lia).
    assert (26 <= esc_bits lsb 14) by (destruct lsb; vm_compute; discriminate). nia.
  - specialize (Hs1 ltac:(lia)). specialize (Hsb). destruct (Hin Hs1) as [I1 I2]. clear Hs2 Hin.
    destruct (Z.ltb_spec lev 14); [|lia]. rewrite scost_row.
    destruct Hab as (Ha & Hb & Hb3 & _). specialize (Hb3 Hs1).
    destruct (Z.leb_spec (Z.min lev 3) 1).
    + assert (lev = 0 \/ lev = 1) as [Hz|Hz] by lia; subst lev.
      * exists (1 + (a + b)), (a + b), (gmin (sb (brow t 0)) (syms_with (a + b))).
        split; [apply in_or_app; left; apply (in_map (fun q => (1 + q, q, gmin (sb (brow t 0)) (syms_with q)))); apply zrange_In; lia|].
        change (Z.min 0 3) with 0. change (2 ^ 0) with 1 in *. split; [lia|]. split; [lia|]. split; [lia|].
        pose proof (gmin_le (sb (brow t 0)) _ _ I1). specialize (Hsb (brow t 0) Hs1).
        replace (esc_bits lsb 0) with 0 by (destruct lsb; reflexivity). change (ecost t (Z.to_nat 0)) with 0. change (2 ^ 0) with 1 in *. lia.
      * exists (1 + 2 * (a + b)), (2 + 2 * (a + b)), (rcost (brow t 0) 16 + gmin (sb (brow t 1)) (syms_with (a + b))).
        split; [apply in_or_app; right; apply in_or_app; left; apply (in_map (fun q => (1 + 2 * q, 2 + 2 * q, rcost (brow t 0) 16 + gmin (sb (brow t 1)) (syms_with q)))); apply zrange_In; lia|].
        change (Z.min 1 3) with 1. change (2 ^ 1) with 2 in *. split; [lia|]. split; [lia|]. split; [lia|].
        pose proof (gmin_le (sb (brow t 1)) _ _ I1). specialize (Hsb (brow t 1) Hs1).
        assert (0 <= esc_bits lsb 1) by (destruct lsb; vm_compute; discriminate).
        change (ecost t (Z.to_nat 1)) with (0 + scost t (Z.of_nat 0) 16). rewrite scost_row. change (Z.of_nat 0) with 0. change (2 ^ 1) with 2 in *. nia.
    + destruct (Z.eq_dec lev 2) as [->|N2].
      * exists 14, 30, (rcost (brow t 0) 16 + rcost (brow t 1) 16 + 2 * E + gmin (sb (brow t 2)) (zrange 16)).
        split; [do 2 (apply in_or_app; right); left; reflexivity|].
        change (Z.min 2 3) with 2. change (2 ^ 2) with 4 in *. split; [lia|]. split; [lia|]. split; [lia|].
        pose proof (gmin_le (sb (brow t 2)) _ _ I2). specialize (Hsb (brow t 2) Hs1).
        assert (2 <= esc_bits lsb 2) by (destruct lsb; vm_compute; discriminate).
        change (ecost t (Z.to_nat 2)) with (0 + scost t (Z.of_nat 0) 16 + scost t (Z.of_nat 1) 16). rewrite !scost_row. change (Z.of_nat 0) with 0. change (Z.of_nat 1) with 1.
        change (2 ^ 2) with 4 in *. nia.
      * set (j := lev - 3).
        exists 15, (8 * 2 ^ (j + 3) - 2), (rcost (brow t 0) 16 + rcost (brow t 1) 16 + rcost (brow t 2) 16 + j * rcost (brow t 3) 16 + 2 * E * (j + 2) + gmin (sb (brow t 3)) (zrange 16)).
        split. { do 2 (apply in_or_app; right); right; apply in_or_app; left.
          apply (in_map (fun j => (15, 8 * 2 ^ (j + 3) - 2, rcost (brow t 0) 16 + rcost (brow t 1) 16 + rcost (brow t 2) 16 + j * rcost (brow t 3) 16 + 2 * E * (j + 2) + gmin (sb (brow t 3)) (zrange 16)))).
          apply zrange_In. unfold j; lia. }
        rewrite (Z.min_r lev 3) by lia. replace (j + 3) with lev by (unfold j; lia).
        split; [lia|]. split; [lia|]. split; [nia|].
        rewrite (brow_3 t lev) by lia.
        pose proof (gmin_le (sb (brow t 3)) _ _ I2). specialize (Hsb (brow t 3) Hs1).
        replace (Z.to_nat lev) with (3 + Z.to_nat j)%nat by (unfold j; lia). rewrite ecost_3, Z2Nat.id by (unfold j; lia).
        cbn [ecost]. rewrite !scost_row. change (Z.of_nat 0) with 0. change (Z.of_nat 1) with 1. change (Z.of_nat 2) with 2.
        assert (2 * (j + 2) <= esc_bits lsb lev) by (unfold esc_bits, j; destruct lsb; lia). nia.
Qed.

(* exchange rate: magnitude times line number per bit *)
Definition MU : Z := 590000.

(* V k c bounds the surplus that pairs k, k + 1, ... can collect starting in context c *)
Record potential (ne : Z) (V : Z -> Z -> Z) : Prop := mkPot {
  pot_nonneg : forall k c, 0 <= k <= ne / 2 -> 0 <= c < 256 -> 0 <= V k c;
  pot_step : forall k c nib X b, 0 <= k < ne / 2 -> 0 <= c < 256 -> 0 <= nib < 16 ->
    In (nib, X, b) (opts (c + 512 + (if ne / 2 <? k * 2 then 256 else 0))) ->
    V (k + 1) (c mod 16 * 16 + nib) + (2 * k + 1) * X * E - MU * b <= V k c
}.

Lemma zrange_nth n i : (i < n)%nat -> nth i (zrange n) 0 = Z.of_nat i.
Proof. intros H. unfold zrange. change 0 with (Z.of_nat 0). rewrite map_nth, seq_nth by lia. reflexivity. Qed.
Lemma zrange_len n : length (zrange n) = n.
Proof. unfold zrange. now rewrite map_length, seq_length. Qed.

(* up to 320 lines the exchange rate pays for every pair by itself *)
Definition small_ok (t : Z) : bool :=
  forallb (fun q : Z * Z * Z => let '(_, X, b) := q in (0 <=? X) && ((if t <? 256 then 161 else 319) * X * E <=? MU * b)) (opts (512 + t)).
Lemma small_check : forallb small_ok (zrange 512) = true.
Proof. vm_cast_no_check (eq_refl true). Qed.

Lemma small_potential ne : ne <= 320 -> potential ne (fun _ _ => 0).
Proof.
  intros Hne. constructor; [lia|]. intros k c nib X b Hk Hc _ Hin.
  pose proof (zrange_forall small_ok 512 small_check (c + (if ne / 2 <? k * 2 then 256 else 0)) ltac:(destruct (_ <? _); lia)) as Q.
  unfold small_ok in Q. rewrite forallb_forall in Q.
  replace (512 + (c + (if ne / 2 <? k * 2 then 256 else 0))) with (c + 512 + (if ne / 2 <? k * 2 then 256 else 0)) in Q by lia.
  specialize (Q _ Hin). cbn beta iota in Q. apply andb_true_iff in Q as [Q1 Q2].
  assert (HE : 0 < E) by reflexivity.
  assert (2 * k + 1 <= if c + (if ne / 2 <? k * 2 then 256 else 0) <? 256 then 161 else 319).
  { destruct (Z.ltb_spec (ne / 2) (k * 2)); [destruct (Z.ltb_spec (c + 256) 256)|destruct (Z.ltb_spec (c + 0) 256)]; dml. }
  nia.
Qed.

(* best surplus from pair k on in context c, given the surpluses of the 16 possible next contexts *)
Definition best (w : Z) (V : list Z) (o : list (nat * Z * Z)) : Z :=
  fold_right (fun (q : nat * Z * Z) m => let '(nib, X, b) := q in Z.max m (nth nib V 0 + w * X - b)) 0 o.
Definition scaled (o : list (Z * Z * Z)) : list (nat * Z * Z) := map (fun q => let '(nib, X, b) := q in (Z.to_nat nib, X * E, MU * b)) o.
Definition rows_at (off : Z) : list (list (nat * Z * Z)) := map (fun c => scaled (opts (off + c))) (zrange 256).
Definition dp_step (rows : list (list (nat * Z * Z))) (w : Z) (V : list Z) : list Z :=
  map (fun q => best w (skipn (Z.to_nat (fst q mod 16 * 16)) V) (snd q)) (combine (zrange 256) rows).
(* n pairs remain out of 200 *)
Fixpoint dp (lo hi : list (list (nat * Z * Z))) (n : nat) : list Z :=
  match n with
  | O => repeat 0 256
  | S n' => let k := 200 - Z.of_nat n in dp_step (if 200 <? k * 2 then hi else lo) (2 * k + 1) (dp lo hi n')
  end.
Definition surplus (k c : Z) : Z := nth (Z.to_nat c) (dp (rows_at 512) (rows_at 768) (Z.to_nat (200 - k))) 0.

Lemma best_nonneg w V o : 0 <= best w V o.
Proof. unfold best. induction o as [|[[nib X] b] o IH]; cbn [fold_right]; lia. Qed.
Lemma best_ge w V o nib X b : In (nib, X, b) o -> nth nib V 0 + w * X - b <= best w V o.
Proof.
  unfold best. induction o as [|[[nib' X'] b'] o IH]; cbn [fold_right In]; [easy|]. intros [H|H].
  - injection H as -> -> ->. lia.
  - specialize (IH H). lia.
Qed.

Lemma nth_combine_map {A} (f : Z * A -> Z) n (rows : list A) (d : A) c : length rows = n -> 0 <= c < Z.of_nat n ->
  nth (Z.to_nat c) (map f (combine (zrange n) rows)) 0 = f (c, nth (Z.to_nat c) rows d).
Proof.
  intros Hr Hc. rewrite (nth_indep _ 0 (f (0, d))).
  2:{ rewrite map_length, combine_length, zrange_len. lia. }
  rewrite map_nth, combine_nth by (rewrite zrange_len; lia). do 2 f_equal. rewrite zrange_nth by lia. lia.
Qed.

Lemma rows_length off : length (rows_at off) = 256%nat.
Proof. unfold rows_at. now rewrite map_length, zrange_len. Qed.
Lemma rows_nth off c : 0 <= c < 256 -> nth (Z.to_nat c) (rows_at off) [] = scaled (opts (off + c)).
Proof.
  intros H. unfold rows_at, zrange. rewrite map_map.
  rewrite (nth_indep _ [] (scaled (opts (off + Z.of_nat 0)))) by (rewrite map_length, seq_length; lia).
  rewrite (map_nth (fun n => scaled (opts (off + Z.of_nat n)))), seq_nth by lia. do 3 f_equal. lia.
Qed.

Lemma nth_skipn {A} (l : list A) n i d : nth i (skipn n l) d = nth (n + i) l d.
Proof. revert l. induction n; intros l; [reflexivity|]. destruct l; [destruct i; reflexivity|]. apply IHn. Qed.

Lemma surplus_step k c : 0 <= k < 200 -> 0 <= c < 256 ->
  surplus k c = best (2 * k + 1) (skipn (Z.to_nat (c mod 16 * 16)) (dp (rows_at 512) (rows_at 768) (Z.to_nat (200 - (k + 1)))))
    (scaled (opts (c + 512 + (if 200 <? k * 2 then 256 else 0)))).
Proof.
  intros Hk Hc. unfold surplus. replace (Z.to_nat (200 - k)) with (S (Z.to_nat (200 - (k + 1)))) by lia. cbn [dp].
  replace (200 - Z.of_nat (S (Z.to_nat (200 - (k + 1))))) with k by lia. unfold dp_step.
  rewrite (nth_combine_map _ 256 _ []); [| |lia].
  - cbn [fst snd]. f_equal. destruct (200 <? k * 2); rewrite rows_nth by lia; do 2 f_equal; lia.
  - destruct (200 <? k * 2); apply rows_length.
Qed.

Lemma surplus_potential : potential 400 surplus.
Proof.
  constructor; change (400 / 2) with 200.
  - intros k c Hk Hc. destruct (Z.eq_dec k 200) as [->|]; [|rewrite surplus_step by lia; apply best_nonneg].
    unfold surplus. change (Z.to_nat (200 - 200)) with 0%nat. cbn [dp]. rewrite nth_repeat. lia.
  - intros k c nib X b Hk Hc Hn Hin. rewrite (surplus_step k c) by lia.
    set (V := dp _ _ _).
    pose proof (best_ge (2 * k + 1) (skipn (Z.to_nat (c mod 16 * 16)) V) (scaled (opts (c + 512 + (if 200 <? k * 2 then 256 else 0)))) (Z.to_nat nib) (X * E) (MU * b)) as G.
    etransitivity; [|apply G].
    + rewrite nth_skipn. unfold surplus. fold V. pose proof (Z.mod_pos_bound c 16 ltac:(lia)).
      replace (Z.to_nat (c mod 16 * 16) + Z.to_nat nib)%nat with (Z.to_nat (c mod 16 * 16 + nib)) by lia. lia.
    + unfold scaled. apply (in_map (fun q => let '(nib, X, b) := q in (Z.to_nat nib, X * E, MU * b)) _ _ Hin).
Qed.

(* bound for frames of up to SAFE_LEN bytes *)
Definition SAFE_LEN : Z := 440.
Lemma surplus_check : surplus 0 0 + MU * (E * (8 * SAFE_LEN + 8)) + E * 160000 <= E * i32_max.
Proof. apply Z.leb_le. vm_cast_no_check (eq_refl true). Qed.
