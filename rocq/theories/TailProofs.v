From Coq Require Import ZArith List Bool Lia ZifyBool Znumtheory.
From Verif Require Import Base Writer Reader TailSpec BufLemmas.
Import ListNotations.
Local Open Scope Z_scope.

Lemma b2z_range b : 0 <= b2z b <= 1.
Proof. destruct b; cbn; lia. Qed.

Lemma b2z_inj a b : b2z a = b2z b -> a = b.
Proof. destruct a, b; cbn; intros; congruence || lia. Qed.

Lemma bval_bound l : 0 <= bval l < 2 ^ len l.
Proof.
  induction l as [|b l IH]; [cbn; lia|]. cbn [bval]. rewrite len_cons, Z.pow_add_r by (auto; lia).
  pose proof (b2z_range b). lia.
Qed.

Lemma bval_app a b : bval (a ++ b) = bval a + bval b * 2 ^ len a.
Proof.
  induction a as [|x a IH]; cbn [bval app]; [change (len (@nil bool)) with 0; lia|].
  rewrite IH, len_cons, Z.pow_add_r by (auto; lia). lia.
Qed.

Lemma bval_inj a b : length a = length b -> bval a = bval b -> a = b.
Proof.
  revert b; induction a as [|x a IH]; intros [|y b] E H; cbn [length bval] in *; try lia; auto.
  assert (x = y) by (apply b2z_inj; pose proof (b2z_range x); pose proof (b2z_range y); lia).
  subst. f_equal. apply IH; lia.
Qed.

Lemma bits_of_len v w : len (bits_of v w) = Z.of_nat w.
Proof. unfold bits_of, len. now rewrite map_length, seq_length. Qed.

Lemma testbit_div2 v i : Z.testbit v (Z.of_nat (S i)) = Z.testbit (Z.div2 v) (Z.of_nat i).
Proof. rewrite Z.div2_spec, Z.shiftr_spec by lia. f_equal. lia. Qed.

Lemma bits_of_S v w : bits_of v (S w) = Z.odd v :: bits_of (Z.div2 v) w.
Proof.
  unfold bits_of. cbn [seq map]. f_equal.
  rewrite <- seq_shift, map_map. apply map_ext. intros i. apply testbit_div2.
Qed.

Lemma odd_div2 v : v = b2z (Z.odd v) + 2 * Z.div2 v.
Proof. pose proof (Z.div2_odd v) as E. destruct (Z.odd v); cbn [b2z Z.b2z] in *; lia. Qed.

Lemma bval_bits_of w : forall v, bval (bits_of v w) = v mod 2 ^ Z.of_nat w.
Proof.
  induction w; intros v.
  - cbn. now rewrite Z.mod_1_r.
  - rewrite bits_of_S. cbn [bval]. rewrite IHw. rewrite Z.div2_div.
    replace (Z.of_nat (S w)) with (1 + Z.of_nat w) by lia. rewrite Z.pow_add_r by lia.
    rewrite Z.rem_mul_r by (try apply pow2_pos; lia). change (2 ^ 1) with 2.
    rewrite Zmod_odd. destruct (Z.odd v); cbn; lia.
Qed.

(* ---- writing a bit into a buffer with arbitrary content ---- *)
Definition wpos (L : Z) (w : writer) (t : Z) : Prop := w_bp_side w = L - 1 - t / 8 /\ w_mask w = 2 ^ (t mod 8).

Lemma byte_set_check :
  forallb (fun k => forallb (fun a =>
     (Z.lor a (2 ^ k) =? a + (1 - b2z (Z.testbit a k)) * 2 ^ k) &&
     (Z.land a (255 - 2 ^ k) =? a - b2z (Z.testbit a k) * 2 ^ k) &&
     (Z.lor a (2 ^ k) <? 256) && (0 <=? Z.land a (255 - 2 ^ k))) (zrange 256)) (zrange 8) = true.
Proof. vm_compute. reflexivity. Qed.

Lemma byte_set a k : 0 <= k < 8 -> 0 <= a < 256 ->
  Z.lor a (2 ^ k) = a + (1 - b2z (Z.testbit a k)) * 2 ^ k /\
  Z.land a (255 - 2 ^ k) = a - b2z (Z.testbit a k) * 2 ^ k /\ Z.lor a (2 ^ k) < 256 /\ 0 <= Z.land a (255 - 2 ^ k).
Proof.
  intros Hk Ha. pose proof byte_set_check as C. rewrite forallb_forall in C.
  specialize (C k (zrange_in 8 k Hk)). rewrite forallb_forall in C.
  specialize (C a (zrange_in 256 a Ha)). lia.
Qed.

Lemma write_bool_any L w buf t (b : bool) :
  len buf = L -> bytes buf -> wpos L w t -> 0 <= t -> t + 1 < 8 * L ->
  exists w' buf', write_bool_backward w buf b = Ok (w', buf') /\ len buf' = L /\ bytes buf' /\ wpos L w' (t + 1) /\
    be buf' = be buf + (b2z b - b2z (Z.testbit (be buf) t)) * 2 ^ t.
Proof.
  intros HL Hb [Hs Hm] Ht Hlt.
  set (q := t / 8) in *. set (k := t mod 8) in *.
  assert (Hq : 0 <= q /\ 0 <= k < 8 /\ t = 8 * q + k) by (unfold q, k; dml).
  destruct Hq as (Hq & Hk & Et). set (i := L - 1 - q) in *.
  assert (Hi : 0 <= i < len buf) by lia.
  assert (Hinat : (Z.to_nat i < length buf)%nat) by (unfold len in Hi; lia).
  set (old := nth (Z.to_nat i) buf 0).
  assert (Hold : 0 <= old < 256).
  { unfold old. unfold bytes in Hb. rewrite Forall_forall in Hb. apply Hb. now apply nth_In. }
  assert (Etb : Z.testbit old k = Z.testbit (be buf) t).
  { unfold old. rewrite nth_be by auto. rewrite HL. replace (L - 1 - Z.of_nat (Z.to_nat i)) with q by lia.
    rewrite pow256 by lia. change 256 with (2 ^ 8). rewrite Z.mod_pow2_bits_low by lia.
    rewrite <- Z.shiftr_div_pow2, Z.shiftr_spec by lia. f_equal. lia. }
  destruct (byte_set old k Hk Hold) as (A1 & A2 & A3 & A4).
  pose proof (pow2_pos k ltac:(lia)) as Pk.
  unfold write_bool_backward. rewrite Hs, (idx_nth buf i 0 Hi). fold old. cbn [bind].
  set (v := if b then Z.lor old (w_mask w) else Z.land old (255 - w_mask w)).
  assert (Ev : v = old + (b2z b - b2z (Z.testbit old k)) * 2 ^ k).
  { unfold v. rewrite Hm. destruct b; cbn [b2z]; lia. }
  assert (Hvb : is_byte v).
  { unfold is_byte, v. rewrite Hm. pose proof (b2z_range (Z.testbit old k)). destruct b; nia. }
  rewrite store_ok by lia. cbn [bind].
  assert (Hbe' : be (upd buf (Z.to_nat i) v) = be buf + (b2z b - b2z (Z.testbit (be buf) t)) * 2 ^ t).
  { rewrite be_upd by auto. fold old. rewrite HL, Ev, Etb.
    replace (L - 1 - Z.of_nat (Z.to_nat i)) with q by lia. rewrite pow256 by lia.
    assert (Ept : 2 ^ t = 2 ^ (8 * q) * 2 ^ k) by (rewrite <- pow_split by lia; f_equal; lia).
    rewrite Ept. lia. }
  destruct (Z.eqb_spec (w_mask w) 128).
  - assert (k = 7). { rewrite Hm in e. change 128 with (2 ^ 7) in e. apply Z.pow_inj_r in e; lia. }
    rewrite usub_ok by lia. cbn [bind]. eexists _, _. split; [reflexivity|].
    split; [now rewrite len_upd|]. split; [now apply upd_bytes|]. split; [|exact Hbe'].
    split; cbn [w_bp_side w_mask].
    + unfold i. dml.
    + replace ((t + 1) mod 8) with 0 by dml. reflexivity.
  - assert (k <> 7). { intros E7. apply n. rewrite Hm, E7. reflexivity. }
    eexists _, _. split; [reflexivity|].
    split; [now rewrite len_upd|]. split; [now apply upd_bytes|]. split; [|exact Hbe'].
    split; cbn [w_bp_side w_mask].
    + unfold i. dml.
    + rewrite Hm. replace ((t + 1) mod 8) with (1 + k) by dml. rewrite Z.pow_add_r by lia. lia.
Qed.

Lemma testbit_mod B t : 0 <= t -> B mod 2 ^ (t + 1) = B mod 2 ^ t + b2z (Z.testbit B t) * 2 ^ t.
Proof.
  intros. pose proof (pow2_pos t ltac:(lia)) as Pt. rewrite Z.pow_add_r by lia. change (2 ^ 1) with 2.
  rewrite Z.rem_mul_r by lia.
  rewrite Z.testbit_odd, Z.shiftr_div_pow2 by lia. rewrite Zmod_odd.
  destruct (Z.odd (B / 2 ^ t)); cbn [b2z]; lia.
Qed.

Lemma write_uint_any L w0 : forall w buf v t,
  len buf = L -> bytes buf -> wpos L w t -> 0 <= t -> t + Z.of_nat w0 < 8 * L ->
  exists w' buf', write_uint_backward w buf v w0 = Ok (w', buf') /\ len buf' = L /\ bytes buf' /\
    wpos L w' (t + Z.of_nat w0) /\
    be buf' mod 2 ^ (t + Z.of_nat w0) = be buf mod 2 ^ t + (v mod 2 ^ Z.of_nat w0) * 2 ^ t.
Proof.
  induction w0 as [|n IH]; intros w buf v t HL Hb Hw Ht Hfit.
  - exists w, buf. cbn [write_uint_backward]. rewrite Z.add_0_r, Z.mod_1_r.
    split; [reflexivity|]. split; [exact HL|]. split; [exact Hb|]. split; [exact Hw|]. lia.
  - cbn [write_uint_backward].
    destruct (write_bool_any L w buf t (Z.odd v) HL Hb Hw Ht ltac:(lia)) as (w1 & b1 & E & L1 & B1 & W1 & V1).
    rewrite E. cbn [bind].
    destruct (IH w1 b1 (Z.div2 v) (t + 1) L1 B1 W1 ltac:(lia) ltac:(lia)) as (w2 & b2 & E2 & L2 & B2 & W2 & V2).
    exists w2, b2. split; [exact E2|]. split; [exact L2|]. split; [exact B2|].
    replace (t + Z.of_nat (S n)) with (t + 1 + Z.of_nat n) by lia. split; [exact W2|].
    rewrite V2, V1.
    assert (M : (be buf + (b2z (Z.odd v) - b2z (Z.testbit (be buf) t)) * 2 ^ t) mod 2 ^ (t + 1) =
                be buf mod 2 ^ t + b2z (Z.odd v) * 2 ^ t).
    { pose proof (pow2_pos t Ht) as Pt. pose proof (testbit_mod (be buf) t Ht) as TM.
      pose proof (Z.mod_pos_bound (be buf) (2 ^ t) Pt).
      symmetry. apply Z.mod_unique_pos with (q := be buf / 2 ^ (t + 1)).
      - rewrite Z.pow_add_r by lia. destruct (Z.odd v); cbn [b2z]; lia.
      - pose proof (Z.div_mod (be buf) (2 ^ (t + 1)) ltac:(pose proof (pow2_pos (t + 1)); lia)). lia. }
    rewrite M. replace (Z.of_nat (S n)) with (1 + Z.of_nat n) by lia.
    rewrite (Z.pow_add_r 2 1) by lia. rewrite Z.rem_mul_r by (try apply pow2_pos; lia).
    rewrite Z.div2_div, Z.pow_add_r by lia. change (2 ^ 1) with 2. rewrite Zmod_odd.
    destruct (Z.odd v); cbn [b2z]; lia.
Qed.

(* ---- reading ---- *)
(* bits l stand at position t of B *)
Definition tail_at (B t : Z) (l : list bool) : Prop := (B / 2 ^ t) mod 2 ^ len l = bval l.

Lemma div_div_pow B a b : 0 <= a -> 0 <= b -> B / 2 ^ a / 2 ^ b = B / 2 ^ (a + b).
Proof.
  intros. pose proof (pow2_pos a ltac:(lia)). pose proof (pow2_pos b ltac:(lia)).
  rewrite Z.div_div by lia. now rewrite <- pow_split by lia.
Qed.

Lemma tail_at_app B t a b : 0 <= t -> tail_at B t (a ++ b) <-> tail_at B t a /\ tail_at B (t + len a) b.
Proof.
  intros Ht. unfold tail_at. rewrite len_app, bval_app.
  pose proof (pow2_pos (len a) (len_nonneg a)) as Pa. pose proof (pow2_pos (len b) (len_nonneg b)) as Pb.
  rewrite pow_split by auto. rewrite Z.rem_mul_r by lia.
  rewrite div_div_pow by auto.
  pose proof (Z.mod_pos_bound (B / 2 ^ t) (2 ^ len a) Pa) as M1.
  pose proof (bval_bound a) as M2.
  split; [intros E|intros [-> ->]; lia].
  set (x := (B / 2 ^ t) mod 2 ^ len a) in *. set (y := (B / 2 ^ (t + len a)) mod 2 ^ len b) in *.
  assert (y = bval b) by nia. split; [nia|assumption].
Qed.

Lemma tail_at_bits B t v w : 0 <= v < 2 ^ Z.of_nat w -> tail_at B t (bits_of v w) <-> (B / 2 ^ t) mod 2 ^ Z.of_nat w = v.
Proof. intros. unfold tail_at. rewrite bits_of_len, bval_bits_of, (Z.mod_small v) by lia. reflexivity. Qed.

Lemma tail_at_bit B t b : tail_at B t [b] <-> Z.odd (B / 2 ^ t) = b.
Proof.
  unfold tail_at. cbn [bval]. change (2 ^ len [b]) with 2. rewrite Zmod_odd.
  destruct (Z.odd (B / 2 ^ t)), b; cbn; intuition congruence.
Qed.

(* widths whose field never straddles more bytes than read_tail_usize fetches *)
Definition good_width (w : Z) : Prop := 1 <= w <= 9 \/ w = 16 \/ w = 17 \/ w = 24 \/ w = 25.

Lemma read_usize_at buf r w : bytes buf -> 0 <= r_head r -> 0 <= r_tail r -> good_width w ->
  r_tail r + w + 8 * r_head r < 8 * len buf \/ (w mod 8 <> 0 /\ r_tail r + w + 8 * r_head r <= 8 * len buf) ->
  read_tail_usize r buf w = Ok ((be buf / 2 ^ r_tail r) mod 2 ^ w, mkReader (r_head r) (r_tail r + w)).
Proof.
  intros Hb Hh Ht Hw Hfit.
  assert (Hk : 0 <= r_tail r mod 8 < 8) by (apply Z.mod_pos_bound; lia).
  assert (Et : r_tail r = 8 * (r_tail r / 8) + r_tail r mod 8) by (apply Z.div_mod; lia).
  assert (Hw1 : 1 <= w <= 25) by (unfold good_width in Hw; lia).
  rewrite read_tail_usize_val; auto; try lia.
  - match goal with |- (if ?c then _ else _) = _ => replace c with false; [reflexivity|] end.
    symmetry. apply Z.ltb_ge.
    assert (Ew : w = 8 * (w / 8) + w mod 8) by (apply Z.div_mod; lia).
    pose proof (Z.mod_pos_bound w 8 ltac:(lia)) as Mw.
    destruct (Z.ltb_spec (8 - r_tail r mod 8) w), (Z.ltb_spec w 8); cbn [andb]; try lia;
      try (rewrite (Z.div_small w) in * by lia; lia).
  - destruct (Z.ltb_spec (8 - r_tail r mod 8) w), (Z.ltb_spec w 8); cbn [andb]; unfold good_width in Hw;
      (assert (w = 8 * (w / 8) + w mod 8) by (apply Z.div_mod; lia));
      destruct Hw as [Hw|[Hw|[Hw|[Hw|Hw]]]]; subst; try (cbn in *; lia); try (assert (0 <= w / 8 <= 1) by dml; dml).
Qed.

Lemma read_bool_at buf r : bytes buf -> 0 <= r_head r -> 0 <= r_tail r -> r_tail r + 1 + 8 * r_head r <= 8 * len buf + 24 ->
  r_tail r < 8 * len buf ->
  read_tail_bool r buf = Ok (Z.odd (be buf / 2 ^ r_tail r), mkReader (r_head r) (r_tail r + 1)).
Proof.
  intros Hb Hh Ht Hfit Hl. rewrite read_tail_bool_val by (auto; dml).
  match goal with |- (if ?c then _ else _) = _ => replace c with false; [reflexivity|] end.
  symmetry. apply Z.ltb_ge. dml.
Qed.

(* ---- lists of fields (C03) ---- *)
Fixpoint write_fields (o : writer * list Z) (l : list field) : res (writer * list Z) :=
  match l with
  | [] => Ok o
  | (v, w) :: l' => o <- write_uint_backward (fst o) (snd o) v (Z.to_nat w) ;; write_fields o l'
  end.

Fixpoint read_fields (r : reader) (buf : list Z) (ws : list Z) : res (list Z * reader) :=
  match ws with
  | [] => Ok ([], r)
  | w :: ws' =>
      '(v, r) <- read_tail_usize r buf w ;;
      '(vs, r) <- read_fields r buf ws' ;;
      Ok (v :: vs, r)
  end.

Fixpoint read_bits (r : reader) (buf : list Z) (n : nat) : res (list bool * reader) :=
  match n with
  | O => Ok ([], r)
  | S n' =>
      '(b, r) <- read_tail_bool r buf ;;
      '(bs, r) <- read_bits r buf n' ;;
      Ok (b :: bs, r)
  end.

Definition fields_bits (l : list field) : list bool := flat_map (fun f => bits_of (fst f) (Z.to_nat (snd f))) l.

Definition fields_good (l : list field) : Prop := Forall (fun f => field_ok f /\ good_width (snd f)) l.

Lemma good_width_pos w : good_width w -> 1 <= w <= 25.
Proof. unfold good_width; lia. Qed.

Lemma widths_nonneg l : fields_good l -> 0 <= widths l.
Proof.
  induction l as [|f l IH]; intros H; cbn [widths fold_right]; [lia|].
  inversion_clear H as [|? ? [A B] C]. apply good_width_pos in B. specialize (IH C). unfold widths in IH. lia.
Qed.

Lemma fields_bits_len l : fields_good l -> len (fields_bits l) = widths l.
Proof.
  induction l as [|f l IH]; intros H; [reflexivity|]. inversion_clear H as [|? ? [A B] C].
  apply good_width_pos in B. cbn [fields_bits flat_map widths fold_right]. rewrite len_app, bits_of_len.
  fold (fields_bits l). rewrite IH by auto. unfold widths. lia.
Qed.

Lemma write_fields_ok L l : fields_good l -> forall o t,
  len (snd o) = L -> bytes (snd o) -> wpos L (fst o) t -> 0 <= t -> t + widths l < 8 * L ->
  exists o', write_fields o l = Ok o' /\ len (snd o') = L /\ bytes (snd o') /\
    wpos L (fst o') (t + widths l) /\
    be (snd o') mod 2 ^ (t + widths l) = be (snd o) mod 2 ^ t + bval (fields_bits l) * 2 ^ t.
Proof.
  induction l as [|[v w] l IH]; intros G o t HL Hb Hw Ht Hfit.
  - exists o. cbn [write_fields widths fold_right fields_bits flat_map bval]. rewrite Z.add_0_r.
    split; [reflexivity|]. split; [exact HL|]. split; [exact Hb|]. split; [exact Hw|]. lia.
  - inversion_clear G as [|? ? [A B] C]. unfold field_ok in A. cbn [fst snd] in A, B. pose proof (good_width_pos _ B) as Bp.
    pose proof (widths_nonneg l C) as Wn.
    cbn [write_fields widths fold_right snd] in *. fold (widths l) in *.
    destruct (write_uint_any L (Z.to_nat w) (fst o) (snd o) v t HL Hb Hw Ht ltac:(lia)) as (w1 & b1 & E & L1 & B1 & W1 & V1).
    rewrite E. cbn [bind]. rewrite Z2Nat.id in * by lia.
    destruct (IH C (w1, b1) (t + w) L1 B1 W1 ltac:(lia) ltac:(lia)) as (o2 & E2 & L2 & B2 & W2 & V2).
    exists o2. split; [exact E2|]. split; [exact L2|]. split; [exact B2|].
    replace (t + (w + widths l)) with (t + w + widths l) by lia. split; [exact W2|].
    rewrite V2. cbn [snd]. rewrite V1. cbn [fields_bits flat_map fst snd]. fold (fields_bits l).
    rewrite bval_app, bval_bits_of, bits_of_len, Z2Nat.id by lia. rewrite (pow_split t w) by lia. lia.
Qed.

Lemma read_fields_ok l buf : bytes buf -> fields_good l -> forall r, 0 <= r_head r -> 0 <= r_tail r ->
  r_tail r + widths l + 8 * r_head r < 8 * len buf ->
  tail_at (be buf) (r_tail r) (fields_bits l) ->
  read_fields r buf (map snd l) = Ok (map fst l, mkReader (r_head r) (r_tail r + widths l)).
Proof.
  intros Hb. induction l as [|[v w] l IH]; intros G r Hh Ht Hfit T.
  - cbn. rewrite Z.add_0_r. destruct r; reflexivity.
  - inversion_clear G as [|? ? [A B] C]. unfold field_ok in A. cbn [fst snd] in A, B. pose proof (good_width_pos _ B) as Bp.
    pose proof (widths_nonneg l C) as Wn.
    cbn [map fst snd read_fields widths fold_right] in *. fold (widths l) in *.
    cbn [fields_bits flat_map fst snd] in T. fold (fields_bits l) in T.
    apply tail_at_app in T; [|lia]. destruct T as [T1 T2].
    rewrite bits_of_len, Z2Nat.id in T2 by lia.
    assert (T3 : (be buf / 2 ^ r_tail r) mod 2 ^ Z.of_nat (Z.to_nat w) = v).
    { apply tail_at_bits; [|exact T1]. rewrite Z2Nat.id by lia. exact A. }
    rewrite Z2Nat.id in T3 by lia.
    rewrite read_usize_at by (auto; lia). cbn [bind]. rewrite T3.
    rewrite (IH C (mkReader (r_head r) (r_tail r + w))) by (cbn [r_head r_tail]; auto; lia).
    cbn [bind r_head r_tail]. do 3 f_equal. lia.
Qed.

Lemma read_bits_ok buf l : bytes buf -> forall r, r_head r = 0 -> 0 <= r_tail r -> r_tail r + len l <= 8 * len buf ->
  tail_at (be buf) (r_tail r) l -> read_bits r buf (length l) = Ok (l, mkReader 0 (r_tail r + len l)).
Proof.
  intros Hb. induction l as [|b l IH]; intros r Hh Ht Hfit T.
  - cbn. rewrite Z.add_0_r. destruct r; cbn in *; subst; reflexivity.
  - cbn [length read_bits]. rewrite len_cons in Hfit. pose proof (len_nonneg l) as Pl.
    change (b :: l) with ([b] ++ l) in T. apply tail_at_app in T; [|lia]. destruct T as [T1 T2].
    apply tail_at_bit in T1.
    rewrite read_bool_at by (auto; lia). cbn [bind]. rewrite T1.
    rewrite (IH (mkReader (r_head r) (r_tail r + 1))) by (cbn [r_head r_tail]; auto; lia).
    cbn [bind r_tail]. rewrite len_cons. do 3 f_equal. lia.
Qed.

Lemma low_tail_at B t l : 0 <= t -> B mod 2 ^ (t + len l) = B mod 2 ^ t + bval l * 2 ^ t -> tail_at B t l.
Proof.
  intros Ht E. unfold tail_at. pose proof (pow2_pos t Ht) as Pt. pose proof (pow2_pos (len l) (len_nonneg l)) as Pl.
  rewrite pow_split in E by auto. rewrite Z.rem_mul_r in E by lia. nia.
Qed.

Theorem fields_round_trip L l w0 buf0 t :
  fields_good l -> len buf0 = L -> bytes buf0 -> wpos L w0 t -> 0 <= t -> t + widths l < 8 * L ->
  exists w' buf', write_fields (w0, buf0) l = Ok (w', buf') /\ len buf' = L /\ bytes buf' /\
    be buf' mod 2 ^ t = be buf0 mod 2 ^ t /\
    (L <= 65535 -> t = 0 -> nbits_side_written w' (8 * L) = Ok (widths l)) /\
    read_fields (mkReader 0 t) buf' (map snd l) = Ok (map fst l, mkReader 0 (t + widths l)) /\
    read_bits (mkReader 0 t) buf' (length (fields_bits l)) = Ok (fields_bits l, mkReader 0 (t + widths l)).
Proof.
  intros G HL Hb Hw Ht Hfit. pose proof (widths_nonneg l G) as Wn.
  destruct (write_fields_ok L l G (w0, buf0) t HL Hb Hw Ht ltac:(lia)) as ([w' buf'] & E & L1 & B1 & W1 & V1).
  cbn [fst snd] in *. exists w', buf'. split; [exact E|]. split; [exact L1|]. split; [exact B1|].
  pose proof (pow2_pos t Ht) as Pt.
  assert (M : be buf' mod 2 ^ t = be buf0 mod 2 ^ t).
  { rewrite (Zmod_div_mod (2 ^ t) (2 ^ (t + widths l)) (be buf')).
    - rewrite V1. rewrite Z.mod_add by lia. apply Z.mod_mod. lia.
    - lia.
    - apply pow2_pos; lia.
    - exists (2 ^ widths l). rewrite <- pow_split by lia. f_equal. lia. }
  split; [exact M|].
  assert (T : tail_at (be buf') t (fields_bits l)).
  { apply low_tail_at; [exact Ht|]. rewrite fields_bits_len by auto. rewrite V1, M. reflexivity. }
  split; [|split].
  - intros _ ->. destruct W1 as [Ws Wm]. cbn [Z.add] in *. unfold nbits_side_written. rewrite Ws, Wm. unfold log2_floor.
    rewrite Z.log2_pow2 by (apply Z.mod_pos_bound; lia).
    replace (8 * L - (8 * (L - 1 - widths l / 8) + 8 - widths l mod 8)) with (widths l) by dml.
    destruct (Z.ltb_spec (widths l) 0); [lia|reflexivity].
  - apply (read_fields_ok l buf' B1 G (mkReader 0 t)); cbn [r_head r_tail]; auto; lia.
  - rewrite <- (fields_bits_len l G). apply (read_bits_ok buf' (fields_bits l) B1 (mkReader 0 t)); cbn [r_head r_tail]; auto.
    rewrite fields_bits_len by auto. lia.
Qed.
