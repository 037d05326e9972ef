(* A byte buffer as one big integer; facts about the writer and the reader in that view. *)
From Coq Require Import ZArith Znumtheory List Bool Lia ZifyBool.
From Verif Require Import Base Writer Reader.
Import ListNotations.
Local Open Scope Z_scope.

Ltac dml := Z.div_mod_to_equations; lia.

(* ---------- results ---------- *)
Lemma bind_ok {A B} (m : res A) (f : A -> res B) (b : B) :
  bind m f = Ok b -> exists a, m = Ok a /\ f a = Ok b.
Proof. destruct m; simpl; intros; try discriminate. eauto. Qed.

Lemma idx_nth {A} (l : list A) (i : Z) (d : A) :
  0 <= i < len l -> idx l i = Ok (nth (Z.to_nat i) l d).
Proof.
  unfold idx, len. intros H. destruct (Z.ltb_spec i 0); [lia|].
  rewrite (nth_error_nth' l d) by lia. reflexivity.
Qed.

Lemma idx_ok {A} (l : list A) (i : Z) (a : A) :
  idx l i = Ok a -> 0 <= i < len l /\ nth_error l (Z.to_nat i) = Some a.
Proof.
  unfold idx, len. destruct (Z.ltb_spec i 0); [discriminate|].
  destruct (nth_error l (Z.to_nat i)) eqn:E; [|discriminate].
  intros [= ->]. split; [|reflexivity].
  assert (Z.to_nat i < length l)%nat by (apply nth_error_Some; congruence). lia.
Qed.

Lemma idx_not_err {A} (l : list A) i e : idx l i <> Err e.
Proof. unfold idx. destruct (_ <? _); [discriminate|]. destruct (nth_error _ _); discriminate. Qed.

Lemma store_ok (l : list Z) i v : 0 <= i < len l -> store l i v = Ok (upd l (Z.to_nat i) v).
Proof. unfold store, len. intros. destruct (Z.ltb_spec i 0); simpl; [lia|]. destruct (Z.leb_spec (Z.of_nat (length l)) i); [lia|reflexivity]. Qed.

Lemma usub_ok a b : b <= a -> usub a b = Ok (a - b).
Proof. unfold usub. intros. destruct (Z.ltb_spec a b); [lia|reflexivity]. Qed.

(* ---------- lists ---------- *)
Lemma upd_length {A} (l : list A) n v : length (upd l n v) = length l.
Proof. revert n; induction l; intros [|n]; simpl; auto. Qed.

Lemma upd_bytes l n v : bytes l -> is_byte v -> bytes (upd l n v).
Proof.
  unfold bytes. revert n; induction l as [|h t IH]; intros n Hl Hv; destruct n; simpl; auto.
  - inversion Hl; subst; constructor; auto.
  - inversion Hl; subst; constructor; auto.
Qed.

Lemma len_nonneg {A} (l : list A) : 0 <= len l.
Proof. unfold len; lia. Qed.
#[global] Hint Resolve len_nonneg : core.

Lemma len_cons {A} (x : A) l : len (x :: l) = len l + 1.
Proof. unfold len; simpl length; lia. Qed.

Lemma len_app {A} (a b : list A) : len (a ++ b) = len a + len b.
Proof. unfold len. rewrite app_length. lia. Qed.

Lemma len_upd {A} (l : list A) n v : len (upd l n v) = len l.
Proof. unfold len. now rewrite upd_length. Qed.

(* ---------- powers ---------- *)
Lemma pow256 n : 0 <= n -> 256 ^ n = 2 ^ (8 * n).
Proof. intros. rewrite Z.pow_mul_r by lia. reflexivity. Qed.

Lemma pow2_pos n : 0 <= n -> 0 < 2 ^ n.
Proof. intros; apply Z.pow_pos_nonneg; lia. Qed.

Lemma pow256_pos n : 0 <= n -> 0 < 256 ^ n.
Proof. intros; apply Z.pow_pos_nonneg; lia. Qed.

(* ---------- be ---------- *)
Lemma be_bound l : bytes l -> 0 <= be l < 256 ^ len l.
Proof.
  induction l as [|b t IH]; intros H.
  - simpl; lia.
  - inversion H; subst. rewrite len_cons. rewrite Z.pow_add_r by (auto; lia).
    specialize (IH H3). unfold is_byte in *. cbn [be].
    pose proof (pow256_pos (len t) (len_nonneg t)). nia.
Qed.

Lemma be_app l1 l2 : be (l1 ++ l2) = be l1 * 256 ^ len l2 + be l2.
Proof.
  induction l1 as [|b t IH]; simpl; [lia|].
  rewrite IH, len_app, Z.pow_add_r by auto. lia.
Qed.

Lemma be_upd l n v : (n < length l)%nat ->
  be (upd l n v) = be l + (v - nth n l 0) * 256 ^ (len l - 1 - Z.of_nat n).
Proof.
  revert n; induction l as [|b t IH]; intros n Hn; simpl in Hn; [lia|].
  destruct n; cbn [upd be nth].
  - rewrite len_cons. replace (len t + 1 - 1 - Z.of_nat 0) with (len t) by lia. lia.
  - rewrite len_upd, IH by lia. rewrite len_cons.
    replace (len t + 1 - 1 - Z.of_nat (S n)) with (len t - 1 - Z.of_nat n) by lia. lia.
Qed.

Lemma nth_be l n : bytes l -> (n < length l)%nat ->
  nth n l 0 = (be l / 256 ^ (len l - 1 - Z.of_nat n)) mod 256.
Proof.
  intros Hb Hn.
  destruct (nth_split l 0 Hn) as (l1 & l2 & E & L1).
  remember (nth n l 0) as b eqn:Eb. clear Eb.
  assert (Hlen : len l - 1 - Z.of_nat n = len l2).
  { rewrite E. rewrite len_app, len_cons. unfold len. lia. }
  rewrite Hlen. rewrite E at 1. rewrite be_app.
  rewrite E in Hb. apply Forall_app in Hb. destruct Hb as [H1 H2]. inversion_clear H2 as [|? ? H4 H5].
  pose proof (be_bound l2 H5). pose proof (pow256_pos (len l2) (len_nonneg _)).
  cbn [be]. rewrite len_cons, Z.pow_add_r by (auto; lia).
  replace (be l1 * (256 ^ len l2 * 256 ^ 1) + (b * 256 ^ len l2 + be l2))
    with (be l2 + (be l1 * 256 + b) * 256 ^ len l2) by lia.
  rewrite Z.div_add, (Z.div_small (be l2)) by lia.
  unfold is_byte in H4. rewrite Z.add_0_l.
  rewrite Z.add_comm, Z.mod_add, Z.mod_small by lia. reflexivity.
Qed.

(* firstn / skipn in the integer view *)
Lemma be_slice l from to : bytes l -> 0 <= from <= to -> to <= len l ->
  be (firstn (Z.to_nat (to - from)) (skipn (Z.to_nat from) l)) =
  (be l / 256 ^ (len l - to)) mod 256 ^ (to - from).
Proof.
  intros Hb Hft Hto. unfold len in Hto.
  set (a := firstn (Z.to_nat from) l). set (r := skipn (Z.to_nat from) l).
  set (m := firstn (Z.to_nat (to - from)) r). set (z := skipn (Z.to_nat (to - from)) r).
  assert (E : l = a ++ m ++ z).
  { unfold m, z. rewrite firstn_skipn. unfold a, r. now rewrite firstn_skipn. }
  assert (La : len a = from). { unfold a, len. rewrite firstn_length. lia. }
  assert (Lm : len m = to - from). { unfold m, r, len. rewrite firstn_length, skipn_length. lia. }
  assert (Lz : len z = len l - to). { rewrite E at 1. rewrite !len_app. lia. }
  assert (Bz : bytes z /\ bytes m).
  { rewrite E in Hb. unfold bytes in *. rewrite !Forall_app in Hb. tauto. }
  destruct Bz as [Bz Bm].
  pose proof (be_bound z Bz). pose proof (be_bound m Bm).
  pose proof (pow256_pos (len z) (len_nonneg _)).
  pose proof (pow256_pos (len m) (len_nonneg _)).
  assert (Hbe : be l = be z + (be m + be a * 256 ^ len m) * 256 ^ len z).
  { rewrite E, !be_app, len_app, Z.pow_add_r by auto. lia. }
  rewrite Hbe, <- Lz, <- Lm.
  rewrite Z.div_add, (Z.div_small (be z)) by lia.
  rewrite Z.add_0_l, Z.mod_add, Z.mod_small by lia. reflexivity.
Qed.

Lemma slice_ok buf from to : 0 <= from <= to -> to <= len buf ->
  slice buf from to = Ok (firstn (Z.to_nat (to - from)) (skipn (Z.to_nat from) buf)).
Proof.
  intros. unfold slice.
  destruct (Z.ltb_spec from 0); [lia|]. destruct (Z.ltb_spec to from); [lia|].
  destruct (Z.ltb_spec (len buf) to); [lia|]. reflexivity.
Qed.

(* ---------- byte level bit operations ---------- *)
Definition zrange (n : nat) : list Z := map Z.of_nat (seq 0 n).
Lemma zrange_in n x : 0 <= x < Z.of_nat n -> In x (zrange n).
Proof. intros. unfold zrange. apply in_map_iff. exists (Z.to_nat x). split; [lia|]. apply in_seq. lia. Qed.

Lemma byte_ops_check :
  forallb (fun k => forallb (fun a => if a <? 2 ^ k then
     (Z.lor a (2 ^ k) =? a + 2 ^ k) && (Z.land a (255 - 2 ^ k) =? a) else true) (zrange 256)) (zrange 8) = true.
Proof. vm_compute. reflexivity. Qed.

Lemma byte_ops a k : 0 <= k < 8 -> 0 <= a < 2 ^ k ->
  Z.lor a (2 ^ k) = a + 2 ^ k /\ Z.land a (255 - 2 ^ k) = a.
Proof.
  intros Hk Ha.
  pose proof byte_ops_check as C. rewrite forallb_forall in C.
  specialize (C k (zrange_in 8 k Hk)). rewrite forallb_forall in C.
  assert (a < 256). { assert (2 ^ k <= 2 ^ 8) by (apply Z.pow_le_mono_r; lia). lia. }
  specialize (C a (zrange_in 256 a ltac:(lia))).
  destruct (Z.ltb_spec a (2 ^ k)); [|lia]. lia.
Qed.

(* ---------- writer ---------- *)
(* The buffer of length L holds the head bytes H (w_bp bytes), the tail bits T (t bits), and zeros in between. *)
Record wrep (L : Z) (w : writer) (buf : list Z) (H T t : Z) : Prop := mkWrep {
  wr_len : len buf = L;
  wr_bytes : bytes buf;
  wr_be : be buf = H * 2 ^ (8 * (L - w_bp w)) + T;
  wr_T : 0 <= T < 2 ^ t;
  wr_H : 0 <= H < 2 ^ (8 * w_bp w);
  wr_bp : 0 <= w_bp w;
  wr_t : 0 <= t;
  wr_fit : t + 8 * w_bp w <= 8 * L;
  wr_side : w_bp_side w = L - 1 - t / 8;
  wr_mask : w_mask w = 2 ^ (t mod 8)
}.

Lemma be_zero n : be (repeat 0 n) = 0.
Proof. induction n; simpl; lia. Qed.

Lemma bytes_zero n : bytes (repeat 0 n).
Proof. induction n; simpl; constructor; auto. unfold is_byte; lia. Qed.

Lemma len_repeat {A} (x : A) n : len (repeat x n) = Z.of_nat n.
Proof. unfold len. now rewrite repeat_length. Qed.

Lemma wrep_init L w : 0 < L < 65536 -> writer_new L = Ok w -> wrep L w (repeat 0 (Z.to_nat L)) 0 0 0.
Proof.
  intros HL. unfold writer_new. rewrite Z.mod_small by lia. rewrite usub_ok by lia. cbn [bind].
  intros [= <-]. constructor; cbn [w_bp w_bp_side w_mask]; try lia.
  - rewrite len_repeat. lia.
  - apply bytes_zero.
  - rewrite be_zero. lia.
  - rewrite Zdiv_0_l. lia.
  - reflexivity.
Qed.

Lemma pow_split a b : 0 <= a -> 0 <= b -> 2 ^ (a + b) = 2 ^ a * 2 ^ b.
Proof. intros. apply Z.pow_add_r; lia. Qed.

Lemma write_bool_backward_ok L w buf H T t (b : bool) :
  wrep L w buf H T t -> t + 1 + 8 * w_bp w <= 8 * L -> t + 1 < 8 * L ->
  exists w' buf', write_bool_backward w buf b = Ok (w', buf') /\
    w_bp w' = w_bp w /\
    wrep L w' buf' H (T + b2z b * 2 ^ t) (t + 1).
Proof.
  intros W Hfit Hlt. destruct W.
  set (q := t / 8) in *. set (k := t mod 8) in *.
  assert (Hq : 0 <= q /\ 0 <= k < 8 /\ t = 8 * q + k) by (unfold q, k; dml).
  destruct Hq as (Hq & Hk & Et).
  assert (HqL : q < L - w_bp w) by lia.
  set (i := L - 1 - q) in *.
  assert (Hi : 0 <= i < len buf) by lia.
  assert (Hinat : (Z.to_nat i < length buf)%nat) by (unfold len in Hi; lia).
  set (old := nth (Z.to_nat i) buf 0).
  assert (Eold : old = (T / 2 ^ (8 * q)) mod 256).
  { unfold old. rewrite nth_be by auto. rewrite wr_len0.
    replace (L - 1 - Z.of_nat (Z.to_nat i)) with q by lia.
    rewrite pow256, wr_be0 by lia.
    replace (8 * (L - w_bp w)) with (8 + 8 * (L - w_bp w - 1 - q) + 8 * q) by lia.
    rewrite !pow_split by lia.
    rewrite Z.add_comm, Z.mul_assoc, Z.div_add by (pose proof (pow2_pos (8*q) ltac:(lia)); lia).
    rewrite (Z.mul_comm H), <- !Z.mul_assoc.
    change (2 ^ 8) with 256. rewrite (Z.mul_comm 256), Z.mod_add by lia. reflexivity. }
  assert (Hold : 0 <= old < 2 ^ k).
  { rewrite Eold. split; [apply Z.mod_pos_bound; lia|].
    apply Z.le_lt_trans with (T / 2 ^ (8 * q)).
    - apply Z.mod_le; [|lia]. apply Z.div_pos; [lia|apply pow2_pos; lia].
    - apply Z.div_lt_upper_bound; [apply pow2_pos; lia|].
      rewrite <- pow_split by lia. replace (8 * q + k) with t by lia. lia. }
  destruct (byte_ops old k Hk Hold) as [Hlor Hland].
  assert (Hb2 : is_byte (old + b2z b * 2 ^ k)).
  { unfold is_byte. assert (2 ^ k <= 2 ^ 7) by (apply Z.pow_le_mono_r; lia).
    change (2 ^ 7) with 128 in *. pose proof (pow2_pos k ltac:(lia)). destruct b; cbn [b2z]; lia. }
  unfold write_bool_backward. rewrite wr_side0, (idx_nth buf i 0 Hi). fold old. cbn [bind].
  replace (if b then Z.lor old (w_mask w) else Z.land old (255 - w_mask w)) with (old + b2z b * 2 ^ k).
  2:{ rewrite wr_mask0. destruct b; cbn [b2z]; lia. }
  rewrite store_ok by lia. cbn [bind].
  assert (Hbe' : be (upd buf (Z.to_nat i) (old + b2z b * 2 ^ k)) = be buf + b2z b * 2 ^ t).
  { rewrite be_upd by auto. fold old. rewrite wr_len0.
    replace (L - 1 - Z.of_nat (Z.to_nat i)) with q by lia. rewrite pow256 by lia.
    rewrite Et, pow_split by lia. lia. }
  assert (HT' : 0 <= T + b2z b * 2 ^ t < 2 ^ (t + 1)).
  { rewrite Z.pow_add_r by lia. pose proof (pow2_pos t ltac:(lia)). destruct b; cbn [b2z]; lia. }
  destruct (Z.eqb_spec (w_mask w) 128).
  - assert (k = 7).
    { rewrite wr_mask0 in e. change 128 with (2 ^ 7) in e. apply Z.pow_inj_r in e; lia. }
    rewrite usub_ok by lia. cbn [bind]. eexists _, _. split; [reflexivity|]. split; [reflexivity|].
    constructor; cbn [w_bp w_bp_side w_mask]; auto; try lia.
    + now rewrite len_upd.
    + apply upd_bytes; auto.
    + unfold i. dml.
    + replace ((t + 1) mod 8) with 0 by dml. reflexivity.
  - assert (k <> 7). { intros ->. apply n. rewrite wr_mask0. reflexivity. }
    eexists _, _. split; [reflexivity|]. split; [reflexivity|].
    constructor; cbn [w_bp w_bp_side w_mask]; auto; try lia.
    + now rewrite len_upd.
    + apply upd_bytes; auto.
    + unfold i. dml.
    + rewrite wr_mask0. replace ((t + 1) mod 8) with (1 + k) by dml. rewrite Z.pow_add_r by lia. lia.
Qed.

Lemma write_byte_forward_ok L w buf H T t b :
  wrep L w buf H T t -> is_byte b -> t + 8 * (w_bp w + 1) <= 8 * L ->
  exists w' buf', write_byte_forward w buf b = Ok (w', buf') /\
    w_bp w' = w_bp w + 1 /\
    wrep L w' buf' (H * 256 + b) T t.
Proof.
  intros W Hb Hfit. destruct W.
  assert (Hi : 0 <= w_bp w < len buf) by lia.
  assert (Hinat : (Z.to_nat (w_bp w) < length buf)%nat) by (unfold len in Hi; lia).
  set (e := L - w_bp w - 1). assert (He : 0 <= e) by (unfold e; lia).
  assert (Eold : nth (Z.to_nat (w_bp w)) buf 0 = 0).
  { rewrite nth_be by auto. rewrite wr_len0.
    replace (L - 1 - Z.of_nat (Z.to_nat (w_bp w))) with e by (unfold e; lia).
    rewrite pow256, wr_be0 by (unfold e; lia).
    replace (8 * (L - w_bp w)) with (8 + 8 * e) by (unfold e; lia).
    rewrite pow_split by (unfold e; lia).
    rewrite Z.add_comm, Z.mul_assoc, Z.div_add by (pose proof (pow2_pos (8*e) ltac:(lia)); lia).
    rewrite (Z.div_small T).
    - rewrite Z.add_0_l. change (2 ^ 8) with 256. now rewrite Z.mod_mul.
    - split; [lia|]. apply Z.lt_le_trans with (2 ^ t); [lia|]. apply Z.pow_le_mono_r; unfold e; lia. }
  unfold write_byte_forward. rewrite store_ok by lia. cbn [bind].
  eexists _, _. split; [reflexivity|]. split; [reflexivity|].
  unfold is_byte in Hb.
  constructor; cbn [w_bp w_bp_side w_mask]; auto; try lia.
  - now rewrite len_upd.
  - apply upd_bytes; auto.
  - rewrite be_upd by auto. rewrite Eold, wr_be0, wr_len0.
    replace (L - 1 - Z.of_nat (Z.to_nat (w_bp w))) with e by (unfold e; lia).
    rewrite pow256 by (unfold e; lia).
    replace (8 * (L - w_bp w)) with (8 + 8 * e) by (unfold e; lia).
    replace (8 * (L - (w_bp w + 1))) with (8 * e) by (unfold e; lia).
    rewrite pow_split by (unfold e; lia). change (2 ^ 8) with 256. lia.
  - replace (8 * (w_bp w + 1)) with (8 + 8 * w_bp w) by lia. rewrite pow_split by lia. change (2 ^ 8) with 256. lia.
Qed.

(* byte level effect of the forward bit writer: the top `n` bits are taken from val, the rest from old *)
Fixpoint fwd_byte (old val mask : Z) (n : nat) : Z :=
  match n with
  | O => old
  | S n' => fwd_byte (if Z.land val mask =? 0 then Z.land old (255 - mask) else Z.lor old mask) val (Z.div2 mask) n'
  end.

Lemma upd_upd {A} (l : list A) n a b : upd (upd l n a) n b = upd l n b.
Proof. revert n; induction l; intros [|n]; simpl; auto. now rewrite IHl. Qed.

Lemma upd_same {A} (l : list A) n (d : A) : upd l n (nth n l d) = l.
Proof. revert n; induction l; intros [|n]; simpl; auto. now rewrite IHl. Qed.

Lemma nth_upd {A} (l : list A) n v d : (n < length l)%nat -> nth n (upd l n v) d = v.
Proof. revert n; induction l; intros [|n]; simpl; intros; auto; try lia. apply IHl; lia. Qed.

Lemma write_uint_forward_loop_ok n buf bp val mask : 0 <= bp < len buf ->
  write_uint_forward_loop buf bp val mask n =
  Ok (upd buf (Z.to_nat bp) (fwd_byte (nth (Z.to_nat bp) buf 0) val mask n)).
Proof.
  revert buf mask. induction n; intros buf mask Hbp; cbn [write_uint_forward_loop fwd_byte].
  - now rewrite upd_same.
  - rewrite (idx_nth buf bp 0) by auto. cbn [bind]. rewrite store_ok by auto. cbn [bind].
    rewrite IHn by (now rewrite len_upd).
    rewrite nth_upd by (unfold len in *; lia). now rewrite upd_upd.
Qed.

(* with `old` below 2^(8-k), writing the top k bits adds them *)
Lemma fwd_check :
  forallb (fun k => forallb (fun old => if old <? 2 ^ (8 - k) then
     forallb (fun v => fwd_byte old v 128 (Z.to_nat k) =? old + v / 2 ^ (8 - k) * 2 ^ (8 - k)) (zrange 256) else true) (zrange 256)) (zrange 9) = true.
Proof. vm_compute. reflexivity. Qed.

Lemma fwd_byte_ok old v k : 0 <= k <= 8 -> 0 <= v < 256 -> 0 <= old < 2 ^ (8 - k) ->
  fwd_byte old v 128 (Z.to_nat k) = old + v / 2 ^ (8 - k) * 2 ^ (8 - k).
Proof.
  intros Hk Hv Ho. pose proof fwd_check as C. rewrite forallb_forall in C.
  specialize (C k (zrange_in 9 k ltac:(lia))). rewrite forallb_forall in C.
  assert (2 ^ (8 - k) <= 2 ^ 8) by (apply Z.pow_le_mono_r; lia). change (2 ^ 8) with 256 in *.
  specialize (C old (zrange_in 256 old ltac:(lia))).
  destruct (Z.ltb_spec old (2 ^ (8 - k))); [|lia]. rewrite forallb_forall in C.
  specialize (C v (zrange_in 256 v ltac:(lia))). lia.
Qed.

Lemma write_uint_forward_ok L w buf H T t val k :
  wrep L w buf H T t -> 1 <= k <= 8 -> t + 8 * w_bp w + k <= 8 * L ->
  exists buf', write_uint_forward w buf val k = Ok buf' /\ len buf' = L /\ bytes buf' /\
    be buf' = be buf + (val mod 256) / 2 ^ (8 - k) * 2 ^ (8 - k) * 2 ^ (8 * (L - 1 - w_bp w)).
Proof.
  intros W Hk Hfit. destruct W.
  assert (Hi : 0 <= w_bp w < len buf) by lia.
  assert (Hinat : (Z.to_nat (w_bp w) < length buf)%nat) by (unfold len in Hi; lia).
  assert (Hv : 0 <= val mod 256 < 256) by (apply Z.mod_pos_bound; lia).
  set (e := L - 1 - w_bp w). assert (He : 0 <= e) by (unfold e; lia).
  set (old := nth (Z.to_nat (w_bp w)) buf 0).
  assert (Hold : 0 <= old < 2 ^ (8 - k)).
  { unfold old. rewrite nth_be by auto. rewrite wr_len0.
    replace (L - 1 - Z.of_nat (Z.to_nat (w_bp w))) with e by (unfold e; lia).
    rewrite pow256, wr_be0 by lia.
    replace (8 * (L - w_bp w)) with (8 + 8 * e) by (unfold e; lia).
    rewrite pow_split by lia.
    rewrite Z.add_comm, Z.mul_assoc, Z.div_add by (pose proof (pow2_pos (8*e) ltac:(lia)); lia).
    change (2 ^ 8) with 256. rewrite Z.mod_add by lia.
    split; [apply Z.mod_pos_bound; lia|].
    apply Z.le_lt_trans with (T / 2 ^ (8 * e)).
    - apply Z.mod_le; [apply Z.div_pos; [lia|apply pow2_pos; lia]|lia].
    - apply Z.div_lt_upper_bound; [apply pow2_pos; lia|].
      rewrite <- pow_split by lia.
      apply Z.lt_le_trans with (2 ^ t); [lia|]. apply Z.pow_le_mono_r; unfold e; lia. }
  unfold write_uint_forward. rewrite write_uint_forward_loop_ok by lia. fold old.
  rewrite fwd_byte_ok by lia.
  eexists. split; [reflexivity|]. split; [now rewrite len_upd|]. split.
  - apply upd_bytes; auto. unfold is_byte.
    pose proof (pow2_pos (8 - k) ltac:(lia)) as P1.
    assert (E8 : 256 = 2 ^ (8 - k) * 2 ^ k) by (rewrite <- pow_split by lia; replace (8 - k + k) with 8 by lia; reflexivity).
    pose proof (Z.div_pos (val mod 256) (2 ^ (8-k))).
    assert ((val mod 256) / 2 ^ (8 - k) < 2 ^ k) by (apply Z.div_lt_upper_bound; lia).
    nia.
  - rewrite be_upd by auto. fold old. rewrite wr_len0.
    replace (L - 1 - Z.of_nat (Z.to_nat (w_bp w))) with e by (unfold e; lia).
    rewrite pow256 by lia. lia.
Qed.

(* ---------- reader ---------- *)
Lemma read_tail_usize_val buf r w : bytes buf -> 0 <= r_head r -> 0 <= r_tail r -> 0 < w <= 25 ->
  let bi := r_tail r / 8 in let k := r_tail r mod 8 in
  let nb := w / 8 + (if (8 - k <? w) && (w <? 8) then 2 else 1) in
  k + w <= 8 * nb ->
  read_tail_usize r buf w =
    if len buf - r_head r - bi - nb <? 0 then Err TailUsizeOutOfRange
    else Ok ((be buf / 2 ^ r_tail r) mod 2 ^ w, mkReader (r_head r) (r_tail r + w)).
Proof.
  intros Hb Hh Ht Hw bi k nb Hnb.
  assert (Hk : 0 <= k < 8) by (unfold k; apply Z.mod_pos_bound; lia).
  assert (Hbi : 0 <= bi) by (unfold bi; dml).
  assert (Et : r_tail r = 8 * bi + k) by (unfold bi, k; dml).
  assert (Hnb4 : 1 <= nb <= 4).
  { unfold nb. assert (0 <= w / 8 <= 3) by dml. destruct ((8 - k <? w) && (w <? 8)) eqn:E; [|lia].
    apply andb_prop in E. assert (w / 8 = 0) by (apply Z.div_small; lia). lia. }
  unfold read_tail_usize. fold bi k nb.
  destruct (Z.ltb_spec (len buf - r_head r - bi - nb) 0); [reflexivity|].
  rewrite !usub_ok by lia. cbn [bind]. rewrite usub_ok by lia. cbn [bind]. rewrite slice_ok by lia. cbn [bind].
  destruct (Z.leb_spec 1 nb); [|lia]. destruct (Z.leb_spec nb 4); [|lia]. cbn [andb].
  rewrite usub_ok by lia. cbn [bind].
  destruct (Z.leb_spec 32 (32 - w - k)); [lia|]. destruct (Z.leb_spec 32 (32 - w - k + k)); [lia|].
  rewrite be_slice by (auto; lia).
  f_equal. f_equal.
  replace (len buf - (len buf - bi - nb + nb)) with bi by lia.
  replace (len buf - bi - nb + nb - (len buf - bi - nb)) with nb by lia.
  rewrite !pow256 by lia.
  rewrite Z.shiftl_mul_pow2, Z.shiftr_div_pow2 by lia.
  set (v := be buf / 2 ^ (8 * bi)).
  set (s := 32 - w - k) in *.
  replace 32 with ((w + k) + s) by (unfold s; lia).
  rewrite (pow_split (w + k) s) by lia.
  rewrite Z.mul_mod_distr_r by (pose proof (pow2_pos (w+k) ltac:(lia)); pose proof (pow2_pos s ltac:(lia)); lia).
  rewrite (pow_split s k) by lia.
  rewrite <- Z.div_div by (pose proof (pow2_pos s ltac:(lia)); pose proof (pow2_pos k ltac:(lia)); lia).
  rewrite Z.div_mul by (pose proof (pow2_pos s ltac:(lia)); lia).
  (* ((v mod 2^(8nb)) mod 2^(w+k)) / 2^k = (B / 2^t) mod 2^w *)
  assert (E1 : (v mod 2 ^ (8 * nb)) mod 2 ^ (w + k) = v mod 2 ^ (w + k)).
  { symmetry. apply Zmod_div_mod; try (apply pow2_pos; lia).
    exists (2 ^ (8 * nb - (w + k))). rewrite <- pow_split by lia. f_equal. lia. }
  rewrite E1.
  replace (w + k) with (k + w) by lia. rewrite pow_split by lia.
  rewrite Z.rem_mul_r by (pose proof (pow2_pos k ltac:(lia)); pose proof (pow2_pos w ltac:(lia)); lia).
  rewrite (Z.mul_comm (2 ^ k)), Z.div_add by (pose proof (pow2_pos k ltac:(lia)); lia).
  rewrite (Z.div_small (v mod 2 ^ k)) by (apply Z.mod_pos_bound; apply pow2_pos; lia).
  rewrite Z.add_0_l. unfold v. rewrite Z.div_div by (try apply pow2_pos; pose proof (pow2_pos (8*bi) ltac:(lia)); lia).
  rewrite <- pow_split by lia. rewrite <- Et. reflexivity.
Qed.

Lemma read_tail_bool_val buf r : bytes buf -> 0 <= r_head r -> 0 <= r_tail r -> r_tail r / 8 < len buf ->
  read_tail_bool r buf =
    if len buf - r_head r - r_tail r / 8 + 2 <? 0 then Err TailBoolOutOfRange
    else Ok (Z.odd (be buf / 2 ^ r_tail r), mkReader (r_head r) (r_tail r + 1)).
Proof.
  intros Hb Hh Ht Hlt.
  set (bi := r_tail r / 8) in *. set (k := r_tail r mod 8).
  assert (Hk : 0 <= k < 8) by (unfold k; apply Z.mod_pos_bound; lia).
  assert (Hbi : 0 <= bi) by (unfold bi; dml).
  assert (Et : r_tail r = 8 * bi + k) by (unfold bi, k; dml).
  unfold read_tail_bool. fold bi k.
  destruct (Z.ltb_spec (len buf - r_head r - bi + 2) 0); [reflexivity|].
  rewrite !usub_ok by lia. cbn [bind]. rewrite usub_ok by lia. cbn [bind].
  rewrite (idx_nth buf _ 0) by lia. cbn [bind].
  f_equal. f_equal.
  rewrite nth_be by (auto; unfold len in *; lia).
  replace (len buf - 1 - Z.of_nat (Z.to_nat (len buf - bi - 1))) with bi by lia.
  rewrite pow256 by lia. set (v := be buf / 2 ^ (8 * bi)).
  rewrite Z.shiftl_mul_pow2, Z.shiftr_div_pow2 by lia.
  assert (E : be buf / 2 ^ r_tail r = v / 2 ^ k).
  { unfold v. rewrite Z.div_div by (try apply pow2_pos; pose proof (pow2_pos (8*bi) ltac:(lia)); lia).
    rewrite <- pow_split by lia. now rewrite <- Et. }
  rewrite E.
  assert (Hgen : forall x, ((x * 2 ^ (7 - k)) mod 256) / 2 ^ 7 = (x mod 2 ^ (k + 1)) / 2 ^ k).
  { intros x.
    assert (E8 : 256 = 2 ^ (k + 1) * 2 ^ (7 - k)) by (rewrite <- pow_split by lia; replace (k + 1 + (7 - k)) with 8 by lia; reflexivity).
    assert (E7 : 2 ^ 7 = 2 ^ (7 - k) * 2 ^ k) by (rewrite <- pow_split by lia; replace (7 - k + k) with 7 by lia; reflexivity).
    rewrite E7, E8.
    rewrite Z.mul_mod_distr_r by (pose proof (pow2_pos (k+1) ltac:(lia)); pose proof (pow2_pos (7-k) ltac:(lia)); lia).
    rewrite <- Z.div_div by (try apply pow2_pos; pose proof (pow2_pos (7-k) ltac:(lia)); lia).
    rewrite Z.div_mul by (pose proof (pow2_pos (7-k) ltac:(lia)); lia). reflexivity. }
  rewrite Hgen.
  assert (E1 : (v mod 256) mod 2 ^ (k + 1) = v mod 2 ^ (k + 1)).
  { symmetry. apply Zmod_div_mod; try (apply pow2_pos; lia); try lia.
    exists (2 ^ (7 - k)). rewrite <- pow_split by lia. replace (7 - k + (k + 1)) with 8 by lia. reflexivity. }
  rewrite E1. rewrite (pow_split k 1) by lia.
  rewrite Z.rem_mul_r by (pose proof (pow2_pos k ltac:(lia)); lia).
  rewrite (Z.mul_comm (2 ^ k)), Z.div_add by (pose proof (pow2_pos k ltac:(lia)); lia).
  rewrite (Z.div_small (v mod 2 ^ k)) by (apply Z.mod_pos_bound; apply pow2_pos; lia).
  rewrite Z.add_0_l. change (2 ^ 1) with 2. rewrite Zmod_odd. destruct (Z.odd _); reflexivity.
Qed.
