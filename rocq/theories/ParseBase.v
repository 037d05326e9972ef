(* Frame parser on arbitrary byte strings: readers, arithmetic decoder, TNS data and levels of a pair. *)
From Coq Require Import ZArith List Bool Lia Psatz.
From Verif Require Import Base Config Reader AcDec AcSpec BufLemmas AcDecProofs TablesProofs TablesSpec TablesTns SideInfo ArithDec FrameDec FrameEnc FrameSpec FrameProofs.
Import ListNotations.
Local Open Scope Z_scope.

(* m does not panic, and its value if any satisfies P *)
Definition post {A} (m : res A) (P : A -> Prop) : Prop :=
  match m with Ok a => P a | Err _ => True | Panic => False end.

Lemma post_bind {A B} (m : res A) (f : A -> res B) (P : A -> Prop) (Q : B -> Prop) :
  post m P -> (forall a, P a -> post (f a) Q) -> post (bind m f) Q.
Proof. destruct m; cbn; auto. Qed.
Lemma post_mono {A} (m : res A) (P Q : A -> Prop) : post m P -> (forall a, P a -> Q a) -> post m Q.
Proof. destruct m; cbn; auto. Qed.

(* ---- readers ---- *)

Lemma read_tail_usize_post r buf n : 0 <= r_head r -> 0 <= r_tail r -> 1 <= n <= 25 ->
  post (read_tail_usize r buf n) (fun '(v, r') => 0 <= v < 2 ^ n /\ r_head r' = r_head r /\ r_tail r' = r_tail r + n /\ (n < 8 -> r_tail r' <= 8 * len buf)).
Proof.
  intros Hh Ht Hn. unfold read_tail_usize.
  set (bi := r_tail r / 8). set (bt := r_tail r mod 8).
  assert (Hbi : 0 <= bi) by (unfold bi; dml). assert (Hbt : 0 <= bt < 8) by (unfold bt; dml).
  assert (Hsp : r_tail r = 8 * bi + bt) by (unfold bi, bt; dml).
  set (nb := n / 8 + _).
  assert (Hnb : 1 <= nb) by (unfold nb; assert (0 <= n / 8) by dml; destruct (_ && _); lia).
  destruct (Z.ltb_spec (len buf - r_head r - bi - nb) 0); [exact I|].
  rewrite usub_ok by lia. cbn [bind]. rewrite usub_ok by lia. cbn [bind].
  unfold slice. destruct (Z.ltb_spec (len buf - bi - nb) 0); [lia|].
  destruct (Z.ltb_spec (len buf - bi - nb + nb) (len buf - bi - nb)); [lia|].
  destruct (Z.ltb_spec (len buf) (len buf - bi - nb + nb)); [lia|]. cbn [orb bind].
  rewrite usub_ok by lia. cbn [bind]. rewrite usub_ok by lia. cbn [bind].
  destruct (Z.leb_spec 32 (32 - n - bt)); [lia|]. destruct (Z.leb_spec 32 (32 - n - bt + bt)); [lia|].
  set (v := if _ : bool then _ else _). cbn [post r_head r_tail]. split; [|split; [reflexivity|split; [reflexivity|]]].
  2:{ intros Hn8. unfold nb in *. replace (n / 8) with 0 in * by dml. destruct (Z.ltb_spec (8 - bt) n); cbn [andb] in *; [|lia].
      destruct (Z.ltb_spec n 8); lia. }
  rewrite Z.shiftr_div_pow2 by lia. set (y := Z.shiftl v (32 - n - bt) mod 2 ^ 32).
  assert (Hy : 0 <= y < 2 ^ 32) by (apply Z.mod_pos_bound; lia).
  replace (32 - n - bt + bt) with (32 - n) by lia.
  split; [apply Z.div_pos; [lia|apply Z.pow_pos_nonneg; lia]|].
  apply Z.div_lt_upper_bound; [apply Z.pow_pos_nonneg; lia|]. rewrite <- Z.pow_add_r by lia.
  replace (32 - n + n) with 32 by lia. lia.
Qed.

Lemma read_tail_bool_post r buf : 0 <= r_head r -> 0 <= r_tail r -> 3 <= r_head r \/ r_tail r < 8 * len buf ->
  post (read_tail_bool r buf) (fun '(v, r') => r_head r' = r_head r /\ r_tail r' = r_tail r + 1 /\ r_tail r' <= 8 * len buf /\ r_tail r' <= 8 * (len buf - r_head r) + 24).
Proof.
  intros Hh Ht Hc. unfold read_tail_bool.
  set (bi := r_tail r / 8). set (bt := r_tail r mod 8).
  assert (Hbi : 0 <= bi /\ r_tail r < 8 * bi + 8 /\ 8 * bi <= r_tail r) by (unfold bi; dml).
  destruct (Z.ltb_spec (len buf - r_head r - bi + 2) 0); [exact I|].
  assert (bi < len buf) by lia.
  rewrite usub_ok by lia. cbn [bind]. rewrite usub_ok by lia. cbn [bind].
  rewrite (idx_nth buf _ 0) by lia. cbn [bind post r_head r_tail]. lia.
Qed.

Lemma read_head_byte_post r buf : bytes buf -> 0 <= r_head r ->
  post (read_head_byte r buf) (fun '(v, r') => 0 <= v < 256 /\ r_head r' = r_head r + 1 /\ r_tail r' = r_tail r).
Proof.
  intros Hb Hh. unfold read_head_byte. destruct (nth_error buf (Z.to_nat (r_head r))) eqn:E; [|exact I].
  cbn [post r_head r_tail]. split; [|auto].
  apply nth_error_In in E. apply (proj1 (Forall_forall _ _) Hb _ E).
Qed.

(* ---- arithmetic decoder on arbitrary data ---- *)

Definition dwf (st : acdec) : Prop := 0 <= d_low st /\ 65536 <= d_range st < 16777216.

Definition radv (r r' : reader) : Prop := r_head r <= r_head r' /\ r_tail r' = r_tail r.


Lemma in_slice {A} (l : list A) n m x : In x (firstn m (skipn n l)) -> In x l.
Proof.
  intros H. rewrite <- (firstn_skipn n l). apply in_or_app. right.
  rewrite <- (firstn_skipn m (skipn n l)). apply in_or_app. left. exact H.
Qed.

Lemma dec_renorm_post buf : bytes buf -> forall fuel r st,
  0 <= r_head r -> 0 <= d_low st -> 65536 <= d_range st * 256 ^ Z.of_nat fuel -> d_range st < 16777216 ->
  post (dec_renorm fuel buf r st) (fun '(st', r') => dwf st' /\ radv r r' /\ d_range st' = d_range st * 256 ^ (r_head r' - r_head r)).
Proof.
  intros Hb. induction fuel; intros r st Hh Hl Hr Hu; cbn [dec_renorm].
  - destruct (Z.ltb_spec (d_range st) 65536); [cbn in Hr; lia|]. cbn [post]. rewrite Z.sub_diag, Z.pow_0_r. unfold dwf, radv. lia.
  - destruct (Z.ltb_spec (d_range st) 65536); [|cbn [post]; rewrite Z.sub_diag, Z.pow_0_r; unfold dwf, radv; lia].
    eapply post_bind; [apply read_head_byte_post; assumption|]. intros [b r'] (Hb1 & H1 & H2).
    eapply post_mono; [apply IHfuel|].
    + lia.
    + cbn [d_low]. assert (0 <= (d_low st * 256) mod 16777216) by (apply Z.mod_pos_bound; lia). lia.
    + cbn [d_range]. rewrite Nat2Z.inj_succ, Z.pow_succ_r in Hr by lia. lia.
    + cbn [d_range]. lia.
    + intros [st' r2] (W & [A1 A2] & A3). split; [exact W|]. split; [unfold radv; lia|]. rewrite A3. cbn [d_range].
      replace (r_head r2 - r_head r) with (1 + (r_head r2 - r_head r')) by lia. rewrite Z.pow_add_r by lia. lia.
Qed.

Lemma ac_decode_post buf r st m : bytes buf -> valid_model m -> 0 <= r_head r -> dwf st ->
  post (ac_decode buf r st (fst m) (snd m)) (fun '(v, st', r') => 0 <= v < msize m /\ dwf st' /\ radv r r' /\
    1024 * d_range st' <= d_range st * snd (msym m v) * 256 ^ (r_head r' - r_head r)).
Proof.
  intros Hb V Hh [Hl Hr]. unfold ac_decode. rewrite Z.shiftr_div_pow2, Z.shiftl_mul_pow2 by lia. change (2 ^ 10) with 1024.
  set (q := d_range st / 1024). assert (Hq : 64 <= q < 16384) by (unfold q; dml).
  destruct (Z.leb_spec (q * 1024) (d_low st)) as [|Hlo]; [exact I|].
  pose proof (vm_ne m V) as Hne.
  rewrite usub_ok by (unfold len; lia). cbn [bind].
  destruct (ac_search_cover m (d_low st) q V ltac:(lia) ltac:(lia)) as (i & Hi & E & Hrg).
  replace (Z.to_nat (len (fst m) - 1)) with (length (fst m) - 1)%nat by (unfold len; lia). rewrite E. cbn [bind].
  pose proof (msym_valid m i V Hi) as (S1 & S2 & S3). unfold msym in *; cbn [fst snd] in *. unfold msize in *.
  rewrite (idx_nth (fst m) i 0), (idx_nth (snd m) i 0) by (unfold len; pose proof (vm_len m V); lia). cbn [bind].
  rewrite usub_ok by lia. cbn [bind].
  eapply post_bind; [apply dec_renorm_post; [exact Hb|exact Hh|cbn [d_low]; lia| |]|].
  - cbn [d_range]. change (256 ^ Z.of_nat 4) with 4294967296. nia.
  - cbn [d_range]. nia.
  - intros [st' r'] (W & A & A3). cbn [post]. split; [exact Hi|]. split; [exact W|]. split; [exact A|].
    rewrite A3. cbn [d_range]. cbn [snd]. assert (1024 * q <= d_range st) by (unfold q; dml).
    assert (0 < 256 ^ (r_head r' - r_head r)) by (apply Z.pow_pos_nonneg; [lia|destruct A; lia]). 
    rewrite !Z.mul_assoc. apply Z.mul_le_mono_nonneg_r; [lia|]. apply Z.mul_le_mono_nonneg_r; lia.
Qed.

(* ---- information: the head bytes read bound the cost of the symbols decoded ---- *)

(* costs are in units of 1/E bit *)
Definition E : Z := 2048.
Lemma E_pos : 0 < E. Proof. reflexivity. Qed.

(* range * 2^(C/E) <= 256^(head bytes read) *)
Definition binfo (r : reader) (st : acdec) (C : Z) : Prop := d_range st ^ E * 2 ^ C <= 256 ^ (E * r_head r).

Lemma ac_dec_init_post buf r : bytes buf -> 0 <= r_head r ->
  post (ac_dec_init buf r) (fun '(st, r') => dwf st /\ r_head r' = r_head r + 3 /\ r_tail r' = r_tail r /\ (r_head r = 0 -> binfo r' st 0)).
Proof.
  intros Hb Hh. unfold ac_dec_init, read_head_u24.
  destruct (Z.ltb_spec (r_head r + 2) (len buf)); [|exact I].
  unfold slice. destruct (Z.ltb_spec (r_head r) 0); [lia|]. destruct (Z.ltb_spec (r_head r + 3) (r_head r)); [lia|].
  destruct (Z.ltb_spec (len buf) (r_head r + 3)); [lia|]. cbn [orb bind post r_head r_tail].
  unfold dwf; cbn [d_low d_range]. split; [|split; [reflexivity|split; [reflexivity|]]].
  2:{ intros ->. unfold binfo. cbn [d_range r_head]. rewrite Z.pow_0_r, Z.mul_1_r. change (0 + 3) with 3. rewrite (Z.mul_comm E 3), Z.pow_mul_r by (pose proof E_pos; lia).
      apply Z.pow_le_mono_l. change (256 ^ 3) with 16777216. lia. }
  split; [|lia].
  apply be_bound. apply Forall_forall. intros x Hx. apply (proj1 (Forall_forall _ _) Hb).
  now apply in_slice in Hx.
Qed.

Lemma info_step e R R' f n H c C : 0 < e -> 0 <= R' -> 0 <= R -> 0 <= f -> 0 <= n -> 0 <= c -> 0 <= C -> 0 <= H ->
  R ^ e * 2 ^ C <= H -> 1024 * R' <= R * f * 256 ^ n -> 2 ^ c * f ^ e <= 1024 ^ e -> R' ^ e * 2 ^ (C + c) <= H * 256 ^ (e * n).
Proof.
  intros He HR' HR Hf Hn Hc HC HH H1 H2 H3.
  assert (P : (1024 * R') ^ e <= (R * f * 256 ^ n) ^ e) by (apply Z.pow_le_mono_l; nia).
  rewrite !Z.pow_mul_l, <- Z.pow_mul_r in P by lia. rewrite (Z.mul_comm n e) in P.
  rewrite Z.pow_add_r by lia.
  assert (K : 0 < 1024 ^ e) by (apply Z.pow_pos_nonneg; lia).
  assert (KC : 0 < 2 ^ C) by (apply Z.pow_pos_nonneg; lia). assert (Kc : 0 < 2 ^ c) by (apply Z.pow_pos_nonneg; lia).
  assert (KN : 0 < 256 ^ (e * n)) by (apply Z.pow_pos_nonneg; nia).
  assert (KR : 0 <= R ^ e) by (apply Z.pow_nonneg; lia). assert (KR' : 0 <= R' ^ e) by (apply Z.pow_nonneg; lia).
  assert (Kf : 0 <= f ^ e) by (apply Z.pow_nonneg; lia).
  set (a := 1024 ^ e) in *. set (x := R' ^ e) in *. set (y := R ^ e) in *. set (g := f ^ e) in *. set (m := 256 ^ (e * n)) in *.
  set (u := 2 ^ C) in *. set (v := 2 ^ c) in *. clearbody a x y g m u v.
  apply Z.mul_le_mono_pos_l with (p := a); [exact K|].
  transitivity ((y * g * m) * (u * v)); [rewrite Z.mul_assoc; apply Z.mul_le_mono_nonneg_r; nia|].
  transitivity ((y * u) * (v * g) * m); [apply Z.eq_le_incl; ring|].
  transitivity (H * a * m); [|apply Z.eq_le_incl; ring].
  apply Z.mul_le_mono_nonneg_r; [lia|]. apply Z.mul_le_mono_nonneg; nia.
Qed.

Definition cost_lo (c f : Z) : Prop := 0 <= c /\ 2 ^ c * f ^ E <= 1024 ^ E.

Lemma binfo_step r st r' st' f c C : binfo r st C -> 0 <= C -> dwf st -> dwf st' -> 0 <= r_head r -> radv r r' -> 0 <= f -> cost_lo c f ->
  1024 * d_range st' <= d_range st * f * 256 ^ (r_head r' - r_head r) -> binfo r' st' (C + c).
Proof.
  intros B HC [_ W] [_ W'] Hh [A _] Hf [Hc Hl] HS. unfold binfo in *.
  replace (E * r_head r') with (E * r_head r + E * (r_head r' - r_head r)) by ring.
  pose proof E_pos as HE. rewrite (Z.pow_add_r 256) by nia.
  apply (info_step E (d_range st) _ f); auto; try lia.
Qed.

Lemma cost_lo_0 f : 0 <= f <= 1024 -> cost_lo 0 f.
Proof. intros H. split; [lia|]. rewrite Z.pow_0_r, Z.mul_1_l. apply Z.pow_le_mono_l. lia. Qed.

Lemma cost_ceil_lo c f : 1 <= c -> cost_is_ceil c f -> cost_lo (c - 1) f.
Proof. intros H [_ H2]. split; [lia|]. unfold E. apply Z.lt_le_incl. exact H2. Qed.

Lemma binfo_bound r st C : binfo r st C -> 0 <= C -> dwf st -> 0 <= r_head r -> C <= 8 * E * (r_head r - 2).
Proof.
  intros B HC [_ W] Hh. unfold binfo in B. pose proof E_pos as HE.
  assert (P : (2 ^ 16) ^ E <= d_range st ^ E) by (apply Z.pow_le_mono_l; change (2 ^ 16) with 65536; lia).
  rewrite <- Z.pow_mul_r in P by lia. change 256 with (2 ^ 8) in B. rewrite <- Z.pow_mul_r in B by nia.
  assert (P2 : 2 ^ (16 * E + C) <= 2 ^ (8 * (E * r_head r))).
  { rewrite Z.pow_add_r by lia. assert (0 < 2 ^ C) by (apply Z.pow_pos_nonneg; lia).
    transitivity (d_range st ^ E * 2 ^ C); [|exact B]. apply Z.mul_le_mono_nonneg_r; lia. }
  apply Z.pow_le_mono_r_iff in P2; [|lia|nia]. lia.
Qed.

(* head advances, tail stays, information never decreases *)
Definition adv (r : reader) (st : acdec) (r' : reader) (st' : acdec) : Prop :=
  radv r r' /\ forall C, 0 <= C -> binfo r st C -> binfo r' st' C.
Lemma adv_refl r st : adv r st r st.
Proof. split; [unfold radv; lia|auto]. Qed.
Lemma adv_trans r1 s1 r2 s2 r3 s3 : adv r1 s1 r2 s2 -> adv r2 s2 r3 s3 -> adv r1 s1 r3 s3.
Proof. intros [[A1 A2] B] [[C1 C2] D]. split; [unfold radv; lia|auto]. Qed.

Lemma ac_decode_adv buf r st m : bytes buf -> valid_model m -> 0 <= r_head r -> dwf st ->
  post (ac_decode buf r st (fst m) (snd m)) (fun '(v, st', r') => 0 <= v < msize m /\ dwf st' /\ adv r st r' st').
Proof.
  intros Hb V Hh W. eapply post_mono; [apply ac_decode_post; assumption|]. intros [[v st'] r'] (Hv & W' & A & HS).
  split; [exact Hv|]. split; [exact W'|]. split; [exact A|]. intros C HC B.
  pose proof (msym_valid m v V Hv) as (S1 & S2 & S3).
  rewrite <- (Z.add_0_r C). eapply (binfo_step r st r' st' (snd (msym m v))); eauto; [lia|]. apply cost_lo_0. lia.
Qed.

Lemma spec_cost pk s : 0 <= pk < 64 -> 0 <= s < 17 ->
  cost_lo (nth (Z.to_nat s) (nth (Z.to_nat pk) AC_SPEC_BITS []) 0 - 1) (snd (msym (spec_model pk) s)).
Proof.
  intros Hp Hs. destruct (spec_model_ok pk Hp) as [V M].
  assert (L : length (snd (spec_model pk)) = 17%nat) by (pose proof (vm_len _ V); unfold msize in M; lia).
  apply cost_ceil_lo.
  - pose proof (zrange_forall (fun p => forallb (fun s => 1 <=? nth (Z.to_nat s) (nth (Z.to_nat p) AC_SPEC_BITS []) 0) (zrange 17)) 64 ltac:(vm_compute; reflexivity) pk Hp) as Q.
    cbn beta in Q. pose proof (zrange_forall _ 17 Q s Hs) as Q2. cbn beta in Q2. lia.
  - unfold msym, spec_model; cbn [fst snd]. apply (costs_ok_nth _ _ _ _ spec_costs_check).
    + change (length AC_SPEC_FREQ) with 64%nat. lia.
    + unfold spec_model in L; cbn [snd] in L. rewrite L. lia.
Qed.

(* ---- TNS ---- *)

Definition rok (r : reader) : Prop := 3 <= r_head r /\ 0 <= r_tail r.

Lemma radv_rok r r' : radv r r' -> rok r -> rok r'.
Proof. unfold radv, rok. lia. Qed.
Lemma radv_refl r : radv r r.
Proof. unfold radv; lia. Qed.
Lemma radv_trans a b c : radv a b -> radv b c -> radv a c.
Proof. unfold radv; lia. Qed.

Definition in_0_16 (x : Z) : Prop := 0 <= x <= 16.

Lemma Forall_upd {A} (P : A -> Prop) l n v : Forall P l -> P v -> Forall P (upd l n v).
Proof. intros H Hv. revert n. induction H; intros [|n]; cbn [upd]; auto. Qed.
Lemma length_upd {A} (l : list A) n v : length (upd l n v) = length l.
Proof. revert n. induction l; intros [|n]; cbn [upd length]; auto. Qed.
Lemma store_post l i v (P : Z -> Prop) : 0 <= i < len l -> Forall P l -> P v ->
  post (store l i v) (fun l' => len l' = len l /\ Forall P l').
Proof.
  intros Hi Hl Hv. unfold store. destruct (Z.ltb_spec i 0); [lia|]. unfold len in *.
  destruct (Z.leb_spec (Z.of_nat (length l)) i); [lia|]. cbn [orb post]. rewrite length_upd. split; [reflexivity|now apply Forall_upd].
Qed.

Lemma adv_rok r st r' st' : adv r st r' st' -> rok r -> rok r'.
Proof. intros [A _]. now apply radv_rok. Qed.

Lemma dec_tns_coefs_post buf f : bytes buf -> 0 <= f < 2 -> forall n k r st t,
  0 <= k -> k + Z.of_nat n <= 8 -> rok r -> dwf st -> len t = 16 -> Forall in_0_16 t ->
  post (dec_tns_coefs n k f buf r st t) (fun '(t', st', r') => len t' = 16 /\ Forall in_0_16 t' /\ dwf st' /\ adv r st r' st').
Proof.
  intros Hb Hf. induction n; intros k r st t Hk Hn Hr Hst Hlt Ht; cbn [dec_tns_coefs].
  - cbn [post]. auto using adv_refl.
  - destruct (tns_coef_rows k ltac:(lia)) as [R1 R2]. destruct (tns_coef_model_ok k ltac:(lia)) as [V M].
    rewrite R1, R2. cbn [bind].
    eapply post_bind; [apply ac_decode_adv; auto; unfold rok in Hr; lia|]. intros [[v st'] r'] (Hv & W & A).
    eapply post_bind; [apply (store_post t (f * 8 + k) v in_0_16); [lia|exact Ht|unfold in_0_16; lia]|].
    intros t' [L' F']. eapply post_mono; [apply IHn; eauto using adv_rok; lia|].
    intros [[t2 st2] r2] (P1 & P2 & P3 & P4). eauto 6 using adv_trans.
Qed.

Definition in_0_8 (x : Z) : Prop := 0 <= x <= 8.
Definition flag01 (x : Z) : Prop := x = 0 \/ x = 1.

Lemma dec_tns_filters_post buf w : bytes buf -> 0 <= w < 2 -> forall flags f r st t,
  Forall flag01 flags -> 0 <= f -> f + len flags <= 2 -> rok r -> dwf st -> len t = 16 -> Forall in_0_16 t ->
  post (dec_tns_filters flags f w buf r st t)
    (fun '(o, t', st', r') => len o = len flags /\ Forall in_0_8 o /\ len t' = 16 /\ Forall in_0_16 t' /\ dwf st' /\ adv r st r' st').
Proof.
  intros Hb Hw. induction flags as [|g flags IH]; intros f r st t Hfl Hf Hn Hr Hst Hlt Ht; cbn [dec_tns_filters].
  - cbn [post]. split; [reflexivity|]. auto 6 using adv_refl.
  - inversion Hfl as [|? ? Hg Hfl']; subst. assert (len (g :: flags) = 1 + len flags) by (unfold len; cbn [length]; lia).
    destruct (Z.ltb_spec 0 g).
    + destruct (tns_order_rows w Hw) as [R1 R2]. destruct (tns_order_model_ok w Hw) as [V M].
      rewrite R1, R2. cbn [bind].
      eapply post_bind; [apply ac_decode_adv; auto; unfold rok in Hr; lia|]. intros [[v st'] r'] (Hv & W & A).
      eapply post_bind; [apply dec_tns_coefs_post; eauto using adv_rok; unfold len in *; lia|].
      intros [[t' st2] r2] (P1 & P2 & P3 & P4).
      assert (A2 : adv r st r2 st2) by eauto using adv_trans.
      eapply post_bind; [apply IH; eauto using adv_rok; lia|].
      intros [[[o t3] st3] r3] (Q1 & Q2 & Q3 & Q4 & Q5 & Q6). cbn [post].
      split; [unfold len in *; cbn [length]; lia|]. split; [constructor; [unfold in_0_8; lia|exact Q2]|]. eauto 6 using adv_trans.
    + eapply post_bind; [apply IH; eauto using adv_rok; lia|].
      intros [[[o t3] st3] r3] (Q1 & Q2 & Q3 & Q4 & Q5 & Q6). cbn [post].
      split; [unfold len in *; cbn [length]; lia|]. split; [constructor; [destruct Hg; unfold in_0_8; lia|exact Q2]|]. auto.
Qed.

Lemma decode_tns_data_post buf r si st nbits d : bytes buf -> rok r -> dwf st ->
  len (s_rc_order si) = 2 -> Forall flag01 (s_rc_order si) -> 1 <= s_num_tns si <= 2 ->
  post (decode_tns_data buf r si st nbits d)
    (fun '(t, o, st', r') => len o = 2 /\ Forall in_0_8 o /\ len t = 16 /\ Forall in_0_16 t /\ dwf st' /\ adv r st r' st').
Proof.
  intros Hb Hr Hst Hl Hf Hn. unfold decode_tns_data. set (n := Z.to_nat (s_num_tns si)).
  assert (Hfn : Forall flag01 (firstn n (s_rc_order si)) /\ Forall flag01 (skipn n (s_rc_order si))).
  { apply Forall_app. now rewrite firstn_skipn. }
  destruct Hfn as [Hf1 Hf2].
  eapply post_bind; [apply dec_tns_filters_post; auto|].
  - unfold tns_weighting, b2z. destruct (_ <? _); lia.
  - lia.
  - unfold len in *. rewrite firstn_length. lia.
  - apply Forall_forall. intros x Hx. apply repeat_spec in Hx. subst. unfold in_0_16; lia.
  - intros [[[o t] st'] r'] (Q1 & Q2 & Q3 & Q4 & Q5 & Q6). cbn [post].
    split. { unfold len in *. rewrite app_length, skipn_length. rewrite firstn_length in Q1. lia. }
    split; [|auto]. apply Forall_app. split; [exact Q2|].
    eapply Forall_impl; [|exact Hf2]. unfold flag01, in_0_8. intros; lia.
Qed.

(* ---- spectrum ---- *)

(* tail bits read never exceed the frame *)
Definition rin (buf : list Z) (r : reader) : Prop := rok r /\ r_tail r <= 8 * len buf.

Lemma read_bool_in buf r : rin buf r ->
  post (read_tail_bool r buf) (fun '(_, r') => rin buf r' /\ r_tail r' = r_tail r + 1 /\ r_head r' = r_head r /\ r_tail r' <= 8 * (len buf - r_head r') + 24).
Proof.
  intros [[H1 H2] H3]. eapply post_mono; [apply read_tail_bool_post; lia|].
  intros [b r'] (A & B & C & D). unfold rin, rok. lia.
Qed.

Lemma radv_rin buf r r' : radv r r' -> rin buf r -> rin buf r'.
Proof. unfold radv, rin, rok. lia. Qed.

(* escape bits read so far: with levels 0..lev-1, each line is below 2^lev; 2 bits per level (none at level 0 in lsb mode) *)
Definition esc_bits (lsb : bool) (lev : Z) : Z := if lsb then 2 * Z.max 0 (lev - 1) else 2 * lev.

(* cost lower bounds: symbol s at level lev in context t, and lev escapes *)
Definition scost (t lev s : Z) : Z :=
  nth (Z.to_nat s) (nth (Z.to_nat (nth (Z.to_nat (t + Z.min lev 3 * 1024)) AC_SPEC_LOOKUP 0)) AC_SPEC_BITS []) 0 - 1.
Fixpoint ecost (t : Z) (lev : nat) : Z := match lev with O => 0 | S l => ecost t l + scost t (Z.of_nat l) 16 end.
Definition pcost (t lev s : Z) : Z := ecost t (Z.to_nat lev) + (if lev <? 14 then scost t lev s else 0).

Definition levels_ok (buf : list Z) (lsb : bool) (t lev0 C : Z) (r : reader) (q : Z * Z * Z * Z * acdec * reader) : Prop :=
  let '(sym, lev, x0, x1, st, r') := q in
  lev0 <= lev <= 14 /\ 0 <= x0 < 2 ^ lev /\ 0 <= x1 < 2 ^ lev /\ 0 <= sym <= 16 /\ (lev < 14 -> sym < 16) /\ (lev = 14 -> sym = 16) /\
  dwf st /\ rin buf r' /\ r_tail r' = r_tail r + esc_bits lsb lev - esc_bits lsb lev0 /\ binfo r' st (C + pcost t lev sym).

Lemma Ok_inj {A} (a b : A) : Ok a = Ok b -> a = b.
Proof. now intros [= ->]. Qed.

Lemma scost_ok t lev : 0 <= t < 1024 -> 0 <= lev -> exists pk, idx AC_SPEC_LOOKUP (t + Z.min lev 3 * 1024) = Ok pk /\ 0 <= pk < 64 /\
  forall s, 0 <= s < 17 -> cost_lo (scost t lev s) (snd (msym (spec_model pk) s)).
Proof.
  intros Ht Hl. destruct (lookup_ok (t + Z.min lev 3 * 1024)) as (pk & E1 & Hpk); [lia|].
  exists pk. split; [exact E1|]. split; [exact Hpk|]. intros s Hs. unfold scost.
  rewrite (idx_nth _ _ 0) in E1. 2:{ change (len AC_SPEC_LOOKUP) with 4096. lia. }
  apply Ok_inj in E1. rewrite E1. now apply spec_cost.
Qed.

Lemma scost_nonneg t lev s : 0 <= t < 1024 -> 0 <= lev -> 0 <= s < 17 -> 0 <= scost t lev s.
Proof. intros Ht Hl Hs. destruct (scost_ok t lev Ht Hl) as (pk & _ & _ & H). apply (H s Hs). Qed.
Lemma ecost_nonneg t n : 0 <= t < 1024 -> 0 <= ecost t n.
Proof. intros Ht. induction n; cbn [ecost]; [lia|]. pose proof (scost_nonneg t (Z.of_nat n) 16 Ht ltac:(lia) ltac:(lia)). lia. Qed.
Lemma pcost_nonneg t lev s : 0 <= t < 1024 -> 0 <= lev -> 0 <= s < 17 -> 0 <= pcost t lev s.
Proof.
  intros Ht Hl Hs. unfold pcost. pose proof (ecost_nonneg t (Z.to_nat lev) Ht). pose proof (scost_nonneg t lev s Ht Hl Hs).
  destruct (_ <? _); lia.
Qed.

Lemma binfo_tail r r' st C : r_head r' = r_head r -> binfo r st C -> binfo r' st C.
Proof. unfold binfo. now intros ->. Qed.

Lemma dec_levels_post buf t lsb C : bytes buf -> 0 <= t < 1024 -> 0 <= C -> forall n lev sym x0 x1 r st,
  lev = 14 - Z.of_nat n -> 0 <= lev -> 0 <= x0 < 2 ^ lev -> 0 <= x1 < 2 ^ lev -> 0 <= sym <= 16 -> (lev = 14 -> sym = 16) ->
  dwf st -> rin buf r -> binfo r st (C + ecost t (Z.to_nat lev)) ->
  post (dec_levels n lev t sym x0 x1 lsb buf r st) (levels_ok buf lsb t lev C r).
Proof.
  intros Hb Ht HC. induction n; intros lev sym x0 x1 r st Hlev Hl0 H0 H1 Hs Hs16 W R B; cbn [dec_levels].
  - cbn [post levels_ok]. repeat split; try lia; try apply W; try apply R.
    unfold pcost. destruct (Z.ltb_spec lev 14); [lia|]. now rewrite Z.add_0_r.
  - destruct (scost_ok t lev Ht Hl0) as (pk & Ek & Hpk & Hcost). rewrite Ek. cbn [bind].
    destruct (spec_rows pk Hpk) as [R1 R2]. destruct (spec_model_ok pk Hpk) as [V M]. rewrite R1, R2. cbn [bind].
    assert (Hh : 0 <= r_head r) by (destruct R as [[? ?] ?]; lia).
    eapply post_bind; [apply ac_decode_post; auto|]. intros [[v st'] r'] (Hv & W' & A & HS).
    pose proof (msym_valid _ v V Hv) as (S1 & S2 & S3).
    assert (B' : binfo r' st' (C + ecost t (Z.to_nat lev) + scost t lev v)).
    { eapply (binfo_step r st r' st' (snd (msym (spec_model pk) v))); eauto; [pose proof (ecost_nonneg t (Z.to_nat lev) Ht); lia|lia|apply Hcost; lia]. }
    pose proof (radv_rin _ _ _ A R) as R'. destruct A as [A1 A2].
    assert (P2 : 2 ^ (lev + 1) = 2 * 2 ^ lev) by (rewrite Z.pow_add_r by lia; lia).
    destruct (Z.ltb_spec v 16).
    + cbn [post levels_ok]. repeat split; try lia; try apply W'; try apply R'.
      unfold pcost. destruct (Z.ltb_spec lev 14); [|lia]. now rewrite Z.add_assoc.
    + assert (v = 16) by lia. subst v.
      replace (C + ecost t (Z.to_nat lev) + scost t lev 16) with (C + ecost t (Z.to_nat (lev + 1))) in B'.
      2:{ replace (Z.to_nat (lev + 1)) with (S (Z.to_nat lev)) by lia. cbn [ecost]. rewrite Z2Nat.id by lia. lia. }
      destruct (negb lsb || (0 <? lev)) eqn:Eb.
      * eapply post_bind; [apply (read_bool_in _ _ R')|]. intros [b0 r1] (R1' & T1 & H1' & _).
        eapply post_bind; [apply (read_bool_in _ _ R1')|]. intros [b1 r2'] (R2' & T2 & H2' & _).
        rewrite !Z.shiftl_mul_pow2 by lia.
        eapply post_mono; [apply IHn; try assumption; try lia|].
        -- unfold b2z; destruct b0; lia.
        -- unfold b2z; destruct b1; lia.
        -- eapply binfo_tail; [|exact B']. congruence.
        -- intros [[[[[sy le] y0] y1] s3] r3] (B1 & B2 & B3 & B4 & B5 & B9 & B6 & B7 & B8 & B10).
           cbn [levels_ok]. repeat split; try lia; try apply B6; try apply B7; try exact B10.
           unfold esc_bits in *. destruct lsb; [|lia]. cbn [negb orb] in Eb. lia.
      * apply orb_false_iff in Eb as [Eb1 Eb2]. destruct lsb; [|discriminate].
        assert (lev = 0) by lia. subst lev.
        eapply post_mono; [apply IHn; try assumption; try lia|].
        intros [[[[[sy le] y0] y1] s3] r3] (B1 & B2 & B3 & B4 & B5 & B9 & B6 & B7 & B8 & B10).
        cbn [levels_ok]. repeat split; try lia; try apply B6; try apply B7; try exact B10.
        unfold esc_bits in *. lia.
Qed.

Lemma dec_sign_post buf x r : 0 <= x -> rin buf r ->
  post (dec_sign x buf r) (fun '(y, r') => Z.abs y = x /\ rin buf r' /\ r_tail r' = r_tail r + Z.sgn x /\ r_head r' = r_head r /\
    (0 < x -> r_tail r' <= 8 * (len buf - r_head r') + 24)).
Proof.
  intros Hx R. unfold dec_sign. destruct (Z.ltb_spec 0 x).
  - eapply post_bind; [apply (read_bool_in _ _ R)|]. intros [b r'] (R' & T & HH & TT). cbn [post].
    split; [destruct b; lia|]. split; [exact R'|]. lia.
  - cbn [post]. split; [lia|]. split; [exact R|]. lia.
Qed.

Lemma land3_range s : 0 <= Z.land s 3 <= 3.
Proof. change 3 with (Z.ones 2) at 1 2. rewrite Z.land_ones by lia. pose proof (Z.mod_pos_bound s (2 ^ 2)). change (2 ^ 2) with 4 in *. lia. Qed.

(* magnitude bound of a parsed line, and the price of magnitude in tail bits *)
Definition LINE_MAX : Z := 81919.
Definition PRICE : Z := 3511.

Lemma pair_price lsb lev sym y0 y1 : 0 <= lev <= 14 -> 0 <= y0 < 2 ^ lev -> 0 <= y1 < 2 ^ lev -> 0 <= sym <= 16 ->
  (lev < 14 -> sym < 16) -> (lev = 14 -> sym = 16) ->
  let x0 := y0 + Z.shiftl (Z.land sym 3) lev in
  let x1 := y1 + Z.shiftl (Z.shiftr sym 2) lev in
  0 <= x0 <= LINE_MAX /\ 0 <= x1 <= LINE_MAX /\
  x0 + x1 <= PRICE * (esc_bits lsb lev + Z.sgn x0 + Z.sgn x1).
Proof.
  intros Hl H0 H1 Hs Hs1 Hs2 x0 x1.
  pose proof (land3_range sym) as Ha.
  unfold x0, x1, esc_bits, LINE_MAX, PRICE. clear x0 x1. rewrite !Z.shiftl_mul_pow2, Z.shiftr_div_pow2 by lia. change (2 ^ 2) with 4.
  assert (Hb : 0 <= sym / 4 <= 4 /\ (sym < 16 -> sym / 4 <= 3)) by dml.
  destruct (Z.eq_dec lev 14) as [->|].
  - specialize (Hs2 eq_refl). subst sym. change (2 ^ 14) with 16384 in *. change (Z.land 16 3) with 0 in *. change (16 / 4) with 4 in *.
    destruct lsb; lia.
  - specialize (Hs1 ltac:(lia)). clear Hs2. set (a := Z.land sym 3) in *. set (b := sym / 4) in *. clearbody a b.
    assert (Hc : lev = 0 \/ lev = 1 \/ lev = 2 \/ lev = 3 \/ lev = 4 \/ lev = 5 \/ lev = 6 \/ lev = 7 \/ lev = 8 \/ lev = 9 \/ lev = 10 \/ lev = 11 \/ lev = 12 \/ lev = 13) by lia.
    repeat (destruct Hc as [->|Hc]); [..|subst lev];
    match goal with |- context [2 ^ ?k] => let v := eval vm_compute in (2 ^ k) in change (2 ^ k) with v in * end; destruct lsb; lia.
Qed.

