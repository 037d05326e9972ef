(* The register level decoder follows the interval coder of AcSpec. *)
From Coq Require Import ZArith List Bool Lia ZifyBool.
From Verif Require Import Base Reader AcDec AcSpec AcSpecProofs BufLemmas.
Import ListNotations.
Local Open Scope Z_scope.

Lemma valid_modelb_ok m : valid_modelb m = true -> valid_model m.
Proof.
  unfold valid_modelb. rewrite !andb_true_iff. intros (((((A & B) & C) & D) & E) & F).
  rewrite forallb_forall in D, E.
  apply Nat.eqb_eq in A. apply Nat.ltb_lt in B. apply Z.eqb_eq in C, F.
  constructor; auto.
  - intros i Hi. apply Z.eqb_eq. apply D. apply in_seq. lia.
  - intros i Hi. apply Z.ltb_lt. apply E. apply in_seq. lia.
Qed.

Lemma vm_mono m i j : valid_model m -> (i < j < length (fst m))%nat ->
  nth i (fst m) 0 + nth i (snd m) 0 <= nth j (fst m) 0.
Proof.
  intros V. induction j as [|j IH]; intros H; [lia|].
  rewrite (vm_step m V j) by lia. destruct (Nat.eq_dec i j) as [->|]; [lia|].
  specialize (IH ltac:(lia)). pose proof (vm_pos m V j ltac:(lia)). lia.
Qed.

Lemma msym_valid m i : valid_model m -> 0 <= i < msize m -> valid_sym (msym m i).
Proof.
  intros V Hi. unfold msize in Hi. unfold valid_sym, msym; cbn [fst snd].
  set (k := Z.to_nat i). assert (Hk : (k < length (fst m))%nat) by lia.
  split; [|split].
  - destruct k; [rewrite (vm_0 m V); lia|]. pose proof (vm_mono m 0 (S k) V ltac:(lia)). rewrite (vm_0 m V) in H.
    pose proof (vm_pos m V 0%nat ltac:(lia)). lia.
  - apply (vm_pos m V k Hk).
  - rewrite <- (vm_tot m V). destruct (Nat.eq_dec k (length (fst m) - 1)) as [->|]; [lia|].
    pose proof (vm_mono m k (length (fst m) - 1) V ltac:(lia)). pose proof (vm_pos m V (length (fst m) - 1)%nat ltac:(lia)). lia.
Qed.

(* head value: the first n + 3 bytes *)
Definition hv (buf : list Z) (n : Z) : Z := be buf / 2 ^ (8 * (len buf - n - 3)).

Lemma hv_prefix buf n k : 0 <= k -> n + k + 3 <= len buf -> hv buf n = hv buf (n + k) / 256 ^ k.
Proof.
  intros. unfold hv. rewrite pow256 by lia.
  rewrite Z.div_div by (try apply pow2_pos; try lia; pose proof (pow2_pos (8 * (len buf - (n + k) - 3)) ltac:(lia)); lia).
  rewrite <- Z.pow_add_r by lia. do 2 f_equal. lia.
Qed.

Lemma nth_error_idx (buf : list Z) n : 0 <= n < len buf -> nth_error buf (Z.to_nat n) = Some (nth (Z.to_nat n) buf 0).
Proof. intros. apply nth_error_nth'. unfold len in *. lia. Qed.

Lemma hv_step buf n : bytes buf -> 0 <= n -> n + 4 <= len buf ->
  hv buf (n + 1) = hv buf n * 256 + nth (Z.to_nat (n + 3)) buf 0.
Proof.
  intros Hb Hn Hl.
  rewrite (nth_be buf (Z.to_nat (n + 3)) Hb) by (unfold len in *; lia).
  rewrite (hv_prefix buf n 1) by lia. change (256 ^ 1) with 256.
  rewrite pow256 by lia. replace (8 * (len buf - 1 - Z.of_nat (Z.to_nat (n + 3)))) with (8 * (len buf - (n + 1) - 3)) by lia.
  fold (hv buf (n + 1)). pose proof (Z.div_mod (hv buf (n + 1)) 256). lia.
Qed.

Record drel (buf : list Z) (r : reader) (st : acdec) (s : ival) : Prop := mkDrel {
  dr_head : r_head r = iN s + 3;
  dr_range : d_range st = iR s;
  dr_low : d_low st = hv buf (iN s) - iF s
}.

Lemma ac_dec_init_ok buf r : bytes buf -> r_head r = 0 -> 3 <= len buf ->
  exists st, ac_dec_init buf r = Ok (st, mkReader 3 (r_tail r)) /\ drel buf (mkReader 3 (r_tail r)) st ival0.
Proof.
  intros Hb Hh Hl. unfold ac_dec_init, read_head_u24. rewrite Hh.
  destruct (Z.ltb_spec (0 + 2) (len buf)); [|lia]. rewrite slice_ok by lia. cbn [bind].
  eexists. split; [reflexivity|]. constructor; cbn; try lia.
  change (Pos.to_nat 3) with (Z.to_nat (3 - 0)). change (firstn (Z.to_nat (3 - 0)) buf) with (firstn (Z.to_nat (3 - 0)) (skipn (Z.to_nat 0) buf)).
  rewrite be_slice by (auto; lia). unfold hv. rewrite pow256 by lia. change (256 ^ (3 - 0)) with 16777216.
  rewrite Z.mod_small; [replace (len buf - 0 - 3) with (len buf - 3) by lia; lia|].
  pose proof (be_bound buf Hb) as B. split; [apply Z.div_pos; [lia|apply pow2_pos; lia]|].
  apply Z.div_lt_upper_bound; [apply pow2_pos; lia|].
  rewrite pow256 in B by lia. replace (8 * len buf) with (8 * (len buf - 3) + 24) in B by lia.
  rewrite Z.pow_add_r in B by lia. change (2 ^ 24) with 16777216 in B. lia.
Qed.

Lemma dec_renorm_ok buf fuel : bytes buf -> forall r st s,
  drel buf r st s -> 0 <= iN s -> 0 < iR s -> iF s <= hv buf (iN s) < iF s + iR s ->
  let s' := inorm fuel s in
  65536 <= iR s' -> iN s' + 3 <= len buf ->
  exists st' r', dec_renorm fuel buf r st = Ok (st', r') /\ drel buf r' st' s' /\ r_tail r' = r_tail r.
Proof.
  intros Hb. induction fuel; intros r st s [D1 D2 D3] HN HR0 HV; cbn [inorm dec_renorm]; rewrite D2;
    destruct (Z.ltb_spec (iR s) 65536); intros HR Hl; try lia.
  - exists st, r. repeat split; auto.
  - set (s1 := mkIval (iF s * 256) (iR s * 256) (iN s + 1)) in *.
    assert (Hm : iN s + 1 <= iN (inorm fuel s1)) by (apply (inorm_mono fuel s1); unfold s1; cbn [iN]; lia).
    unfold read_head_byte. rewrite D1, nth_error_idx by lia. cbn [bind].
    pose proof (hv_step buf (iN s) Hb HN ltac:(lia)) as Hs.
    assert (Hbyte : 0 <= nth (Z.to_nat (iN s + 3)) buf 0 < 256).
    { assert (HB : is_byte (nth (Z.to_nat (iN s + 3)) buf 0)); [|exact HB].
      eapply Forall_forall; [exact Hb|]. apply nth_In. unfold len in *. lia. }
    apply (IHfuel (mkReader (iN s + 3 + 1) (r_tail r)) _ s1).
    + constructor; cbn [r_head d_range d_low]; unfold s1; cbn [iF iR iN]; try lia.
      rewrite Z.mod_small by lia. lia.
    + unfold s1; cbn [iN]. lia.
    + unfold s1; cbn [iR]. lia.
    + unfold s1; cbn [iF iN iR]. lia.
    + exact HR.
    + exact Hl.
  - exists st, r. repeat split; auto.
Qed.

Lemma ac_search_ok low tmp cum i : forall k, 0 <= i <= Z.of_nat k -> (k < length cum)%nat ->
  tmp * nth (Z.to_nat i) cum 0 <= low ->
  (forall j, (Z.to_nat i < j <= k)%nat -> low < tmp * nth j cum 0) ->
  ac_search low tmp cum k = Ok i.
Proof.
  induction k; intros Hi Hk Hlo Hup; cbn [ac_search]; rewrite (idx_nth cum _ 0) by (unfold len; lia); cbn [bind].
  - replace (Z.to_nat (Z.of_nat 0)) with 0%nat by lia. replace (Z.to_nat i) with 0%nat in Hlo by lia.
    destruct (Z.ltb_spec low (tmp * nth 0 cum 0)); [lia|]. f_equal; lia.
  - replace (Z.to_nat (Z.of_nat (S k))) with (S k) by lia.
    destruct (Z.ltb_spec low (tmp * nth (S k) cum 0)) as [H|H].
    + apply IHk; auto; try lia.
      * destruct (Z.eq_dec i (Z.of_nat (S k))) as [->|]; [|lia]. rewrite Nat2Z.id in Hlo. lia.
      * intros j Hj. apply Hup. lia.
    + destruct (Z.eq_dec i (Z.of_nat (S k))) as [->|]; [reflexivity|].
      specialize (Hup (S k) ltac:(lia)). lia.
Qed.

Lemma ac_decode_ok buf r st s m i :
  bytes buf -> drel buf r st s -> iwf s -> valid_model m -> 0 <= i < msize m ->
  let s' := istep s (msym m i) in
  iN s' + 3 <= len buf -> iF s' <= hv buf (iN s') < iF s' + iR s' ->
  exists st' r', ac_decode buf r st (fst m) (snd m) = Ok (i, st', r') /\ drel buf r' st' s' /\ r_tail r' = r_tail r.
Proof.
  intros Hb D Hwf V Hi s' Hl HV.
  pose proof (msym_valid m i V Hi) as Hsv.
  pose proof (istep_wf s (msym m i) Hwf Hsv) as Hwf'. fold s' in Hwf'.
  assert (Hmono : iN s <= iN s') by (apply istep_mono; apply (iw_N _ Hwf)).
  destruct (istep_nested s (msym m i) (hv buf (iN s')) (iN s' - iN s) (iw_N _ Hwf) s' eq_refl eq_refl HV) as [N1 N2].
  assert (Hp : hv buf (iN s') / 256 ^ (iN s' - iN s) = hv buf (iN s)).
  { rewrite (hv_prefix buf (iN s) (iN s' - iN s)) by lia. do 2 f_equal. lia. }
  rewrite Hp in N1, N2. clear Hp.
  destruct D as [D1 D2 D3].
  unfold ac_decode. rewrite D2, Z.shiftr_div_pow2, Z.shiftl_mul_pow2 by lia. change (2 ^ 10) with 1024.
  set (q := iR s / 1024) in *.
  assert (Hq : 64 <= q) by (pose proof (iw_R _ Hwf); unfold q; dml).
  destruct Hsv as (S1 & S2 & S3).
  destruct (Z.leb_spec (q * 1024) (d_low st)) as [Hbad|_]; [nia|].
  unfold msize in Hi. rewrite usub_ok by (unfold len; lia). cbn [bind].
  assert (Hlow : d_low st = hv buf (iN s) - iF s) by auto.
  unfold msym in *; cbn [fst snd] in *.
  rewrite (ac_search_ok (d_low st) q (fst m) i).
  2: unfold len; lia. 2: unfold len; lia. 2: lia.
  2:{ intros j Hj. unfold len in Hj. pose proof (vm_mono m (Z.to_nat i) j V ltac:(lia)). nia. }
  cbn [bind]. rewrite (idx_nth (fst m) i 0), (idx_nth (snd m) i 0) by (unfold len; pose proof (vm_len m V); lia). cbn [bind].
  rewrite usub_ok by lia. cbn [bind].
  set (s1 := mkIval (iF s + q * nth (Z.to_nat i) (fst m) 0) (q * nth (Z.to_nat i) (snd m) 0) (iN s)) in *.
  destruct (dec_renorm_ok buf 4 Hb r (mkDec (d_low st - q * nth (Z.to_nat i) (fst m) 0) (q * nth (Z.to_nat i) (snd m) 0)) s1)
    as (st' & r' & E & D' & T').
  - constructor; unfold s1; cbn [iF iR iN d_range d_low]; auto. lia.
  - apply (iw_N _ Hwf).
  - unfold s1; cbn [iR]. nia.
  - unfold s1; cbn [iF iR iN]. lia.
  - apply (iw_R _ Hwf').
  - exact Hl.
  - rewrite E. cbn [bind]. exists st', r'. split; [reflexivity|]. split; [exact D'|exact T'].
Qed.

(* a value inside the final interval lies inside all the earlier ones *)
Lemma irun_nested l : forall s V, iwf s -> Forall valid_sym l ->
  let s' := irun s l in
  iF s' <= V < iF s' + iR s' -> iF s <= V / 256 ^ (iN s' - iN s) < iF s + iR s.
Proof.
  induction l as [|y l IH]; intros s V Hwf Hl; cbn [irun fold_left]; intros HV.
  - rewrite Z.sub_diag, Z.pow_0_r, Z.div_1_r. exact HV.
  - inversion_clear Hl as [|? ? Hy Hl'].
    pose proof (istep_wf s y Hwf Hy) as Hwf1.
    specialize (IH (istep s y) V Hwf1 Hl' HV).
    pose proof (irun_mono (istep s y) l Hwf1 Hl') as M2. pose proof (istep_mono s y (iw_N _ Hwf)) as M1.
    change (fold_left istep l (istep s y)) with (irun (istep s y) l) in *.
    destruct (istep_nested s y (V / 256 ^ (iN (irun (istep s y) l) - iN (istep s y))) (iN (istep s y) - iN s) (iw_N _ Hwf) _ eq_refl eq_refl IH) as [A B].
    rewrite Z.div_div in A, B by (pose proof (pow256_pos (iN (irun (istep s y) l) - iN (istep s y)) ltac:(lia)); try lia; apply pow256_pos; lia).
    rewrite <- Z.pow_add_r in A, B by lia.
    replace (iN (irun (istep s y) l) - iN (istep s y) + (iN (istep s y) - iN s)) with (iN (irun (istep s y) l) - iN s) in A, B by lia.
    destruct Hy as (Y1 & Y2 & Y3).
    assert (Hq : 0 <= iR s / 1024 /\ iR s / 1024 * 1024 <= iR s) by (pose proof (iw_R _ Hwf); dml).
    split; nia.
Qed.

(* head value on the final interval implies head value on the interval of every prefix *)
Lemma irun_hv buf s l : iwf s -> Forall valid_sym l ->
  let s' := irun s l in
  iN s' + 3 <= len buf -> iF s' <= hv buf (iN s') < iF s' + iR s' ->
  iN s + 3 <= len buf /\ iF s <= hv buf (iN s) < iF s + iR s.
Proof.
  intros Hwf Hl s' Hlen HV. pose proof (irun_mono s l Hwf Hl) as M. fold s' in M. split; [lia|].
  rewrite (hv_prefix buf (iN s) (iN s' - iN s)) by lia.
  replace (iN s + (iN s' - iN s)) with (iN s') by lia. now apply irun_nested.
Qed.

(* head value of an encoder output followed by foreign tail bits *)
Lemma hv_final buf v T t n bits : bytes buf -> 0 <= n -> 0 <= T < 2 ^ t -> 0 <= t -> 1 <= bits <= 24 ->
  n + 3 <= len buf -> t + 8 * n + bits <= 8 * len buf ->
  be buf * 2 ^ 24 = v * 2 ^ (8 * (len buf - n)) + T * 2 ^ 24 ->
  v <= hv buf n < v + 2 ^ (24 - bits) /\ (T = 0 -> hv buf n = v).
Proof.
  intros Hb Hn HT Ht Hbits Hl Hfit E.
  set (m := 8 * (len buf - n - 3)).
  assert (Eb : be buf = v * 2 ^ m + T).
  { replace (8 * (len buf - n)) with (m + 24) in E by (unfold m; lia). rewrite Z.pow_add_r in E by (unfold m; lia).
    assert (0 < 2 ^ 24) by (apply pow2_pos; lia). nia. }
  pose proof (pow2_pos m ltac:(unfold m; lia)) as Pm.
  assert (Eh : hv buf n = v + T / 2 ^ m).
  { unfold hv. fold m. rewrite Eb, Z.add_comm, Z.div_add by lia. lia. }
  rewrite Eh. split.
  - split; [assert (0 <= T / 2 ^ m) by (apply Z.div_pos; lia); lia|].
    assert (T / 2 ^ m < 2 ^ (24 - bits)); [|lia]. apply Z.div_lt_upper_bound; [lia|].
    rewrite <- Z.pow_add_r by (unfold m; lia). eapply Z.lt_le_trans; [apply HT|]. apply Z.pow_le_mono_r; unfold m; lia.
  - intros ->. rewrite Z.div_0_l by lia. lia.
Qed.
