(* C66: what the example program makes of a WAV file. *)
From Coq Require Import ZArith List Bool Lia.
From Verif Require Import Base Config Buffers Loops Scalar EncScalar DecSignal Encoder EncRun DecTotal DecHistory DetectSpec TdacSpec Wav PropertiesWav Files PropertiesDecoder PropertiesFiles.
From Coq Require Import List.
Import ListNotations.
Local Open Scope Z_scope.

(* ---- what is claimed ---- *)
(* the 16-bit samples of the data, low byte first; silence behind the end *)
Definition sample (data : list Z) (p : Z) : Z :=
  if 2 * p + 1 <? len data then let v := getz 0 data (2 * p) + 256 * getz 0 data (2 * p + 1) in if 32768 <=? v then v - 65536 else v else 0.
(* the samples of channel ch in frame k *)
Definition frame_of (num n : Z) (data : list Z) (k ch : Z) : list Z := map (fun i => sample data ((k * n + i) * num + ch)) (iota n).
(* a list of encode_frame calls that all use the same output buffer *)
Fixpoint run_reuse {F} (o : ops F) (e : eops F) (t : target) (en : encoder F) (buf : list Z) (cs : list (Z * list Z)) : res (list (list Z) * encoder F * list Z) :=
  match cs with
  | [] => Ok ([], en, buf)
  | (ch, x) :: cs => '(en, buf) <- encode_call o e t en ch x buf ;; '(rs, en, last) <- run_reuse o e t en buf cs ;; Ok (buf :: rs, en, last)
  end.
Definition file_calls (num n : Z) (data : list Z) (rounds : Z) : list (Z * list Z) :=
  flat_map (fun k => map (fun ch => (ch, frame_of num n data k ch)) (iota num)) (iota rounds).

Lemma read_i16_spec : forall m (l : list Z), (length l <= m)%nat -> len (read_i16 l) = len l / 2 /\ forall p, 0 <= p -> 2 * p + 1 < len l -> getz 0 (read_i16 l) p = i16_of (getz 0 l (2 * p)) (getz 0 l (2 * p + 1)).
Proof.
  induction m as [|m IH]; intros [|a [|b l]] H; cbn [length] in H; try lia; try (split; [reflexivity|]; intros p H0 H1; unfold len in H1; cbn [length] in H1; lia).
  cbn [read_i16]. destruct (IH l ltac:(lia)) as [L G]. assert (EL : len (a :: b :: l) = len l + 1 * 2) by (unfold len; cbn [length]; lia). split.
  - rewrite EL, Z.div_add by lia. unfold len in *. cbn [length]. lia.
  - intros p H0 H1. destruct (Z.eq_dec p 0) as [->|Hp]; [reflexivity|]. replace p with (p - 1 + 1) by lia. rewrite getz_S by lia. rewrite G by lia.
    replace (2 * (p - 1 + 1)) with (2 * (p - 1) + 1 + 1) by lia. rewrite !getz_S by lia. reflexivity.
Qed.
Lemma getz_skipn {A} (d : A) l a p : 0 <= a -> 0 <= p -> getz d (skipn (Z.to_nat a) l) p = getz d l (a + p).
Proof. intros H1 H2. unfold getz. rewrite EncPayload.nth_skipn. f_equal. lia. Qed.
Lemma getz_firstn {A} (d : A) l a p : 0 <= p < a -> getz d (firstn (Z.to_nat a) l) p = getz d l p.
Proof. intros H. unfold getz. revert l. assert (HN : (Z.to_nat p < Z.to_nat a)%nat) by lia. revert HN. generalize (Z.to_nat p) (Z.to_nat a). clear. intros p a. revert p. induction a as [|a IH]; intros p H l; [lia|]. destruct l as [|v l]; [reflexivity|]. destruct p as [|p]; [reflexivity|]. cbn [firstn nth]. apply IH. lia. Qed.
Lemma getz_repeat0 n p : getz 0 (repeat 0 n) p = 0.
Proof. unfold getz. apply nth_repeat. Qed.

Section Enc.
Context {F : Type} (o : ops F) (e : eops F) (t : target) (num n : Z) (file : list Z) (start : Z).
Hypothesis Hnum : 1 <= num.
Hypothesis Hn : 1 <= n.
Hypothesis Hstart : 0 <= start.
Let data := skipn (Z.to_nat start) file.
Let bpf := 2 * (num * n).

Lemma fill_ok k temp : 0 <= k -> start + k * bpf < len file -> len temp = num * n -> (len file - start) mod 2 = 0 \/ start + (k + 1) * bpf <= len file ->
  exists temp', fill bpf file (start + k * bpf) temp = Ok temp' /\ len temp' = num * n /\ forall p, 0 <= p < num * n -> getz 0 temp' p = sample data (k * (num * n) + p).
Proof.
  intros Hk Hc LT HE. assert (Hb : 2 <= bpf) by (unfold bpf; nia). assert (HN : 1 <= num * n) by nia.
  assert (LD : len data = len file - start) by (unfold data, len in *; rewrite skipn_length; lia).
  unfold fill. set (m := Z.min (len file - (start + k * bpf)) bpf).
  assert (Hm : 2 * (m / 2) = m).
  { assert (m mod 2 = 0). 
    { unfold m, bpf. destruct HE as [HE|HE]; [|rewrite Z.min_r by (unfold bpf in HE; lia); replace (2 * (num * n)) with (0 + num * n * 2) by lia; rewrite Z_mod_plus_full; reflexivity].
      destruct (Z.min_spec (len file - (start + k * (2 * (num * n)))) (2 * (num * n))) as [[_ ->]|[_ ->]].
      - replace (len file - (start + k * (2 * (num * n)))) with (len file - start + - (k * (num * n)) * 2) by ring. rewrite Z_mod_plus_full. exact HE.
      - replace (2 * (num * n)) with (0 + num * n * 2) by lia. rewrite Z_mod_plus_full. reflexivity. }
    pose proof (Z.div_mod m 2 ltac:(lia)). lia. }
  assert (Hm1 : 1 <= m <= bpf) by (unfold m; lia). assert (Hm2 : m <= len file - (start + k * bpf)) by (unfold m; lia).
  rewrite sub_cut by nia. cbn [bind]. change (sub temp 0 (m / 2)) with (sub temp 0 (0 + m / 2)). rewrite sub_cut by (unfold bpf in Hm1; lia). cbn [bind skipn Z.to_nat].
  set (src := firstn (Z.to_nat m) (skipn (Z.to_nat (start + k * bpf)) file)).
  assert (LS : len src = m). { unfold src, len. rewrite firstn_length, skipn_length. unfold len in *. nia. }
  assert (LF : len (firstn (Z.to_nat (m / 2)) temp) = m / 2). { unfold len. rewrite firstn_length. unfold len, bpf in *. lia. }
  rewrite LS, LF, Hm, Z.eqb_refl. cbn [assert bind]. destruct (read_i16_spec (length src) src (Nat.le_refl _)) as [LR GR]. rewrite LS in LR, GR.
  set (t1 := read_i16 src ++ skipn (Z.to_nat (m / 2)) temp).
  assert (L1 : len t1 = num * n). { unfold t1. rewrite DecTotal.len_app, LR. unfold len in *. rewrite skipn_length. unfold bpf in Hm1. lia. }
  assert (G1 : forall p, 0 <= p < m / 2 -> getz 0 t1 p = sample data (k * (num * n) + p)).
  { intros p Hp. unfold t1. rewrite TdacSpec.getz_app by lia. rewrite LR. destruct (Z.ltb_spec p (m / 2)); [|lia]. rewrite GR by lia.
    unfold src. rewrite !getz_firstn by lia. rewrite !getz_skipn by nia. unfold sample. rewrite LD. destruct (Z.ltb_spec (2 * (k * (num * n) + p) + 1) (len file - start)); [|unfold bpf in *; nia].
    unfold data. rewrite !getz_skipn by nia. unfold i16_of, bpf.
    replace (start + k * (2 * (num * n)) + (2 * p + 1)) with (start + (2 * (k * (num * n) + p) + 1)) by ring. replace (start + k * (2 * (num * n)) + 2 * p) with (start + 2 * (k * (num * n) + p)) by ring. reflexivity. }
  eexists. split; [reflexivity|]. destruct (Z.ltb_spec m bpf) as [Hs|Hs].
  - assert (L2 : len (firstn (Z.to_nat (m / 2)) t1) = m / 2) by (unfold len in *; rewrite firstn_length; unfold bpf in *; lia).
    split; [rewrite DecTotal.len_app, L2; unfold len in *; rewrite repeat_length; unfold bpf in *; lia|]. intros p Hp. rewrite TdacSpec.getz_app by lia. rewrite L2. destruct (Z.ltb_spec p (m / 2)).
    + rewrite getz_firstn by lia. apply G1. lia.
    + rewrite getz_repeat0. unfold sample. rewrite LD. destruct (Z.ltb_spec (2 * (k * (num * n) + p) + 1) (len file - start)); [|reflexivity].
      unfold m in *. unfold bpf in *. nia.
  - split; [exact L1|]. intros p Hp. apply G1. unfold bpf in *. lia.
Qed.
Lemma fill_odd k temp : 0 <= k -> start + k * bpf < len file < start + (k + 1) * bpf -> (len file - start) mod 2 = 1 -> fill bpf file (start + k * bpf) temp = Panic.
Proof.
  intros Hk Hc HE. assert (Hb : 2 <= bpf) by (unfold bpf; nia). unfold fill. rewrite Z.min_l by nia. set (m := len file - (start + k * bpf)).
  assert (Hm : m mod 2 = 1). { unfold m, bpf. replace (len file - (start + k * (2 * (num * n)))) with (len file - start + - (k * (num * n)) * 2) by ring. rewrite Z_mod_plus_full. exact HE. }
  assert (Hm1 : 1 <= m) by (unfold m; lia). rewrite sub_cut by (unfold m; nia). cbn [bind]. destruct (sub temp 0 (m / 2)) as [dst|er|] eqn:Ed; cbn [bind]; try reflexivity.
  - set (src := firstn (Z.to_nat m) (skipn (Z.to_nat (start + k * bpf)) file)). assert (LS : len src = m). { unfold src, len. rewrite firstn_length, skipn_length. unfold m, len in *. nia. }
    rewrite LS. destruct (Z.eqb_spec m (2 * len dst)) as [E|E]; [|reflexivity]. exfalso. rewrite E, Z.mul_comm, Z_mod_mult in Hm. discriminate Hm.
  - unfold sub in Ed. destruct (_ || _ || _) in Ed; discriminate Ed.
Qed.

Lemma len_deinterleave temp : len (deinterleave num n temp) = num * n.
Proof. unfold deinterleave, len. rewrite map_length, seq_length. nia. Qed.
Lemma channel_samples k temp ch : 0 <= k -> (forall p, 0 <= p < num * n -> getz 0 temp p = sample data (k * (num * n) + p)) -> 0 <= ch < num ->
  sub (deinterleave num n temp) (ch * n) (ch * n + n) = Ok (frame_of num n data k ch).
Proof.
  intros Hk HT Hc. rewrite sub_cut by (rewrite ?len_deinterleave; nia). f_equal. apply (getz_ext 0).
  - unfold frame_of. rewrite DecTotal.len_map, len_iota by lia. unfold len. rewrite firstn_length, skipn_length. pose proof (len_deinterleave temp). unfold len in *. nia.
  - intros i Hi. assert (Hi' : 0 <= i < n) by (unfold len in Hi; rewrite firstn_length in Hi; lia). rewrite getz_firstn by lia. rewrite getz_skipn by nia.
    unfold frame_of. rewrite (getz_map _ 0) by (rewrite len_iota; lia). rewrite getz_iota by lia.
    unfold deinterleave. assert (0 <= ch * n + i < num * n) by nia. rewrite (getz_map _ 0%nat) by (unfold len; rewrite seq_length; lia).
    assert (Eg : getz 0%nat (seq 0 (Z.to_nat (num * n))) (ch * n + i) = Z.to_nat (ch * n + i)) by (unfold getz; rewrite seq_nth by lia; reflexivity).
    rewrite Eg, Z2Nat.id by lia. replace ((ch * n + i) mod n) with i by (rewrite Z.add_comm, Z_mod_plus_full; symmetry; apply Z.mod_small; lia).
    replace ((ch * n + i) / n) with ch by (rewrite Z.div_add_l by lia; rewrite Z.div_small by lia; lia). rewrite HT by nia. f_equal. ring.
Qed.

Lemma encode_channels_spec samples (g : Z -> list Z) : (forall ch, 0 <= ch < num -> sub samples (ch * n) (ch * n + n) = Ok (g ch)) ->
  forall k c en buf, Z.of_nat (c + k) <= num ->
  encode_channels o e t n samples k (Z.of_nat c) en buf = ('(rs, en, last) <- run_reuse o e t en buf (map (fun ch => (Z.of_nat ch, g (Z.of_nat ch))) (seq c k)) ;; Ok (concat rs, en, last)).
Proof.
  intros HG. induction k as [|k IH]; intros c en buf Hk; [reflexivity|]. cbn [encode_channels seq map run_reuse]. rewrite HG by lia. cbn [bind].
  destruct (encode_call o e t en (Z.of_nat c) (g (Z.of_nat c)) buf) as [[en1 b1]| |]; cbn [bind]; try reflexivity.
  replace (Z.of_nat c + 1) with (Z.of_nat (S c)) by lia. rewrite IH by lia. destruct (run_reuse o e t en1 b1 _) as [[[rs en2] b2]| |]; reflexivity.
Qed.
Lemma run_reuse_app : forall a b en buf, run_reuse o e t en buf (a ++ b) = ('(rs, en, buf) <- run_reuse o e t en buf a ;; '(rs', en, buf) <- run_reuse o e t en buf b ;; Ok (rs ++ rs', en, buf)).
Proof.
  induction a as [|[ch x] a IH]; intros b en buf; cbn [app run_reuse bind].
  - destruct (run_reuse o e t en buf b) as [[[rs en2] b2]| |]; reflexivity.
  - destruct (encode_call o e t en ch x buf) as [[en1 b1]| |]; cbn [bind]; try reflexivity. rewrite IH. destruct (run_reuse o e t en1 b1 a) as [[[rs en2] b2]| |]; cbn [bind]; try reflexivity.
    destruct (run_reuse o e t en2 b2 b) as [[[rs' en3] b3]| |]; reflexivity.
Qed.
Definition round_calls (k : nat) : list (Z * list Z) := map (fun ch => (Z.of_nat ch, frame_of num n data (Z.of_nat k) (Z.of_nat ch))) (seq 0 (Z.to_nat num)).
Lemma rounds_ok : forall r k temp en buf, len temp = num * n -> (len file - start) mod 2 = 0 -> (forall i, (k <= i < k + r)%nat -> start + Z.of_nat i * bpf < len file) ->
  encode_rounds o e t num n bpf file r (start + Z.of_nat k * bpf) temp en buf = ('(rs, _, _) <- run_reuse o e t en buf (flat_map round_calls (seq k r)) ;; Ok (concat rs)).
Proof.
  induction r as [|r IH]; intros k temp en buf LT HE HR; [reflexivity|]. cbn [encode_rounds seq flat_map].
  destruct (fill_ok (Z.of_nat k) temp ltac:(lia) (HR k ltac:(lia)) LT (or_introl HE)) as (t1 & E1 & L1 & G1). rewrite E1. cbn [bind].
  change 0 with (Z.of_nat 0) at 1. rewrite (encode_channels_spec _ (frame_of num n data (Z.of_nat k))); [|intros ch Hc; apply channel_samples; [lia|exact G1|exact Hc]|lia].
  fold (round_calls k). rewrite run_reuse_app. destruct (run_reuse o e t en buf (round_calls k)) as [[[rs en1] b1]| |]; cbn [bind]; try reflexivity.
  replace (start + Z.of_nat k * bpf + bpf) with (start + Z.of_nat (S k) * bpf) by lia. rewrite IH by (try assumption; intros i Hi; apply HR; lia).
  destruct (run_reuse o e t en1 b1 (flat_map round_calls (seq (S k) r))) as [[[rs' en2] b2]| |]; cbn [bind]; try reflexivity. now rewrite concat_app.
Qed.
Lemma rounds_odd : forall r k temp en buf w, len temp = num * n -> (len file - start) mod 2 = 1 -> start + (Z.of_nat k + Z.of_nat r) * bpf < len file < start + (Z.of_nat k + Z.of_nat r + 1) * bpf ->
  encode_rounds o e t num n bpf file (S r) (start + Z.of_nat k * bpf) temp en buf <> Ok w.
Proof.
  assert (Hb : 2 <= bpf) by (unfold bpf; nia).
  induction r as [|r IH]; intros k temp en buf w LT HE HR; cbn [encode_rounds].
  - rewrite fill_odd; [discriminate|lia| |exact HE]. lia.
  - rewrite Nat2Z.inj_succ in HR. pose proof (Z.mul_nonneg_nonneg (Z.of_nat r) bpf ltac:(lia) ltac:(lia)) as HP. rewrite !Z.mul_add_distr_r in HR.
    assert (HA : start + Z.of_nat k * bpf < len file) by lia. assert (HB : start + (Z.of_nat k + 1) * bpf <= len file) by lia.
    destruct (fill_ok (Z.of_nat k) temp ltac:(lia) HA LT (or_intror HB)) as (t1 & E1 & L1 & _). rewrite E1. cbn [bind].
    destruct (encode_channels o e t n (deinterleave num n t1) (Z.to_nat num) 0 en buf) as [[[w1 en1] b1]| |]; cbn [bind]; try discriminate.
    replace (start + Z.of_nat k * bpf + bpf) with (start + Z.of_nat (S k) * bpf) by lia.
    specialize (IH (S k) t1 en1 b1). cbn [encode_rounds] in IH.
    match goal with |- (w' <- ?m ;; _) <> _ => destruct m as [w2| |] eqn:Em; cbn [bind]; try discriminate end.
    exfalso. apply (IH w2 L1 HE ltac:(lia)). reflexivity.
Qed.
End Enc.

Lemma round_calls_iota num n file start rounds : flat_map (round_calls num n file start) (seq 0 (Z.to_nat rounds)) = file_calls num n (skipn (Z.to_nat start) file) rounds.
Proof.
  unfold file_calls, iota. rewrite (flat_map_concat_map _ (map Z.of_nat _)), map_map, <- flat_map_concat_map. apply flat_map_ext. intros k. unfold round_calls. now rewrite map_map.
Qed.
Lemma frame_size f d num : nf (config_new f d) * num * 16 / 8 = 2 * (num * nf (config_new f d)).
Proof. replace (nf (config_new f d) * num * 16) with (2 * (num * nf (config_new f d)) * 8) by ring. now rewrite Z.div_mul by lia. Qed.
Lemma nf_pos f d : 1 <= nf (config_new f d). Proof. destruct f, d; vm_compute; discriminate. Qed.
Lemma start_nonneg file h : bytes file -> read_header file = Ok (inr h) -> w_start h = 44 \/ w_start h = 48.
Proof. intros B E. destruct (C50_read_header file B) as (r & E' & H). rewrite E in E'. injection E' as <-. cbn in H. tauto. Qed.

(* Everything behind the header is taken as samples of `num` channels, whatever the header says about channels, rate, sample size and length.
   With an even number of bytes the file written is the coded frames one after the other, frame by frame and channel by channel,
   the last frame filled up with silence. *)
Theorem C66_encode_file :
  forall (F : Type) (o : ops F) e t f d num nb file h ni ns nx en,
    1 <= num -> bytes file -> read_header file = Ok (inr h) -> enc_lens num d f = Ok (ni, ns, nx) ->
    encoder_new o num d f (repeat 0 (Z.to_nat ni)) (repeat (fz o 0) (Z.to_nat ns)) (repeat (fz o 0, fz o 0) (Z.to_nat nx)) = Ok en ->
    let data := skipn (Z.to_nat (w_start h)) file in
    let n := nf (config_new f d) in
    let rounds := (len data + 2 * num * n - 1) / (2 * num * n) in
    len data mod 2 = 0 ->
    encode_file o e t f d 16 num nb file = ('(rs, _, _) <- run_reuse o e t en (repeat 0 (Z.to_nat nb)) (file_calls num n data rounds) ;; Ok (inr (concat rs))).
Proof.
  intros F o e t f d num nb file h ni ns nx en Hnum HB Hh HL HE data n rounds Heven.
  pose proof (nf_pos f d) as Hn. fold n in Hn. pose proof (start_nonneg file h HB Hh) as Hs.
  assert (HN : 1 <= num * n) by nia. unfold encode_file. rewrite Hh. cbn [bind]. rewrite HL. cbn [bind]. rewrite HE. cbn [bind]. rewrite frame_size. fold n.
  destruct (Z.ltb_spec 0 (2 * (num * n))); [|lia]. cbn [assert bind].
  destruct (Z.le_gt_cases (w_start h) (len file)) as [Hlen|Hlen].
  - assert (LD : len data = len file - w_start h) by (unfold data, len in *; rewrite skipn_length; lia).
    replace ((len file - w_start h + 2 * (num * n) - 1) / (2 * (num * n))) with rounds by (unfold rounds; rewrite LD; f_equal; [lia|ring]).
    replace (w_start h) with (w_start h + Z.of_nat 0 * (2 * (num * n))) at 1 by lia.
    rewrite rounds_ok; try lia.
    + rewrite round_calls_iota. fold data. destruct (run_reuse _ _ _ _ _ _) as [[[rs en1] b1]| |]; reflexivity.
    + rewrite len_repeat_z by nia. ring.
    + rewrite <- LD. exact Heven.
    + intros i Hi. assert (Z.of_nat i + 1 <= rounds) by lia. unfold rounds in *. replace (2 * num * n) with (2 * (num * n)) in * by ring. pose proof (Z.mul_div_le (len data + 2 * (num * n) - 1) (2 * (num * n)) ltac:(lia)). nia.
  - assert (LD : data = []) by (unfold data; apply skipn_all2; unfold len in *; lia).
    replace (Z.to_nat ((len file - w_start h + 2 * (num * n) - 1) / (2 * (num * n)))) with 0%nat.
    + assert (ER : rounds = 0) by (unfold rounds; rewrite LD; change (len (@nil Z)) with 0; apply Z.div_small; nia). rewrite ER. reflexivity.
    + assert ((len file - w_start h + 2 * (num * n) - 1) / (2 * (num * n)) < 1) by (apply Z.div_lt_upper_bound; lia). lia.
Qed.
Print Assumptions C66_encode_file.

(* An odd number of bytes behind the header: no file is ever completed. *)
Theorem C66_odd_data_refuted :
  forall (F : Type) (o : ops F) e t f d num nb file h w,
    1 <= num -> bytes file -> read_header file = Ok (inr h) -> (len file - w_start h) mod 2 = 1 -> w_start h <= len file ->
    encode_file o e t f d 16 num nb file <> Ok (inr w).
Proof.
  intros F o e t f d num nb file h w Hnum HB Hh Hodd Hlen. set (n := nf (config_new f d)). pose proof (nf_pos f d) as Hn. fold n in Hn. pose proof (start_nonneg file h HB Hh) as Hs. assert (HN : 1 <= num * n) by nia.
  unfold encode_file. rewrite Hh. cbn [bind]. destruct (enc_lens num d f) as [[[ni ns] nx]| |]; cbn [bind]; try discriminate.
  destruct (encoder_new _ _ _ _ _ _ _) as [en| |]; cbn [bind]; try discriminate. rewrite frame_size. fold n. destruct (Z.ltb_spec 0 (2 * (num * n))); [|lia]. cbn [assert bind].
  set (D := len file - w_start h) in *. set (b := 2 * (num * n)) in *. set (R := (D + b - 1) / b).
  pose proof (Z.div_mod D b ltac:(lia)) as DM. pose proof (Z.mod_pos_bound D b ltac:(lia)) as DB.
  assert (HR0 : D mod b <> 0). { intros H0. rewrite H0, Z.add_0_r in DM. rewrite DM in Hodd. unfold b in Hodd. replace (2 * (num * n) * (D / (2 * (num * n)))) with (num * n * (D / (2 * (num * n))) * 2) in Hodd by ring. rewrite Z_mod_mult in Hodd. discriminate Hodd. }
  assert (HR : R = D / b + 1). { unfold R. symmetry. apply Z.div_unique with (D mod b - 1); lia. }
  assert (0 <= D / b) by (apply Z.div_pos; unfold D; lia).
  replace (Z.to_nat R) with (S (Z.to_nat (D / b))) by lia.
  match goal with |- (w <- ?m ;; _) <> _ => destruct m as [w2| |] eqn:Em; cbn [bind]; try discriminate end. exfalso.
  replace (w_start h) with (w_start h + Z.of_nat 0 * b) in Em by lia. revert Em. unfold b at 1 2. apply rounds_odd; try lia.
  - rewrite len_repeat_z by nia. ring.
  - exact Hodd.
  - fold b. rewrite Z2Nat.id by assumption. rewrite (Z.mul_comm b) in DM. rewrite !Z.mul_add_distr_r. change (Z.of_nat 0) with 0. rewrite Z.mul_0_l. unfold D in *. lia.
Qed.
Print Assumptions C66_odd_data_refuted.

(* the same as a history of calls, so that everything proved about such histories applies to the program *)
Lemma reuse_calls {F} (o : ops F) e t : forall cs en buf rs en' last, run_reuse o e t en buf cs = Ok (rs, en', last) ->
  exists gs, run_ecalls o e t en gs = Ok (rs, en') /\ map (fun g => (g_ch g, g_x g)) gs = cs /\ map g_buf gs = firstn (length cs) (buf :: rs) /\ length rs = length cs.
Proof.
  induction cs as [|[ch x] cs IH]; intros en buf rs en' last E; cbn [run_reuse] in E.
  - injection E as <- <- <-. exists []. repeat split.
  - destruct (encode_call o e t en ch x buf) as [[en1 b1]| |] eqn:E1; cbn [bind] in E; try discriminate E. destruct (run_reuse o e t en1 b1 cs) as [[[rs1 en2] b2]| |] eqn:E2; cbn [bind] in E; try discriminate E.
    injection E as <- <- <-. destruct (IH _ _ _ _ _ E2) as (gs & G1 & G2 & G3 & G4). exists (mkEcall ch x buf :: gs). cbn [run_ecalls g_ch g_x g_buf map length]. rewrite E1. cbn [bind]. rewrite G1. cbn [bind].
    split; [reflexivity|]. split; [now rewrite G2|]. split; [|now rewrite G4]. cbn [firstn]. now rewrite G3.
Qed.
Lemma len_file_calls num n data rounds : 0 <= num -> 0 <= rounds -> len (file_calls num n data rounds) = num * rounds.
Proof.
  intros Hn Hr. unfold file_calls. assert (G : forall l, len (flat_map (fun k => map (fun ch => (ch, frame_of num n data k ch)) (iota num)) l) = num * len l).
  { induction l as [|k l IH]; [change (0 = num * 0); lia|]. cbn [flat_map]. rewrite DecTotal.len_app, IH, DecTotal.len_map, len_iota by lia. unfold len. cbn [length]. lia. }
  rewrite G, len_iota by lia. reflexivity.
Qed.
Theorem C66_file_is_the_coded_frames :
  forall (F : Type) (o : ops F) e t f d num nb file h ni ns nx en w,
    1 <= num -> bytes file -> read_header file = Ok (inr h) -> enc_lens num d f = Ok (ni, ns, nx) ->
    encoder_new o num d f (repeat 0 (Z.to_nat ni)) (repeat (fz o 0) (Z.to_nat ns)) (repeat (fz o 0, fz o 0) (Z.to_nat nx)) = Ok en ->
    let data := skipn (Z.to_nat (w_start h)) file in
    let n := nf (config_new f d) in
    let rounds := (len data + 2 * num * n - 1) / (2 * num * n) in
    encode_file o e t f d 16 num nb file = Ok (inr w) ->
    len data mod 2 = 0 /\
    exists gs rs en', run_ecalls o e t en gs = Ok (rs, en') /\ map (fun g => (g_ch g, g_x g)) gs = file_calls num n data rounds /\
      (* the buffer handed to a call holds the frame before *)
      map g_buf gs = firstn (length gs) (repeat 0 (Z.to_nat nb) :: rs) /\ len rs = num * rounds /\ w = concat rs.
Proof.
  intros F o e t f d num nb file h ni ns nx en w Hnum HB Hh HL HE data n rounds E.
  assert (Hev : len data mod 2 = 0).
  { destruct (Z.le_gt_cases (w_start h) (len file)) as [Hlen|Hlen].
    - pose proof (start_nonneg file h HB Hh) as Hs. assert (LD : len data = len file - w_start h) by (unfold data, len in *; rewrite skipn_length; lia).
      pose proof (Z.mod_pos_bound (len data) 2 ltac:(lia)). destruct (Z.eq_dec (len data mod 2) 0); [assumption|]. exfalso.
      apply (C66_odd_data_refuted F o e t f d num nb file h w Hnum HB Hh); [rewrite <- LD; lia|exact Hlen|exact E].
    - unfold data. rewrite skipn_all2 by (unfold len in *; lia). reflexivity. }
  split; [exact Hev|]. pose proof (nf_pos f d) as Hn. fold n in Hn. assert (HN : 1 <= num * n) by nia.
  rewrite (C66_encode_file F o e t f d num nb file h ni ns nx en Hnum HB Hh HL HE Hev) in E. fold data n rounds in E.
  destruct (run_reuse o e t en (repeat 0 (Z.to_nat nb)) (file_calls num n data rounds)) as [[[rs en1] b1]| |] eqn:ER; cbn [bind] in E; try discriminate E. injection E as <-.
  destruct (reuse_calls o e t _ _ _ _ _ _ ER) as (gs & G1 & G2 & G3 & G4). exists gs, rs, en1. split; [exact G1|]. split; [exact G2|].
  split; [rewrite G3, <- G2, map_length; reflexivity|]. split; [|reflexivity].
  assert (Hr : 0 <= rounds) by (apply Z.div_pos; [pose proof (len_nonneg data); nia|nia]).
  rewrite <- (len_file_calls num n data rounds) by lia. unfold len. now rewrite G4.
Qed.
Print Assumptions C66_file_is_the_coded_frames.

(* a mono header in front of two frames of stereo at 16 kHz and 7.5 ms, the second one all but empty, followed by a chunk that is not audio *)
Definition x_wav (trailer : list Z) : list Z := header_bytes DATA (mkWav 1 16000 32000 2 16 480 44 516) ++ flat_map (fun k => [k mod 251; 128 + k mod 100]) (iota 240) ++ trailer.
Lemma x_wav_bytes trailer : forallb (fun b => (0 <=? b) && (b <? 256)) (x_wav trailer) = true -> bytes (x_wav trailer).
Proof. intros H. rewrite forallb_forall in H. apply Forall_forall. intros b Hb. specialize (H b Hb). unfold is_byte. lia. Qed.
Example C66_case :
  exists h ni ns nx en, bytes (x_wav [65; 66; 67; 68]) /\ read_header (x_wav [65; 66; 67; 68]) = Ok (inr h) /\ w_start h = 44 /\ w_data h = 480 /\ w_channels h = 1 /\
    enc_lens 2 SevenPointFiveMs Hz16000 = Ok (ni, ns, nx) /\ encoder_new Z_ops 2 SevenPointFiveMs Hz16000 (repeat 0 (Z.to_nat ni)) (repeat 0 (Z.to_nat ns)) (repeat (0, 0) (Z.to_nat nx)) = Ok en /\
    map (fun g => (fst g, firstn 2 (snd g))) (file_calls 2 120 (skipn 44 (x_wav [65; 66; 67; 68])) 2) = [(0, [-32768; -32254]); (1, [-32511; -31997]); (0, [16961; 0]); (1, [17475; 0])].
Proof.
  eexists _, _, _, _, _. split; [apply x_wav_bytes; vm_compute; reflexivity|]. split; [vm_compute; reflexivity|]. split; [reflexivity|]. split; [reflexivity|]. split; [reflexivity|].
  split; [vm_compute; reflexivity|]. split; [vm_compute; reflexivity|]. vm_compute. reflexivity.
Qed.
Example C66_odd_case : exists h, read_header (x_wav [65]) = Ok (inr h) /\ (len (x_wav [65]) - w_start h) mod 2 = 1 /\ w_start h <= len (x_wav [65]) /\ bytes (x_wav [65]).
Proof. eexists. split; [vm_compute; reflexivity|]. split; [reflexivity|]. split; [vm_compute; discriminate|apply x_wav_bytes; vm_compute; reflexivity]. Qed.
