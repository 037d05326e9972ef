(* C65: what the example program makes of a file of frames. *)
From Coq Require Import ZArith List Bool Lia.
From Verif Require Import Base Config SideInfo ArithDec FrameDec FrameSpec Buffers BuffersProofs Loops Scalar DecSignal Decoder DecTotal DecState DecRun DecRelease ParseBase DetectSpec Tdac TdacSpec Wav PropertiesWav Files PropertiesDecoder.
From Coq Require Import List.
Import ListNotations.
Local Open Scope Z_scope.

Lemma getz_S {A} (d a : A) l i : 0 <= i -> getz d (a :: l) (i + 1) = getz d l i.
Proof. intros H. unfold getz. replace (Z.to_nat (i + 1)) with (S (Z.to_nat i)) by lia. reflexivity. Qed.
Lemma sub_cut {A} (l : list A) a n : 0 <= a -> 0 <= n -> a + n <= len l -> sub l a (a + n) = Ok (firstn (Z.to_nat n) (skipn (Z.to_nat a) l)).
Proof. intros H1 H2 H3. unfold sub. destruct (Z.ltb_spec a 0); [lia|]. destruct (Z.ltb_spec (a + n) a); [lia|]. destruct (Z.ltb_spec (len l) (a + n)); [lia|]. cbn [orb]. do 2 f_equal. lia. Qed.
Lemma bytes_cut l a n : bytes l -> bytes (firstn n (skipn a l)).
Proof.
  intros H. unfold bytes in *. rewrite Forall_forall in *. intros x Hx. apply H. apply DecTotal.In_firstn in Hx.
  rewrite <- (firstn_skipn a l). apply in_or_app. now right.
Qed.

(* ---- what is claimed ---- *)
Definition no_call : call := mkCall 0 0 [] [].
Definition no_result : option err * list Z := (None, []).
(* block number j of the file *)
Definition block (nb : Z) (file : list Z) (j : Z) : list Z := firstn (Z.to_nat nb) (skipn (Z.to_nat (j * nb)) file).
(* calls number j, j + 1, ... of a run over the file: one block each, the channels in turn *)
Definition calls_from (num nb : Z) (file : list Z) (j : Z) (cs : list call) : Prop :=
  forall i, 0 <= i < len cs -> let k := getz no_call cs i in k_bits k = 16 /\ k_ch k = (j + i) mod num /\ k_buf k = block nb file (j + i).
(* the interleaved samples of the results *)
Definition interleaved (num nf : Z) (rs : list (option err * list Z)) (x : list Z) : Prop :=
  forall b i ch, 0 <= b < len rs / num -> 0 <= i < nf -> 0 <= ch < num -> getz 0 x ((b * nf + i) * num + ch) = getz 0 (snd (getz no_result rs (b * num + ch))) i.

Section Run.
Context {F : Type} (o : ops F) (t : target) (num n nb : Z) (file : list Z).
Variable Inv : Z -> decoder F -> Prop.
Hypothesis Hnum : 1 <= num.
Hypothesis Hnf : 0 <= n.
Hypothesis Hnb : 1 <= nb.
Hypothesis Hstep : forall m d ch j out, Inv (m + 1) d -> 0 <= m -> 0 <= ch < num -> 0 <= j -> (j + 1) * nb < len file ->
  exists d' out', decode_frame o t d 16 ch (block nb file j) out = Ok (None, d', out') /\ Inv m d' /\ len out' = len out.
(* the number of calls: the last block is left out *)
Let J := (len file - 1) / nb.
Lemma J_spec j : 0 <= j -> (j <= J <-> j * nb <= len file - 1).
Proof.
  intros H. unfold J. split; intros G.
  - pose proof (Z.mul_div_le (len file - 1) nb ltac:(lia)). nia.
  - apply Z.div_le_lower_bound; nia.
Qed.

Lemma channel_loop_spec : forall k ch d S j, ch + Z.of_nat k = num -> 0 <= ch -> 0 <= j -> (1 <= Z.of_nat k -> j mod num = ch) -> len S = num -> (forall c, 0 <= c < num -> len (getz [] S c) = n) -> j <= J -> Inv (J - j) d ->
  exists cs rs d', run_calls o t d cs = Ok (rs, d') /\ len cs = Z.min (Z.of_nat k) (J - j) /\ len rs = len cs /\ calls_from num nb file j cs /\ (forall i, 0 <= i < len cs -> fst (getz no_result rs i) = None /\ len (snd (getz no_result rs i)) = n) /\
    if j + Z.of_nat k <=? J
    then exists S', channel_loop o t 16 nb file k ch (mkDstate d S (j * nb)) = Ok (Through (mkDstate d' S' ((j + Z.of_nat k) * nb))) /\ Inv (J - (j + Z.of_nat k)) d' /\ len S' = num /\
      (forall c, 0 <= c < num -> len (getz [] S' c) = n) /\ (forall c, 0 <= c < ch -> getz [] S' c = getz [] S c) /\ (forall c, ch <= c < num -> getz [] S' c = snd (getz no_result rs (c - ch)))
    else channel_loop o t 16 nb file k ch (mkDstate d S (j * nb)) = Ok Return.
Proof.
  induction k as [|k IH]; intros ch d S j Hk Hch Hj Hm LS HS HJ HI.
  - exists [], [], d. cbn [run_calls channel_loop]. change (len (@nil call)) with 0. split; [reflexivity|]. split; [lia|]. split; [reflexivity|].
    split; [intros i Hi; change (len (@nil call)) with 0 in Hi; lia|]. split; [intros; lia|]. destruct (Z.leb_spec (j + Z.of_nat 0) J); [|lia].
    exists S. replace (j + Z.of_nat 0) with j by lia. split; [reflexivity|]. split; [assumption|]. split; [assumption|]. split; [assumption|]. split; [auto|]. intros; lia.
  - cbn [channel_loop ds_cursor ds_by_channel ds_dec]. rewrite Nat2Z.inj_succ in *. pose proof (proj1 (J_spec j Hj) HJ) as HJ'.
    destruct (Z.leb_spec (len file) (j * nb + nb)) as [HE|HE].
    + assert (J = j). { destruct (Z.eq_dec J j); [assumption|]. exfalso. pose proof (proj1 (J_spec (j + 1) ltac:(lia)) ltac:(lia)). nia. }
      exists [], [], d. cbn [run_calls]. change (len (@nil call)) with 0. split; [reflexivity|]. split; [lia|]. split; [reflexivity|].
      split; [intros i Hi; change (len (@nil call)) with 0 in Hi; lia|]. split; [intros; lia|]. destruct (Z.leb_spec (j + Z.succ (Z.of_nat k)) J); [lia|].
      destruct (Z.leb_spec (len file) (j * nb)); reflexivity.
    + assert (HJ1 : j + 1 <= J) by (apply J_spec; nia). destruct (Z.leb_spec (len file) (j * nb)); [nia|].
      rewrite (sub_cut file (j * nb) nb) by nia. cbn [bind]. fold (block nb file j). rewrite (idx_get []) by lia. cbn [bind].
      destruct (Hstep (J - (j + 1)) d ch j (getz [] S ch)) as (d1 & out1 & E1 & I1 & L1); [replace (J - (j + 1) + 1) with (J - j) by lia; exact HI|lia|lia|lia|nia|].
      rewrite E1. cbn [bind]. destruct (put_ok [] S ch out1 ltac:(lia)) as (S1 & ES & LS1 & GS). rewrite ES. cbn [bind].
      replace (j * nb + nb) with ((j + 1) * nb) by lia. rewrite HS in L1 by lia.
      destruct (IH (ch + 1) d1 S1 (j + 1)) as (cs & rs & d' & R1 & R2 & R3 & R4 & R5 & R6); try lia; try assumption.
      { intros Hk1. specialize (Hm ltac:(lia)). rewrite <- Zplus_mod_idemp_l, Hm. apply Z.mod_small. lia. }
      { intros c Hc. rewrite GS by lia. destruct (Z.eqb_spec c ch); [assumption|]. apply HS. lia. }
      exists (mkCall 16 ch (block nb file j) (getz [] S ch) :: cs), ((None, out1) :: rs), d'.
      assert (LC : len (mkCall 16 ch (block nb file j) (getz [] S ch) :: cs) = len cs + 1) by (unfold len; cbn [length]; lia).
      assert (LR : len ((@None err, out1) :: rs) = len rs + 1) by (unfold len; cbn [length]; lia).
      split; [cbn [run_calls k_bits k_ch k_buf k_out]; rewrite E1; cbn [bind]; rewrite R1; reflexivity|].
      split; [lia|]. split; [lia|]. split.
      { intros i Hi. destruct (Z.eq_dec i 0) as [->|Hi0].
        - cbn [getz Z.to_nat nth]. replace (j + 0) with j by lia. cbn [k_bits k_ch k_buf]. split; [reflexivity|]. split; [symmetry; apply Hm; lia|reflexivity].
        - replace i with ((i - 1) + 1) by lia. rewrite getz_S by lia. replace (j + (i - 1 + 1)) with (j + 1 + (i - 1)) by lia. apply R4. lia. }
      split.
      { intros i Hi. destruct (Z.eq_dec i 0) as [->|Hi0]; [split; [reflexivity|exact L1]|]. replace i with ((i - 1) + 1) by lia. rewrite getz_S by lia. apply R5. lia. }
      replace (j + Z.succ (Z.of_nat k)) with (j + 1 + Z.of_nat k) by lia. destruct (Z.leb_spec (j + 1 + Z.of_nat k) J) as [H1|H1]; [|exact R6].
      destruct R6 as (S' & Q1 & Q2 & Q3 & Q4 & Q5 & Q6). exists S'. split; [exact Q1|]. split; [assumption|]. split; [assumption|]. split; [assumption|]. split.
      * intros c Hc. rewrite Q5 by lia. rewrite GS by lia. destruct (Z.eqb_spec c ch); [lia|reflexivity].
      * intros c Hc. destruct (Z.eq_dec c ch) as [->|Hc0].
        -- rewrite Q5 by lia. rewrite GS by lia. rewrite Z.eqb_refl. replace (ch - ch) with 0 by lia. reflexivity.
        -- rewrite Q6 by lia. replace (c - ch) with (c - (ch + 1) + 1) by lia. now rewrite getz_S by lia.
Qed.

Lemma run_calls_app : forall a d rs d1 b rs2 d2, run_calls o t d a = Ok (rs, d1) -> run_calls o t d1 b = Ok (rs2, d2) -> run_calls o t d (a ++ b) = Ok (rs ++ rs2, d2).
Proof.
  induction a as [|k a IH]; intros d rs d1 b rs2 d2 E1 E2; cbn [run_calls app] in *; [injection E1 as <- <-; assumption|].
  destruct (decode_frame o t d (k_bits k) (k_ch k) (k_buf k) (k_out k)) as [[[r d0] out]| |]; cbn [bind] in *; try discriminate.
  destruct (run_calls o t d0 a) as [[ra da]| |] eqn:Ea; cbn [bind] in *; try discriminate. injection E1 as <- <-. rewrite (IH _ _ _ _ _ _ Ea E2). reflexivity.
Qed.
Lemma len_interleave S : len (interleave num n S) = num * n.
Proof. unfold interleave, len. rewrite map_length, seq_length. nia. Qed.
Lemma getz_interleave S i ch : 0 <= i < n -> 0 <= ch < num -> getz 0 (interleave num n S) (i * num + ch) = getz 0 (getz [] S ch) i.
Proof.
  intros Hi Hc. unfold interleave. assert (0 <= i * num + ch < num * n) by nia. rewrite (getz_map _ 0%nat) by (unfold len; rewrite seq_length; lia).
  assert (Eg : getz 0%nat (seq 0 (Z.to_nat (num * n))) (i * num + ch) = Z.to_nat (i * num + ch)) by (unfold getz; rewrite seq_nth by lia; reflexivity).
  rewrite Eg, Z2Nat.id by lia.
  replace ((i * num + ch) mod num) with ch by (rewrite Z.add_comm, Z_mod_plus_full; symmetry; apply Z.mod_small; lia).
  replace ((i * num + ch) / num) with i by (rewrite Z.div_add_l by lia; rewrite Z.div_small by lia; lia). reflexivity.
Qed.

Lemma decode_loop_spec : forall fuel d S j done, 0 <= j -> j mod num = 0 -> len S = num -> (forall c, 0 <= c < num -> len (getz [] S c) = n) -> j <= J -> Inv (J - j) d -> (J - j) / num < Z.of_nat fuel ->
  exists cs rs d' x, run_calls o t d cs = Ok (rs, d') /\ len cs = J - j /\ len rs = len cs /\ calls_from num nb file j cs /\ (forall i, 0 <= i < len cs -> fst (getz no_result rs i) = None /\ len (snd (getz no_result rs i)) = n) /\
    decode_loop o t 16 num n nb file fuel (mkDstate d S (j * nb)) done = Ok (Some (done ++ x, None)) /\ len x = num * n * ((J - j) / num) /\ interleaved num n rs x.
Proof.
  induction fuel as [|fuel IH]; intros d S j done Hj Hm LS HS HJ HI Hfu; [exfalso; pose proof (Z.div_pos (J - j) num ltac:(lia) ltac:(lia)); lia|].
  cbn [decode_loop]. destruct (channel_loop_spec (Z.to_nat num) 0 d S j) as (cs & rs & d' & R1 & R2 & R3 & R4 & R5 & R6); try lia; try assumption.
  rewrite Z2Nat.id in * by lia. destruct (Z.leb_spec (j + num) J) as [H1|H1].
  - destruct R6 as (S' & Q1 & Q2 & Q3 & Q4 & _ & Q6). rewrite Q1. cbn [bind ds_by_channel]. rewrite len_interleave.
    replace (num * n * 16 / 8) with (2 * (num * n)) by (replace (num * n * 16) with (2 * (num * n) * 8) by lia; now rewrite Z.div_mul by lia). rewrite Z.eqb_refl. cbn [assert bind].
    assert (HD : (J - j) / num = (J - (j + num)) / num + 1) by (replace (J - j) with (J - (j + num) + 1 * num) by lia; rewrite Z.div_add by lia; lia).
    destruct (IH d' S' (j + num) (done ++ interleave num n S')) as (cs2 & rs2 & d2 & x2 & T1 & T2 & T3 & T4 & T5 & T6 & T7 & T8); try lia; try assumption.
    { rewrite Z.add_mod, Hm, Z_mod_same_full by lia. reflexivity. }
    exists (cs ++ cs2), (rs ++ rs2), d2, (interleave num n S' ++ x2). rewrite !DecTotal.len_app, len_interleave.
    split; [exact (run_calls_app _ _ _ _ _ _ _ R1 T1)|]. split; [lia|]. split; [lia|]. split.
    { intros i Hi. rewrite DecTotal.len_app in Hi. rewrite TdacSpec.getz_app by lia. destruct (Z.ltb_spec i (len cs)); [apply R4; lia|].
      replace (j + i) with (j + num + (i - len cs)) by lia. apply T4. lia. }
    split.
    { intros i Hi. rewrite TdacSpec.getz_app by lia. destruct (Z.ltb_spec i (len rs)); [apply R5; lia|apply T5; lia]. }
    split; [rewrite T6, app_assoc; reflexivity|]. split; [rewrite T7, HD; ring|].
    intros b i ch Hb Hi Hc. rewrite DecTotal.len_app in Hb. rewrite !TdacSpec.getz_app by nia. rewrite len_interleave. replace (len rs) with num in * by lia. destruct (Z.eq_dec b 0) as [->|Hb0].
    + destruct (Z.ltb_spec ((0 * n + i) * num + ch) (num * n)); [|nia]. destruct (Z.ltb_spec (0 * num + ch) num); [|lia].
      replace (0 * n + i) with i by lia. rewrite getz_interleave by lia. rewrite Q6 by lia. do 3 f_equal. lia.
    + destruct (Z.ltb_spec ((b * n + i) * num + ch) (num * n)); [nia|]. destruct (Z.ltb_spec (b * num + ch) num); [nia|].
      replace ((b * n + i) * num + ch - num * n) with (((b - 1) * n + i) * num + ch) by ring. replace (b * num + ch - num) with ((b - 1) * num + ch) by ring.
      apply T8; try lia. replace (num + len rs2) with (len rs2 + 1 * num) in Hb by lia. rewrite Z.div_add in Hb by lia. lia.
  - rewrite R6. cbn [bind]. exists cs, rs, d', []. rewrite app_nil_r. rewrite Z.min_r in R2 by lia.
    assert (HD : (J - j) / num = 0) by (apply Z.div_small; lia).
    split; [exact R1|]. split; [exact R2|]. split; [exact R3|]. split; [exact R4|]. split; [exact R5|]. split; [reflexivity|]. split; [rewrite HD; change (len (@nil Z)) with 0; lia|].
    intros b i ch Hb. rewrite R3, R2, HD in Hb. lia.
Qed.
End Run.

Lemma len_head c num : len (header_bytes DATA (file_header c num)) = 44.
Proof. reflexivity. Qed.
Lemma len_repeat_z {A} (a : A) n : 0 <= n -> len (repeat a (Z.to_nat n)) = n.
Proof. intros H. unfold len. rewrite repeat_length. lia. Qed.
Lemma getz_repeat_in {A} (d a : A) n c : 0 <= c < n -> getz d (repeat a (Z.to_nat n)) c = a.
Proof. intros H. pose proof (getz_In d (repeat a (Z.to_nat n)) c ltac:(rewrite len_repeat_z; lia)) as G. now apply repeat_spec in G. Qed.
Lemma header_written c num : write_header (file_header c num) (repeat 0 256) = Ok (inr (44, header_bytes DATA (file_header c num) ++ skipn 44 (repeat 0 256))).
Proof. rewrite C50_write_header. reflexivity. Qed.
Lemma head_cut c num : sub (header_bytes DATA (file_header c num) ++ skipn 44 (repeat 0 256)) 0 44 = Ok (header_bytes DATA (file_header c num)).
Proof.
  change 44 with (0 + 44). rewrite sub_cut; [|lia|lia|rewrite DecTotal.len_app, len_head; pose proof (len_nonneg (skipn 44 (repeat 0 256))); lia].
  reflexivity.
Qed.
Lemma nf_nonneg c : legal_config c -> 0 <= nf c.
Proof. intros (f & d & ->). destruct f, d; vm_compute; discriminate. Qed.

(* the two kinds of build: with room in the frame counters, and without overflow checks *)
Definition room (t : target) (calls : Z) : Prop := calls <= t_umax t \/ t_chk t = false.

(* A file of any length, any number of channels, any block length: the program decodes the blocks in order, the channels in turn, as long
   as a block is followed by at least one more byte, and writes the samples of every complete round of channels, interleaved, behind a header
   that announces no data at all. *)
Theorem C65_decode_file :
  forall (F : Type) (o : ops F) t f d num nb file fuel ns nx,
    1 <= num -> 1 <= nb -> dec_lens num d f = Ok (ns, nx) -> 1 <= len file -> bytes file ->
    room t ((len file - 1) / nb) ->
    (forall j, 0 <= j -> (j + 1) * nb < len file -> read_frame (t_chk t) (config_new f d) (block nb file j) <> Panic) ->
    (len file - 1) / nb / num < Z.of_nat fuel ->
    let n := nf (config_new f d) in
    exists dec cs rs dec' x,
      decoder_new o num d f (repeat (fz o 0) (Z.to_nat ns)) (repeat (fz o 0, fz o 0) (Z.to_nat nx)) = Ok dec /\ run_calls o t dec cs = Ok (rs, dec') /\
      len cs = (len file - 1) / nb /\ len rs = len cs /\ calls_from num nb file 0 cs /\
      (forall i, 0 <= i < len cs -> fst (getz no_result rs i) = None /\ len (snd (getz no_result rs i)) = n) /\
      decode_file o t f d 16 num nb file fuel = Ok (Some (header_bytes DATA (mkWav num (fs (config_new f d)) (fs (config_new f d) * num * 16 / 8) 4 16 0 44 36) ++ flat_map (le 2) x, None)) /\
      len x = num * n * ((len file - 1) / nb / num) /\ interleaved num n rs x.
Proof.
  intros F o t f d num nb file fuel ns nx Hnum Hnb HL Hlen Hb Hroom HP Hfu n.
  set (c := config_new f d) in *. set (J := (len file - 1) / nb) in *.
  assert (HJ : 0 <= J) by (apply Z.div_pos; lia). assert (Lc : legal_config c) by (eexists _, _; reflexivity). pose proof (nf_nonneg c Lc) as Hn. fold n in Hn.
  assert (Hns : 0 <= ns /\ 0 <= nx).
  { pose proof HL as HL'. unfold dec_lens in HL'. destruct (dec_channel_len (config_new f d)) as [[s1 x1]| |] eqn:El; cbn [bind] in HL'; try discriminate HL'. injection HL' as <- <-.
    assert (0 <= s1 /\ 0 <= x1) by (destruct f, d; vm_compute in El; injection El as <- <-; lia). nia. }
  set (s := repeat (fz o 0) (Z.to_nat ns)). set (xb := repeat (fz o 0, fz o 0) (Z.to_nat nx)).
  assert (Hs : ns <= len s) by (unfold s; rewrite len_repeat_z; lia). assert (Hx : nx <= len xb) by (unfold xb; rewrite len_repeat_z; lia).
  assert (HI : exists (Inv : Z -> decoder F -> Prop) dec, decoder_new o num d f s xb = Ok dec /\ Inv (J - 0) dec /\
    forall m d0 ch j out, Inv (m + 1) d0 -> 0 <= m -> 0 <= ch < num -> 0 <= j -> (j + 1) * nb < len file ->
      exists d' out', decode_frame o t d0 16 ch (block nb file j) out = Ok (None, d', out') /\ Inv m d' /\ len out' = len out).
  { destruct Hroom as [Hr|Hr].
    - destruct (decoder_new_ok o t num d f ns nx s xb J ltac:(lia) HL Hs Hx Hr) as (dec & ED & D1 & D2 & D3).
      exists (fun m d0 => decoder_ok t d0 m /\ d_config d0 = c /\ len (d_channels d0) = num), dec. split; [exact ED|]. rewrite Z.sub_0_r. split; [auto|].
      intros m d0 ch j out ([L0 C0] & E0 & N0) Hm Hch Hj Hjn. pose proof (bytes_cut file (Z.to_nat (j * nb)) (Z.to_nat nb) Hb) as Hbb. fold (block nb file j) in Hbb.
      destruct (Loops.idx_ok (d_channels d0) ch ltac:(lia)) as (c0 & Ec). destruct (Forall_getz _ _ _ _ C0 Ec) as [K0 B0].
      specialize (HP j Hj Hjn). rewrite <- E0 in HP.
      destruct (decode_channel_ok o t (d_config d0) c0 (block nb file j) out L0 K0 Hbb HP ltac:(lia)) as ([[r1 c1] out1] & E1 & -> & G1 & G2 & G3 & _).
      destruct (put_len (d_channels d0) ch c1 ltac:(lia)) as (chs & Ep & Lp). exists (mkDecoder (d_config d0) chs), out1.
      split; [unfold decode_frame; rewrite Ec; cbn [bind]; rewrite E1; cbn [bind]; rewrite Ep; reflexivity|]. split; [|exact G3]. cbn [d_config d_channels]. split; [|split; [exact E0|lia]].
      split; [exact L0|]. cbn [d_config d_channels]. eapply put_Forall; [|split; [exact G1|]|exact Ep]; [|lia]. eapply Forall_impl; [|exact C0]. cbv beta. intros a [A1 A2]. split; [assumption|lia].
    - destruct (new_lens o t num d f ns nx s xb ltac:(lia) HL Hs Hx) as (dec & ED & D1 & D2 & D3).
      exists (fun _ d0 => decoder_lens d0 /\ d_config d0 = c /\ len (d_channels d0) = num), dec. split; [exact ED|]. split; [auto|].
      intros m d0 ch j out (D0 & E0 & N0) Hm Hch Hj Hjn. pose proof D0 as [L0 C0]. pose proof (bytes_cut file (Z.to_nat (j * nb)) (Z.to_nat nb) Hb) as Hbb. fold (block nb file j) in Hbb.
      destruct (Loops.idx_ok (d_channels d0) ch ltac:(lia)) as (c0 & Ec). pose proof (Forall_getz _ _ _ _ C0 Ec) as K0.
      specialize (HP j Hj Hjn). rewrite Hr in HP. rewrite <- E0 in HP.
      destruct (channel_total o t (d_config d0) c0 (block nb file j) out Hr L0 K0 Hbb HP) as (c1 & out1 & E1).
      destruct (put_len (d_channels d0) ch c1 ltac:(lia)) as (chs & Ep & Lp).
      assert (EF : decode_frame o t d0 16 ch (block nb file j) out = Ok (None, mkDecoder (d_config d0) chs, out1)) by (unfold decode_frame; rewrite Ec; cbn [bind]; rewrite E1; cbn [bind]; rewrite Ep; reflexivity).
      destruct (frame_inv o t d0 16 ch (block nb file j) out None _ out1 D0 Hbb EF) as (G1 & G2 & G3 & G4 & _). eexists _, _. split; [exact EF|]. split; [|exact G4]. split; [exact G1|]. split; [congruence|lia]. }
  destruct HI as (Inv & dec & ED & I0 & Hstep).
  destruct (decode_loop_spec o t num n nb file Inv Hnum Hn Hnb Hstep fuel dec (repeat (repeat 0 (Z.to_nat n)) (Z.to_nat num)) 0 []) as (cs & rs & d' & x & R1 & R2 & R3 & R4 & R5 & R6 & R7 & R8).
  - lia.
  - apply Z.mod_0_l. lia.
  - apply len_repeat_z. lia.
  - intros c0 Hc. rewrite getz_repeat_in by lia. apply len_repeat_z. lia.
  - exact HJ.
  - exact I0.
  - rewrite Z.sub_0_r. exact Hfu.
  - fold J in R2, R7. rewrite Z.sub_0_r in R2, R7. exists dec, cs, rs, d', x. split; [exact ED|]. split; [exact R1|]. split; [exact R2|]. split; [exact R3|]. split; [exact R4|]. split; [exact R5|].
    split; [|split; [exact R7|exact R8]].
    unfold decode_file. rewrite HL. cbn [bind]. fold s xb. rewrite ED. cbn [bind]. fold c. rewrite header_written. cbn [bind]. rewrite head_cut. cbn [bind]. fold n.
    change (0 * nb) with 0 in R6. rewrite R6. reflexivity.
Qed.
Print Assumptions C65_decode_file.

(* a whole number of rounds of channels: the last one is not written *)
Corollary C65_last_round_lost :
  forall (F : Type) (o : ops F) t f d num nb file fuel ns nx rounds,
    1 <= num -> 1 <= nb -> dec_lens num d f = Ok (ns, nx) -> 1 <= rounds -> len file = rounds * num * nb -> bytes file ->
    room t (rounds * num - 1) ->
    (forall j, 0 <= j -> (j + 1) * nb < len file -> read_frame (t_chk t) (config_new f d) (block nb file j) <> Panic) ->
    rounds <= Z.of_nat fuel ->
    exists w, decode_file o t f d 16 num nb file fuel = Ok (Some (w, None)) /\ len w = 44 + 2 * num * nf (config_new f d) * (rounds - 1).
Proof.
  intros F o t f d num nb file fuel ns nx rounds Hnum Hnb HL Hr Hlen Hb Hroom HP Hfu.
  assert (E1 : (len file - 1) / nb = rounds * num - 1) by (rewrite Hlen; symmetry; apply Z.div_unique with (nb - 1); nia).
  assert (E2 : (rounds * num - 1) / num = rounds - 1) by (symmetry; apply Z.div_unique with (num - 1); nia).
  destruct (C65_decode_file F o t f d num nb file fuel ns nx Hnum Hnb HL ltac:(nia) Hb) as (dec & cs & rs & dec' & x & _ & _ & _ & _ & _ & _ & E & L & _); try assumption.
  - rewrite E1. exact Hroom.
  - rewrite E1, E2. lia.
  - rewrite E1, E2 in L. eexists. split; [exact E|]. rewrite DecTotal.len_app. replace (len (flat_map (le 2) x)) with (2 * len x).
    + rewrite L. change (len (header_bytes _ _)) with 44. ring.
    + clear. unfold len. induction x as [|v x IH]; [reflexivity|]. cbn [flat_map le app length] in *. lia.
Qed.
Print Assumptions C65_last_round_lost.
(* any other bit depth: nothing but the header is written, and the first frame is reported as unsupported *)
Theorem C65_other_bit_depths :
  forall (F : Type) (o : ops F) t f d bits num nb file fuel ns nx,
    bits <> 16 -> 1 <= num -> 1 <= nb -> dec_lens num d f = Ok (ns, nx) -> nb < len file -> (1 <= fuel)%nat -> 0 <= t_umax t ->
    decode_file o t f d bits num nb file fuel = Ok (Some (header_bytes DATA (mkWav num (fs (config_new f d)) (fs (config_new f d) * num * 16 / 8) 4 16 0 44 36), Some (0, Only16BitsPerAudioSampleSupported))).
Proof.
  intros F o t f d bits num nb file fuel ns nx Hbits Hnum Hnb HL Hlen Hfu Hu.
  assert (Hns : 0 <= ns /\ 0 <= nx).
  { pose proof HL as HL'. unfold dec_lens in HL'. destruct (dec_channel_len (config_new f d)) as [[s1 x1]| |] eqn:El; cbn [bind] in HL'; try discriminate HL'. injection HL' as <- <-.
    assert (0 <= s1 /\ 0 <= x1) by (destruct f, d; vm_compute in El; injection El as <- <-; lia). nia. }
  set (s := repeat (fz o 0) (Z.to_nat ns)). set (xb := repeat (fz o 0, fz o 0) (Z.to_nat nx)).
  destruct (decoder_new_ok o t num d f ns nx s xb 0 ltac:(lia) HL ltac:(unfold s; rewrite len_repeat_z; lia) ltac:(unfold xb; rewrite len_repeat_z; lia) Hu) as (dec & ED & _ & D2 & D3).
  unfold decode_file. rewrite HL. cbn [bind]. fold s xb. rewrite ED. cbn [bind]. rewrite header_written. cbn [bind]. rewrite head_cut. cbn [bind].
  destruct fuel as [|fuel]; [lia|]. cbn [decode_loop]. destruct (Z.to_nat num) as [|k] eqn:Ek; [lia|]. cbn [channel_loop ds_cursor ds_by_channel ds_dec].
  destruct (Z.leb_spec (len file) 0); [lia|]. destruct (Z.leb_spec (len file) (0 + nb)); [lia|]. rewrite (sub_cut file 0 nb) by lia. cbn [bind].
  rewrite (idx_get []) by (rewrite <- Ek, len_repeat_z; lia). cbn [bind]. unfold decode_frame. destruct (Loops.idx_ok (d_channels dec) 0 ltac:(lia)) as (c0 & Ec). rewrite Ec. cbn [bind].
  rewrite (decode_channel_other o t (d_config dec) c0 bits _ _ Hbits). cbn [bind]. destruct (put_len (d_channels dec) 0 c0 ltac:(lia)) as (chs & Ep & _). rewrite Ep. cbn [bind flat_map]. rewrite app_nil_r. reflexivity.
Qed.
Print Assumptions C65_other_bit_depths.
(* no channels: the loop has no way out, whatever the file *)
Theorem C65_no_channels_never_ends :
  forall (F : Type) (o : ops F) t f d bits nb file fuel, decode_file o t f d bits 0 nb file fuel = Ok None.
Proof.
  intros F o t f d bits nb file fuel. unfold decode_file.
  assert (HL : dec_lens 0 d f = Ok (0, 0)) by (destruct f, d; reflexivity). rewrite HL. cbn [bind].
  assert (ED : decoder_new o 0 d f (repeat (fz o 0) (Z.to_nat 0)) (repeat (fz o 0, fz o 0) (Z.to_nat 0)) = Ok (mkDecoder (config_new f d) [])) by reflexivity.
  rewrite ED. cbn [bind]. rewrite header_written. cbn [bind]. rewrite head_cut. cbn [bind].
  match goal with |- context [decode_loop _ _ _ _ _ _ _ _ ?s ?x] => assert (EL : decode_loop o t bits 0 (nf (config_new f d)) nb file fuel s x = Ok None) end.
  { induction fuel as [|fuel IH]; [reflexivity|]. cbn [decode_loop channel_loop bind Z.to_nat]. exact IH. }
  rewrite EL. reflexivity.
Qed.
Print Assumptions C65_no_channels_never_ends.

(* two channels at 8 kHz and 7.5 ms, blocks of 20 bytes: seven blocks and a stray byte are three rounds and a half *)
Definition x_file : list Z := repeat 0 40 ++ repeat 255 20 ++ repeat 0 81.
Example C65_case :
  (exists w, decode_file Z_ops t32 Hz8000 SevenPointFiveMs 16 2 20 x_file 4 = Ok (Some (w, None)) /\ len w = 44 + 2 * 2 * 60 * 3) /\
  (len x_file - 1) / 20 = 7 /\ (exists ns nx, dec_lens 2 SevenPointFiveMs Hz8000 = Ok (ns, nx)) /\
  Forall (fun j => read_frame true (config_new Hz8000 SevenPointFiveMs) (block 20 x_file j) <> Panic) [0; 1; 2; 3; 4; 5; 6].
Proof.
  split; [eexists; split; vm_compute; reflexivity|]. split; [reflexivity|]. split; [eexists _, _; vm_compute; reflexivity|].
  repeat (apply Forall_cons; [vm_compute; discriminate|]). constructor.
Qed.
(* six blocks and nothing else: two rounds, not three *)
Example C65_lost_case : exists w, decode_file Z_ops t32 Hz8000 SevenPointFiveMs 16 2 20 (repeat 0 120) 3 = Ok (Some (w, None)) /\ len w = 44 + 2 * 2 * 60 * 2.
Proof. eexists. split; vm_compute; reflexivity. Qed.
Example C65_depth_case : exists w, decode_file Z_ops t32 Hz8000 SevenPointFiveMs 24 2 20 x_file 3 = Ok (Some (w, Some (0, Only16BitsPerAudioSampleSupported))) /\ len w = 44.
Proof. eexists. split; vm_compute; reflexivity. Qed.
