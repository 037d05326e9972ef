(* Concealment over a history of calls: how many frames were lost, what the concealed lines are, when the postfilter is off. *)
From Coq Require Import ZArith List Bool Lia.
From Verif Require Import Base Config SideInfo ArithDec FrameDec FrameSpec Buffers BuffersProofs Loops Scalar DecSignal DecMdct DecLtpf Decoder DecTotal DecState DecRun ParseBase ParseTotal MdctSpec LtpfSpec LineSpec.
Import ListNotations.
Local Open Scope Z_scope.

Section History.
Context {F : Type} (o : ops F) (t : target).
Local Notation z0 := (fz o 0).

(* a frame the parser rejects *)
Definition corrupt (c : config) (buf : list Z) : bool := match read_frame (t_chk t) c buf with Ok _ => false | _ => true end.
(* frames lost at the end of the history, starting from k *)
Fixpoint lost_after (c : config) (k : Z) (cs : list call) : Z :=
  match cs with
  | [] => k
  | a :: cs => lost_after c (if k_bits a =? 16 then if corrupt c (k_buf a) then k + 1 else 0 else k) cs
  end.
(* the states a channel goes through *)
Fixpoint states (c : config) (ch : channel F) (cs : list call) : res (list (channel F)) :=
  match cs with
  | [] => Ok []
  | k :: cs => '(r, ch, out) <- decode_channel o t c ch (k_bits k) (k_buf k) (k_out k) ;;
               ss <- states c ch cs ;; Ok (ch :: ss)
  end.
(* last: lines of the last good frame; k: consecutive losses; j: lines concealed since the start.
   A lost frame has the last good lines times the fading factor, with signs from the generator. *)
Fixpoint conceal_trace (c : config) (seed : Z) (last : list F) (k : Z) (j : nat) (cs : list call) (ss : list (channel F)) : Prop :=
  match cs, ss with
  | [], [] => True
  | a :: cs, s :: ss =>
      if k_bits a =? 16 then
        if corrupt c (k_buf a) then
          (forall n, 0 <= n < ne c -> getz z0 (ch_lines s) n =
             fmul o (getz z0 last n) (if plc_iter (j + Z.to_nat n + 1) seed <? 32768 then fade o (Z.to_nat (k + 1)) else fneg o (fade o (Z.to_nat (k + 1))))) /\
          t_active (ch_ltpf s) = false /\ pl_lost (ch_plc s) = k + 1 /\ conceal_trace c seed last (k + 1) (j + Z.to_nat (ne c)) cs ss
        else pl_lost (ch_plc s) = 0 /\ conceal_trace c seed (ch_lines s) 0 j cs ss
      else pl_lost (ch_plc s) = k /\ conceal_trace c seed last k j cs ss
  | _, _ => False
  end.

Lemma plc_iter_add a b s : plc_iter a (plc_iter b s) = plc_iter (b + a) s.
Proof. induction a as [|a IH]; [now rewrite Nat.add_0_r|]. rewrite Nat.add_succ_r. cbn [plc_iter]. now rewrite IH. Qed.
Lemma fade_step k : 0 <= k -> fade o (Z.to_nat (k + 1)) = if 4 <=? k then fmul o (fade o (Z.to_nat k)) (flit o (if k <? 8 then (9, -1) else (85, -2))) else fade o (Z.to_nat k).
Proof.
  intros H. replace (Z.to_nat (k + 1)) with (S (Z.to_nat k)) by lia. cbn [fade]. rewrite Z2Nat.id by lia. destruct (Z.ltb_spec k 4), (Z.leb_spec 4 k); try lia; reflexivity.
Qed.

Definition plc_inv (seed : Z) (last : list F) (k : Z) (j : nat) (ch : channel F) : Prop :=
  pl_last (ch_plc ch) = last /\ pl_lost (ch_plc ch) = k /\ pl_alpha (ch_plc ch) = fade o (Z.to_nat k) /\ pl_seed (ch_plc ch) = plc_iter j seed.

Lemma decode_channel_lines c ch buf out r ch' out' : decode_channel o t c ch 16 buf out = Ok (r, ch', out') ->
  exists p lines info, decode_spectrum o t c ch buf = Ok (p, lines, info) /\ ch_lines ch' = lines /\ ch_plc ch' = p.
Proof.
  unfold decode_channel. cbn [Z.eqb Pos.eqb negb]. destruct (uincr t (ch_index ch)) as [ix| |]; cbn [bind]; try discriminate.
  destruct (decode_spectrum o t c ch buf) as [[[p lines] info]| |]; cbn [bind]; try discriminate.
  destruct (mdct_run o c (ch_mdct ch) lines (ch_freq ch)) as [[fr m]| |]; cbn [bind]; try discriminate.
  destruct (ltpf_run o c (ch_ltpf ch) info (len buf * 8) fr) as [[b l]| |]; cbn [bind]; try discriminate.
  intros H. injection H as _ <- _. exists p, lines, info. auto.
Qed.
Lemma decode_channel_lost c ch buf out r ch' out' e seed last k j : channel_ok c ch -> plc_inv seed last k j ch -> 0 <= k < t_umax t ->
  read_frame (t_chk t) c buf = Err e -> decode_channel o t c ch 16 buf out = Ok (r, ch', out') ->
  plc_inv seed last (k + 1) (j + Z.to_nat (ne c)) ch' /\
  forall n, 0 <= n < ne c -> getz z0 (ch_lines ch') n =
    fmul o (getz z0 last n) (if plc_iter (j + Z.to_nat n + 1) seed <? 32768 then fade o (Z.to_nat (k + 1)) else fneg o (fade o (Z.to_nat (k + 1)))).
Proof.
  intros [C1 C2 C3 C4 C5 C6] (<- & I2 & I3 & I4) Hk ER H. destruct (decode_channel_lines _ _ _ _ _ _ _ H) as (p & lines & info & E & E1 & E2).
  unfold decode_spectrum in E. rewrite ER in E. unfold plc_load in E. rewrite I2, I3, I4, <- fade_step in E by lia.
  unfold uincr in E. destruct (Z.leb_spec (t_umax t) k); [lia|]. cbn [bind] in E.
  pose proof (plc_lines_spec o (fade o (Z.to_nat (k + 1))) (ch_lines ch) (pl_last (ch_plc ch)) (plc_iter j seed) ltac:(lia)) as [P1 P2].
  destruct (plc_lines o _ (plc_iter j seed) (ch_lines ch) (pl_last (ch_plc ch))) as [sd ls]. cbn [fst snd bind] in *. injection E as <- <- _.
  split.
  - unfold plc_inv. rewrite E2. cbn [pl_last pl_lost pl_alpha pl_seed]. split; [reflexivity|]. split; [reflexivity|]. split; [reflexivity|]. rewrite P1, plc_iter_add. f_equal. unfold len in C1. lia.
  - intros n Hn. rewrite E1, P2 by lia. rewrite plc_iter_add. replace (j + Z.to_nat (n + 1))%nat with (j + Z.to_nat n + 1)%nat by lia. reflexivity.
Qed.

Lemma last_cons {A} (x : A) l d : List.last (x :: l) d = List.last l x.
Proof. revert x d. induction l as [|y l IH]; intros x d; [reflexivity|]. change (List.last (y :: l) d = List.last (y :: l) x). rewrite !IH. reflexivity. Qed.
Theorem concealment_history c : legal_config c -> forall cs ch seed last k j, channel_ok c ch -> plc_inv seed last k j ch -> 0 <= k -> ch_index ch + len cs <= t_umax t ->
  Forall (fun a => bytes (k_buf a) /\ read_frame (t_chk t) c (k_buf a) <> Panic) cs ->
  exists ss, states c ch cs = Ok ss /\ conceal_trace c seed last k j cs ss /\ Forall (channel_ok c) ss /\
    pl_lost (ch_plc (List.last ss ch)) = lost_after c k cs.
Proof.
  intros Lc. induction cs as [|a cs IH]; intros ch seed last k j K I Hk Hb HF; cbn [states].
  - exists []. cbn [conceal_trace List.last lost_after]. destruct I as (_ & I2 & _). auto.
  - inversion HF as [|? ? [B1 B2] HF']; subst. replace (len (a :: cs)) with (len cs + 1) in Hb by (unfold len; cbn [length]; lia). pose proof (len_nonneg cs) as Hn.
    cbn [lost_after conceal_trace]. destruct (Z.eqb_spec (k_bits a) 16) as [E16|E16].
    + rewrite E16. destruct (decode_channel_ok o t c ch (k_buf a) (k_out a) Lc K B1 B2 ltac:(lia)) as ([[r ch'] out'] & E & -> & R2 & R3 & R4 & R5). rewrite E. cbn [bind].
      unfold corrupt. unfold plc_effect in R5. pose proof I as (I1 & I2 & I3 & I4). destruct (read_frame (t_chk t) c (k_buf a)) as [f|e|] eqn:ER; [| |congruence].
      * destruct R5 as (P1 & P2 & P3 & P4 & P5). destruct (IH ch' seed (ch_lines ch') 0 j R2) as (ss & E2 & T1 & T2 & T3).
        { repeat split; [exact P3|exact P1|exact P2|congruence]. }
        { lia. } { lia. } { exact HF'. }
        rewrite E2. cbn [bind]. exists (ch' :: ss). split; [reflexivity|]. split; [split; assumption|]. split; [constructor; assumption|]. rewrite last_cons. exact T3.
      * destruct R5 as (P1 & P2 & P3). assert (Hku : 0 <= k < t_umax t) by (destruct K as [_ _ _ C4 _ _]; lia).
        destruct (decode_channel_lost c ch (k_buf a) (k_out a) None ch' out' e seed last k j K I Hku ER E) as [D1 D2].
        destruct (IH ch' seed last (k + 1) (j + Z.to_nat (ne c))%nat R2 D1 ltac:(lia) ltac:(lia) HF') as (ss & E2 & T1 & T2 & T3).
        rewrite E2. cbn [bind]. exists (ch' :: ss). split; [reflexivity|]. split; [split; [exact D2|split; [exact P3|split; [lia|exact T1]]]|]. split; [constructor; assumption|]. rewrite last_cons. exact T3.
    + rewrite (decode_channel_other o t c ch (k_bits a) (k_buf a) (k_out a) E16). cbn [bind].
      destruct (IH ch seed last k j K I Hk ltac:(lia) HF') as (ss & E2 & T1 & T2 & T3). rewrite E2. cbn [bind]. pose proof I as (I1 & I2 & _).
      exists (ch :: ss). split; [reflexivity|]. split; [split; assumption|]. split; [constructor; assumption|]. rewrite last_cons. exact T3.
Qed.

(* a new channel is in the state "no frame lost" *)
Lemma map_res_In {A B} (f : A -> res B) : forall l bs b, map_res f l = Ok bs -> In b bs -> exists a, In a l /\ f a = Ok b.
Proof.
  induction l as [|a l IH]; intros bs b H Hb; cbn [map_res] in H; [injection H as <-; destruct Hb|].
  destruct (f a) as [b0| |] eqn:E; cbn [bind] in H; try discriminate H. destruct (map_res f l) as [bs0| |] eqn:E2; cbn [bind] in H; try discriminate H. injection H as <-.
  destruct Hb as [<-|Hb]; [exists a; split; [now left|exact E]|]. destruct (IH bs0 b eq_refl Hb) as (a' & A1 & A2). exists a'. split; [now right|exact A2].
Qed.
Lemma decoder_new_plc num d f (s : list F) (x : list (F * F)) dec ch : decoder_new o num d f s x = Ok dec -> In ch (d_channels dec) ->
  plc_inv 24607 (pl_last (ch_plc ch)) 0 0 ch /\ t_active (ch_ltpf ch) = false.
Proof.
  unfold decoder_new. destruct (dec_new num d f s x) as [[[parts s'] x']| |]; cbn [bind]; try discriminate. destruct (map_res _ parts) as [chs| |] eqn:E; cbn [bind]; try discriminate.
  intros H Hc. injection H as <-. cbn [d_channels] in Hc. destruct (map_res_In _ _ _ _ E Hc) as ([sps cps] & _ & H). unfold channel_of_parts in H.
  repeat match type of H with match ?l with _ => _ end = _ => destruct l; try discriminate H end. injection H as <-. repeat split.
Qed.
Lemma getz_ext {A} (d : A) (l l' : list A) : len l = len l' -> (forall j, 0 <= j < len l -> getz d l j = getz d l' j) -> l = l'.
Proof.
  intros L H. apply (nth_ext _ _ d d); [unfold len in L; lia|]. intros n Hn. specialize (H (Z.of_nat n)). unfold getz, len in H. rewrite Nat2Z.id in H. apply H. lia.
Qed.
(* a call with another bit depth returns the error and changes nothing *)
Lemma decode_frame_other (d : decoder F) bits i buf out : bits <> 16 -> 0 <= i < len (d_channels d) ->
  decode_frame o t d bits i buf out = Ok (Some Only16BitsPerAudioSampleSupported, d, out).
Proof.
  intros Hb Hi. unfold decode_frame. destruct (idx_ok (d_channels d) i Hi) as (ch & E). rewrite E. cbn [bind]. rewrite (decode_channel_other o t (d_config d) ch bits buf out Hb). cbn [bind].
  destruct (put_ok ch (d_channels d) i ch Hi) as (l & E2 & L & T). rewrite E2. cbn [bind]. destruct d as [cf chs]. cbn [d_config d_channels] in *. do 3 f_equal. f_equal.
  apply (getz_ext ch); [exact L|]. intros j Hj. rewrite T by lia. rewrite (idx_get ch) in E by exact Hi. injection E as E. destruct (Z.eqb_spec j i) as [->|]; [now rewrite E|reflexivity].
Qed.
(* inactive now and before: the postfilter copies its input *)
Lemma ltpf_transparent c s i nbits freq : legal_config c -> ltpf_ok c (cfg_lens c) s -> 0 <= l_pitch i < 512 -> len freq = nf c -> l_active i = false -> t_active s = false ->
  exists s', ltpf_run o c s i nbits freq = Ok (freq, s') /\ t_active s' = false.
Proof.
  intros Lc S Hp Hf Ha Hs. destruct (ltpf_run_spec o c (cfg_lens c) s i nbits freq Lc (cfg_lens_eq c Lc) S Hp Hf) as (b & s' & E & Lb & _ & A & _ & _ & _ & z & _ & R).
  exists s'. split; [|now rewrite A]. rewrite E. f_equal. f_equal. apply (getz_ext z0); [lia|]. intros m Hm. specialize (R m ltac:(lia)). cbv zeta in R. rewrite Ha, Hs in R.
  change (ltpf_transition false false (same_lag c s i)) with Inactive in R. unfold ltpf_rel, around in R. destruct (Z.ltb_spec m 0); [lia|]. exact R.
Qed.
End History.
