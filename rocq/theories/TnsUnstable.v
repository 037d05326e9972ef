(* A finite spectrum on which the binary32 linear prediction yields a coefficient of exactly one. *)
From Coq Require Import ZArith List Bool Lia Reals Lra.
From Flocq Require Import Core BinarySingleNaN.
From Verif Require Import Base Config Loops Scalar EncScalar F32 EncF32 DecSignal DecTotal DetectSpec ParseBase F32Size SnsSize LtpfSize EncTns EncFrame EstimateSpec QuantSpec FrameSpec TnsOk TnsIndex.
From Coq Require Import List.
Import ListNotations.
Local Open Scope Z_scope.

(* filters that are not in use keep zero coefficients *)
Section Rest.
Context {F : Type} (o : ops F) (e : eops F).
Local Notation f0 := (fz o 0).
Lemma put_other {A} (d : A) l k v l' j : put l k v = Ok l' -> 0 <= k -> 0 <= j -> j <> k -> getz d l' j = getz d l j.
Proof.
  intros E Hk Hj N. destruct (Z_lt_le_dec k (len l)) as [L|L].
  - destruct (put_ok d l k v ltac:(lia)) as (l1 & E1 & Ll & T). rewrite E in E1. apply Ok_inj in E1. subst l1. destruct (Z_lt_le_dec j (len l)) as [M|M]; [rewrite T by lia; destruct (Z.eqb_spec j k); [contradiction|reflexivity]|].
    unfold getz. rewrite !nth_overflow; [reflexivity| |]; unfold len in *; lia.
  - exfalso. unfold put in E. destruct (Z.ltb_spec k 0); [lia|]. destruct (Z.leb_spec (len l) k); [discriminate E|lia].
Qed.
Lemma rev_keep {S} (P : S -> Prop) body lo : forall n s s', forn_rev n lo body s = Ok s' -> P s -> (forall k s s', lo <= k < lo + Z.of_nat n -> body k s = Ok s' -> P s -> P s') -> P s'.
Proof.
  induction n as [|n IH]; intros s s' E H K; cbn [forn_rev] in E; [apply Ok_inj in E; congruence|]. apply bind_Ok in E. destruct E as (s1 & E1 & E). refine (IH _ _ E (K _ _ _ _ E1 H) _); [lia|]. intros k u u' Hk. apply K. lia.
Qed.
Lemma analysis_rest r f nn w rc rc' : 0 <= f -> tns_analysis o e r f nn w rc = Ok rc' -> forall j, f * 8 + 8 <= j -> getz f0 rc' j = getz f0 rc j.
Proof.
  intros Hf E j Hj. unfold tns_analysis in E. apply bind_Ok in E. destruct E as (r0 & _ & E). apply bind_Ok in E. destruct E as (a & _ & E). apply bind_Ok in E. destruct E as ([[a1 al] er] & _ & E). cbv zeta in E. destruct (flt o _ _ && negb nn).
  - apply bind_Ok in E. destruct E as (a2 & _ & E). apply bind_Ok in E. destruct E as ([[x1 x2] rc1] & E & E1). apply Ok_inj in E1. subst rc'.
    refine (rev_keep (fun s => getz f0 (snd s) j = getz f0 rc j) (stepdown o f) 1 8%nat (a2, al, rc) (x1, x2, rc1) E eq_refl _). intros k [[ak am] q] s' Hk Ek Hs. cbn [snd] in Hs. unfold stepdown in Ek. apply bind_Ok in Ek. destruct Ek as (v & _ & Ek). apply bind_Ok in Ek. destruct Ek as (q1 & Eq & Ek). cbv zeta in Ek. apply bind_Ok in Ek. destruct Ek as (am1 & _ & Ek). apply Ok_inj in Ek. subst s'. cbn [snd]. rewrite <- Hs. apply (put_other f0 _ _ _ _ _ Eq); lia.
  - apply bind_Ok in E. destruct E as (u & _ & E). eapply (for_keep (fun l => getz f0 l j = getz f0 rc j)); [exact E|reflexivity|]. intros k l l' Hk Ek Hl. rewrite <- Hl. apply (put_other f0 _ _ _ _ _ Ek); lia.
Qed.
Lemma coefs_rest c x bw nbits nn params rc : tns_enc_params (n_ms c) bw = Ok params -> tns_coefs o e c x bw nbits nn = Ok rc -> forall j, len params * 8 <= j < 16 -> getz f0 rc j = f0.
Proof.
  intros EP E j Hj. unfold tns_coefs in E. rewrite EP in E. cbn [bind] in E.
  eapply (for_keep (fun l => getz f0 l j = f0)); [exact E| |].
  - unfold getz. apply nth_repeat.
  - intros f l l' Hf Ef Hl. apply bind_Ok in Ef. destruct Ef as (p & _ & Ef). apply bind_Ok in Ef. destruct Ef as (r & _ & Ef). rewrite (analysis_rest r f nn _ l l' ltac:(lia) Ef) by lia. exact Hl.
Qed.
(* the weights all being one, the library's power function does not matter *)
Lemma analysis_plain e' r f nn rc : (forall k, 0 <= k < 9 -> e_powi e (fz o 1) k = e_powi e' (fz o 1) k) -> tns_analysis o e r f nn 0 rc = tns_analysis o e' r f nn 0 rc.
Proof.
  intros H. unfold tns_analysis. destruct (idx r 0) as [r0| |]; cbn [bind]; auto. destruct (put _ 0 _) as [a| |]; cbn [bind]; auto. destruct (for_range 1 9 _ _) as [[[a1 al] er]| |]; cbn [bind]; auto. cbv zeta. change (0 <? 0) with false. cbn [andb]. destruct (flt o _ _ && negb nn); auto.
  rewrite (for_ext _ (fun k a => x <- idx a k ;; put a k (fmul o x (e_powi e' (fz o 1) k))) 0 9 a1); [reflexivity|]. intros k l Hk. now rewrite H.
Qed.
Lemma coefs_plain e' c x bw nbits nbits' nn : (forall k, 0 <= k < 9 -> e_powi e (fz o 1) k = e_powi e' (fz o 1) k) -> tns_weighting (n_ms c) nbits = 0 -> tns_weighting (n_ms c) nbits' = 0 -> tns_coefs o e c x bw nbits nn = tns_coefs o e' c x bw nbits' nn.
Proof.
  intros H W W'. unfold tns_coefs. rewrite W, W'. destruct (tns_enc_params (n_ms c) bw) as [ps| |]; cbn [bind]; auto. apply for_ext. intros f q Hf. destruct (idx ps f) as [p| |]; cbn [bind]; auto. destruct (autocorr o x (snd p)) as [ac| |]; cbn [bind]; auto. now apply analysis_plain.
Qed.
Lemma encode_num chk c x bw nbits nn r y params : tns_enc_params (n_ms c) bw = Ok params -> tns_encode o e chk c x bw nbits nn = Ok (r, y) -> tr_num r = len params.
Proof.
  intros EP ER. unfold tns_encode in ER. apply bind_Ok in ER. destruct ER as (u & _ & ER). rewrite EP in ER. cbn [bind] in ER. cbv zeta in ER. apply bind_Ok in ER. destruct ER as (v & _ & ER). apply bind_Ok in ER. destruct ER as (w & _ & ER). apply bind_Ok in ER. destruct ER as ([[q i] ord] & _ & ER). apply bind_Ok in ER. destruct ER as (n & _ & ER). apply bind_Ok in ER. destruct ER as (z & _ & ER). apply Ok_inj in ER. apply pair_equal_spec in ER. destruct ER as [<- _]. reflexivity.
Qed.
End Rest.

(* one bell per sub band *)
Definition bell : list Z := [0; 0; 0; 1; 5; 19; 74; 254; 782; 2157; 5339; 11855; 23611; 42184; 67603; 97182; 125315; 144949; 150391; 139968; 116850; 87504; 58779; 35417; 19143; 9281; 4036; 1574; 551; 173; 49; 12; 3; 1; 0; 0; 0].
Definition bells : list Z := repeat 0 9 ++ bell ++ bell ++ bell.
Definition bells32 : list f32 := map f32_of_Z bells.
Definition plain (el : elibm) : elibm := mkElibm (lm_log10 el) (lm_log2 el) (lm_eexp2 el) (lm_asin el) (lm_pow10 el) (fun _ _ => f32_of_Z 1).
Definition c16k : config := config_new Hz16000 SevenPointFiveMs.
Lemma bells_one lm el : match tns_coefs (f32_ops lm) (f32_eops (plain el)) c16k bells32 1 1000 false with Ok rc => f32_bits (getz (f32_of_Z 0) rc 6) | _ => None end = Some (8388608, -23).
Proof. vm_compute. reflexivity. Qed.
