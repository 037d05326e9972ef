(* What the inverse MDCT computes, entry by entry (any scalar type): the output depends on the overlap memory and the lines only. *)
From Coq Require Import ZArith List Bool Lia.
From Verif Require Import Base Config FrameSpec FftFactor FactorProofs Loops Scalar Fft DecSignal DecMdct DecTotal DecState FftSpec DctSpec ParseBase ParseTotal.
Import ListNotations.
Local Open Scope Z_scope.

Ltac bcase := repeat match goal with
  | |- context [?a <=? ?b] => destruct (Z.leb_spec a b); cbn [andb]
  | |- context [?a <? ?b] => destruct (Z.ltb_spec a b); cbn [andb]
  end.

Lemma zipmod_get {A B} (f : A -> B -> A) (d : A) (e : B) : forall l src j, 0 <= j < len l -> j < len src -> getz d (zipmod f l src) j = f (getz d l j) (getz e src j).
Proof.
  induction l as [|x l IH]; intros [|s src] j H1 H2; unfold len in *; cbn [length] in *; try lia. unfold getz in *. cbn [zipmod].
  destruct (Z.to_nat j) as [|n] eqn:E; cbn [nth]; [reflexivity|]. specialize (IH src (Z.of_nat n)). rewrite !Nat2Z.id in IH. apply IH; lia.
Qed.
Lemma zipmod_get_over {A B} (f : A -> B -> A) (d : A) : forall l src j, len src <= j -> getz d (zipmod f l src) j = getz d l j.
Proof.
  induction l as [|x l IH]; intros [|s src] j H; unfold len in *; cbn [length] in *; try reflexivity. unfold getz in *. cbn [zipmod].
  destruct (Z.to_nat j) as [|n] eqn:E; [lia|]. cbn [nth]. specialize (IH src (Z.of_nat n)). rewrite Nat2Z.id in IH. apply IH. lia.
Qed.
Lemma zipsub_ok {A B} (f : A -> B -> A) l a b (src : list B) : 0 <= a <= b -> b <= len l -> b - a <= len src ->
  exists l', zipsub f l a b src = Ok l' /\ len l' = len l /\
    forall d e j, 0 <= j -> getz d l' j = if (a <=? j) && (j <? b) then f (getz d l j) (getz e src (j - a)) else getz d l j.
Proof.
  intros H1 H2 H3. unfold zipsub. destruct (sub_ok l a b H1 H2) as (s & E & L & G). rewrite E. cbn [bind].
  destruct (blit_ok l a b (zipmod f s src) H1 H2) as (l' & E' & L' & G'); [rewrite len_zipmod; lia|]. exists l'. split; [exact E'|]. split; [exact L'|].
  intros d e j Hj. rewrite G' by exact Hj. bcase; try reflexivity. rewrite (zipmod_get f d e) by lia. rewrite G by lia. do 2 f_equal. lia.
Qed.
Lemma rev_get {A} (d : A) (l : list A) j : 0 <= j < len l -> getz d (rev l) j = getz d l (len l - 1 - j).
Proof. intros H. unfold getz, len in *. rewrite rev_nth by lia. f_equal. lia. Qed.
Lemma combine_get {A B} (d : A) (e : B) : forall (a : list A) (b : list B) j, len a = len b -> getz (d, e) (combine a b) j = (getz d a j, getz e b j).
Proof. intros a b j H. unfold getz. apply combine_nth. unfold len in H. lia. Qed.

Section Mdct.
Context {F : Type} (o : ops F).
Local Notation z0 := (fz o 0).

(* time domain aliasing buffer from the transform u of length 2 h, before gain and window *)
Definition tda (h : Z) (u : Z -> F) (n : Z) : F :=
  if n <? h then u (h + n)
  else if n <? 2 * h then fneg o (u (2 * h - 1 - (n - h)))
  else if n <? 3 * h then fneg o (u (2 * h - 1 - (n - h)))
  else fneg o (u (n - 3 * h)).
Definition mdct_gain (N : Z) : F := fdiv o (fz o 1) (fsqrt o (fmul o (fz o 2) (fz o N))).
(* windowed aliasing buffer of a frame of coefficients x 0 .. x (N - 1), N = 2 h; w: window entries *)
Definition tda_win (h : Z) (fl : list Z) (w : Z -> Z * Z) (x : Z -> F) (n : Z) : F :=
  fmul o (fmul o (tda h (dct_val o h fl x) n) (mdct_gain (2 * h))) (flit o (w (4 * h - 1 - n))).

Lemma mdct_inverse_spec c m buf h fl : legal_config c -> mdct_ok c m -> len buf = nf c -> nf c = 2 * h -> dct_factors (nf c) = Ok fl -> chain h fl -> small_factors fl -> fl <> [] ->
  exists b m', mdct_inverse o c m buf = Ok (b, m') /\ len b = nf c /\ mdct_ok c m' /\ m_ola m' = m_ola m /\ m_zeros m' = m_zeros m /\
    forall n, 0 <= n < 4 * h -> getz z0 (m_t m') n = fmul o (tda h (dct_val o h fl (getz z0 buf)) n) (mdct_gain (2 * h)).
Proof.
  intros L [M1 M2 M3 M4 M5 M6] Hb Hh Ef Ch S Ne. destruct (config_geom c L) as (G1 & G2 & G3 & G4 & G5 & G6 & G7). unfold mdct_inverse.
  rewrite Ef. cbn [bind]. rewrite Hh in *. replace (2 * h / 2) with h in * by (rewrite Z.mul_comm, Z.div_mul; lia).
  destruct (dct_iv_spec o h fl (m_in m) (m_out m) buf ltac:(lia) Ch S Ne M5 M6 Hb) as (b & i & u & E & Lb & Li & Lu & _ & _ & Gb). rewrite E. cbn [bind].
  rewrite Lb, Z.eqb_refl. cbn [assert bind].
  destruct (blit_ok (m_t m) 0 (2 * h) b ltac:(lia) ltac:(lia) ltac:(lia)) as (t1 & E1 & L1 & T1). rewrite E1. cbn [bind].
  destruct (zipsub_ok (fun (_ : F) x => fneg o x) t1 (2 * h) (2 * h * 2) (rev b)) as (t2 & E2 & L2 & T2); [lia|lia|rewrite len_rev; lia|]. rewrite E2. cbn [bind].
  destruct (sub_ok t2 0 h ltac:(lia) ltac:(lia)) as (s1 & E3 & L3 & T3). rewrite E3. cbn [bind].
  destruct (blit_ok (m_half m) 0 (len (m_half m)) s1 ltac:(lia) ltac:(lia) ltac:(lia)) as (hf & E4 & L4 & T4). rewrite E4. cbn [bind].
  destruct (sub_ok t2 h (h + h) ltac:(lia) ltac:(lia)) as (s2 & E5 & L5 & T5). rewrite E5. cbn [bind].
  destruct (blit_ok t2 0 h s2 ltac:(lia) ltac:(lia) ltac:(lia)) as (t3 & E6 & L6 & T6). rewrite E6. cbn [bind].
  destruct (sub_ok t3 (h + h) (h + h + h) ltac:(lia) ltac:(lia)) as (s3 & E7 & L7 & T7). rewrite E7. cbn [bind].
  destruct (blit_ok t3 h (h + h) s3 ltac:(lia) ltac:(lia) ltac:(lia)) as (t4 & E8 & L8 & T8). rewrite E8. cbn [bind].
  destruct (sub_ok t4 (2 * h + h) (2 * h + h + h) ltac:(lia) ltac:(lia)) as (s4 & E9 & L9 & T9). rewrite E9. cbn [bind].
  destruct (blit_ok t4 (2 * h) (2 * h + h) s4 ltac:(lia) ltac:(lia) ltac:(lia)) as (t5 & E10 & L10 & T10). rewrite E10. cbn [bind].
  destruct (zipsub_ok (fun (_ : F) x => fneg o x) t5 (h * 3) (len t5) hf) as (t6 & E11 & L11 & T11); [lia|lia|lia|]. rewrite E11. cbn [bind].
  destruct (zipsub_ok (fun x (_ : F) => fmul o x (mdct_gain (2 * h))) t6 0 (Z.min (2 * (2 * h)) (len t6)) t6) as (t7 & E12 & L12 & T12); [lia|lia|lia|]. unfold mdct_gain at 1 in E12. rewrite E12. cbn [bind].
  eexists _, _. split; [reflexivity|]. split; [exact Lb|]. split; [constructor; cbn [m_ola m_t m_zeros m_half m_in m_out]; rewrite ?Hh; replace (2 * h / 2) with h by (rewrite Z.mul_comm, Z.div_mul; lia); lia|].
  cbn [m_ola m_zeros m_t]. split; [reflexivity|]. split; [reflexivity|].
  intros n Hn. rewrite (T12 z0 z0) by lia. destruct (Z.leb_spec 0 n); [|lia]. destruct (Z.ltb_spec n (Z.min (2 * (2 * h)) (len t6))); [|lia]. cbn [andb]. f_equal.
  (* entries of the buffer before it was permuted *)
  assert (Q2 : forall j, 0 <= j < 4 * h -> getz z0 t2 j = if j <? 2 * h then dct_val o h fl (getz z0 buf) j else fneg o (dct_val o h fl (getz z0 buf) (4 * h - 1 - j))).
  { intros j Hj. rewrite (T2 z0 z0) by lia. bcase; try lia.
    - rewrite rev_get by lia. f_equal. rewrite <- Gb by lia. f_equal. lia.
    - rewrite T1 by lia. bcase; try lia. rewrite <- Gb by lia. f_equal. lia. }
  unfold tda. rewrite (T11 z0 z0) by lia. destruct (Z.leb_spec (h * 3) n) as [C3|C3]; cbn [andb].
  { destruct (Z.ltb_spec n (len t5)); [|lia]. rewrite T4 by lia. bcase; try lia. rewrite T3 by lia. rewrite Q2 by lia. bcase; try lia. do 2 f_equal. lia. }
  rewrite T10 by lia. destruct (Z.leb_spec (2 * h) n) as [C2|C2]; cbn [andb].
  { destruct (Z.ltb_spec n (2 * h + h)); [|lia]. rewrite T9 by lia. rewrite T8 by lia. destruct (Z.leb_spec h (2 * h + h + (n - 2 * h))); [|lia]. destruct (Z.ltb_spec (2 * h + h + (n - 2 * h)) (h + h)); [lia|]. cbn [andb].
    rewrite T6 by lia. destruct (Z.ltb_spec (2 * h + h + (n - 2 * h)) h); [lia|]. rewrite andb_false_r. rewrite Q2 by lia. bcase; try lia. do 2 f_equal. lia. }
  rewrite T8 by lia. destruct (Z.leb_spec h n) as [C1|C1]; cbn [andb].
  { destruct (Z.ltb_spec n (h + h)); [|lia]. rewrite T7 by lia. rewrite T6 by lia. destruct (Z.ltb_spec (h + h + (n - h)) h); [lia|]. rewrite andb_false_r. rewrite Q2 by lia. bcase; try lia. do 2 f_equal. lia. }
  rewrite T6 by lia. bcase; try lia. rewrite T5 by lia. rewrite Q2 by lia. bcase; try lia. do 2 f_equal. lia.
Qed.

(* coefficients fed to the transform: the coded lines, then zeros *)
Definition padded (ne : Z) (lines zeros : list F) (j : Z) : F := if j <? ne then getz z0 lines j else getz z0 zeros (j - ne).
Theorem mdct_run_spec c m lines freq h fl w : legal_config c -> mdct_ok c m -> len lines = ne c -> len freq = nf c -> nf c = 2 * h -> dct_factors (nf c) = Ok fl -> chain h fl -> small_factors fl -> fl <> [] ->
  mdct_window c = Ok w ->
  exists out m', mdct_run o c m lines freq = Ok (out, m') /\ len out = nf c /\ mdct_ok c m' /\ m_zeros m' = m_zeros m /\
    (forall n, 0 <= n < nf c -> getz z0 out n =
       let t := tda_win h fl (getz (0, 0) w) (padded (ne c) lines (m_zeros m)) (zlead c + n) in if n <? nf c - zlead c then fadd o (getz z0 (m_ola m) n) t else t) /\
    (forall n, 0 <= n < nf c - zlead c -> getz z0 (m_ola m') n = tda_win h fl (getz (0, 0) w) (padded (ne c) lines (m_zeros m)) (nf c + zlead c + n)).
Proof.
  intros L M Hl Hf Hh Ef Ch S Ne Ew. pose proof M as [M1 M2 M3 M4 M5 M6]. destruct (config_geom c L) as (G1 & G2 & G3 & G4 & G5 & G6 & G7).
  destruct (mdct_window_ok c L) as (w' & Ew' & Lw). rewrite Ew in Ew'. injection Ew' as <-. unfold mdct_run.
  rewrite Hl, Hf, !Z.eqb_refl. cbn [assert bind].
  destruct (blit_ok freq 0 (ne c) lines ltac:(lia) ltac:(lia) ltac:(lia)) as (b1 & E1 & L1 & T1). rewrite E1. cbn [bind].
  destruct (blit_ok b1 (ne c) (len b1) (m_zeros m) ltac:(lia) ltac:(lia) ltac:(lia)) as (b2 & E2 & L2 & T2). rewrite E2. cbn [bind].
  assert (B2 : forall j, 0 <= j < nf c -> getz z0 b2 j = padded (ne c) lines (m_zeros m) j).
  { intros j Hj. rewrite T2 by lia. unfold padded. destruct (Z.ltb_spec j (ne c)).
    - destruct (Z.leb_spec (ne c) j); [lia|]. cbn [andb]. rewrite T1 by lia. bcase; try lia. f_equal. lia.
    - bcase; try lia; reflexivity. }
  destruct (mdct_inverse_spec c m b2 h fl L M ltac:(lia) Hh Ef Ch S Ne) as (b3 & m1 & E3 & L3 & [N1 N2 N3 N4 N5 N6] & O1 & O2 & T3). rewrite E3. cbn [bind]. rewrite Ew. cbn [bind].
  set (t := zipmod _ (m_t m1) (rev w)). assert (Lt : len t = nf c * 2) by (unfold t; rewrite len_zipmod; exact N2).
  assert (Tt : forall n, 0 <= n < 4 * h -> getz z0 t n = tda_win h fl (getz (0, 0) w) (padded (ne c) lines (m_zeros m)) n).
  { intros n Hn. unfold t. rewrite (zipmod_get _ z0 (0, 0)) by (rewrite ?len_rev; lia). rewrite T3 by lia. unfold tda_win. rewrite rev_get by lia. f_equal.
    - f_equal. unfold tda. assert (X : forall j, 0 <= j < 2 * h -> dct_val o h fl (getz z0 b2) j = dct_val o h fl (padded (ne c) lines (m_zeros m)) j).
      { intros j Hj. assert (Y : forall k, 0 <= k < h -> dct_out o h fl (getz z0 b2) k = dct_out o h fl (padded (ne c) lines (m_zeros m)) k).
        { intros k Hk. unfold dct_out, dct_mid. f_equal. apply (fft_val_ext o _ (length fl) fl h); auto; [lia|]. intros q Hq. unfold dct_in. rewrite !B2 by lia. reflexivity. }
        unfold dct_val. rewrite !Y; [reflexivity| |]; Z.div_mod_to_equations; lia. }
      bcase; rewrite X by lia; reflexivity.
    - f_equal. f_equal. lia. }
  unfold overlap_add. cbn [m_ola m_t m_zeros m_half m_in m_out]. unfold usub. destruct (Z.ltb_spec (nf c) (zlead c)); [lia|]. cbn [bind].
  destruct (sub_ok (m_ola m1) 0 (nf c - zlead c) ltac:(lia) ltac:(lia)) as (s1 & E4 & L4 & T4). rewrite E4. cbn [bind].
  destruct (sub_ok t (zlead c) (nf c) ltac:(lia) ltac:(lia)) as (s2 & E5 & L5 & T5). rewrite E5. cbn [bind].
  destruct (zipsub_ok (fun (_ : F) '(x, y) => fadd o x y) b3 0 (nf c - zlead c) (combine s1 s2)) as (b4 & E6 & L6 & T6); [lia|lia|rewrite len_combine; lia|]. rewrite E6. cbn [bind].
  destruct (sub_ok t (nf c + zlead c) (nf c * 2) ltac:(lia) ltac:(lia)) as (s3 & E7 & L7 & T7). rewrite E7. cbn [bind].
  destruct (blit_ok (m_ola m1) 0 (nf c - zlead c) s3 ltac:(lia) ltac:(lia) ltac:(lia)) as (ola & E8 & L8 & T8). rewrite E8. cbn [bind].
  destruct (sub_ok t (nf c) (nf c + zlead c) ltac:(lia) ltac:(lia)) as (s4 & E9 & L9 & T9). rewrite E9. cbn [bind].
  destruct (blit_ok b4 (nf c - zlead c) (nf c) s4 ltac:(lia) ltac:(lia) ltac:(lia)) as (b5 & E10 & L10 & T10). rewrite E10. cbn [bind].
  eexists _, _. split; [reflexivity|]. cbn [m_zeros m_ola]. split; [lia|]. split; [constructor; cbn [m_ola m_t m_zeros m_half m_in m_out]; lia|]. split; [exact O2|]. split.
  - intros n Hn. rewrite T10 by lia. rewrite (T6 z0 (z0, z0)) by lia. cbv zeta. bcase; try lia.
    + rewrite T9 by lia. rewrite Tt by lia. f_equal. lia.
    + rewrite combine_get by lia. rewrite T4, T5 by lia. rewrite O1. rewrite Tt by lia. f_equal; f_equal; lia.
  - intros n Hn. rewrite T8 by lia. bcase; try lia. rewrite T7 by lia. rewrite Tt by lia. f_equal. lia.
Qed.
End Mdct.
