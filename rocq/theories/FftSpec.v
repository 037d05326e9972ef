(* What kf_work computes, entry by entry, without the in-place updates: the butterflies as functions and the recursion over
   the factors. Shows that the output region depends on the input only, not on what the output buffer held before. *)
From Coq Require Import ZArith List Bool Lia.
From Verif Require Import Base FftFactor FactorProofs Loops Scalar Fft DecTotal DecState.
Import ListNotations.
Local Open Scope Z_scope.

Section Spec.
Context {F : Type} (o : ops F).
Local Notation C := (F * F)%type.
Let half : F := flit o (5, -1).

(* value k of a butterfly of p inputs y 0 .. y (p - 1); w q = twiddle of input q, e q = twiddle at q m fstride *)
Definition bf2 (y w : Z -> C) (k : Z) : C :=
  let t := cmul o (y 1) (w 1) in
  if k =? 0 then cadd o (y 0) t else csub o (y 0) t.
Definition bf3 (y w e : Z -> C) (k : Z) : C :=
  let s1 := cmul o (y 1) (w 1) in
  let s2 := cmul o (y 2) (w 2) in
  let s3 := cadd o s1 s2 in
  let fm := (fsub o (fst (y 0)) (fmul o (fst s3) half), fsub o (snd (y 0)) (fmul o (snd s3) half)) in
  let s0 := cscale o (csub o s1 s2) (snd (e 1)) in
  if k =? 0 then cadd o (y 0) s3
  else if k =? 1 then (fsub o (fst fm) (snd s0), fadd o (snd fm) (fst s0))
  else (fadd o (fst fm) (snd s0), fsub o (snd fm) (fst s0)).
Definition bf4 (y w : Z -> C) (k : Z) : C :=
  let s0 := cmul o (y 1) (w 1) in
  let s1 := cmul o (y 2) (w 2) in
  let s2 := cmul o (y 3) (w 3) in
  let s5 := csub o (y 0) s1 in
  let a := cadd o (y 0) s1 in
  let s3 := cadd o s0 s2 in
  let s4 := csub o s0 s2 in
  if k =? 0 then cadd o a s3
  else if k =? 1 then (fadd o (fst s5) (snd s4), fsub o (snd s5) (fst s4))
  else if k =? 2 then csub o a s3
  else (fsub o (fst s5) (snd s4), fadd o (snd s5) (fst s4)).
Definition bf5 (y w e : Z -> C) (k : Z) : C :=
  let s0 := y 0 in
  let s1 := cmul o (y 1) (w 1) in
  let s2 := cmul o (y 2) (w 2) in
  let s3 := cmul o (y 3) (w 3) in
  let s4 := cmul o (y 4) (w 4) in
  let s7 := cadd o s1 s4 in
  let s10 := csub o s1 s4 in
  let s8 := cadd o s2 s3 in
  let s9 := csub o s2 s3 in
  let ya := e 1 in
  let yb := e 2 in
  let s5 := (fadd o (fadd o (fst s0) (fmul o (fst s7) (fst ya))) (fmul o (fst s8) (fst yb)),
             fadd o (fadd o (snd s0) (fmul o (snd s7) (fst ya))) (fmul o (snd s8) (fst yb))) in
  let s6 := (fadd o (fmul o (snd s10) (snd ya)) (fmul o (snd s9) (snd yb)),
             fsub o (fneg o (fmul o (fst s10) (snd ya))) (fmul o (fst s9) (snd yb))) in
  let s11 := (fadd o (fadd o (fst s0) (fmul o (fst s7) (fst yb))) (fmul o (fst s8) (fst ya)),
              fadd o (fadd o (snd s0) (fmul o (snd s7) (fst yb))) (fmul o (snd s8) (fst ya))) in
  let s12 := (fadd o (fneg o (fmul o (snd s10) (snd yb))) (fmul o (snd s9) (snd ya)),
              fsub o (fmul o (fst s10) (snd yb)) (fmul o (fst s9) (snd ya))) in
  if k =? 0 then (fadd o (fst s0) (fadd o (fst s7) (fst s8)), fadd o (snd s0) (fadd o (snd s7) (snd s8)))
  else if k =? 1 then csub o s5 s6
  else if k =? 2 then cadd o s11 s12
  else if k =? 3 then csub o s11 s12
  else cadd o s5 s6.
Definition bf (p : Z) (y w e : Z -> C) (k : Z) : C :=
  if p =? 2 then bf2 y w k else if p =? 3 then bf3 y w e k else if p =? 4 then bf4 y w k else bf5 y w e k.

(* entry j of the transform of x 0 .. x (n - 1), n the product of the factors; tw = all twiddles *)
Fixpoint fft_val (tw : Z -> C) (factors : list Z) (fstride : Z) (x : Z -> C) (j : Z) : C :=
  match factors with
  | p :: m :: rest =>
      let i := j mod m in
      bf p (fun q => if m =? 1 then x q else fft_val tw rest (fstride * p) (fun t => x (q + t * p)) i)
           (fun q => tw (i * (q * fstride))) (fun q => tw (q * (fstride * m))) (j / m)
  | _ => x j
  end.

Lemma bf_ext p y y' w w' e e' k : 2 <= p <= 5 -> (forall q, 0 <= q < p -> y q = y' q) -> (forall q, 0 <= q < p -> w q = w' q) -> (forall q, 0 <= q < p -> e q = e' q) -> bf p y w e k = bf p y' w' e' k.
Proof.
  intros Hp Hy Hw He. assert (D : p = 2 \/ p = 3 \/ p = 4 \/ p = 5) by lia. unfold bf.
  destruct D as [->|[->|[->| ->]]]; cbn [Z.eqb Pos.eqb]; unfold bf2, bf3, bf4, bf5;
    rewrite ?(Hy 0), ?(Hy 1), ?(Hw 1), ?(Hy 2), ?(Hw 2), ?(Hy 3), ?(Hw 3), ?(Hy 4), ?(Hw 4), ?(He 1), ?(He 2) by lia; reflexivity.
Qed.
Lemma fft_val_ext tw : forall k fl n, (length fl <= 2 * k)%nat -> chain n fl -> small_factors fl -> forall fstride x x' j, (forall t, 0 <= t < n -> x t = x' t) -> 0 <= j < n ->
  fft_val tw fl fstride x j = fft_val tw fl fstride x' j.
Proof.
  induction k as [|k IH]; intros [|p [|m r]] n L Ch S fstride x x' j Hx Hj; cbn [chain length fft_val] in *; try lia; try tauto; try (apply Hx; lia).
  destruct Ch as (E & _ & Hm & Ch). inversion S as [|? ? Hp S']; subst. apply bf_ext; try reflexivity; [exact Hp|].
  intros q Hq. destruct (Z.eqb_spec m 1) as [->|]; [apply Hx; lia|]. apply (IH r m); auto; [lia| |apply Z.mod_pos_bound; lia]. intros t Ht. apply Hx. nia.
Qed.

(* ---- the in-place butterflies ---- *)
Definition d0 : C := (fz o 0, fz o 0).
Notation "l @ j" := (getz d0 l j) (at level 9, format "l @ j").
(* block of p * m entries from b: entry b + k m + i becomes v k i *)
Definition block_is (l fout : list C) (b p m i0 : Z) (v : Z -> Z -> C) : Prop :=
  len l = len fout /\
  (forall k i, 0 <= k < p -> 0 <= i < m -> getz d0 l (b + k * m + i) = if i <? i0 then v i k else getz d0 fout (b + k * m + i)) /\
  (forall j, 0 <= j -> j < b \/ b + p * m <= j -> getz d0 l j = getz d0 fout j).

Ltac put_at := lazymatch goal with |- exists _, bind (put ?l ?i ?v) _ = _ /\ _ =>
   let l' := fresh "l" in let E := fresh "E" in let Ln := fresh "Ln" in let G := fresh "G" in
   destruct (put_ok d0 l i v) as (l' & E & Ln & G); [nia|]; rewrite E; cbn [bind]; cbv zeta end.
Ltac rd := lazymatch goal with |- exists _, bind (idx ?l ?i) _ = _ /\ _ => rewrite (idx_get d0 l i) by nia; cbn [bind]; cbv zeta end.
Ltac putlast := lazymatch goal with |- exists _, put ?l ?i ?v = _ /\ _ =>
   let l' := fresh "l" in let E := fresh "E" in let Ln := fresh "Ln" in let G := fresh "G" in
   destruct (put_ok d0 l i v) as (l' & E & Ln & G); [nia|]; rewrite E; exists l'; split; [reflexivity|] end.
Lemma block_orig l fout b p m i0 v k : block_is l fout b p m i0 v -> 0 <= k < p -> 0 <= i0 < m -> getz d0 l (b + k * m + i0) = getz d0 fout (b + k * m + i0).
Proof. intros (_ & L2 & _) Hk Hi. rewrite (L2 k i0 Hk Hi). destruct (Z.ltb_spec i0 i0); [lia|reflexivity]. Qed.
(* the index as written in the code *)
Lemma block_at l fout b p m i0 v k j : block_is l fout b p m i0 v -> 0 <= k < p -> 0 <= i0 < m -> j = b + k * m + i0 -> getz d0 fout (b + k * m + i0) = getz d0 l j.
Proof. intros B Hk Hi ->. symmetry. eapply block_orig; eassumption. Qed.
Lemma ltb_step (i i0 : Z) : (i <? i0 + 1) = (i <? i0) || (i =? i0).
Proof. destruct (Z.ltb_spec i (i0 + 1)), (Z.ltb_spec i i0), (Z.eqb_spec i i0); cbn [orb]; reflexivity || lia. Qed.

(* put chains inside a block: resolve `getz l j` after puts at known offsets *)
Ltac rs := repeat match goal with
  | G : (forall j, 0 <= j -> getz d0 ?l' j = if j =? ?a then _ else _) |- context [getz d0 ?l' ?e] =>
      rewrite (G e) by nia;
      first [ replace (e =? a) with true by (symmetry; apply Z.eqb_eq; nia) | replace (e =? a) with false by (symmetry; apply Z.eqb_neq; nia) ]; cbv iota
  end.

Lemma bfly2_spec (tw fout : list C) b fstride m : 1 <= m -> 1 <= fstride -> fstride * (2 * m) = len tw -> 0 <= b -> b + 2 * m <= len fout ->
  exists l, bfly2 o tw b fstride m fout = Ok l /\
    block_is l fout b 2 m m (fun i k => bf2 (fun q => getz d0 fout (b + q * m + i)) (fun q => getz d0 tw (i * (q * fstride))) k).
Proof.
  intros Hm Hf Ht Hb Hl. unfold bfly2. set (v := fun i k => bf2 _ _ k).
  apply (for_inv (fun i0 l => block_is l fout b 2 m i0 v)); [lia| |].
  - split; [reflexivity|]. split; [|reflexivity]. intros k i Hk Hi. destruct (Z.ltb_spec i 0); [lia|reflexivity].
  - intros i0 l Hi0 BI. pose proof BI as (L1 & L2 & L3). assert (T1 : 0 <= i0 * fstride < len tw) by nia.
    do 3 rd. put_at. putlast. split; [lia|]. split; [|intros j H0 Hj; rs; apply L3; assumption].
    intros k i Hk Hi. rewrite ltb_step. destruct (Z.eqb_spec i i0) as [->|Ni].
    + rewrite orb_true_r. subst v. cbv beta. unfold bf2. replace (i0 * (1 * fstride)) with (i0 * fstride) by lia. rewrite (block_at _ _ _ _ _ _ _ 0 (b + i0) BI), (block_at _ _ _ _ _ _ _ 1 (b + m + i0) BI) by lia.
      assert (D : k = 0 \/ k = 1) by lia. destruct D as [->| ->]; cbn [Z.eqb]; rs; reflexivity.
    + rewrite orb_false_r. rewrite <- (L2 k i Hk Hi). assert (D : k = 0 \/ k = 1) by lia. destruct D as [->| ->]; rs; reflexivity.
Qed.

Lemma bfly3_spec (tw fout : list C) b fstride m : 1 <= m -> 1 <= fstride -> fstride * (3 * m) = len tw -> 0 <= b -> b + 3 * m <= len fout ->
  exists l, bfly3 o tw b fstride m fout = Ok l /\
    block_is l fout b 3 m m (fun i k => bf3 (fun q => getz d0 fout (b + q * m + i)) (fun q => getz d0 tw (i * (q * fstride))) (fun q => getz d0 tw (q * (fstride * m))) k).
Proof.
  intros Hm Hf Ht Hb Hl. unfold bfly3. set (v := fun i k => bf3 _ _ _ k). rd.
  apply (for_inv (fun i0 l => block_is l fout b 3 m i0 v)); [lia| |].
  - split; [reflexivity|]. split; [|reflexivity]. intros k i Hk Hi. destruct (Z.ltb_spec i 0); [lia|reflexivity].
  - intros i0 l Hi0 BI. pose proof BI as (L1 & L2 & L3). assert (T1 : 0 <= i0 * fstride < len tw) by nia. assert (T2 : 0 <= i0 * (fstride * 2) < len tw) by nia.
    do 5 rd. do 2 put_at. putlast. split; [lia|]. split; [|intros j H0 Hj; rs; apply L3; assumption].
    intros k i Hk Hi. rewrite ltb_step. destruct (Z.eqb_spec i i0) as [->|Ni].
    + rewrite orb_true_r. subst v. cbv beta. unfold bf3. replace (i0 * (1 * fstride)) with (i0 * fstride) by lia. replace (i0 * (2 * fstride)) with (i0 * (fstride * 2)) by lia.
      replace (1 * (fstride * m)) with (fstride * m) by lia.
      rewrite (block_at _ _ _ _ _ _ _ 0 (b + i0) BI), (block_at _ _ _ _ _ _ _ 1 (b + (i0 + m)) BI), (block_at _ _ _ _ _ _ _ 2 (b + (i0 + m * 2)) BI) by lia.
      assert (D : k = 0 \/ k = 1 \/ k = 2) by lia. destruct D as [->|[->| ->]]; cbn [Z.eqb Pos.eqb]; rs; reflexivity.
    + rewrite orb_false_r. rewrite <- (L2 k i Hk Hi). assert (D : k = 0 \/ k = 1 \/ k = 2) by lia. destruct D as [->|[->| ->]]; rs; reflexivity.
Qed.
Lemma bfly4_spec (tw fout : list C) b fstride m : 1 <= m -> 1 <= fstride -> fstride * (4 * m) = len tw -> 0 <= b -> b + 4 * m <= len fout ->
  exists l, bfly4 o tw b fstride m fout = Ok l /\
    block_is l fout b 4 m m (fun i k => bf4 (fun q => getz d0 fout (b + q * m + i)) (fun q => getz d0 tw (i * (q * fstride))) k).
Proof.
  intros Hm Hf Ht Hb Hl. unfold bfly4. set (v := fun i k => bf4 _ _ k).
  apply (for_inv (fun i0 l => block_is l fout b 4 m i0 v)); [lia| |].
  - split; [reflexivity|]. split; [|reflexivity]. intros k i Hk Hi. destruct (Z.ltb_spec i 0); [lia|reflexivity].
  - intros i0 l Hi0 BI. pose proof BI as (L1 & L2 & L3). assert (T1 : 0 <= i0 * fstride < len tw) by nia. assert (T2 : 0 <= i0 * (fstride * 2) < len tw) by nia. assert (T3 : 0 <= i0 * (fstride * 3) < len tw) by nia.
    do 7 rd. do 3 put_at. putlast. split; [lia|]. split; [|intros j H0 Hj; rs; apply L3; assumption].
    intros k i Hk Hi. rewrite ltb_step. destruct (Z.eqb_spec i i0) as [->|Ni].
    + rewrite orb_true_r. subst v. cbv beta. unfold bf4. replace (i0 * (1 * fstride)) with (i0 * fstride) by lia. replace (i0 * (2 * fstride)) with (i0 * (fstride * 2)) by lia.
      replace (i0 * (3 * fstride)) with (i0 * (fstride * 3)) by lia.
      rewrite (block_at _ _ _ _ _ _ _ 0 (b + i0) BI), (block_at _ _ _ _ _ _ _ 1 (b + (i0 + m)) BI), (block_at _ _ _ _ _ _ _ 2 (b + (i0 + m * 2)) BI), (block_at _ _ _ _ _ _ _ 3 (b + (i0 + m * 3)) BI) by lia.
      assert (D : k = 0 \/ k = 1 \/ k = 2 \/ k = 3) by lia. destruct D as [->|[->|[->| ->]]]; cbn [Z.eqb Pos.eqb]; rs; reflexivity.
    + rewrite orb_false_r. rewrite <- (L2 k i Hk Hi). assert (D : k = 0 \/ k = 1 \/ k = 2 \/ k = 3) by lia. destruct D as [->|[->|[->| ->]]]; rs; reflexivity.
Qed.
Lemma bfly5_spec (tw fout : list C) b fstride m : 1 <= m -> 1 <= fstride -> fstride * (5 * m) = len tw -> 0 <= b -> b + 5 * m <= len fout ->
  exists l, bfly5 o tw b fstride m fout = Ok l /\
    block_is l fout b 5 m m (fun i k => bf5 (fun q => getz d0 fout (b + q * m + i)) (fun q => getz d0 tw (i * (q * fstride))) (fun q => getz d0 tw (q * (fstride * m))) k).
Proof.
  intros Hm Hf Ht Hb Hl. unfold bfly5. set (v := fun i k => bf5 _ _ _ k). do 2 rd.
  apply (for_inv (fun i0 l => block_is l fout b 5 m i0 v)); [lia| |].
  - split; [reflexivity|]. split; [|reflexivity]. intros k i Hk Hi. destruct (Z.ltb_spec i 0); [lia|reflexivity].
  - intros i0 l Hi0 BI. pose proof BI as (L1 & L2 & L3). assert (T1 : 0 <= i0 * fstride < len tw) by nia. assert (T2 : 0 <= i0 * 2 * fstride < len tw) by nia.
    assert (T3 : 0 <= i0 * 3 * fstride < len tw) by nia. assert (T4 : 0 <= i0 * 4 * fstride < len tw) by nia.
    do 9 rd. do 4 put_at. putlast. split; [lia|]. split; [|intros j H0 Hj; rs; apply L3; assumption].
    intros k i Hk Hi. rewrite ltb_step. destruct (Z.eqb_spec i i0) as [->|Ni].
    + rewrite orb_true_r. subst v. cbv beta. unfold bf5. replace (i0 * (1 * fstride)) with (i0 * fstride) by lia. replace (i0 * (2 * fstride)) with (i0 * 2 * fstride) by lia.
      replace (i0 * (3 * fstride)) with (i0 * 3 * fstride) by lia. replace (i0 * (4 * fstride)) with (i0 * 4 * fstride) by lia.
      replace (1 * (fstride * m)) with (fstride * m) by lia. replace (2 * (fstride * m)) with (fstride * 2 * m) by lia.
      rewrite (block_at _ _ _ _ _ _ _ 0 (b + i0) BI), (block_at _ _ _ _ _ _ _ 1 (b + (i0 + m)) BI), (block_at _ _ _ _ _ _ _ 2 (b + (i0 + m * 2)) BI),
        (block_at _ _ _ _ _ _ _ 3 (b + (i0 + m * 3)) BI), (block_at _ _ _ _ _ _ _ 4 (b + (i0 + m * 4)) BI) by lia.
      assert (D : k = 0 \/ k = 1 \/ k = 2 \/ k = 3 \/ k = 4) by lia. destruct D as [->|[->|[->|[->| ->]]]]; cbn [Z.eqb Pos.eqb]; rs; reflexivity.
    + rewrite orb_false_r. rewrite <- (L2 k i Hk Hi). assert (D : k = 0 \/ k = 1 \/ k = 2 \/ k = 3 \/ k = 4) by lia. destruct D as [->|[->|[->|[->| ->]]]]; rs; reflexivity.
Qed.
Lemma butterfly_spec (tw fout : list C) nfft b fstride m p : 2 <= p <= 5 -> 1 <= m -> 1 <= fstride -> fstride * (p * m) = len tw -> 0 <= b -> b + p * m <= len fout ->
  exists l, butterfly o tw nfft b fstride m p fout = Ok l /\
    block_is l fout b p m m (fun i k => bf p (fun q => getz d0 fout (b + q * m + i)) (fun q => getz d0 tw (i * (q * fstride))) (fun q => getz d0 tw (q * (fstride * m))) k).
Proof.
  intros Hp Hm Hf Ht Hb Hl. unfold butterfly. destruct (sub_ok fout b (len fout)) as (s & Es & _); [nia|lia|]. rewrite Es. cbn [bind]. unfold bf.
  assert (D : p = 2 \/ p = 3 \/ p = 4 \/ p = 5) by lia. destruct D as [->|[->|[->| ->]]]; cbn [Z.eqb Pos.eqb].
  - apply bfly2_spec; assumption.
  - apply bfly3_spec; assumption.
  - apply bfly4_spec; assumption.
  - apply bfly5_spec; assumption.
Qed.

Theorem kf_work_spec (tw fin : list C) nfft : forall k fl n fstride fi fo fout, (length fl <= 2 * k)%nat -> chain n fl -> small_factors fl -> fl <> [] ->
  1 <= fstride -> fstride * n = len tw -> 0 <= fi -> fi + fstride * (n - 1) < len fin -> 0 <= fo -> fo + n <= len fout ->
  exists l, kf_work o tw fin nfft fl fstride fi fo fout = Ok l /\ len l = len fout /\
    forall j, 0 <= j -> getz d0 l j = if (fo <=? j) && (j <? fo + n) then fft_val (getz d0 tw) fl fstride (fun t => getz d0 fin (fi + t * fstride)) (j - fo) else getz d0 fout j.
Proof.
  induction k as [|k IH]; intros [|p [|m r]] n fstride fi fo fout L Ch S N Hs Ht Hfi Hfi2 Hfo Hfo2; cbn [chain length] in *; try lia; try tauto.
  destruct Ch as (E & _ & Hm & Ch). inversion S as [|? ? Hp S']; subst. cbn [kf_work].
  (* after the p sub-transforms *)
  set (y := fun q i => if m =? 1 then getz d0 fin (fi + q * fstride) else fft_val (getz d0 tw) r (fstride * p) (fun t => getz d0 fin (fi + (q + t * p) * fstride)) i).
  assert (HS : exists l, (if m =? 1 then leaf_copy fin p fstride fi fo fout
               else if (p <=? 0) || (m <=? 0) then Panic
               else for_range 0 p (fun q fout => kf_work o tw fin nfft r (fstride * p) (fi + q * fstride) (fo + q * m) fout) fout) = Ok l /\ len l = len fout /\
      (forall q i, 0 <= q < p -> 0 <= i < m -> getz d0 l (fo + q * m + i) = y q i) /\ (forall j, 0 <= j -> j < fo \/ fo + p * m <= j -> getz d0 l j = getz d0 fout j)).
  { destruct (Z.eqb_spec m 1) as [->|Nm].
    - unfold leaf_copy. destruct (sub_ok fout fo (fo + p)) as (s1 & E1 & _); [lia|lia|]. rewrite E1. cbn [bind].
      destruct (sub_ok fin fi (len fin)) as (s2 & E2 & _); [nia|lia|]. rewrite E2. cbn [bind].
      destruct (for_inv (fun q0 l => len l = len fout /\ (forall q, 0 <= q < q0 -> getz d0 l (fo + q) = getz d0 fin (fi + q * fstride)) /\ (forall j, 0 <= j -> j < fo \/ fo + q0 <= j -> getz d0 l j = getz d0 fout j)) 0 p
        (fun q fout0 => if len fin <=? fi + q * fstride then Ok fout0 else x <- idx fin (fi + q * fstride) ;; put fout0 (fo + q) x) fout) as (l & El & L1 & L2 & L3); [lia| | |].
      + split; [reflexivity|]. split; [intros; lia|reflexivity].
      + intros q0 l Hq0 (L1 & L2 & L3). destruct (Z.leb_spec (len fin) (fi + q0 * fstride)); [nia|]. rd. putlast. split; [lia|]. split.
        * intros q Hq. destruct (Z.eq_dec q q0) as [->|]; rs; [reflexivity|]. apply L2. lia.
        * intros j H0 Hj. rs. apply L3; lia.
      + exists l. split; [exact El|]. split; [exact L1|]. split; [|intros j H0 Hj; apply L3; lia].
        intros q i Hq Hi. replace (fo + q * 1 + i) with (fo + q) by lia. apply L2; lia.
    - destruct (Z.leb_spec p 0); [lia|]. destruct (Z.leb_spec m 0); [lia|]. cbn [orb].
      destruct (for_inv (fun q0 l => len l = len fout /\ (forall q i, 0 <= q < q0 -> 0 <= i < m -> getz d0 l (fo + q * m + i) = y q i) /\ (forall j, 0 <= j -> j < fo \/ fo + q0 * m <= j -> getz d0 l j = getz d0 fout j)) 0 p
        (fun q fout0 => kf_work o tw fin nfft r (fstride * p) (fi + q * fstride) (fo + q * m) fout0) fout) as (l & El & L1 & L2 & L3); [lia| | |].
      + split; [reflexivity|]. split; [intros; lia|reflexivity].
      + intros q0 l Hq0 (L1 & L2 & L3).
        destruct (IH r m (fstride * p) (fi + q0 * fstride) (fo + q0 * m) l) as (l' & El & L1' & L2'); try assumption; try lia; try nia.
        { destruct r; [cbn [chain] in Ch; lia|discriminate]. }
        exists l'. split; [exact El|]. split; [lia|]. split.
        * intros q i Hq Hi. rewrite L2' by nia. destruct (Z.eq_dec q q0) as [->|Nq].
          { destruct (Z.leb_spec (fo + q0 * m) (fo + q0 * m + i)); [|lia]. destruct (Z.ltb_spec (fo + q0 * m + i) (fo + q0 * m + m)); [|lia]. cbn [andb].
            replace (fo + q0 * m + i - (fo + q0 * m)) with i by lia. unfold y. destruct (Z.eqb_spec m 1); [lia|].
            apply (fft_val_ext (getz d0 tw) k r m); auto; [lia|]. intros t Ht'. f_equal. ring. }
          { replace ((fo + q0 * m <=? fo + q * m + i) && (fo + q * m + i <? fo + q0 * m + m)) with false; [apply L2; lia|].
            symmetry. apply andb_false_iff. left. apply Z.leb_gt. nia. }
        * intros j H0' Hj. rewrite L2' by lia. replace ((fo + q0 * m <=? j) && (j <? fo + q0 * m + m)) with false; [apply L3; [lia|nia]|].
          symmetry. apply andb_false_iff. destruct Hj; [left; apply Z.leb_gt; nia|right; apply Z.ltb_ge; nia].
      + exists l. split; [exact El|]. split; [exact L1|]. split; assumption. }
  destruct HS as (l & El & L1 & L2 & L3). rewrite El. cbn [bind].
  destruct (butterfly_spec tw l nfft fo fstride m p Hp Hm Hs ltac:(nia) Hfo ltac:(lia)) as (l' & El' & B1 & B2 & B3). exists l'. split; [exact El'|]. split; [lia|].
  intros j H0. destruct (Z.leb_spec fo j) as [J1|J1]; cbn [andb]; [|rewrite B3 by lia; apply L3; lia].
  destruct (Z.ltb_spec j (fo + p * m)) as [J2|J2]; [|rewrite B3 by lia; apply L3; lia].
  set (jj := j - fo). assert (D := Z.div_mod jj m ltac:(lia)). assert (D2 := Z.mod_pos_bound jj m ltac:(lia)).
  assert (D3 : 0 <= jj / m < p). { split; [apply Z.div_pos; lia|apply Z.div_lt_upper_bound; unfold jj; lia]. }
  replace j with (fo + (jj / m) * m + jj mod m) by (unfold jj in *; lia). rewrite B2 by assumption. destruct (Z.ltb_spec (jj mod m) m); [|lia]. cbn [fft_val].
  apply bf_ext; try reflexivity; [exact Hp|]. intros q Hq. rewrite L2 by assumption. reflexivity.
Qed.
End Spec.
