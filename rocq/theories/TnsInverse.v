(* The synthesis lattice of the decoder's temporal noise shaping inverts the analysis lattice of the encoder's,
   in every arithmetic where adding and then subtracting a product gives the original value back *)
From Coq Require Import ZArith Lia List Bool.
From Verif Require Import Base Config Loops Scalar EncScalar DecSignal DecTotal EncTns.
Import ListNotations.
Local Open Scope Z_scope.

Section Inverse.
Context {F : Type} (o : ops F).
Hypothesis exact : forall a b, fsub o (fadd o a b) b = a.
Let d0 := fz o 0.

(* the values before stage n of the lattice: forward t, backward save *)
Fixpoint lat (r s : Z -> F) (x : F) (n : nat) : F * F :=
  match n with
  | O => (x, x)
  | S n => let '(t, w) := lat r s x n in (fadd o t (fmul o (r (Z.of_nat n)) (s (Z.of_nat n))), fadd o (fmul o (r (Z.of_nat n)) t) (s (Z.of_nat n)))
  end.
Definition T r s x k := fst (lat r s x (Z.to_nat k)).
Definition W r s x k := snd (lat r s x (Z.to_nat k)).
Lemma T_S r s x k : 0 <= k -> T r s x (k + 1) = fadd o (T r s x k) (fmul o (r k) (s k)).
Proof. intros H. unfold T. replace (Z.to_nat (k + 1)) with (Datatypes.S (Z.to_nat k)) by lia. cbn [lat]. destruct (lat r s x (Z.to_nat k)). cbn [fst]. now rewrite Z2Nat.id. Qed.
Lemma W_S r s x k : 0 <= k -> W r s x (k + 1) = fadd o (fmul o (r k) (T r s x k)) (s k).
Proof. intros H. unfold W, T. replace (Z.to_nat (k + 1)) with (Datatypes.S (Z.to_nat k)) by lia. cbn [lat]. destruct (lat r s x (Z.to_nat k)). cbn [fst snd]. now rewrite Z2Nat.id. Qed.

Lemma enc_line rc f order x st : 0 <= f -> 1 <= order -> f * 8 + order <= len rc -> order <= len st ->
  let r k := getz d0 rc (f * 8 + k) in let s := getz d0 st in
  exists st', tns_enc_line o rc f order x st = Ok (T r s x order, st') /\ len st' = len st /\ forall j, 0 <= j -> getz d0 st' j = if j <? order then W r s x j else s j.
Proof.
  intros Hf Ho H1 H2 r s. unfold tns_enc_line. destruct (sub_ok rc (f * 8) (f * 8 + (order - 1))) as (a & -> & _); [lia|lia|].
  destruct (sub_ok st 0 (order - 1)) as (b & -> & _); [lia|lia|]. cbn [bind].
  match goal with |- context [for_range _ _ ?B _] => set (body := B) end.
  destruct (for_inv (fun k '(t, w, st') => t = T r s x k /\ w = W r s x k /\ len st' = len st /\ forall j, 0 <= j -> getz d0 st' j = if j <? k then W r s x j else s j) 0 (order - 1) body (x, x, st))
    as ([[t w] st1] & E & Et & Ew & L & K); [lia| | |].
  - split; [reflexivity|]. split; [reflexivity|]. split; [reflexivity|]. intros j Hj. destruct (Z.ltb_spec j 0); [lia|reflexivity].
  - intros k [[t w] st1] Hk (-> & -> & L & K). unfold body. rewrite (idx_get d0 rc) by lia. cbn [bind]. rewrite (idx_get d0 st1) by lia. cbn [bind].
    destruct (put_ok d0 st1 k (W r s x k)) as (st2 & -> & L2 & K2); [lia|]. cbn [bind]. eexists. split; [reflexivity|].
    rewrite K by lia. destruct (Z.ltb_spec k k); [lia|]. rewrite T_S, W_S by lia. split; [reflexivity|]. split; [reflexivity|]. split; [lia|].
    intros j Hj. rewrite K2 by lia. destruct (Z.eqb_spec j k) as [->|N]; [destruct (Z.ltb_spec k (k + 1)); [reflexivity|lia]|].
    rewrite K by lia. destruct (Z.ltb_spec j k), (Z.ltb_spec j (k + 1)); try reflexivity; lia.
  - rewrite E. cbn [bind]. rewrite (idx_get d0 rc) by lia. cbn [bind]. rewrite (idx_get d0 st1) by lia. cbn [bind].
    destruct (put_ok d0 st1 (order - 1) w) as (st2 & -> & L2 & K2); [lia|]. cbn [bind]. exists st2. subst t w.
    rewrite K by lia. destruct (Z.ltb_spec (order - 1) (order - 1)); [lia|].
    replace (T r s x order) with (T r s x (order - 1 + 1)) by (f_equal; lia). rewrite T_S by lia. split; [reflexivity|]. split; [lia|].
    intros j Hj. rewrite K2 by lia. destruct (Z.eqb_spec j (order - 1)) as [->|N]; [destruct (Z.ltb_spec (order - 1) order); [reflexivity|lia]|].
    rewrite K by lia. destruct (Z.ltb_spec j (order - 1)), (Z.ltb_spec j order); try reflexivity; lia.
Qed.
Lemma dec_line rc off order x st : 0 <= off -> 1 <= order -> off + order <= len rc -> order <= len st ->
  let r k := getz d0 rc (off + k) in let s := getz d0 st in
  exists st', tns_step o rc off order (T r s x order) st = Ok (x, st') /\ len st' = len st /\ forall j, 0 <= j -> getz d0 st' j = if j <? order then W r s x j else s j.
Proof.
  intros Hf Ho H1 H2 r s. assert (Er : forall k, getz d0 rc (k + off) = r k) by (intros k; unfold r; f_equal; lia).
  unfold tns_step. cbv zeta. rewrite (idx_get d0 rc), Er by lia. cbn [bind]. rewrite (idx_get d0 st) by lia. cbn [bind]. fold s. clearbody r.
  replace (T r s x order) with (T r s x (order - 1 + 1)) by (f_equal; lia). rewrite T_S by lia. rewrite exact.
  match goal with |- context [for_rev _ _ ?B _] => set (body := B) end.
  destruct (for_rev_inv (fun k '(t, st') => t = T r s x k /\ len st' = len st /\ forall j, 0 <= j -> getz d0 st' j = if (k <? j) && (j <? order) then W r s x j else s j) 0 (order - 1) body
    (T r s x (order - 1), st)) as ([t st1] & E & Et & L & K); [lia| | |].
  - split; [reflexivity|]. split; [reflexivity|]. intros j Hj. destruct (Z.ltb_spec (order - 1) j), (Z.ltb_spec j order); cbn [andb]; try reflexivity; lia.
  - intros k [t st1] Hk (-> & L & K). unfold body. rewrite (idx_get d0 rc), Er by lia. cbn [bind]. rewrite (idx_get d0 st1) by lia. cbn [bind].
    rewrite K by lia. destruct (Z.ltb_spec (k + 1) k); [lia|]. cbn [andb]. rewrite T_S by lia. rewrite exact.
    destruct (put_ok d0 st1 (k + 1) (fadd o (fmul o (r k) (T r s x k)) (s k))) as (st2 & -> & L2 & K2); [lia|]. cbn [bind].
    eexists. split; [reflexivity|]. split; [reflexivity|]. split; [lia|]. intros j Hj. rewrite K2 by lia.
    destruct (Z.eqb_spec j (k + 1)) as [->|N].
    + destruct (Z.ltb_spec k (k + 1)); [|lia]. destruct (Z.ltb_spec (k + 1) order); [|lia]. cbn [andb]. now rewrite W_S by lia.
    + rewrite K by lia. destruct (Z.ltb_spec (k + 1) j), (Z.ltb_spec k j), (Z.ltb_spec j order); cbn [andb]; try reflexivity; lia.
  - rewrite E. cbn [bind]. subst t. destruct (put_ok d0 st1 0 (T r s x 0)) as (st2 & -> & L2 & K2); [lia|]. cbn [bind]. exists st2. split; [reflexivity|]. split; [lia|].
    intros j Hj. rewrite K2 by lia. destruct (Z.eqb_spec j 0) as [->|N]; [destruct (Z.ltb_spec 0 order); [reflexivity|lia]|].
    rewrite K by lia. destruct (Z.ltb_spec 0 j); [reflexivity|lia].
Qed.
(* what one line takes in and gives back leaves both lattices in the same state *)
Definition agree (rc rc' : list F) (f order : Z) : Prop := forall k, 0 <= k < order -> getz d0 rc (f * 8 + k) = getz d0 rc' (f * 8 + k).
Lemma lat_ext r r' s x n : (forall k, 0 <= k < Z.of_nat n -> r k = r' k) -> lat r s x n = lat r' s x n.
Proof.
  induction n as [|n IH]; intros H; [reflexivity|]. cbn [lat]. rewrite IH by (intros; apply H; lia). rewrite (H (Z.of_nat n)) by lia. reflexivity.
Qed.
Lemma line_inverse rc rc' f order x st : 0 <= f -> 1 <= order -> f * 8 + order <= len rc -> f * 8 + order <= len rc' -> agree rc rc' f order -> order <= len st ->
  exists y st', tns_enc_line o rc f order x st = Ok (y, st') /\ tns_step o rc' (f * 8) order y st = Ok (x, st') /\ len st' = len st.
Proof.
  intros Hf Ho H1 H1' A H2. destruct (enc_line rc f order x st Hf Ho H1 H2) as (st1 & E1 & L1 & K1). cbv zeta in K1.
  destruct (dec_line rc' (f * 8) order x st ltac:(lia) Ho H1' H2) as (st2 & E2 & L2 & K2). cbv zeta in K2.
  eexists _, st1. split; [exact E1|]. split; [|exact L1].
  assert (ET : forall k, 0 <= k <= order -> lat (fun k => getz d0 rc' (f * 8 + k)) (getz d0 st) x (Z.to_nat k) = lat (fun k => getz d0 rc (f * 8 + k)) (getz d0 st) x (Z.to_nat k)).
  { intros k Hk. apply lat_ext. intros j Hj. symmetry. apply A. lia. }
  unfold T in *. rewrite <- ET by lia. rewrite E2. f_equal. f_equal. apply (list_eq_getz d0); [lia|]. intros j Hj. rewrite K1, K2 by lia.
  destruct (Z.ltb_spec j order); [|reflexivity]. unfold W. now rewrite ET by lia.
Qed.

(* one band: the decoder undoes it whatever the other lines are *)
Definition enc_body rc f order := fun n '(st, lines) => x <- idx lines n ;; '(x, st) <- tns_enc_line o rc f order x st ;; lines <- put lines n x ;; Ok (st, lines).
Definition dec_body rc f order := fun n '(st, lines) => x <- idx lines n ;; '(x, st) <- tns_step o rc (f * 8) order x st ;; lines <- put lines n x ;; Ok (st, lines).
Lemma band_inverse rc rc' f order : 0 <= f -> 1 <= order -> f * 8 + order <= len rc -> f * 8 + order <= len rc' -> agree rc rc' f order ->
  forall n i st lines, order <= len st -> 0 <= i -> i + Z.of_nat n <= len lines ->
  exists st' lines', forn n i (enc_body rc f order) (st, lines) = Ok (st', lines') /\ len st' = len st /\ len lines' = len lines /\
    (forall j, 0 <= j -> j < i \/ i + Z.of_nat n <= j -> getz d0 lines' j = getz d0 lines j) /\
    forall l2, len l2 = len lines -> (forall j, i <= j < i + Z.of_nat n -> getz d0 l2 j = getz d0 lines' j) ->
      exists l3, forn n i (dec_body rc' f order) (st, l2) = Ok (st', l3) /\ len l3 = len lines /\
        forall j, 0 <= j -> getz d0 l3 j = if (i <=? j) && (j <? i + Z.of_nat n) then getz d0 lines j else getz d0 l2 j.
Proof.
  intros Hf Ho H1 H1' A. induction n as [|n IH]; intros i st lines Hst Hi Hl.
  - exists st, lines. cbn [forn]. do 3 (split; [reflexivity|]). split; [intros; reflexivity|]. intros l2 L2 _. exists l2. split; [reflexivity|]. split; [assumption|].
    intros j Hj. destruct (Z.leb_spec i j), (Z.ltb_spec j (i + Z.of_nat 0)); cbn [andb]; try reflexivity; lia.
  - cbn [forn]. destruct (line_inverse rc rc' f order (getz d0 lines i) st Hf Ho H1 H1' A Hst) as (y & st1 & E1 & E2 & L1).
    destruct (put_ok d0 lines i y) as (lines1 & P1 & LL1 & K1); [lia|].
    destruct (IH (i + 1) st1 lines1) as (st' & lines' & F1 & Ls & Ll & Keep & Back); [lia|lia|lia|].
    exists st', lines'. unfold enc_body at 1. rewrite (idx_get d0 lines) by lia. cbn [bind]. rewrite E1. cbn [bind]. rewrite P1. cbn [bind].
    split; [exact F1|]. split; [lia|]. split; [lia|]. split.
    + intros j Hj Hout. rewrite Keep by lia. rewrite K1 by lia. destruct (Z.eqb_spec j i); [lia|reflexivity].
    + intros l2 L2 G. unfold dec_body at 1. rewrite (idx_get d0 l2) by lia. cbn [bind]. rewrite (G i) by lia. rewrite Keep by lia. rewrite K1 by lia.
      rewrite Z.eqb_refl. rewrite E2. cbn [bind]. destruct (put_ok d0 l2 i (getz d0 lines i)) as (l2' & -> & L2' & K2); [lia|]. cbn [bind].
      destruct (Back l2') as (l3 & F3 & L3 & K3); [lia| |].
      * intros j Hj. rewrite K2 by lia. destruct (Z.eqb_spec j i); [lia|]. apply G. lia.
      * exists l3. split; [exact F3|]. split; [lia|]. intros j Hj. rewrite K3 by lia.
        destruct (Z.leb_spec (i + 1) j), (Z.ltb_spec j (i + 1 + Z.of_nat n)); cbn [andb].
        -- destruct (Z.leb_spec i j); [|lia]. destruct (Z.ltb_spec j (i + Z.of_nat (Datatypes.S n))); [|lia]. cbn [andb]. rewrite K1 by lia. destruct (Z.eqb_spec j i); [lia|reflexivity].
        -- rewrite K2 by lia. destruct (Z.leb_spec i j); [|lia]. destruct (Z.ltb_spec j (i + Z.of_nat (Datatypes.S n))); [lia|]. cbn [andb]. destruct (Z.eqb_spec j i); [lia|reflexivity].
        -- rewrite K2 by lia. destruct (Z.eqb_spec j i) as [->|]; [destruct (Z.leb_spec i i), (Z.ltb_spec i (i + Z.of_nat (Datatypes.S n))); cbn [andb]; try lia; reflexivity|].
           destruct (Z.leb_spec i j); [lia|]. reflexivity.
        -- lia.
Qed.

(* bands in increasing order inside the spectrum *)
Fixpoint ordered (lo n : Z) (bands : list (Z * Z)) : Prop :=
  match bands with [] => lo <= n | (a, b) :: bands => lo <= a <= b /\ ordered b n bands end.
Lemma ordered_le : forall bands lo n, ordered lo n bands -> lo <= n.
Proof. induction bands as [|[a b] t IH]; intros lo n H; cbn [ordered] in H; [assumption|]. destruct H as [H1 H2]. apply IH in H2. lia. Qed.
Definition bands_of (params : list (Z * Z * list (Z * Z))) : list (Z * Z) := map fst params.

Lemma filters_inverse rc rc' orders : forall params f st lines lo, 0 <= f -> 0 <= lo -> ordered lo (len lines) (bands_of params) ->
  f + len params <= len orders -> (f + len params) * 8 <= len rc -> (f + len params) * 8 <= len rc' -> len st = 8 ->
  (forall i, 0 <= i < f + len params -> 0 <= getz 0 orders i <= 8 /\ agree rc rc' i (getz 0 orders i)) ->
  forall dorders, (forall i, 0 <= i < len params -> getz 0 dorders i = getz 0 orders (f + i)) -> len params <= len dorders ->
  exists lines', tns_enc_filters o rc f params orders st lines = Ok lines' /\ len lines' = len lines /\
    (forall j, 0 <= j < lo -> getz d0 lines' j = getz d0 lines j) /\
    forall l2, len l2 = len lines -> (forall j, lo <= j < len lines -> getz d0 l2 j = getz d0 lines' j) ->
      exists l3, tns_filters o rc' f (bands_of params) dorders st l2 = Ok l3 /\ len l3 = len lines /\
        forall j, 0 <= j < len lines -> getz d0 l3 j = if lo <=? j then getz d0 lines j else getz d0 l2 j.
Proof.
  induction params as [|[[a b] subs] params IH]; intros f st lines lo Hf Hlo B Ho R R' Hs A dord D LD.
  - exists lines. cbn [tns_enc_filters]. split; [reflexivity|]. split; [reflexivity|]. split; [reflexivity|]. intros l2 L2 G. exists l2. split; [destruct dord; reflexivity|].
    split; [assumption|]. intros j Hj. destruct (Z.leb_spec lo j); [|reflexivity]. apply G. lia.
  - assert (LP : len ((a, b, subs) :: params) = len params + 1) by (unfold len; cbn [length]; lia). rewrite LP in *. assert (0 <= len params) by (unfold len; lia).
    destruct dord as [|o1 dord]; [unfold len at 2 in LD; cbn [length] in LD; lia|].
    assert (LD' : len (o1 :: dord) = len dord + 1) by (unfold len; cbn [length]; lia). rewrite LD' in *.
    pose proof (D 0 ltac:(lia)) as D0. rewrite Z.add_0_r in D0. unfold getz at 1 in D0. cbn [Z.to_nat nth] in D0.
    assert (D' : forall i, 0 <= i < len params -> getz 0 dord i = getz 0 orders (f + 1 + i)).
    { intros i Hi. replace (f + 1 + i) with (f + (i + 1)) by lia. rewrite <- D by lia. unfold getz. replace (Z.to_nat (i + 1)) with (Datatypes.S (Z.to_nat i)) by lia. reflexivity. }
    change (bands_of ((a, b, subs) :: params)) with ((a, b) :: bands_of params) in *. cbn [ordered] in B. destruct B as [Bab Brest]. pose proof (ordered_le _ _ _ Brest) as Bl.
    cbn [tns_enc_filters tns_filters]. rewrite (idx_get 0 orders) by lia. cbn [bind]. destruct (A f ltac:(lia)) as [Ao Aa]. rewrite D0. set (order := getz 0 orders f) in *. clearbody order.
    destruct (Z.eqb_spec order 0) as [->|N0].
    + cbn [bind Z.ltb Z.compare]. destruct (IH (f + 1) st lines b) with (dorders := dord) as (lines' & E & L & Keep & Back); try assumption; try lia; try (intros i Hi; apply A; lia).
      exists lines'. split; [exact E|]. split; [exact L|]. split; [intros j Hj; apply Keep; lia|].
      intros l2 L2 G. destruct (Back l2 L2) as (l3 & E3 & L3 & K3); [intros; apply G; lia|]. exists l3. split; [exact E3|]. split; [exact L3|].
      intros j Hj. rewrite K3 by lia. destruct (Z.leb_spec b j), (Z.leb_spec lo j); try reflexivity; try lia. rewrite G by lia. apply Keep. lia.
    + assert (P0 : (0 <? order) = true) by (apply Z.ltb_lt; lia). rewrite P0.
      destruct (sub_ok lines a b) as (s & -> & _); [lia|lia|]. cbn [bind].
      assert (Q : f * 8 + order <= len rc /\ f * 8 + order <= len rc') by lia.
      destruct (band_inverse rc rc' f order Hf ltac:(lia) (proj1 Q) (proj2 Q) Aa (Z.to_nat (b - a)) a st lines) as (st1 & lines1 & E1 & Ls1 & Ll1 & Keep1 & Back1); [lia|lia|lia|].
      unfold for_range. fold (enc_body rc f order). fold (dec_body rc' f order). rewrite E1. cbn [bind].
      destruct (IH (f + 1) st1 lines1 b) with (dorders := dord) as (lines' & E & L & Keep & Back); try assumption; try lia; try (intros i Hi; apply A; lia).
      { now rewrite Ll1. }
      exists lines'. split; [exact E|]. split; [lia|]. split; [intros j Hj; rewrite Keep by lia; apply Keep1; lia|].
      intros l2 L2 G. destruct (Back1 l2 L2) as (l3 & E3 & L3 & K3); [intros j Hj; rewrite G by lia; apply Keep; lia|]. rewrite E3. cbn [bind].
      destruct (Back l3) as (l4 & E4 & L4 & K4); [lia| |].
      { intros j Hj. rewrite K3 by lia. destruct (Z.leb_spec a j); [|lia]. destruct (Z.ltb_spec j (a + Z.of_nat (Z.to_nat (b - a)))); [lia|]. cbn [andb]. apply G. lia. }
      exists l4. split; [exact E4|]. split; [lia|]. intros j Hj. rewrite K4 by lia. destruct (Z.leb_spec b j).
      * destruct (Z.leb_spec lo j); [|lia]. apply Keep1; lia.
      * rewrite K3 by lia. destruct (Z.leb_spec a j).
        -- destruct (Z.ltb_spec j (a + Z.of_nat (Z.to_nat (b - a)))); [|lia]. cbn [andb]. destruct (Z.leb_spec lo j); [reflexivity|lia].
        -- cbn [andb]. destruct (Z.leb_spec lo j); [|reflexivity]. rewrite G by lia. rewrite Keep by lia. apply Keep1; lia.
Qed.
End Inverse.
