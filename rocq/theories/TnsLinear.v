(* The decoder's temporal noise shaping is linear in the lines, on the real numbers. *)
From Coq Require Import ZArith Lia List Bool Reals Lra.
From Verif Require Import Base Config Loops ParseBase Scalar RealOps DecSignal MdctSpec TnsInverse.
From Coq Require Import List.
Import ListNotations.
Local Open Scope Z_scope.

(* three computations whose results, if all of them have one, are related *)
Definition rel3 {A} (P : A -> A -> A -> Prop) (u v w : res A) : Prop := forall a b c, u = Ok a -> v = Ok b -> w = Ok c -> P a b c.
Lemma rel3_ok {A} (P : A -> A -> A -> Prop) a b c : P a b c -> rel3 P (Ok a) (Ok b) (Ok c).
Proof. intros H a' b' c' E1 E2 E3. apply Ok_inj in E1, E2, E3. now subst. Qed.
Lemma rel3_bind {A B} (P : A -> A -> A -> Prop) (Q : B -> B -> B -> Prop) u v w (k : A -> res B) : rel3 P u v w -> (forall a b c, P a b c -> rel3 Q (k a) (k b) (k c)) -> rel3 Q (bind u k) (bind v k) (bind w k).
Proof.
  intros H K x y z E1 E2 E3. destruct u as [a| |], v as [b| |], w as [c| |]; try discriminate. cbn [bind] in *. exact (K a b c (H a b c eq_refl eq_refl eq_refl) x y z E1 E2 E3).
Qed.
Lemma rel3_forn {A} (P : A -> A -> A -> Prop) (f : Z -> A -> res A) : (forall i a b c, P a b c -> rel3 P (f i a) (f i b) (f i c)) -> forall n i a b c, P a b c -> rel3 P (forn n i f a) (forn n i f b) (forn n i f c).
Proof. intros H. induction n as [|n IH]; intros i a b c Hp; cbn [forn]; [now apply rel3_ok|]. apply (rel3_bind P); [now apply H|]. intros. now apply IH. Qed.
Lemma rel3_forn_rev {A} (P : A -> A -> A -> Prop) lo (f : Z -> A -> res A) : (forall i a b c, P a b c -> rel3 P (f i a) (f i b) (f i c)) -> forall n a b c, P a b c -> rel3 P (forn_rev n lo f a) (forn_rev n lo f b) (forn_rev n lo f c).
Proof. intros H. induction n as [|n IH]; intros a b c Hp; cbn [forn_rev]; [now apply rel3_ok|]. apply (rel3_bind P); [now apply H|]. intros. now apply IH. Qed.

(* c is a - b *)
Definition dif (a b c : list R) : Prop := len a = len c /\ len b = len c /\ forall i, 0 <= i -> getz 0%R c i = (getz 0 a i - getz 0 b i)%R.
Definition difs (a b c : R * list R) : Prop := fst c = (fst a - fst b)%R /\ dif (snd a) (snd b) (snd c).
Definition dif2 (a b c : list R * list R) : Prop := dif (fst a) (fst b) (fst c) /\ dif (snd a) (snd b) (snd c).
Lemma idx_some {A} (d : A) l i v : idx l i = Ok v -> 0 <= i < len l /\ v = getz d l i.
Proof.
  intros H. unfold idx in H. destruct (Z.ltb_spec i 0); [discriminate|]. destruct (nth_error l (Z.to_nat i)) as [w|] eqn:E; [|discriminate]. apply Ok_inj in H. subst w.
  assert (Z.to_nat i < length l)%nat by (apply nth_error_Some; congruence). unfold len. split; [lia|]. unfold getz. symmetry. now apply nth_error_nth.
Qed.
Lemma dif_idx a b c i : dif a b c -> rel3 (fun x y z => z = (x - y)%R) (idx a i) (idx b i) (idx c i).
Proof. intros (L1 & L2 & D) x y z E1 E2 E3. apply (idx_some 0%R) in E1, E2, E3. destruct E1 as [? ->], E2 as [_ ->], E3 as [_ ->]. apply D. lia. Qed.
Lemma dif_put a b c i x y z : dif a b c -> z = (x - y)%R -> rel3 dif (put a i x) (put b i y) (put c i z).
Proof.
  intros (L1 & L2 & D) Hz a' b' c' E1 E2 E3.
  assert (B : 0 <= i < len c). { unfold put in E3. destruct (Z.ltb_spec i 0); [discriminate|]. destruct (Z.leb_spec (len c) i); [discriminate|]. lia. }
  destruct (put_ok 0%R a i x ltac:(lia)) as (a2 & Ea & La & Ta). destruct (put_ok 0%R b i y ltac:(lia)) as (b2 & Eb & Lb & Tb). destruct (put_ok 0%R c i z ltac:(lia)) as (c2 & Ec & Lc & Tc).
  rewrite Ea in E1. rewrite Eb in E2. rewrite Ec in E3. apply Ok_inj in E1, E2, E3. subst a2 b2 c2. split; [lia|]. split; [lia|]. intros j Hj. rewrite Ta, Tb, Tc by exact Hj. destruct (j =? i); [exact Hz|now apply D].
Qed.
Lemma rel3_same {A B} (Q : B -> B -> B -> Prop) (u : res A) (k1 k2 k3 : A -> res B) : (forall a, rel3 Q (k1 a) (k2 a) (k3 a)) -> rel3 Q (bind u k1) (bind u k2) (bind u k3).
Proof. intros K. destruct u as [a| |]; cbn [bind]; [apply K| |]; intros x y z E; discriminate. Qed.
Lemma rel3_then {A B} (P : A -> A -> A -> Prop) (Q : B -> B -> B -> Prop) u v w (k1 k2 k3 : A -> res B) : rel3 P u v w -> (forall a b c, P a b c -> rel3 Q (k1 a) (k2 b) (k3 c)) -> rel3 Q (bind u k1) (bind v k2) (bind w k3).
Proof.
  intros H K x y z E1 E2 E3. destruct u as [a| |], v as [b| |], w as [c| |]; try discriminate. cbn [bind] in *. exact (K a b c (H a b c eq_refl eq_refl eq_refl) x y z E1 E2 E3).
Qed.

Lemma step_linear rc off p x y z s u v : z = (x - y)%R -> dif s u v -> rel3 difs (tns_step R_ops rc off p x s) (tns_step R_ops rc off p y u) (tns_step R_ops rc off p z v).
Proof.
  intros Hz Hs. unfold tns_step. cbv zeta. apply rel3_same. intros r. apply (rel3_then _ _ _ _ _ _ _ _ (dif_idx s u v (p - 1) Hs)). intros g1 g2 g3 Hg.
  apply (rel3_then difs).
  - apply rel3_forn_rev.
    + intros i [t1 s1] [t2 s2] [t3 s3] (Ht & Hl). cbn [fst snd] in *. apply rel3_same. intros r'. apply (rel3_then _ _ _ _ _ _ _ _ (dif_idx s1 s2 s3 i Hl)). intros h1 h2 h3 Hh.
      apply (rel3_then dif); [apply dif_put; [exact Hl|]|]; [cbn [R_ops fadd fsub fmul]; rewrite Hh, Ht; ring|]. intros a b c Hd. apply rel3_ok. split; [cbn [fst R_ops fsub fmul]; rewrite Hh, Ht; ring|exact Hd].
    + split; [cbn [fst R_ops fsub fmul]; rewrite Hg, Hz; ring|exact Hs].
  - intros [t1 s1] [t2 s2] [t3 s3] (Ht & Hl). cbn [fst snd] in *. apply (rel3_then dif); [now apply dif_put|]. intros a b c Hd. apply rel3_ok. now split.
Qed.
Lemma filters_linear rc : forall bands orders f s u v x y z, dif s u v -> dif x y z -> rel3 dif (tns_filters R_ops rc f bands orders s x) (tns_filters R_ops rc f bands orders u y) (tns_filters R_ops rc f bands orders v z).
Proof.
  induction bands as [|[a b] bands IH]; intros orders f s u v x y z Hs Hx; cbn [tns_filters]; [now apply rel3_ok|]. destruct orders as [|p orders]; [now apply rel3_ok|].
  apply (rel3_then dif2).
  - destruct (0 <? p); [|now apply rel3_ok]. apply rel3_forn; [|now split]. intros i [s1 x1] [s2 x2] [s3 x3] (Hd & He). cbn [fst snd] in *.
    apply (rel3_then _ _ _ _ _ _ _ _ (dif_idx x1 x2 x3 i He)). intros g1 g2 g3 Hg. apply (rel3_then difs); [now apply step_linear|]. intros [t1 r1] [t2 r2] [t3 r3] (Ht & Hr). cbn [fst snd] in *.
    apply (rel3_then dif); [now apply dif_put|]. intros l1 l2 l3 Hl. apply rel3_ok. now split.
  - intros [s1 x1] [s2 x2] [s3 x3] (Hd & He). cbn [fst snd] in *. now apply IH.
Qed.
Lemma zero_dif n : dif (repeat 0%R n) (repeat 0%R n) (repeat 0%R n).
Proof. split; [reflexivity|]. split; [reflexivity|]. intros i Hi. unfold getz. rewrite nth_repeat. ring. Qed.
Lemma tns_linear d bw num orders rc_i x y z : dif x y z -> rel3 dif (tns_decode R_ops d bw num orders rc_i x) (tns_decode R_ops d bw num orders rc_i y) (tns_decode R_ops d bw num orders rc_i z).
Proof.
  intros H. unfold tns_decode. apply rel3_same. intros bands. destruct H as (L1 & L2 & D). rewrite L1, L2. apply rel3_same. intros _. apply rel3_same. intros ord. apply filters_linear; [apply zero_dif|]. now split.
Qed.
