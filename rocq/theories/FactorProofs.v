(* Proofs about the factoring of the transform length (C36). *)
From Coq Require Import ZArith List Bool Lia.
From Verif Require Import Base FftFactor.
Import ListNotations.
Local Open Scope Z_scope.

(* pairs (factor, remaining length): factor * remaining = previous length, and the last remaining length is 1 *)
Fixpoint chain (n : Z) (fl : list Z) : Prop :=
  match fl with
  | [] => n = 1
  | p :: m :: r => p * m = n /\ (2 <= p \/ p = n) /\ 1 <= m /\ chain m r
  | _ => False
  end.
Fixpoint factors_of (fl : list Z) : list Z := match fl with p :: _ :: r => p :: factors_of r | _ => [] end.
Fixpoint prod (l : list Z) : Z := match l with [] => 1 | x :: t => x * prod t end.
Lemma chain_prod : forall k fl n, (length fl <= 2 * k)%nat -> chain n fl -> prod (factors_of fl) = n.
Proof.
  induction k as [|k IH]; intros [|p [|m r]] n L C; cbn [chain factors_of prod length] in *; try lia; try tauto.
  destruct C as (E & _ & _ & C). rewrite (IH r m); [lia|lia|assumption].
Qed.

Section Factor.
Variable gt : Z -> bool.
Variable B : Z.
Hypothesis HB : forall p, B <= p -> gt p = true.

Lemma next_p_done fuel n : 1 <= n -> next_p gt (S fuel) n n = Ok n.
Proof. intros H. cbn [next_p]. rewrite Z.mod_same by lia. reflexivity. Qed.

Lemma next_p_odd n : 1 <= n -> forall fuel p, 3 <= p -> p <> 4 -> (Z.to_nat (B - p) + 2 <= fuel)%nat ->
  exists q, next_p gt fuel n p = Ok q /\ n mod q = 0 /\ (q = n \/ 3 <= q).
Proof.
  intros Hn. induction fuel as [|fuel IH]; intros p Hp H4 Hf; [lia|]. cbn [next_p]. destruct (Z.eqb_spec (n mod p) 0).
  - exists p. auto.
  - destruct (Z.eqb_spec p 4); [lia|]. destruct (Z.eqb_spec p 2); [lia|]. destruct (gt (p + 2)) eqn:G.
    + destruct fuel as [|fuel]; [lia|]. exists n. rewrite next_p_done by assumption. split; [reflexivity|]. split; [apply Z.mod_same; lia|auto].
    + assert (p + 2 < B) by (destruct (Z_lt_ge_dec (p + 2) B); [assumption|rewrite HB in G by lia; discriminate]).
      destruct (Z.eq_dec p 2); [lia|]. apply IH; [lia|lia|lia].
Qed.

Lemma next_p_any n p fuel : 1 <= n -> 2 <= p -> (Z.to_nat B + 5 <= fuel)%nat ->
  exists q, next_p gt fuel n p = Ok q /\ n mod q = 0 /\ (q = n \/ 2 <= q).
Proof.
  intros Hn Hp Hf.
  assert (H2 : forall fuel, (Z.to_nat B + 4 <= fuel)%nat -> exists q, next_p gt fuel n 2 = Ok q /\ n mod q = 0 /\ (q = n \/ 2 <= q)).
  { intros fuel' Hf'. destruct fuel'; [lia|]. cbn [next_p]. destruct (Z.eqb_spec (n mod 2) 0).
    - exists 2. split; [reflexivity|]. split; [assumption|lia].
    - cbn [Z.eqb Pos.eqb]. destruct (gt 3) eqn:G.
      + destruct fuel'; [lia|]. exists n. rewrite next_p_done by assumption. split; [reflexivity|]. split; [apply Z.mod_same; lia|auto].
      + destruct (next_p_odd n Hn fuel' 3 ltac:(lia) ltac:(lia) ltac:(lia)) as (q & E & M & D). exists q. split; [assumption|]. split; [assumption|lia]. }
  destruct (Z.eq_dec p 2) as [->|]; [apply H2; lia|]. destruct (Z.eq_dec p 4) as [->|].
  - destruct fuel; [lia|]. cbn [next_p]. destruct (Z.eqb_spec (n mod 4) 0).
    + exists 4. split; [reflexivity|]. split; [assumption|lia].
    + cbn [Z.eqb Pos.eqb]. destruct (gt 2) eqn:G.
      * destruct fuel; [lia|]. exists n. rewrite next_p_done by assumption. split; [reflexivity|]. split; [apply Z.mod_same; lia|auto].
      * apply H2. lia.
  - destruct (next_p_odd n Hn fuel p ltac:(lia) ltac:(lia) ltac:(lia)) as (q & E & M & D). exists q. split; [assumption|]. split; [assumption|lia].
Qed.

Lemma next_p_four n fuel : 1 <= n -> (Z.to_nat B + 5 <= fuel)%nat -> n mod 2 = 0 ->
  exists q, next_p gt fuel n 4 = Ok q /\ n mod q = 0 /\ (q = n \/ q = 4 \/ q = 2 /\ n mod 4 <> 0).
Proof.
  intros Hn Hf H2. destruct fuel; [lia|]. cbn [next_p]. destruct (Z.eqb_spec (n mod 4) 0); [exists 4; split; [reflexivity|]; split; [assumption|]; right; left; reflexivity|].
  cbn [Z.eqb Pos.eqb]. destruct (gt 2) eqn:G.
  - destruct fuel; [lia|]. exists n. rewrite next_p_done by assumption. split; [reflexivity|]. split; [apply Z.mod_same; lia|auto].
  - destruct fuel; [lia|]. cbn [next_p]. rewrite H2. cbn [Z.eqb]. exists 2. split; [reflexivity|]. split; [assumption|]. right; right; split; [reflexivity|assumption].
Qed.

(* when the last divisor is n itself the loop ends *)
Lemma loop_last pf fuel n p i : 1 <= n -> next_p gt pf n p = Ok n -> 0 <= i -> i + 1 < 64 -> factor_loop gt pf (S fuel) n p i = Ok [n; 1].
Proof.
  intros Hn E Hi H. cbn [factor_loop]. rewrite E. cbn [bind]. rewrite Z.div_same by lia. destruct (Z.leb_spec 64 (i + 1)); [lia|]. reflexivity.
Qed.
Lemma loop_step pf fuel n p q i : 1 <= n -> next_p gt pf n p = Ok q -> n mod q = 0 -> 2 <= q -> 0 <= i -> i + 1 < 64 ->
  (forall m, n = q * m -> 2 <= m -> exists r, factor_loop gt pf fuel m q (i + 2) = Ok r /\ chain m r) ->
  exists fl, factor_loop gt pf (S fuel) n p i = Ok fl /\ chain n fl.
Proof.
  intros Hn E M Hq Hi H64 K. cbn [factor_loop]. rewrite E. cbn [bind]. destruct (Z.leb_spec 64 (i + 1)); [lia|].
  pose proof (Z.div_mod n q ltac:(lia)) as D. rewrite M in D. assert (1 <= n / q) by nia.
  destruct (Z.leb_spec (n / q) 1).
  - exists [q; n / q]. split; [reflexivity|]. cbn [chain]. repeat split; lia.
  - destruct (K (n / q) ltac:(lia) ltac:(lia)) as (r & E2 & C). rewrite E2. cbn [bind]. eexists. split; [reflexivity|]. cbn [chain]. repeat split; [lia|lia|lia|assumption].
Qed.

Lemma pow3_pos k : 0 < 3 ^ Z.of_nat k.
Proof. apply Z.pow_pos_nonneg; lia. Qed.

Lemma odd_div n q : n mod 2 = 1 -> 0 < q -> n mod q = 0 -> 2 <= q -> 3 <= q /\ (n / q) mod 2 = 1.
Proof.
  intros Ho Hq M H2. pose proof (Z.div_mod n q ltac:(lia)) as D. rewrite M, Z.add_0_r in D. rewrite D in Ho.
  rewrite Z.mul_mod in Ho by lia. pose proof (Z.mod_pos_bound q 2 ltac:(lia)). pose proof (Z.mod_pos_bound (n / q) 2 ltac:(lia)).
  assert (q mod 2 = 1) by (destruct (Z.eq_dec (q mod 2) 0) as [E|]; [rewrite E in Ho; discriminate|lia]).
  split; [|destruct (Z.eq_dec ((n / q) mod 2) 0) as [E|]; [rewrite E, Z.mul_0_r in Ho; discriminate|lia]].
  destruct (Z.eq_dec q 2) as [->|]; [discriminate|lia].
Qed.

Lemma loop_odd pf : (Z.to_nat B + 5 <= pf)%nat -> forall k fuel n p i, 1 <= n -> n mod 2 = 1 -> 2 <= p -> n < 3 ^ Z.of_nat (S (S k)) -> 0 <= i -> i + 2 * Z.of_nat k + 2 <= 64 -> (k < fuel)%nat ->
  exists fl, factor_loop gt pf fuel n p i = Ok fl /\ chain n fl.
Proof.
  intros Hpf. induction k as [|k IH]; intros fuel n p i Hn Ho Hp Hb Hi H64 Hf; (destruct fuel as [|fuel]; [lia|]);
   destruct (next_p_any n p pf Hn Hp Hpf) as (q & E & M & [Q|Q]).
  - subst q. eexists. split; [eapply loop_last; eauto; lia|]. cbn [chain]. lia.
  - destruct (odd_div n q Ho ltac:(lia) M Q) as [Q3 Om]. eapply loop_step; eauto; [lia|]. intros m -> Hm. rewrite Z.mul_comm, Z.div_mul in Om by lia.
    change (3 ^ Z.of_nat 2) with 9 in Hb. assert (m <> 2) by (intros ->; discriminate). nia.
  - subst q. eexists. split; [eapply loop_last; eauto; lia|]. cbn [chain]. lia.
  - destruct (odd_div n q Ho ltac:(lia) M Q) as [Q3 Om]. eapply loop_step; eauto; [lia|]. intros m -> Hm. rewrite Z.mul_comm, Z.div_mul in Om by lia.
    apply IH; try lia. rewrite Nat2Z.inj_succ, Z.pow_succ_r in Hb by lia. nia.
Qed.

Lemma loop_four pf : (Z.to_nat B + 5 <= pf)%nat -> forall k fuel n i, 1 <= n -> n < 2 * 3 ^ Z.of_nat (S k) -> 0 <= i -> i + 2 * Z.of_nat k + 2 <= 64 -> (k < fuel)%nat ->
  exists fl, factor_loop gt pf fuel n 4 i = Ok fl /\ chain n fl.
Proof.
  intros Hpf. induction k as [|k IH]; intros fuel n i Hn Hb Hi H64 Hf.
  - destruct (Z.eq_dec (n mod 2) 1) as [O|O]; [change (2 * 3 ^ Z.of_nat 1) with 6 in Hb; apply (loop_odd pf Hpf 0); change (3 ^ Z.of_nat 2) with 9; lia|].
    pose proof (Z.mod_pos_bound n 2 ltac:(lia)). destruct fuel as [|fuel]; [lia|]. destruct (next_p_four n pf Hn Hpf ltac:(lia)) as (q & E & M & [Q|[Q|[Q N4]]]).
    + subst q. eexists. split; [eapply loop_last; eauto; lia|]. cbn [chain]. lia.
    + eapply loop_step; eauto; try lia.
    + eapply loop_step; eauto; try lia. intros m -> Hm. subst q. change (2 * 3 ^ Z.of_nat 1) with 6 in Hb. assert (m = 2) by lia. subst m. now destruct N4.
  - destruct (Z.eq_dec (n mod 2) 1) as [O|O].
    { apply (loop_odd pf Hpf (S k)); try lia. rewrite (Nat2Z.inj_succ (S (S k))), Z.pow_succ_r by lia. pose proof (pow3_pos (S (S k))). lia. }
    pose proof (Z.mod_pos_bound n 2 ltac:(lia)). destruct fuel as [|fuel]; [lia|]. destruct (next_p_four n pf Hn Hpf ltac:(lia)) as (q & E & M & [Q|[Q|[Q N4]]]).
    + subst q. eexists. split; [eapply loop_last; eauto; lia|]. cbn [chain]. lia.
    + subst q. eapply loop_step; eauto; try lia. intros m -> Hm. apply IH; try lia. rewrite Nat2Z.inj_succ, Z.pow_succ_r in Hb by lia. pose proof (pow3_pos (S k)). lia.
    + subst q. eapply loop_step; eauto; try lia. intros m -> Hm. apply (loop_odd pf Hpf k); try lia. clear -N4 M.
      pose proof (Z.mod_pos_bound m 2 ltac:(lia)). destruct (Z.eq_dec (m mod 2) 0) as [E|]; [|lia]. destruct N4. pose proof (Z.div_mod m 2 ltac:(lia)). rewrite E in H0.
      replace (2 * m) with (m / 2 * 4) by lia. apply Z.mod_mul. lia.
Qed.

Theorem kf_factor_ok n fuel : 1 <= n < 2 * 3 ^ 32 -> (Z.to_nat B + 40 <= fuel)%nat -> exists fl, kf_factor gt fuel n = Ok fl /\ chain n fl.
Proof. intros H Hf. unfold kf_factor. apply (loop_four fuel ltac:(lia) 31); try lia. Qed.
End Factor.

Lemma kf_factor_too_long : forall fuel, kf_factor (gt_sqrt (3 ^ 33)) fuel (3 ^ 33) = Panic.
Proof. intros fuel. do 36 (destruct fuel as [|fuel]; [vm_compute; reflexivity|]). vm_compute. reflexivity. Qed.
