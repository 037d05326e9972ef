(* Counting loops and slice operations on lists of any type, with the lemmas used to reason about them. *)
From Coq Require Import ZArith List Bool Lia.
From Verif Require Import Base.
Import ListNotations.
Local Open Scope Z_scope.

(* `for i in lo..hi { s = body(i, s) }`, n iterations from i *)
Fixpoint forn {S} (n : nat) (i : Z) (body : Z -> S -> res S) (s : S) : res S :=
  match n with
  | O => Ok s
  | Datatypes.S k => s <- body i s ;; forn k (i + 1) body s
  end.
Definition for_range {S} (lo hi : Z) (body : Z -> S -> res S) (s : S) : res S := forn (Z.to_nat (hi - lo)) lo body s.
(* `for i in (lo..hi).rev()` *)
Fixpoint forn_rev {S} (n : nat) (lo : Z) (body : Z -> S -> res S) (s : S) : res S :=
  match n with
  | O => Ok s
  | Datatypes.S k => s <- body (lo + Z.of_nat k) s ;; forn_rev k lo body s
  end.
Definition for_rev {S} (lo hi : Z) (body : Z -> S -> res S) (s : S) : res S := forn_rev (Z.to_nat (hi - lo)) lo body s.

(* `l[i] = v` *)
Definition put {A} (l : list A) (i : Z) (v : A) : res (list A) :=
  if (i <? 0) || (len l <=? i) then Panic else Ok (upd l (Z.to_nat i) v).
(* `&l[from..to]` *)
Definition sub {A} (l : list A) (from to : Z) : res (list A) :=
  if (from <? 0) || (to <? from) || (len l <? to) then Panic
  else Ok (firstn (Z.to_nat (to - from)) (skipn (Z.to_nat from) l)).
(* `l[from..to].copy_from_slice(src)`: the lengths must agree *)
Definition blit {A} (l : list A) (from to : Z) (src : list A) : res (list A) :=
  if (from <? 0) || (to <? from) || (len l <? to) || negb (len src =? to - from) then Panic
  else Ok (firstn (Z.to_nat from) l ++ src ++ skipn (Z.to_nat to) l).
(* assert!(b) *)
Definition assert (b : bool) : res unit := if b then Ok tt else Panic.

Definition getz {A} (d : A) (l : list A) (i : Z) : A := nth (Z.to_nat i) l d.

Lemma forn_inv {S} (P : Z -> S -> Prop) body : forall n i s, P i s ->
  (forall j s, i <= j < i + Z.of_nat n -> P j s -> exists s', body j s = Ok s' /\ P (j + 1) s') ->
  exists s', forn n i body s = Ok s' /\ P (i + Z.of_nat n) s'.
Proof.
  induction n as [|n IH]; intros i s H K; cbn [forn].
  - exists s. rewrite Z.add_0_r. auto.
  - destruct (K i s ltac:(lia) H) as (s1 & E & H1). rewrite E. cbn [bind].
    destruct (IH (i + 1) s1 H1) as (s2 & E2 & H2); [intros j t Hj; apply K; lia|]. exists s2. split; [assumption|].
    replace (i + Z.of_nat (Datatypes.S n)) with (i + 1 + Z.of_nat n) by lia. assumption.
Qed.
Lemma for_inv {S} (P : Z -> S -> Prop) lo hi body s : lo <= hi -> P lo s ->
  (forall j s, lo <= j < hi -> P j s -> exists s', body j s = Ok s' /\ P (j + 1) s') ->
  exists s', for_range lo hi body s = Ok s' /\ P hi s'.
Proof.
  intros Hl H K. unfold for_range. destruct (forn_inv P body (Z.to_nat (hi - lo)) lo s H) as (s' & E & H'); [intros j t Hj; apply K; lia|].
  exists s'. split; [assumption|]. replace hi with (lo + Z.of_nat (Z.to_nat (hi - lo))) by lia. assumption.
Qed.
(* loops whose range may be empty *)
Lemma for_inv_same {S} (P : S -> Prop) lo hi body s : P s ->
  (forall j s, lo <= j < hi -> P s -> exists s', body j s = Ok s' /\ P s') ->
  exists s', for_range lo hi body s = Ok s' /\ P s'.
Proof.
  intros H K. destruct (Z_le_gt_dec lo hi) as [L|L].
  - apply (for_inv (fun _ => P) lo hi body s L H). exact K.
  - exists s. unfold for_range. replace (Z.to_nat (hi - lo)) with O by lia. auto.
Qed.
Lemma forn_rev_inv {S} (P : Z -> S -> Prop) body lo : forall n s, P (lo + Z.of_nat n) s ->
  (forall j s, lo <= j < lo + Z.of_nat n -> P (j + 1) s -> exists s', body j s = Ok s' /\ P j s') ->
  exists s', forn_rev n lo body s = Ok s' /\ P lo s'.
Proof.
  induction n as [|n IH]; intros s H K; cbn [forn_rev].
  - exists s. rewrite Z.add_0_r in H. auto.
  - destruct (K (lo + Z.of_nat n) s ltac:(lia)) as (s1 & E & H1); [replace (lo + Z.of_nat n + 1) with (lo + Z.of_nat (Datatypes.S n)) by lia; assumption|]. rewrite E. cbn [bind].
    apply IH; [assumption|]. intros j t Hj. apply K. lia.
Qed.
Lemma for_rev_inv {S} (P : Z -> S -> Prop) lo hi body s : lo <= hi -> P hi s ->
  (forall j s, lo <= j < hi -> P (j + 1) s -> exists s', body j s = Ok s' /\ P j s') ->
  exists s', for_rev lo hi body s = Ok s' /\ P lo s'.
Proof.
  intros Hl H K. unfold for_rev. apply forn_rev_inv.
  - replace (lo + Z.of_nat (Z.to_nat (hi - lo))) with hi by lia. assumption.
  - intros j t Hj. apply K. lia.
Qed.
Lemma forn_ext {S} (b1 b2 : Z -> S -> res S) : forall n i s, (forall j s, i <= j < i + Z.of_nat n -> b1 j s = b2 j s) -> forn n i b1 s = forn n i b2 s.
Proof.
  induction n as [|n IH]; intros i s H; [reflexivity|]. cbn [forn]. rewrite (H i s) by lia. destruct (b2 i s); cbn [bind]; try reflexivity. apply IH. intros. apply H. lia.
Qed.
Lemma for_ext {S} (b1 b2 : Z -> S -> res S) lo hi s : (forall j s, lo <= j < hi -> b1 j s = b2 j s) -> for_range lo hi b1 s = for_range lo hi b2 s.
Proof. intros H. apply forn_ext. intros. apply H. lia. Qed.

Lemma upd_len {A} (l : list A) : forall n v, length (upd l n v) = length l.
Proof. induction l; intros [|n] v; cbn [upd length]; auto. Qed.
Lemma upd_get {A} (d : A) l : forall n v m, (n < length l)%nat -> nth m (upd l n v) d = if Nat.eqb m n then v else nth m l d.
Proof.
  induction l as [|h t IH]; intros n v m H; cbn [length] in H; [lia|]. destruct n, m; cbn [upd nth Nat.eqb]; try reflexivity. apply IH. lia.
Qed.

Lemma put_ok {A} (d : A) (l : list A) i v : 0 <= i < len l ->
  exists l', put l i v = Ok l' /\ len l' = len l /\ forall j, 0 <= j -> getz d l' j = if j =? i then v else getz d l j.
Proof.
  intros H. unfold put. destruct (Z.ltb_spec i 0); [lia|]. destruct (Z.leb_spec (len l) i); [lia|]. cbn [orb].
  eexists. split; [reflexivity|]. unfold len in *. rewrite upd_len. split; [reflexivity|].
  intros j Hj. unfold getz. rewrite upd_get by lia. destruct (Nat.eqb_spec (Z.to_nat j) (Z.to_nat i)), (Z.eqb_spec j i); try reflexivity; lia.
Qed.
Lemma put_len {A} (l : list A) i v : 0 <= i < len l -> exists l', put l i v = Ok l' /\ len l' = len l.
Proof.
  intros H. unfold put. destruct (Z.ltb_spec i 0); [lia|]. destruct (Z.leb_spec (len l) i); [lia|]. cbn [orb].
  eexists. split; [reflexivity|]. unfold len in *. now rewrite upd_len.
Qed.
Lemma idx_get {A} (d : A) (l : list A) i : 0 <= i < len l -> idx l i = Ok (getz d l i).
Proof.
  intros H. unfold idx, getz. destruct (Z.ltb_spec i 0); [lia|]. unfold len in H. rewrite (nth_error_nth' l d) by lia. reflexivity.
Qed.
Lemma idx_ok {A} (l : list A) i : 0 <= i < len l -> exists v, idx l i = Ok v.
Proof.
  intros H. unfold idx. destruct (Z.ltb_spec i 0); [lia|]. unfold len in H. destruct (nth_error l (Z.to_nat i)) eqn:E; [eauto|]. apply nth_error_None in E. lia.
Qed.
Lemma nth_skip {A} (d : A) (l : list A) : forall n m, nth m (skipn n l) d = nth (n + m) l d.
Proof. induction l as [|h t IH]; intros [|n] m; cbn [skipn Nat.add nth]; try reflexivity; [destruct m; reflexivity|apply IH]. Qed.
Lemma nth_first {A} (d : A) (l : list A) : forall n m, (m < n)%nat -> nth m (firstn n l) d = nth m l d.
Proof. induction l as [|h t IH]; intros [|n] [|m] H; cbn [firstn nth]; try reflexivity; try lia. apply IH. lia. Qed.
Lemma sub_ok {A} (l : list A) from to : 0 <= from <= to -> to <= len l -> exists s, sub l from to = Ok s /\ len s = to - from /\
  forall d j, 0 <= j < to - from -> getz d s j = getz d l (from + j).
Proof.
  intros H1 H2. unfold sub. destruct (Z.ltb_spec from 0); [lia|]. destruct (Z.ltb_spec to from); [lia|]. destruct (Z.ltb_spec (len l) to); [lia|]. cbn [orb].
  eexists. split; [reflexivity|]. unfold len in *. rewrite firstn_length, skipn_length. split; [lia|].
  intros d j Hj. unfold getz. rewrite nth_first by lia. rewrite nth_skip. f_equal. lia.
Qed.
Lemma blit_ok {A} (l : list A) from to src : 0 <= from <= to -> to <= len l -> len src = to - from -> exists s, blit l from to src = Ok s /\ len s = len l /\
  forall d j, 0 <= j -> getz d s j = if (from <=? j) && (j <? to) then getz d src (j - from) else getz d l j.
Proof.
  intros H1 H2 H3. unfold blit. destruct (Z.ltb_spec from 0); [lia|]. destruct (Z.ltb_spec to from); [lia|]. destruct (Z.ltb_spec (len l) to); [lia|].
  destruct (Z.eqb_spec (len src) (to - from)); [|lia]. cbn [orb negb].
  eexists. split; [reflexivity|]. unfold len in *. rewrite !app_length, firstn_length, skipn_length. split; [lia|].
  intros d j Hj. unfold getz. destruct (Z.leb_spec from j); cbn [andb].
  - rewrite app_nth2; rewrite firstn_length; [|lia]. destruct (Z.ltb_spec j to).
    + rewrite app_nth1 by lia. f_equal. lia.
    + rewrite app_nth2 by lia. rewrite nth_skip. f_equal. lia.
  - rewrite app_nth1 by (rewrite firstn_length; lia). apply nth_first. lia.
Qed.
Lemma list_eq_getz {A} (d : A) (a b : list A) : len a = len b -> (forall j, 0 <= j < len a -> getz d a j = getz d b j) -> a = b.
Proof.
  intros L H. apply (nth_ext _ _ d d); [unfold len in L; lia|]. intros n Hn. specialize (H (Z.of_nat n)). unfold getz in H. rewrite Nat2Z.id in H. apply H. unfold len. lia.
Qed.
