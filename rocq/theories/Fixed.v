(* Fixed point numbers with 28 fractional bits as a further scalar: the laws EncF32.elaws hold, and whole frames can be run in the kernel without the virtual machine.
   Used for examples that meet the hypotheses of theorems about the encoder; the code itself uses binary32. *)
From Coq Require Import ZArith Lia List Bool.
From Verif Require Import Base Scalar EncScalar EncQuant EncF32.
Import ListNotations.
Local Open Scope Z_scope.

Definition ONE : Z := 268435456.
Definition x_pi : Z := 843314857.
Definition x_ln2 : Z := 186065279.
Definition x_log2_10 : Z := 891723283.
Definition x_log10_2 : Z := 80807124.
Definition xmul (a b : Z) : Z := Z.shiftr (a * b) 28.
Definition xdiv (a b : Z) : Z := a * ONE / b.
(* 2^(40 + 4k) / 10^k, rounded up *)
Definition x_recip (k : positive) : Z :=
  match k with
  | 1%positive => 1759218604442
  | 2%positive => 2814749767107
  | 3%positive => 4503599627371
  | 4%positive => 7205759403793
  | 5%positive => 11529215046069
  | 6%positive => 18446744073710
  | 7%positive => 29514790517936
  | 8%positive => 47223664828697
  | 9%positive => 75557863725915
  | 10%positive => 120892581961463
  | 11%positive => 193428131138341
  | 12%positive => 309485009821346
  | 13%positive => 495176015714153
  | 14%positive => 792281625142644
  | 15%positive => 1267650600228230
  | 16%positive => 2028240960365168
  | 17%positive => 3245185536584268
  | 18%positive => 5192296858534828
  | 19%positive => 8307674973655725
  | 20%positive => 13292279957849159
  | 21%positive => 21267647932558654
  | 22%positive => 34028236692093847
  | 23%positive => 54445178707350155
  | 24%positive => 87112285931760247
  | 25%positive => 139379657490816395
  | 26%positive => 223007451985306232
  | 27%positive => 356811923176489971
  | 28%positive => 570899077082383953
  | 29%positive => 913438523331814324
  | 30%positive => 1461501637330902919
  | 31%positive => 2338402619729444670
  | 32%positive => 3741444191567111471
  | _ => 0
  end.
Definition xlit (p : Z * Z) : Z := match p with (m, Zneg k) => Z.shiftr (m * x_recip k) (12 + 4 * Zpos k) | (m, e) => m * 10 ^ e * ONE end.

Fixpoint x_exp_terms (n : nat) (k y t : Z) : Z := match n with O => 0 | S n => t + x_exp_terms n (k + 1) y (xmul t y / (k + 1)) end.
Fixpoint x_sin_terms (n : nat) (k y2 t : Z) : Z := match n with O => 0 | S n => t + x_sin_terms n (k + 2) y2 (- (xmul t y2 / ((k + 1) * (k + 2)))) end.
Definition xsin (y : Z) : Z := x_sin_terms 11 1 (xmul y y) y.
Definition xcos (y : Z) : Z := x_sin_terms 11 0 (xmul y y) ONE.
Fixpoint x_atanh_terms (n : nat) (k z2 t : Z) : Z := match n with O => 0 | S n => t / k + x_atanh_terms n (k + 2) z2 (xmul t z2) end.
Definition xlog2 (x : Z) : Z :=
  if x <=? 0 then - 32 * ONE else
  let d := Z.log2 x in
  let y := Z.shiftl x (28 - d) in
  let z := xdiv (y - ONE) (y + ONE) in
  (d - 28) * ONE + xdiv (2 * x_atanh_terms 9 1 (xmul z z) z) x_ln2.
Definition xexp2 (v : Z) : Z :=
  let i := Z.shiftr v 28 in
  if 200 <? i then 2 ^ 240 else if i <? -60 then 0 else Z.shiftl (x_exp_terms 11 0 (xmul (v - Z.shiftl i 28) x_ln2) ONE) i.
Definition xpow10 (v : Z) : Z := xexp2 (xmul v x_log2_10).
Fixpoint x_bisect (n : nat) (s lo hi : Z) : Z :=
  match n with O => lo | S n => let mid := (lo + hi) / 2 in if xsin mid <=? s then x_bisect n s mid hi else x_bisect n s lo mid end.
Definition xasin (v : Z) : Z := if v <=? - ONE then - (x_pi / 2) else if ONE <=? v then x_pi / 2 else x_bisect 30 v (- (x_pi / 2)) (x_pi / 2).
Fixpoint xpow (n : positive) (x : Z) : Z := match n with xH => x | xO n => xpow n (xmul x x) | xI n => xmul x (xpow n (xmul x x)) end.
Definition xpowi (x n : Z) : Z := match n with Z0 => ONE | Zpos p => xpow p x | Zneg p => xdiv ONE (xpow p x) end.

Definition fx_ops : ops Z :=
  mkOps Z (fun n => n * ONE) xlit Z.add Z.sub xmul xdiv Z.opp Z.ltb Z.eqb (fun x => Z.max (-2147483648) (Z.min 2147483647 (Z.quot x ONE))) (fun x => Z.sqrt (x * ONE))
    (fun k => xpow10 (k * ONE / 28)) xexp2 (fun k => xsin (x_pi / 17 * k))
    (fun n i => let a := - (2 * x_pi * i / n) in (xcos a, xsin a)) (fun n i => let a := - (x_pi * (8 * i + 1) / (16 * n)) in (xcos a, xsin a)).
Definition fx_eops : eops Z :=
  mkEops Z Z.abs (fun x => x / ONE * ONE) (fun x => - (- x / ONE) * ONE) (fun x => xmul (xlog2 x) x_log10_2) xlog2 xexp2 xasin xpow10 xpowi (2 ^ 300) (x_pi / 17).

Lemma x_floor_nonneg x : 0 <= x -> 0 <= (x + 134217728) / ONE * ONE.
Proof. intros H. apply Z.mul_nonneg_nonneg; [|discriminate]. apply Z.div_pos; [lia|reflexivity]. Qed.
Lemma fx_elaws : elaws fx_ops fx_eops.
Proof.
  constructor.
  - intros x H. unfold fge in H. cbn [fx_ops fz flt feq f_i32 fadd] in *. change (flit fx_ops (5, -1)) with 134217728. assert (0 <= x) by (apply orb_prop in H; destruct H as [H|H]; lia).
    rewrite Z.quot_div_nonneg by (unfold ONE; lia). assert (0 <= (x + 134217728) / ONE) by (apply Z.div_pos; unfold ONE; lia). lia.
  - intros n H. unfold cost_bits, as_usize. cbn [fx_ops fx_eops f_i32 fdiv fz e_ceil]. unfold xdiv. replace (n * ONE * ONE / (2048 * ONE)) with (n * 131072) by (unfold ONE; apply Z.div_unique with 0; lia).
    replace (- (n * 131072) / ONE) with (- n / 2048) by (unfold ONE; Z.div_mod_to_equations; lia). rewrite Z.quot_mul by discriminate. assert (0 <= - (- n / 2048) <= 2 ^ 24) by (Z.div_mod_to_equations; lia). lia.
  - intros n H. unfold cost_bits, as_usize. cbn [fx_ops fx_eops f_i32 fdiv fz e_ceil]. unfold xdiv. replace (n * ONE * ONE / (2048 * ONE)) with (n * 131072) by (unfold ONE; apply Z.div_unique with 0; lia).
    replace (- (n * 131072) / ONE) with (- n / 2048) by (unfold ONE; Z.div_mod_to_equations; lia). rewrite Z.quot_mul by discriminate. assert (8192 <= - (- n / 2048) <= 2 ^ 20) by (Z.div_mod_to_equations; lia). lia.
  - intros x. cbn [fx_ops f_i32]. lia.
  - intros x H. cbn [fx_ops flt feq fz] in *. lia.
  - intros a b _ _ _. cbn [fx_ops fadd fz]. lia.
  - intros i t1 t2 t3 est spec A B C [H1 H2] H3. pose proof (T_cases i t1 t2 t3 A B C) as D.
    assert (G : 0 <= gain_delta fx_ops fx_eops t1 t2 t3 est).
    { unfold gain_delta. change (flit fx_ops (5, -1)) with 134217728. cbn [fx_ops fx_eops e_floor fadd fdiv fmul fsub fz]. cbv zeta. unfold xmul, xdiv. rewrite Z.shiftr_div_pow2 by lia. change (2 ^ 28) with ONE.
      apply x_floor_nonneg.
      destruct (Z.ltb_spec est t1) as [L1|L1]; [apply Z.div_pos; unfold ONE; lia|]. destruct (Z.ltb_spec est t2) as [L2|L2]; [|destruct (est <? t3); apply Z.div_pos; unfold ONE; lia].
      destruct D as [(-> & -> & _)|[(-> & -> & _)|[(-> & -> & _)|[(-> & -> & _)|(-> & -> & _)]]]];
      (match goal with |- 0 <= ?a / ?b + ?c => assert (0 <= c) by (vm_compute; discriminate); assert (0 <= a / b); [|lia] end; apply Z.div_pos; [|vm_compute; reflexivity];
       apply Z.mul_nonneg_nonneg; [|vm_compute; discriminate]; apply Z.div_pos; [|vm_compute; reflexivity]; apply Z.mul_nonneg_nonneg; [unfold ONE; lia|vm_compute; discriminate]). }
    cbn [fx_ops flt fz fsub fadd] in *. apply Z.ltb_ge. unfold ONE in *. lia.
Qed.
