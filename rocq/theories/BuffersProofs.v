(* Proofs about working buffer splitting (C13, C14, C15). *)
From Coq Require Import ZArith List Bool Lia.
From Verif Require Import Base Config TablesBand FftFactor Buffers.
Import ListNotations.
Local Open Scope Z_scope.

Fixpoint total (ns : list Z) : Z := match ns with [] => 0 | n :: t => n + total t end.

Lemma split_at_ok {A} n (l : list A) : 0 <= n <= len l ->
  exists a b, split_at n l = Ok (a, b) /\ a ++ b = l /\ len a = n /\ len b = len l - n.
Proof.
  intros H. unfold split_at. destruct (Z.ltb_spec n 0); [lia|]. destruct (Z.ltb_spec (len l) n); [lia|]. cbn [orb].
  eexists _, _. split; [reflexivity|]. split; [apply firstn_skipn|]. unfold len in *. rewrite firstn_length, skipn_length. lia.
Qed.

Lemma splits_ok {A} ns : forall (l : list A), Forall (fun n => 0 <= n) ns -> total ns <= len l ->
  exists ps r, splits ns l = Ok (ps, r) /\ concat ps ++ r = l /\ map len ps = ns /\ len r = len l - total ns.
Proof.
  induction ns as [|n ns IH]; intros l F H; cbn [splits total] in *.
  - exists [], l. repeat split. lia.
  - inversion F; subst. assert (0 <= total ns) by (clear -H3; induction H3; cbn [total]; lia).
    destruct (split_at_ok n l ltac:(lia)) as (a & b & E & App & La & Lb). rewrite E. cbn [bind].
    destruct (IH b H3 ltac:(lia)) as (ps & r & E2 & C & M & L). rewrite E2. cbn [bind].
    exists (a :: ps), r. split; [reflexivity|]. cbn [concat map]. rewrite <- app_assoc, C. split; [assumption|]. split; [congruence|lia].
Qed.

(* what the constructors need to know about a configuration *)
Record cfg_ok (c : config) : Prop := mkCfgOk {
  co_ne : 0 <= ne c <= nf c;
  co_z : 0 <= zlead c <= nf c;
  co_nb : 0 <= nb c;
  co_fac : exists fl, kf_factor (gt_sqrt (nf c / 2)) (factor_fuel (nf c / 2)) (nf c / 2) = Ok fl;
  co_win : match n_ms c with
           | SevenPointFiveMs => existsb (Z.eqb (nf c)) [60; 120; 180; 240; 360]
           | TenMs => existsb (Z.eqb (nf c)) [80; 160; 240; 320; 480]
           end = true;
  co_ltpf : exists n, ltpf_lengths c = Ok n /\ Forall (fun x => 0 <= x) [l_x n; l_xltpf n; l_cnum n; l_cden n; l_cnum n; l_cden n; l_cden n; l_scratch n];
  co_band : exists b, band_table c = Ok b;
  co_tilt : exists g, idx G_TILT (fs_ind c) = Ok g;
  co_eltpf : exists a b d, enc_ltpf_lengths c = Ok (a, b, d) /\ 0 <= a /\ 0 <= b /\ 0 <= d
}.

Lemma config_ok f d : cfg_ok (config_new f d).
Proof.
  destruct f, d; (constructor; [vm_compute; split; discriminate|vm_compute; split; discriminate|vm_compute; discriminate| | | | | |];
   [eexists; vm_compute; reflexivity|vm_compute; reflexivity|eexists; split; [reflexivity|repeat constructor; vm_compute; discriminate]
   |eexists; vm_compute; reflexivity|eexists; vm_compute; reflexivity|eexists _, _, _; split; [vm_compute; reflexivity|lia]]).
Qed.

Lemma dct_new_ok {A} c (b : list A) : cfg_ok c -> dct_len c <= len b ->
  exists ps r, dct_new (nf c) b = Ok (ps, r) /\ concat ps ++ r = b /\ len r = len b - dct_len c.
Proof.
  intros C H. unfold dct_new, dct_len in *. destruct C. set (k := nf c / 2) in *. assert (0 <= k) by (apply Z.div_pos; lia).
  destruct (split_at_ok k b ltac:(lia)) as (a & r & E & App & _ & Lr). rewrite E. cbn [bind]. destruct co_fac0 as [fl ->]. cbn [bind].
  destruct (splits_ok [k; k; k] r ltac:(repeat constructor; lia) ltac:(cbn [total]; lia)) as (ps & r2 & E2 & C2 & _ & L2). rewrite E2. cbn [bind].
  exists (a :: ps), r2. split; [reflexivity|]. cbn [concat total] in *. rewrite <- app_assoc, C2. split; [assumption|lia].
Qed.

Lemma dec_channel_ok {A B} c (s : list A) (x : list B) ns nx : cfg_ok c -> dec_channel_len c = Ok (ns, nx) -> ns <= len s -> nx <= len x ->
  exists sps cps s' x', dec_channel_new c s x = Ok (sps, cps, s', x') /\ concat sps ++ s' = s /\ concat cps ++ x' = x /\
    len s' = len s - ns /\ len x' = len x - nx.
Proof.
  intros C N Hs Hx. pose proof C as C'. destruct C'. unfold dec_channel_len, dec_mdct_len, dec_ltpf_len in N. destruct co_ltpf0 as (n & EL & FL). rewrite EL in N. cbn [bind] in N.
  injection N as N1 N2. set (h := nf c / 2) in *. assert (0 <= h) by (apply Z.div_pos; lia).
  assert (TL : total [l_x n; l_xltpf n; l_cnum n; l_cden n; l_cnum n; l_cden n; l_cden n; l_scratch n] = l_cden n * 3 + l_cnum n * 2 + l_xltpf n + l_x n + l_scratch n) by (cbn [total]; lia).
  assert (TP : 0 <= l_cden n * 3 + l_cnum n * 2 + l_xltpf n + l_x n + l_scratch n).
  { rewrite <- TL. clear -FL. induction FL; cbn [total]; lia. }
  unfold dec_channel_new.
  destruct (split_at_ok (ne c) s ltac:(lia)) as (a1 & s1 & E1 & C1 & _ & L1). rewrite E1. cbn [bind].
  destruct (split_at_ok (ne c) s1 ltac:(lia)) as (a2 & s2 & E2 & C2 & _ & L2). rewrite E2. cbn [bind].
  unfold dec_mdct_new. destruct (dct_new_ok c x C ltac:(lia)) as (cps & x' & EX & CX & LX). rewrite EX. cbn [bind]. unfold usub.
  destruct (Z.ltb_spec (nf c) (zlead c)); [lia|]. destruct (Z.ltb_spec (nf c) (ne c)); [lia|]. cbn [bind]. fold h.
  destruct (splits_ok [nf c - zlead c; nf c * 2; nf c - ne c; h] s2 ltac:(repeat constructor; lia) ltac:(cbn [total]; lia)) as (ps3 & s3 & E3 & C3 & _ & L3).
  rewrite E3. cbn [bind total] in L3 |- *.
  assert (EW : match n_ms c with
       | SevenPointFiveMs => if existsb (Z.eqb (nf c)) [60; 120; 180; 240; 360] then Ok tt else Panic
       | TenMs => if existsb (Z.eqb (nf c)) [80; 160; 240; 320; 480] then Ok tt else Panic
       end = Ok tt) by (destruct (n_ms c); rewrite co_win0; reflexivity).
  rewrite EW. cbn [bind]. unfold dec_ltpf_new. rewrite EL. cbn [bind].
  destruct (splits_ok _ s3 FL ltac:(rewrite TL; lia)) as (ps4 & s4 & E4 & C4 & _ & L4). rewrite E4. cbn [bind]. rewrite TL in L4.
  destruct (split_at_ok (nf c) s4 ltac:(lia)) as (a5 & s5 & E5 & C5 & _ & L5). rewrite E5. cbn [bind].
  eexists _, _, _, _. split; [reflexivity|]. split; [|split; [assumption|split; lia]].
  cbn [concat]. rewrite !concat_app. cbn [concat]. rewrite app_nil_r, <- !app_assoc, C5, C4, C3, C2. exact C1.
Qed.

(* all the parts handed out by a construction, in order *)
Definition dec_parts {A B} (chs : list (list (list A) * list (list B))) : list (list A) := concat (map fst chs).
Definition dec_cparts {A B} (chs : list (list (list A) * list (list B))) : list (list B) := concat (map snd chs).

Lemma dec_channels_ok {A B} c ns nx : cfg_ok c -> dec_channel_len c = Ok (ns, nx) -> 0 <= ns -> 0 <= nx ->
  forall k (s : list A) (x : list B), Z.of_nat k * ns <= len s -> Z.of_nat k * nx <= len x ->
  exists chs s' x', dec_channels k c s x = Ok (chs, s', x') /\ length chs = k /\ concat (dec_parts chs) ++ s' = s /\ concat (dec_cparts chs) ++ x' = x /\
    len s' = len s - Z.of_nat k * ns /\ len x' = len x - Z.of_nat k * nx.
Proof.
  intros C N P1 P2. induction k as [|k IH]; intros s x Hs Hx.
  - exists [], s, x. cbn. repeat split; lia.
  - cbn [dec_channels]. rewrite Nat2Z.inj_succ in *.
    destruct (dec_channel_ok c s x ns nx C N ltac:(nia) ltac:(nia)) as (sps & cps & s1 & x1 & E1 & A1 & B1 & L1 & M1). rewrite E1. cbn [bind].
    destruct (IH s1 x1 ltac:(nia) ltac:(nia)) as (chs & s2 & x2 & E2 & K2 & A2 & B2 & L2 & M2). rewrite E2. cbn [bind].
    eexists _, _, _. split; [reflexivity|]. split; [cbn [length]; congruence|].
    unfold dec_parts, dec_cparts in *. cbn [map fst snd concat]. rewrite !concat_app, <- !app_assoc, A2, B2. repeat split; try assumption; nia.
Qed.

Theorem dec_new_ok {A B} f d k (s : list A) (x : list B) ns nx : 0 <= k -> dec_lens k d f = Ok (ns, nx) -> ns <= len s -> nx <= len x ->
  exists chs s' x', dec_new k d f s x = Ok (chs, s', x') /\ len chs = k /\ concat (dec_parts chs) ++ s' = s /\ concat (dec_cparts chs) ++ x' = x /\
    len s' = len s - ns /\ len x' = len x - nx.
Proof.
  intros Hk N Hs Hx. unfold dec_lens in N. destruct (dec_channel_len (config_new f d)) as [[n m]| |] eqn:E; cbn [bind] in N; try discriminate. injection N as <- <-.
  assert (0 <= n /\ 0 <= m) by (destruct f, d; vm_compute in E; injection E as <- <-; lia).
  destruct (dec_channels_ok (config_new f d) n m (config_ok f d) E ltac:(lia) ltac:(lia) (Z.to_nat k) s x ltac:(rewrite Z2Nat.id; lia) ltac:(rewrite Z2Nat.id; lia)) as (chs & s' & x' & R & K & A1 & A2 & L1 & L2).
  rewrite Z2Nat.id in L1, L2 by lia. exists chs, s', x'. unfold dec_new, len in *. repeat split; try assumption; lia.
Qed.
Lemma dec_lens_ok k d f : exists p, dec_lens k d f = Ok p.
Proof. destruct f, d; eexists; reflexivity. Qed.

(* ---- encoder ---- *)
Lemma bw_new_ok d i : 1 <= i <= 4 -> exists b, bw_new d i = Ok b.
Proof. intros H. assert (i = 1 \/ i = 2 \/ i = 3 \/ i = 4) as [E|[E|[E|E]]] by lia; subst; destruct d; eexists; vm_compute; reflexivity. Qed.
Lemma bw_new_8k d : bw_new d 0 = Panic.
Proof. destruct d; reflexivity. Qed.

Lemma enc_channel_ok {I A B} c (i : list I) (s : list A) (x : list B) n1 n2 n3 : cfg_ok c -> 1 <= fs_ind c <= 4 -> enc_ltpf_lengths c = Ok (n1, n2, n3) ->
  let ni := nf c * 2 + n1 + ne c in let ns := n2 + n3 + nf c + nb c in
  ni <= len i -> ns <= len s -> dct_len c <= len x ->
  exists ips sps cps i' s' x', enc_channel_new c i s x = Ok (ips, sps, cps, i', s', x') /\ concat ips ++ i' = i /\ concat sps ++ s' = s /\ concat cps ++ x' = x /\
    len i' = len i - ni /\ len s' = len s - ns /\ len x' = len x - dct_len c.
Proof.
  intros C Hf N ni ns Hi Hs Hx. pose proof C as C'. destruct C'. destruct co_eltpf0 as (a & b & d & EL & Pa & Pb & Pd). rewrite N in EL. injection EL as <- <- <-.
  unfold enc_channel_new, enc_mdct_new, enc_ltpf_new.
  destruct (split_at_ok (nf c * 2) i ltac:(lia)) as (a1 & i1 & E1 & C1 & _ & L1). rewrite E1. cbn [bind].
  destruct (dct_new_ok c x C Hx) as (cps & x' & EX & CX & LX). rewrite EX. cbn [bind].
  destruct co_band0 as [bt ->]. cbn [bind]. destruct (bw_new_ok (n_ms c) (fs_ind c) Hf) as [bd ->]. cbn [bind]. destruct co_tilt0 as [g ->]. cbn [bind]. rewrite N. cbn [bind].
  destruct (split_at_ok n1 i1 ltac:(lia)) as (a2 & i2 & E2 & C2 & _ & L2). rewrite E2. cbn [bind].
  destruct (splits_ok [n2; n3] s ltac:(repeat constructor; lia) ltac:(cbn [total]; lia)) as (ps3 & s3 & E3 & C3 & _ & L3). rewrite E3. cbn [bind total] in L3 |- *.
  destruct (splits_ok [nf c; nb c] s3 ltac:(repeat constructor; lia) ltac:(cbn [total]; lia)) as (ps4 & s4 & E4 & C4 & _ & L4). rewrite E4. cbn [bind total] in L4 |- *.
  destruct (split_at_ok (ne c) i2 ltac:(lia)) as (a5 & i5 & E5 & C5 & _ & L5). rewrite E5. cbn [bind].
  eexists _, _, _, _, _, _. split; [reflexivity|]. cbn [concat]. rewrite !concat_app, app_nil_r, <- !app_assoc, C5, C2, C4. repeat split; try assumption; lia.
Qed.

Definition enc_iparts {I A B} (chs : list (list (list I) * list (list A) * list (list B))) : list (list I) := concat (map (fun t => fst (fst t)) chs).
Definition enc_sparts {I A B} (chs : list (list (list I) * list (list A) * list (list B))) : list (list A) := concat (map (fun t => snd (fst t)) chs).
Definition enc_cparts {I A B} (chs : list (list (list I) * list (list A) * list (list B))) : list (list B) := concat (map snd chs).

Lemma enc_channels_ok {I A B} c n1 n2 n3 : cfg_ok c -> 1 <= fs_ind c <= 4 -> enc_ltpf_lengths c = Ok (n1, n2, n3) ->
  let ni := nf c * 2 + n1 + ne c in let ns := n2 + n3 + nf c + nb c in let nx := dct_len c in 0 <= ni -> 0 <= ns -> 0 <= nx ->
  forall k (i : list I) (s : list A) (x : list B), Z.of_nat k * ni <= len i -> Z.of_nat k * ns <= len s -> Z.of_nat k * nx <= len x ->
  exists chs i' s' x', enc_channels k c i s x = Ok (chs, i', s', x') /\ length chs = k /\
    concat (enc_iparts chs) ++ i' = i /\ concat (enc_sparts chs) ++ s' = s /\ concat (enc_cparts chs) ++ x' = x /\
    len i' = len i - Z.of_nat k * ni /\ len s' = len s - Z.of_nat k * ns /\ len x' = len x - Z.of_nat k * nx.
Proof.
  intros C Hf N ni ns nx P1 P2 P3. induction k as [|k IH]; intros i s x Hi Hs Hx.
  - exists [], i, s, x. cbn. repeat split; lia.
  - cbn [enc_channels]. rewrite Nat2Z.inj_succ in *.
    destruct (enc_channel_ok c i s x n1 n2 n3 C Hf N) as (ips & sps & cps & i1 & s1 & x1 & E1 & A1 & B1 & C1 & L1 & M1 & O1); [subst ni ns nx; nia..|]. rewrite E1. cbn [bind].
    fold ni in L1. fold ns in M1. fold nx in O1.
    destruct (IH i1 s1 x1 ltac:(nia) ltac:(nia) ltac:(nia)) as (chs & i2 & s2 & x2 & E2 & K2 & A2 & B2 & C2 & L2 & M2 & O2). rewrite E2. cbn [bind].
    eexists _, _, _, _. split; [reflexivity|]. split; [cbn [length]; congruence|].
    unfold enc_iparts, enc_sparts, enc_cparts in *. cbn [map fst snd concat]. rewrite !concat_app, <- !app_assoc, A2, B2, C2. repeat split; try assumption; nia.
Qed.

Theorem enc_new_ok {I A B} f d k (i : list I) (s : list A) (x : list B) ni ns nx : f <> Hz8000 -> 0 <= k -> enc_lens k d f = Ok (ni, ns, nx) ->
  ni <= len i -> ns <= len s -> nx <= len x ->
  exists chs i' s' x', enc_new k d f i s x = Ok (chs, i', s', x') /\ len chs = k /\
    concat (enc_iparts chs) ++ i' = i /\ concat (enc_sparts chs) ++ s' = s /\ concat (enc_cparts chs) ++ x' = x /\
    len i' = len i - ni /\ len s' = len s - ns /\ len x' = len x - nx.
Proof.
  intros Hf Hk N Hi Hs Hx. unfold enc_lens in N. destruct (enc_ltpf_lengths (config_new f d)) as [[[a b] e]| |] eqn:E; cbn [bind] in N; try discriminate. injection N as N1 N2 N3.
  pose proof (config_ok f d) as C. pose proof C as C'. destruct C'. destruct co_eltpf0 as (a' & b' & e' & EL & Pa & Pb & Pd). rewrite E in EL. injection EL as <- <- <-.
  assert (P3 : 0 <= dct_len (config_new f d)) by (destruct f, d; vm_compute; discriminate).
  destruct (enc_channels_ok (config_new f d) a b e C ltac:(destruct f, d; try congruence; vm_compute; split; discriminate) E ltac:(lia) ltac:(lia) P3 (Z.to_nat k) i s x) as (chs & i' & s' & x' & R & K & A1 & A2 & A3 & L1 & L2 & L3); [rewrite Z2Nat.id by lia; lia..|].
  rewrite Z2Nat.id in L1, L2, L3 by lia. exists chs, i', s', x'. unfold enc_new, len in *. repeat split; try assumption; lia.
Qed.

Theorem enc_new_8k {I A B} d k (i : list I) (s : list A) (x : list B) : 1 <= k -> enc_new k d Hz8000 i s x = Panic.
Proof.
  intros Hk. unfold enc_new. destruct (Z.to_nat k) eqn:E; [lia|]. cbn [enc_channels]. unfold enc_channel_new.
  replace (fs_ind (config_new Hz8000 d)) with 0 by (destruct d; reflexivity).
  assert (forall (r : res (list I * list (list B) * list Z * list I * list B)) , (forall e, r <> Err e) ->
     bind (bind r (fun t => match t with (frq, cps, bands, integer_buf, complex_buf) => bind (bw_new (n_ms (config_new Hz8000 d)) 0) (fun bd =>
       tilt <- idx G_TILT 0 ;; '(xs, sps, scaler_buf, integer_buf) <- enc_ltpf_new (config_new Hz8000 d) s integer_buf ;;
       '(ops, scaler_buf) <- splits [nf (config_new Hz8000 d); nb (config_new Hz8000 d)] scaler_buf ;;
       '(x_q, integer_buf) <- split_at (ne (config_new Hz8000 d)) integer_buf ;;
       Ok ([frq; xs; x_q], sps ++ ops, cps, integer_buf, scaler_buf, complex_buf)) end))
      (fun t => match t with (ips, sps, cps, integer_buf, scaler_buf, complex_buf) =>
           '(chs, integer_buf, scaler_buf, complex_buf) <- enc_channels n (config_new Hz8000 d) integer_buf scaler_buf complex_buf ;;
           Ok ((ips, sps, cps) :: chs, integer_buf, scaler_buf, complex_buf) end) = Panic) as H.
  { intros [[[[[p1 p2] p3] p4] p5]|e|] He; cbn [bind]; [rewrite bw_new_8k; reflexivity|now destruct (He e)|reflexivity]. }
  apply H. intros e. unfold enc_mdct_new, dct_new, split_at. destruct (_ || _); cbn [bind]; [discriminate|]. destruct (_ || _); cbn [bind]; [discriminate|].
  assert (EF : exists fl, kf_factor (gt_sqrt (nf (config_new Hz8000 d) / 2)) (factor_fuel (nf (config_new Hz8000 d) / 2)) (nf (config_new Hz8000 d) / 2) = Ok fl) by (apply co_fac, config_ok).
  destruct EF as [fl ->]. cbn [bind splits]. unfold split_at. destruct (_ || _); cbn [bind]; [discriminate|]. destruct (_ || _); cbn [bind]; [discriminate|]. destruct (_ || _); cbn [bind]; [discriminate|].
  assert (EB : exists b, band_table (config_new Hz8000 d) = Ok b) by (apply co_band, config_ok). destruct EB as [b ->]. discriminate.
Qed.
