(* Temporal noise shaping of the encoder: /repo/src/encoder/temporal_noise_shaping.rs *)
From Coq Require Import ZArith List Bool.
From Verif Require Import Base Config Loops Scalar EncScalar DecSignal TablesTns.
Import ListNotations.
Local Open Scope Z_scope.

(* 112-202: per filter (start_freq, stop_freq, sub bands); only the first num_tns_filters entries are ever used *)
Definition tns_enc_params (d : duration) (bw : Z) : res (list (Z * Z * list (Z * Z))) :=
  match d with
  | TenMs => idx [ [(12, 80, [(12, 34); (34, 57); (57, 80)])];
                   [(12, 160, [(12, 61); (61, 110); (110, 160)])];
                   [(12, 200, [(12, 88); (88, 164); (164, 240)])];
                   [(12, 160, [(12, 61); (61, 110); (110, 160)]); (160, 320, [(160, 213); (213, 266); (266, 320)])];
                   [(12, 200, [(12, 74); (74, 137); (137, 200)]); (200, 400, [(200, 266); (266, 333); (333, 400)])] ] bw
  | SevenPointFiveMs => idx [ [(9, 60, [(9, 26); (26, 43); (43, 60)])];
                   [(9, 120, [(9, 46); (46, 83); (83, 120)])];
                   [(9, 180, [(9, 66); (66, 123); (123, 180)])];
                   [(9, 120, [(9, 46); (46, 82); (82, 120)]); (120, 240, [(120, 159); (159, 200); (200, 240)])];
                   [(9, 150, [(9, 56); (56, 103); (103, 150)]); (150, 300, [(150, 200); (200, 250); (250, 300)])] ] bw
  end.

Section EncTns.
Context {F : Type} (o : ops F) (e : eops F).
Let f0 := fz o 0.
Let f1 := fz o 1.

(* 80-83 *)
Definition LAG_WINDOW : list (Z * Z) :=
  [(10, -1); (9980280260203829, -16); (9921354055113971, -16); (9823915844707989, -16); (9689107911912967, -16); (9518498073692735, -16);
   (9314049334023056, -16); (9078082299969592, -16); (8813231366694713, -16)].

(* 90-106: the sub bands of one filter for one lag; state: (rk, e_prod) *)
Definition autocorr_sub (x : list F) (k : Z) (s : F * F) (b : Z * Z) : res (F * F) :=
  let '(start, stop) := b in
  w <- sub x start stop ;;
  let es := fsum o (map (fun v => fmul o v v) w) in
  ac <- (if (start + k <? len x) && (start + k <? stop) then
           wk <- sub x (start + k) stop ;; Ok (fsum o (map (fun '(kx, v) => fmul o v kx) (combine wk w)))
         else Ok f0) ;;
  Ok (fadd o (fst s) (fdiv o ac es), fmul o (snd s) es).
Fixpoint autocorr_subs (x : list F) (k : Z) (s : F * F) (bs : list (Z * Z)) : res (F * F) :=
  match bs with [] => Ok s | b :: bs => s <- autocorr_sub x k s b ;; autocorr_subs x k s bs end.
(* 79-111 *)
Definition autocorr (x : list F) (bs : list (Z * Z)) : res (list F) :=
  for_range 0 9 (fun k r =>
    lw <- idx LAG_WINDOW k ;;
    '(rk, prod) <- autocorr_subs x k (f0, f1) bs ;;
    put r k (fmul o (if feq o prod f0 then (if k =? 0 then fz o 3 else f0) else rk) (flit o lw))) (repeat f0 9).

(* 211-232: state (a, a_last, e) before and after step k *)
Definition levinson_step (r : list F) (k : Z) (s : list F * list F * F) : res (list F * list F * F) :=
  let '(a_last, a, er) := s in   (* swapped *)
  rc <- for_range 0 k (fun n rc => x <- idx a_last n ;; y <- idx r (k - n) ;; Ok (fsub o rc (fmul o x y))) f0 ;;
  let rc := if feq o er f0 then rc else fdiv o rc er in
  a <- put a 0 f1 ;;
  a <- for_range 1 k (fun n a => x <- idx a_last n ;; y <- idx a_last (k - n) ;; put a n (fadd o x (fmul o rc y))) a ;;
  a <- put a k rc ;;
  Ok (a, a_last, fmul o er (fsub o f1 (fmul o rc rc))).
(* 250-258: state (a_k, a_km1, rc_q) *)
Definition stepdown (f k : Z) (s : list F * list F * list F) : res (list F * list F * list F) :=
  let '(ak, am, rc) := s in
  r <- idx ak k ;;
  rc <- put rc (f * 8 + k - 1) r ;;
  let er := fsub o f1 (fmul o r r) in
  am <- for_range 1 k (fun n am => x <- idx ak n ;; y <- idx ak (k - n) ;; put am n (fdiv o (fsub o x (fmul o r y)) er)) am ;;
  Ok (am, ak, rc).
(* 204-266 *)
Definition tns_analysis (r : list F) (f : Z) (near_nyquist : bool) (weighting : Z) (rc_q : list F) : res (list F) :=
  r0 <- idx r 0 ;;
  a <- put (repeat f0 9) 0 f1 ;;
  '(a, a_last, er) <- for_range 1 9 (levinson_step r) (a, repeat f0 9, r0) ;;
  let gain := if feq o er f0 then r0 else fdiv o r0 er in
  if flt o (flit o (15, -1)) gain && negb near_nyquist then
    let gamma :=
      if (0 <? weighting) && flt o gain (fz o 2) then
        fsub o f1 (fdiv o (fmul o (fsub o f1 (flit o (85, -2))) (fsub o (fz o 2) gain)) (fsub o (fz o 2) (flit o (15, -1))))
      else f1 in
    a <- for_range 0 9 (fun k a => x <- idx a k ;; put a k (fmul o x (e_powi e gamma k))) a ;;
    '(_, _, rc_q) <- for_rev 1 9 (stepdown f) (a, a_last, rc_q) ;;
    Ok rc_q
  else
    _ <- sub rc_q (f * 8) (f * 8 + 8) ;;
    for_range (f * 8) (f * 8 + 8) (fun k rc => put rc k f0) rc_q.

(* 343-349 *)
Definition to_int (x : F) : Z :=
  if fge o x f0 then as_i8 o (fadd o x (flit o (5, -1))) else as_i8 o (fneg o (fadd o (fneg o x) (flit o (5, -1)))).
(* 281-285 *)
Fixpoint tns_order (n : nat) (f : Z) (rc_i : list Z) : res Z :=
  match n with
  | O => Ok 0
  | S n' => v <- idx rc_i (f * 8 + Z.of_nat n') ;; if v =? 8 then tns_order n' f rc_i else Ok (Z.of_nat n)
  end.
(* 268-286: one filter; state (rc_q, rc_i, rc_order) *)
Definition tns_quantise (chk : bool) (f : Z) (s : list F * list Z * list Z) : res (list F * list Z * list Z) :=
  let '(rc_q, rc_i, ord) := s in
  '(rc_q, rc_i) <- for_range (f * 8) (f * 8 + 8) (fun k '(rc_q, rc_i) =>
      x <- idx rc_q k ;;
      i <- i8c chk (to_int (fdiv o (e_asin e x) (e_step17 e)) + 8) ;;
      let i := i mod 2 ^ 64 in
      rc_i <- put rc_i k i ;;
      rc_q <- put rc_q k (fsin17 o (i - 8)) ;;
      Ok (rc_q, rc_i)) (rc_q, rc_i) ;;
  n <- tns_order 8 f rc_i ;;
  ord <- put ord f n ;;
  Ok (rc_q, rc_i, ord).
(* 288-295 *)
Definition tns_unused (f : Z) (s : list F * list Z * list Z) : res (list F * list Z * list Z) :=
  let '(rc_q, rc_i, ord) := s in
  rc_i <- for_range (f * 8) (f * 8 + 8) (fun k l => put l k 8) rc_i ;;
  rc_q <- for_range (f * 8) (f * 8 + 8) (fun k l => put l k f0) rc_q ;;
  ord <- put ord f 0 ;;
  Ok (rc_q, rc_i, ord).

(* 297-314 *)
Definition tns_filter_bits (weighting : Z) (rc_i ord : list Z) (f : Z) : res Z :=
  n <- idx ord f ;;
  ob <- (if n =? 0 then Ok 0 else idx2 AC_TNS_ORDER_BITS weighting (n - 1)) ;;
  _ <- sub AC_TNS_COEF_BITS 0 n ;;
  cb <- for_range 0 n (fun k s => v <- idx rc_i (f * 8 + k) ;; b <- idx2 AC_TNS_COEF_BITS k v ;; Ok (s + b)) 0 ;;
  Ok (as_usize o (e_ceil e (fdiv o (fadd o (fadd o (fz o 2048) (fz o ob)) (fz o cb)) (fz o 2048)))).

(* 325-338: one line through the analysis lattice *)
Definition tns_enc_line (rc : list F) (f order : Z) (x : F) (st : list F) : res (F * list F) :=
  _ <- sub rc (f * 8) (f * 8 + (order - 1)) ;;
  _ <- sub st 0 (order - 1) ;;
  '(t, save, st) <- for_range 0 (order - 1) (fun k '(t, save, st) =>
      r <- idx rc (f * 8 + k) ;; s <- idx st k ;;
      st <- put st k save ;;
      Ok (fadd o t (fmul o r s), fadd o (fmul o r t) s, st)) (x, x, st) ;;
  r <- idx rc (f * 8 + (order - 1)) ;; s <- idx st (order - 1) ;;
  st <- put st (order - 1) save ;;
  Ok (fadd o t (fmul o r s), st).
(* 316-341: filters f, f + 1, ...; the state is shared *)
Fixpoint tns_enc_filters (rc : list F) (f : Z) (params : list (Z * Z * list (Z * Z))) (orders : list Z) (st lines : list F) : res (list F) :=
  match params with
  | [] => Ok lines
  | (from, to, _) :: params =>
      order <- idx orders f ;;
      '(st, lines) <- (if order =? 0 then Ok (st, lines)
                       else
                         _ <- sub lines from to ;;
                         for_range from to (fun n '(st, lines) =>
                           x <- idx lines n ;;
                           '(x, st) <- tns_enc_line rc f order x st ;;
                           lines <- put lines n x ;;
                           Ok (st, lines)) (st, lines)) ;;
      tns_enc_filters rc (f + 1) params orders st lines
  end.

(* 18-25 *)
Record tns_result : Type := mkTnsR { tr_nbits : Z; tr_weighting : Z; tr_num : Z; tr_order : list Z; tr_rc_i : list Z; tr_rc_q : list F }.
(* 46-50 *)
Definition tns_weighting (d : duration) (nbits : Z) : Z :=
  match d with TenMs => if nbits <? 480 then 1 else 0 | SevenPointFiveMs => if nbits <? 360 then 1 else 0 end.
(* 39-77 *)
Definition tns_encode (chk : bool) (c : config) (x : list F) (bw nbits : Z) (near_nyquist : bool) : res (tns_result * list F) :=
  _ <- assert (len x =? ne c) ;;
  params <- tns_enc_params (n_ms c) bw ;;
  let num := len params in
  let w := tns_weighting (n_ms c) nbits in
  rc_q <- for_range 0 num (fun f rc_q => p <- idx params f ;; r <- autocorr x (snd p) ;; tns_analysis r f near_nyquist w rc_q) (repeat f0 16) ;;
  s <- for_range 0 num (tns_quantise chk) (rc_q, repeat 0 16, [0; 0]) ;;
  '(rc_q, rc_i, ord) <- for_range num 2 tns_unused s ;;
  nbits_tns <- for_range 0 num (fun f n => b <- tns_filter_bits w rc_i ord f ;; Ok (n + b)) 0 ;;
  y <- tns_enc_filters rc_q 0 params ord (repeat f0 8) x ;;
  Ok (mkTnsR nbits_tns w num ord rc_i rc_q, y).
End EncTns.
Arguments tns_result : clear implicits.
