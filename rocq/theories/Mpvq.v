(* Pulse vector enumeration and de-enumeration (MPVQ).
   /repo/src/encoder/spectral_noise_shaping.rs:585-627, /repo/src/decoder/spectral_noise_shaping.rs:155-235 *)
From Coq Require Import ZArith List Bool.
From Verif Require Import Base TablesSns.
Import ListNotations.
Local Open Scope Z_scope.

Definition i32_min : Z := -2147483648.

(* encoder 614-627; `next_sign_ind & i32::MIN == 0` holds for the values 0 and 1 and not for the sentinel i32::MIN *)
Definition enc_push_sign (v sign index : Z) : Z * Z :=
  let index' := if (0 <=? sign) && negb (v =? 0) then 2 * index + sign else index in
  let sign' := if v <? 0 then 1 else if 0 <? v then 0 else sign in
  (index', sign').

(* table access MPVQ_OFFSETS[n][k] *)
Definition offset (n k : Z) : res Z :=
  row <- idx MPVQ_OFFSETS n ;;
  idx row k.

(* encoder 585-612. `vs` holds the components still to visit, in the order of the visit (last position first).
   k_val_acc is i8: reaching 128 is treated as a panic; the components fit in i8 in every call, so `as i8` is the identity. *)
Fixpoint enum_loop (vs : list Z) (index sign k n h : Z) : res (Z * Z) :=
  match vs with
  | [] => Ok (index, sign)
  | v :: rest =>
      let '(index, sign) := enc_push_sign v sign index in
      let index := index + h in
      let k := k + Z.abs v in
      if 127 <? k then Panic
      else
        let n := match rest with [] => n | _ => n + 1 end in
        h <- (if 11 <=? k then offset (n + 1) (k mod 11) else offset n k) ;;
        enum_loop rest index sign k n h
  end.

(* result: index, leading sign; `dim` components are read from the front of vec *)
Definition mvpq_enum (dim : Z) (vec : list Z) : res (Z * Z) :=
  vs <- (if len vec <? dim then Panic else Ok (firstn (Z.to_nat dim) vec)) ;;
  h <- offset 0 0 ;;
  enum_loop (rev vs) 0 i32_min 0 0 h.

(* decoder 229-235 *)
Definition mind2vec_one (k sign : Z) : Z := if sign <? 0 then - k else k.

(* decoder 172-191: the first k_acc, going down, with ind >= row[k_acc]; and ind - row[k_acc] *)
Fixpoint find_kacc (fuel : nat) (row : list Z) (ind k_acc : Z) : res (Z * Z) :=
  o <- idx row k_acc ;;
  if ind <? o then
    match fuel with
    | O => Panic
    | S f => k <- usub k_acc 1 ;; find_kacc f row ind k
    end
  else Ok (k_acc, ind - o).

(* decoder 155-227; dim = length of the result, `n` positions left *)
Fixpoint deenum_loop (n : nat) (kmax sign ind : Z) : res (list Z) :=
  match n with
  | O => Ok []
  | S m =>
      row <- idx MPVQ_OFFSETS (Z.of_nat m) ;;
      if ind =? 0 then Ok (mind2vec_one kmax sign :: repeat 0 m)
      else
        '(kacc, ind) <- find_kacc (Z.to_nat kmax) row ind kmax ;;
        kd <- usub kmax kacc ;;
        if kd =? 0 then
          rest <- deenum_loop m kmax sign ind ;;
          Ok (0 :: rest)
        else
          k' <- usub kmax kd ;;
          rest <- deenum_loop m k' (if Z.odd ind then -1 else 1) (Z.shiftr ind 1) ;;
          Ok (mind2vec_one kd sign :: rest)
  end.

Definition mpvq_deenum (dim k ls_ind ind : Z) : res (list Z) :=
  deenum_loop (Z.to_nat dim) k (if ls_ind =? 0 then 1 else -1) ind.
