(* /repo/src/decoder/lc3_decoder.rs:165-177 *)
From Coq Require Import ZArith List Bool.
From Verif Require Import Base Config Reader SideInfo ArithDec.
Import ListNotations.
Local Open Scope Z_scope.

(* a parsed frame: side info, arithmetic data and the integer spectrum (array of MAX_LEN_SPECTRAL lines) *)
Record frame : Set := mkFrame { f_side : side_info; f_arith : arith_data; f_spec : list Z }.

Definition read_frame (chk : bool) (cfg : config) (buf : list Z) : res frame :=
  '(si, r) <- read_side_info buf reader_new (fs_ind cfg) (ne cfg) ;;
  '(ad, x, _) <- decode_arith chk buf r (fs_ind cfg) (ne cfg) si (n_ms cfg) ;;
  Ok (mkFrame si ad x).
