(* Drivers: a whole symbol sequence through the encoder's and the decoder's arithmetic coder.
   The probability model may depend on the symbols coded so far (adaptive contexts), as in
   /repo/src/encoder/bitstream_encoding.rs:224-326 and /repo/src/decoder/arithmetic_codec.rs:211-344. *)
From Coq Require Import ZArith List Bool.
From Verif Require Import Base Writer Reader AcEnc AcDec AcSpec.
Import ListNotations.
Local Open Scope Z_scope.

Section Stream.
  Variable ctx : list Z -> model.

  (* as bitstream_encoding.rs:234-241: look up both tables, then encode *)
  Fixpoint enc_stream (hist syms : list Z) (st : acenc) (o : out) : res (acenc * out) :=
    match syms with
    | [] => Ok (st, o)
    | y :: ys =>
        c <- idx (fst (ctx hist)) y ;;
        f <- idx (snd (ctx hist)) y ;;
        '(st, o) <- ac_encode st o c f ;;
        enc_stream (hist ++ [y]) ys st o
    end.

  (* frame of L bytes holding nothing but the coded symbols (init: bitstream_encoding.rs:138-144) *)
  Definition enc_all (L : Z) (syms : list Z) : res (list Z) :=
    w <- writer_new L ;;
    '(st, o) <- enc_stream [] syms ac_enc_init (w, repeat 0 (Z.to_nat L)) ;;
    o <- ac_enc_finish st o ;;
    Ok (snd o).

  Fixpoint dec_stream (buf : list Z) (hist : list Z) (n : nat) (r : reader) (st : acdec) : res (list Z) :=
    match n with
    | O => Ok []
    | S n' =>
        '(y, st, r) <- ac_decode buf r st (fst (ctx hist)) (snd (ctx hist)) ;;
        ys <- dec_stream buf (hist ++ [y]) n' r st ;;
        Ok (y :: ys)
    end.

  Definition dec_all (buf : list Z) (n : nat) : res (list Z) :=
    '(st, r) <- ac_dec_init buf reader_new ;;
    dec_stream buf [] n r st.

  (* specification side: the intervals of the symbols *)
  Fixpoint stream_syms (hist syms : list Z) : list sym :=
    match syms with
    | [] => []
    | y :: ys => msym (ctx hist) y :: stream_syms (hist ++ [y]) ys
    end.

  (* every symbol exists in its model *)
  Fixpoint stream_ok (hist syms : list Z) : Prop :=
    match syms with
    | [] => True
    | y :: ys => 0 <= y < msize (ctx hist) /\ stream_ok (hist ++ [y]) ys
    end.

  Definition stream_bits (syms : list Z) : Z := ari_bits (irun ival0 (stream_syms [] syms)).
End Stream.
