(* The example programs: a file of frames into a WAV file (examples/decode.rs:36-124) and back (examples/encode.rs:36-120).
   Simplified: reading and creating files cannot fail here, logging is left out, and the interleaving loops (decode.rs:114-118,
   encode.rs:97-103), which write each place of a buffer of num_channels * nf samples once, are given by the resulting list. *)
From Coq Require Import ZArith List Bool Lia.
From Verif Require Import Base Config SideInfo Buffers Loops Scalar EncScalar DecSignal Decoder Encoder Wav.
Import ListNotations.
Local Open Scope Z_scope.

Section DecodeFile.
Context {F : Type} (o : ops F) (t : target).
(* decoder, samples_out_by_channel, in_cursor *)
Record dstate : Type := mkDstate { ds_dec : decoder F; ds_by_channel : list (list Z); ds_cursor : Z }.
(* how the channel loop ends: it runs through, the function returns Ok(()), or it returns MainError::Lc3Decoder(in_cursor, e) *)
Inductive dstep : Type := Through (s : dstate) | Return | Fail (at_ : Z) (e : err).

(* decode.rs:93-112, from channel ch on, `k` channels to go *)
Fixpoint channel_loop (bits per_channel : Z) (file : list Z) (k : nat) (ch : Z) (s : dstate) : res dstep :=
  match k with
  | O => Ok (Through s)
  | S k =>
      if len file <=? ds_cursor s then Ok Return else
      let to := ds_cursor s + per_channel in
      if len file <=? to then Ok Return else
      buf <- sub file (ds_cursor s) to ;;
      out <- idx (ds_by_channel s) ch ;;
      '(r, d, out) <- decode_frame o t (ds_dec s) bits ch buf out ;;
      match r with
      | Some e => Ok (Fail (ds_cursor s) e)
      | None => outs <- put (ds_by_channel s) ch out ;; channel_loop bits per_channel file k (ch + 1) (mkDstate d outs to)
      end
  end.
(* decode.rs:114-118 *)
Definition interleave (num nf : Z) (outs : list (list Z)) : list Z :=
  map (fun j => getz 0 (getz [] outs (Z.of_nat j mod num)) (Z.of_nat j / num)) (seq 0 (Z.to_nat (num * nf))).
(* decode.rs:85-123; the samples written so far are `done`; `fuel` bounds the rounds of `loop`, None when it runs out *)
Fixpoint decode_loop (bits num nf per_channel : Z) (file : list Z) (fuel : nat) (s : dstate) (done : list Z) : res (option (list Z * option (Z * err))) :=
  match fuel with
  | O => Ok None
  | S fuel =>
      r <- channel_loop bits per_channel file (Z.to_nat num) 0 s ;;
      match r with
      | Return => Ok (Some (done, None))
      | Fail p e => Ok (Some (done, Some (p, e)))
      | Through s =>
          let x := interleave num nf (ds_by_channel s) in
          (* byteorder's write_i16_into asserts the lengths (decode.rs:82, 120) *)
          _ <- assert (num * nf * bits / 8 =? 2 * len x) ;;
          decode_loop bits num nf per_channel file fuel s (done ++ x)
      end
  end.
(* a 16-bit sample in two bytes, low byte first (decode.rs:120) *)
Definition le16 (v : Z) : list Z := [v mod 256; v / 256 mod 256].
(* decode.rs:66-77 *)
Definition file_header (c : config) (num : Z) : wav := mkWav num (fs c) (fs c * num * 16 / 8) 4 16 0 44 36.
(* decode.rs:36-124: the contents of the WAV file and the error returned, if any *)
Definition decode_file (f : freq) (d : duration) (bits num per_channel : Z) (file : list Z) (fuel : nat) : res (option (list Z * option (Z * err))) :=
  '(ns, nx) <- dec_lens num d f ;;
  dec <- decoder_new o num d f (repeat (fz o 0) (Z.to_nat ns)) (repeat (fz o 0, fz o 0) (Z.to_nat nx)) ;;
  let c := config_new f d in
  h <- write_header (file_header c num) (repeat 0 256) ;;
  match h with
  | inl _ => Panic (* not reached: the buffer has 256 bytes *)
  | inr (n, hb) =>
      head <- sub hb 0 n ;;
      r <- decode_loop bits num (nf c) per_channel file fuel (mkDstate dec (repeat (repeat 0 (Z.to_nat (nf c))) (Z.to_nat num)) 0) [] ;;
      match r with None => Ok None | Some (x, e) => Ok (Some (head ++ flat_map le16 x, e)) end
  end.
End DecodeFile.
Arguments mkDstate {F}. Arguments Through {F}. Arguments Return {F}. Arguments Fail {F}. Arguments ds_dec {F}. Arguments ds_by_channel {F}. Arguments ds_cursor {F}.

Section EncodeFile.
Context {F : Type} (o : ops F) (e : eops F) (t : target).
(* LittleEndian::read_i16_into *)
Definition i16_of (a b : Z) : Z := let v := a + 256 * b in if 32768 <=? v then v - 65536 else v.
Fixpoint read_i16 (l : list Z) : list Z := match l with a :: b :: l => i16_of a b :: read_i16 l | _ => [] end.
(* encode.rs:81-94: the next samples, as many as there are, and zeros; byteorder asserts that the lengths agree *)
Definition fill (bytes_per_frame : Z) (file : list Z) (cursor : Z) (temp : list Z) : res (list Z) :=
  let m := Z.min (len file - cursor) bytes_per_frame in
  src <- sub file cursor (cursor + m) ;;
  dst <- sub temp 0 (m / 2) ;;
  _ <- assert (len src =? 2 * len dst) ;;
  let temp := read_i16 src ++ skipn (Z.to_nat (m / 2)) temp in
  Ok (if m <? bytes_per_frame then firstn (Z.to_nat (m / 2)) temp ++ repeat 0 (length temp - Z.to_nat (m / 2)) else temp).
(* encode.rs:97-103 *)
Definition deinterleave (num nf : Z) (temp : list Z) : list Z :=
  map (fun j => getz 0 temp (Z.of_nat j mod nf * num + Z.of_nat j / nf)) (seq 0 (Z.to_nat (num * nf))).
(* encode.rs:105-115: the bytes written, the encoder, buf_out *)
Fixpoint encode_channels (nf : Z) (samples : list Z) (k : nat) (ch : Z) (en : encoder F) (buf : list Z) : res (list Z * encoder F * list Z) :=
  match k with
  | O => Ok ([], en, buf)
  | S k => x <- sub samples (ch * nf) (ch * nf + nf) ;;
           '(en, buf) <- encode_call o e t en ch x buf ;;
           '(w, en, last) <- encode_channels nf samples k (ch + 1) en buf ;;
           Ok (buf ++ w, en, last)
  end.
(* encode.rs:73-116, `k` rounds to go *)
Fixpoint encode_rounds (num nf bytes_per_frame : Z) (file : list Z) (k : nat) (cursor : Z) (temp : list Z) (en : encoder F) (buf : list Z) : res (list Z) :=
  match k with
  | O => Ok []
  | S k => temp <- fill bytes_per_frame file cursor temp ;;
           '(w, en, buf) <- encode_channels nf (deinterleave num nf temp) (Z.to_nat num) 0 en buf ;;
           w' <- encode_rounds num nf bytes_per_frame file k (cursor + bytes_per_frame) temp en buf ;;
           Ok (w ++ w')
  end.
(* encode.rs:36-120: the error of the header, or the contents of the file of frames *)
Definition encode_file (f : freq) (d : duration) (bits num per_channel : Z) (file : list Z) : res (werr + list Z) :=
  h <- read_header file ;;
  match h with
  | inl er => Ok (inl er)
  | inr h =>
      '(ni, ns, nx) <- enc_lens num d f ;;
      let c := config_new f d in
      let bytes_per_frame := nf c * num * bits / 8 in
      en <- encoder_new o num d f (repeat 0 (Z.to_nat ni)) (repeat (fz o 0) (Z.to_nat ns)) (repeat (fz o 0, fz o 0) (Z.to_nat nx)) ;;
      (* `step_by(0)` panics *)
      _ <- assert (0 <? bytes_per_frame) ;;
      let rounds := (len file - w_start h + bytes_per_frame - 1) / bytes_per_frame in
      w <- encode_rounds num (nf c) bytes_per_frame file (Z.to_nat rounds) (w_start h) (repeat 0 (Z.to_nat (nf c * num))) en (repeat 0 (Z.to_nat per_channel)) ;;
      Ok (inr w)
  end.
End EncodeFile.
