(* Reading and writing of WAV headers: /repo/src/common/wav.rs *)
From Coq Require Import ZArith List Bool.
From Verif Require Import Base Loops.
Import ListNotations.
Local Open Scope Z_scope.

(* wav.rs:9-18; write errors and read errors *)
Inductive werr := WriteHeaderBufferTooSmall | ReadHeaderInvalidHeaderLength | ReadHeaderChunkIdNotRIFF | ReadHeaderFormatNotWAVE | ReadHeaderSubChunk1IdNotFmt
  | ReadHeaderInvalidPcmHeaderLength | ReadHeaderAudioFormatNotPcm | ReadHeaderMissingDataSection.
(* wav.rs:27-43 *)
Record wav := mkWav { w_channels : Z; w_rate : Z; w_byte_rate : Z; w_align : Z; w_bits : Z; w_data : Z; w_start : Z; w_file : Z }.

(* byteorder's LittleEndian; `as u16` and `as u32` keep the low bits *)
Definition put_u16 (buf : list Z) (p v : Z) : res (list Z) := let v := v mod 2 ^ 16 in blit buf p (p + 2) [v mod 256; v / 256].
Definition put_u32 (buf : list Z) (p v : Z) : res (list Z) := let v := v mod 2 ^ 32 in blit buf p (p + 4) [v mod 256; v / 2 ^ 8 mod 256; v / 2 ^ 16 mod 256; v / 2 ^ 24].
Definition get_u16 (buf : list Z) (p : Z) : res Z := s <- sub buf p (p + 2) ;; a <- idx s 0 ;; b <- idx s 1 ;; Ok (a + 2 ^ 8 * b).
Definition get_u32 (buf : list Z) (p : Z) : res Z := s <- sub buf p (p + 4) ;; a <- idx s 0 ;; b <- idx s 1 ;; c <- idx s 2 ;; d <- idx s 3 ;; Ok (a + 2 ^ 8 * b + 2 ^ 16 * c + 2 ^ 24 * d).

Definition RIFF := [82; 73; 70; 70].
Definition WAVE := [87; 65; 86; 69].
Definition FMT := [102; 109; 116; 32].
Definition DATA := [100; 97; 116; 97].
Definition LIST := [76; 73; 83; 84].

(* wav.rs:45-65 *)
Definition write_header (h : wav) (buf : list Z) : res (werr + Z * list Z) :=
  if len buf <? 44 then Ok (inl WriteHeaderBufferTooSmall) else
  buf <- blit buf 0 4 RIFF ;;
  buf <- put_u32 buf 4 (w_file h) ;;
  buf <- blit buf 8 12 WAVE ;;
  buf <- blit buf 12 16 FMT ;;
  buf <- put_u32 buf 16 16 ;;
  buf <- put_u16 buf 20 1 ;;
  buf <- put_u16 buf 22 (w_channels h) ;;
  buf <- put_u32 buf 24 (w_rate h) ;;
  buf <- put_u32 buf 28 (w_byte_rate h) ;;
  buf <- put_u16 buf 32 (w_align h) ;;
  buf <- put_u16 buf 34 (w_bits h) ;;
  buf <- blit buf 36 40 DATA ;;
  buf <- put_u32 buf 40 (w_data h) ;;
  Ok (inr (44, buf)).

(* `str::from_utf8(s) == tag` for an ASCII tag is equality of the bytes; a failing from_utf8 gives the same error as a mismatch *)
Fixpoint same (a b : list Z) : bool := match a, b with [], [] => true | x :: a, y :: b => (x =? y) && same a b | _, _ => false end.
(* wav.rs:67-121 *)
Definition read_header (buf : list Z) : res (werr + wav) :=
  if len buf <? 44 then Ok (inl ReadHeaderInvalidHeaderLength) else
  s <- sub buf 0 4 ;; if negb (same s RIFF) then Ok (inl ReadHeaderChunkIdNotRIFF) else
  s <- sub buf 8 12 ;; if negb (same s WAVE) then Ok (inl ReadHeaderFormatNotWAVE) else
  s <- sub buf 12 16 ;; if negb (same s FMT) then Ok (inl ReadHeaderSubChunk1IdNotFmt) else
  n <- get_u32 buf 16 ;; if negb (n =? 16) then Ok (inl ReadHeaderInvalidPcmHeaderLength) else
  n <- get_u16 buf 20 ;; if negb (n =? 1) then Ok (inl ReadHeaderAudioFormatNotPcm) else
  file <- get_u32 buf 4 ;;
  ch <- get_u16 buf 22 ;;
  rate <- get_u32 buf 24 ;;
  brate <- get_u32 buf 28 ;;
  align <- get_u16 buf 32 ;;
  bits <- get_u16 buf 34 ;;
  s <- sub buf 36 40 ;;
  if same s DATA then d <- get_u32 buf 40 ;; Ok (inr (mkWav ch rate brate align bits d 44 file)) else
  if same s LIST then d <- get_u32 buf 40 ;; Ok (inr (mkWav ch rate brate align bits d 48 file)) else
  Ok (inl ReadHeaderMissingDataSection).
