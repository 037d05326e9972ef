(* C50: the WAV header functions. *)
From Coq Require Import ZArith Lia List Bool.
From Verif Require Import Base Loops Wav.
Import ListNotations.
Local Open Scope Z_scope.

(* ---- the format, as a list of bytes ---- *)
Fixpoint le (n : nat) (v : Z) : list Z := match n with O => [] | S n => v mod 256 :: le n (v / 256) end.
Definition header_bytes (tag : list Z) (h : wav) : list Z :=
  RIFF ++ le 4 (w_file h) ++ WAVE ++ FMT ++ le 4 16 ++ le 2 1 ++ le 2 (w_channels h) ++ le 4 (w_rate h) ++ le 4 (w_byte_rate h) ++ le 2 (w_align h) ++ le 2 (w_bits h) ++ tag ++ le 4 (w_data h).
Definition u16 v := 0 <= v < 2 ^ 16.
Definition u32 v := 0 <= v < 2 ^ 32.
Definition fields_ok (h : wav) : Prop := u16 (w_channels h) /\ u32 (w_rate h) /\ u32 (w_byte_rate h) /\ u16 (w_align h) /\ u16 (w_bits h) /\ u32 (w_data h) /\ u32 (w_file h).

Lemma blit_cut {A} (l : list A) p q src : 0 <= p <= q -> q <= len l -> len src = q - p -> blit l p q src = Ok (firstn (Z.to_nat p) l ++ src ++ skipn (Z.to_nat q) l).
Proof.
  intros H1 H2 H3. unfold blit. destruct (Z.ltb_spec p 0); [lia|]. destruct (Z.ltb_spec q p); [lia|]. destruct (Z.ltb_spec (len l) q); [lia|]. destruct (Z.eqb_spec (len src) (q - p)); [reflexivity|lia].
Qed.
Lemma sub_cut {A} (l : list A) p q : 0 <= p <= q -> q <= len l -> sub l p q = Ok (firstn (Z.to_nat (q - p)) (skipn (Z.to_nat p) l)).
Proof. intros H1 H2. unfold sub. destruct (Z.ltb_spec p 0); [lia|]. destruct (Z.ltb_spec q p); [lia|]. destruct (Z.ltb_spec (len l) q); [lia|]. reflexivity. Qed.
Lemma cut44 (buf : list Z) : 44 <= len buf -> exists b0 b1 b2 b3 b4 b5 b6 b7 b8 b9 b10 b11 b12 b13 b14 b15 b16 b17 b18 b19 b20 b21 b22 b23 b24 b25 b26 b27 b28 b29 b30 b31 b32 b33 b34 b35 b36 b37 b38 b39 b40 b41 b42 b43 rest,
  buf = [b0; b1; b2; b3; b4; b5; b6; b7; b8; b9; b10; b11; b12; b13; b14; b15; b16; b17; b18; b19; b20; b21; b22; b23; b24; b25; b26; b27; b28; b29; b30; b31; b32; b33; b34; b35; b36; b37; b38; b39; b40; b41; b42; b43] ++ rest.
Proof.
  intros H. assert (K : (44 <= length buf)%nat) by (unfold len in H; lia). clear H. do 44 (destruct buf as [|? buf]; [exfalso; cbn [length] in K; lia|]). repeat eexists.
Qed.
Lemma len44 (a rest : list Z) : length a = 44%nat -> 44 <= len (a ++ rest).
Proof. unfold len. rewrite app_length. lia. Qed.
Lemma u16_bytes v : [v mod 2 ^ 16 mod 256; v mod 2 ^ 16 / 256] = le 2 v.
Proof. unfold le. f_equal; [|f_equal]; Z.div_mod_to_equations; lia. Qed.
Lemma u32_bytes v : [v mod 2 ^ 32 mod 256; v mod 2 ^ 32 / 2 ^ 8 mod 256; v mod 2 ^ 32 / 2 ^ 16 mod 256; v mod 2 ^ 32 / 2 ^ 24] = le 4 v.
Proof. unfold le. rewrite !Z.div_div by lia. repeat (f_equal; [Z.div_mod_to_equations; lia|]). f_equal. Z.div_mod_to_equations; lia. Qed.

Ltac long := clear; unfold len; cbn [length]; lia.
Ltac flat := repeat match goal with |- context [Z.to_nat ?z] => let n := eval compute in (Z.to_nat z) in change (Z.to_nat z) with n end; cbn [firstn skipn app nth].

Theorem C50_write_header h buf : write_header h buf =
  if len buf <? 44 then Ok (inl WriteHeaderBufferTooSmall) else Ok (inr (44, header_bytes DATA h ++ skipn 44 buf)).
Proof.
  unfold write_header. destruct (Z.ltb_spec (len buf) 44) as [H|H]; [reflexivity|]. destruct (cut44 buf H) as (b0 & b1 & b2 & b3 & b4 & b5 & b6 & b7 & b8 & b9 & b10 & b11 & b12 & b13 & b14 & b15 & b16 & b17 & b18 & b19 & b20 & b21 & b22 & b23 & b24 & b25 & b26 & b27 & b28 & b29 & b30 & b31 & b32 & b33 & b34 & b35 & b36 & b37 & b38 & b39 & b40 & b41 & b42 & b43 & rest & ->).
  clear H. unfold put_u16, put_u32. rewrite !u16_bytes, !u32_bytes. unfold RIFF, WAVE, FMT, DATA. cbn [le app].
  repeat (rewrite blit_cut; [|lia|long|reflexivity]; cbn [bind]; flat). reflexivity.
Qed.
Print Assumptions C50_write_header.

Definition u16_at (l : list Z) p := nth p l 0 + 2 ^ 8 * nth (S p) l 0.
Definition u32_at (l : list Z) p := nth p l 0 + 2 ^ 8 * nth (S p) l 0 + 2 ^ 16 * nth (S (S p)) l 0 + 2 ^ 24 * nth (S (S (S p))) l 0.
Lemma get_u16_at l p : 0 <= p -> p + 2 <= len l -> get_u16 l p = Ok (u16_at l (Z.to_nat p)).
Proof.
  intros H1 H2. unfold get_u16. destruct (sub_ok l p (p + 2) ltac:(lia) H2) as (s & E & L & G). rewrite E. cbn [bind]. rewrite !(idx_get 0) by lia. cbn [bind]. rewrite !G by lia. unfold getz, u16_at.
  rewrite Z.add_0_r. replace (Z.to_nat (p + 1)) with (S (Z.to_nat p)) by lia. reflexivity.
Qed.
Lemma get_u32_at l p : 0 <= p -> p + 4 <= len l -> get_u32 l p = Ok (u32_at l (Z.to_nat p)).
Proof.
  intros H1 H2. unfold get_u32. destruct (sub_ok l p (p + 4) ltac:(lia) H2) as (s & E & L & G). rewrite E. cbn [bind]. rewrite !(idx_get 0) by lia. cbn [bind]. rewrite !G by lia. unfold getz, u32_at.
  rewrite Z.add_0_r. replace (Z.to_nat (p + 1)) with (S (Z.to_nat p)) by lia. replace (Z.to_nat (p + 2)) with (S (S (Z.to_nat p))) by lia. replace (Z.to_nat (p + 3)) with (S (S (S (Z.to_nat p)))) by lia. reflexivity.
Qed.
(* the bytes of an accepted header are those of the record returned, under the tag "data" or "LIST" *)
Definition tag_of (start : Z) : list Z := if start =? 44 then DATA else LIST.
Lemma same_eq : forall a b, same a b = true -> a = b.
Proof. induction a as [|x a IH]; intros [|y b] H; cbn [same] in H; try discriminate H; [reflexivity|]. apply andb_true_iff in H. destruct H as [H1 H2]. f_equal; [lia|now apply IH]. Qed.
Lemma same_refl a : same a a = true.
Proof. induction a; [reflexivity|]. cbn [same]. rewrite Z.eqb_refl. assumption. Qed.
Lemma le2_at a b : is_byte a -> is_byte b -> le 2 (a + 2 ^ 8 * b) = [a; b].
Proof. unfold is_byte. intros. unfold le. f_equal; [|f_equal]; Z.div_mod_to_equations; lia. Qed.
Lemma le4_at a b c d : is_byte a -> is_byte b -> is_byte c -> is_byte d -> le 4 (a + 2 ^ 8 * b + 2 ^ 16 * c + 2 ^ 24 * d) = [a; b; c; d].
Proof. unfold is_byte. intros. unfold le. rewrite !Z.div_div by lia. repeat (f_equal; [Z.div_mod_to_equations; lia|]). f_equal. Z.div_mod_to_equations; lia. Qed.
Lemma le_u16 v : u16 v -> v mod 256 + 2 ^ 8 * (v / 256 mod 256) = v.
Proof. unfold u16. intros. Z.div_mod_to_equations; lia. Qed.
Lemma le_u32 v : u32 v -> v mod 256 + 2 ^ 8 * (v / 256 mod 256) + 2 ^ 16 * (v / 256 / 256 mod 256) + 2 ^ 24 * (v / 256 / 256 / 256 mod 256) = v.
Proof. unfold u32. intros. rewrite !Z.div_div by lia. Z.div_mod_to_equations; lia. Qed.

(* a header followed by anything is read back *)
Lemma read_spec tag st h rest : fields_ok h -> (tag = DATA /\ st = 44) \/ (tag = LIST /\ st = 48) ->
  read_header (header_bytes tag h ++ rest) = Ok (inr (mkWav (w_channels h) (w_rate h) (w_byte_rate h) (w_align h) (w_bits h) (w_data h) st (w_file h))).
Proof.
  intros (H1 & H2 & H3 & H4 & H5 & H6 & H7) HT. assert (exists t0 t1 t2 t3, tag = [t0; t1; t2; t3]) as (t0 & t1 & t2 & t3 & ET) by (destruct HT as [[-> _]|[-> _]]; repeat eexists). subst tag.
  unfold header_bytes, RIFF, WAVE, FMT. cbn [le app]. unfold read_header.
  match goal with |- context [len ?l <? 44] => destruct (Z.ltb_spec (len l) 44) as [K|_]; [exfalso; revert K; clear; unfold len; cbn [length]; lia|] end.
  repeat (first [rewrite sub_cut; [|lia|long] | rewrite get_u16_at; [|lia|long] | rewrite get_u32_at; [|lia|long]]; cbn [bind]; flat; unfold u16_at, u32_at; cbn [nth];
    try match goal with |- context [negb (?t)] => change (negb t) with false; cbv iota end).
  rewrite (le_u16 (w_channels h)), (le_u16 (w_align h)), (le_u16 (w_bits h)), (le_u32 (w_rate h)), (le_u32 (w_byte_rate h)), (le_u32 (w_data h)), (le_u32 (w_file h)) by assumption. destruct HT as [[HT ->]|[HT ->]]; rewrite HT; reflexivity.
Qed.
Theorem C50_header_round_trip h buf n buf' rest : fields_ok h -> write_header h buf = Ok (inr (n, buf')) ->
  n = 44 /\ len buf' = len buf /\ skipn 44 buf' = skipn 44 buf /\
  read_header (firstn 44 buf' ++ rest) = Ok (inr (mkWav (w_channels h) (w_rate h) (w_byte_rate h) (w_align h) (w_bits h) (w_data h) 44 (w_file h))).
Proof.
  intros HF W. rewrite C50_write_header in W. destruct (Z.ltb_spec (len buf) 44) as [H|H]; [discriminate W|]. assert (E : n = 44 /\ buf' = header_bytes DATA h ++ skipn 44 buf) by (split; congruence). clear W. destruct E as [-> ->]. split; [reflexivity|]. split.
  { unfold len in *. change (length (header_bytes DATA h ++ skipn 44 buf)) with (44 + length (skipn 44 buf))%nat. rewrite skipn_length. lia. }
  split; [reflexivity|]. change (firstn 44 (header_bytes DATA h ++ skipn 44 buf)) with (header_bytes DATA h). apply read_spec; auto.
Qed.
Print Assumptions C50_header_round_trip.

(* no byte string makes the reader panic, and an accepted one starts with the bytes of the record it returns *)
Theorem C50_read_header buf : bytes buf -> exists r, read_header buf = Ok r /\
  match r with
  | inl e => e <> WriteHeaderBufferTooSmall /\ (e = ReadHeaderInvalidHeaderLength <-> len buf < 44)
  | inr h => fields_ok h /\ ((w_start h = 44 /\ firstn 44 buf = header_bytes DATA h) \/ (w_start h = 48 /\ firstn 44 buf = header_bytes LIST h))
  end.
Proof.
  intros B. unfold read_header. destruct (Z.ltb_spec (len buf) 44) as [H|H]; [eexists; split; [reflexivity|]; split; [discriminate|]; tauto|].
  assert (R : forall e : werr, e <> WriteHeaderBufferTooSmall -> e <> ReadHeaderInvalidHeaderLength -> exists r : werr + wav, Ok (inl e) = Ok r /\
    match r with
    | inl e => e <> WriteHeaderBufferTooSmall /\ (e = ReadHeaderInvalidHeaderLength <-> len buf < 44)
    | inr h => fields_ok h /\ ((w_start h = 44 /\ firstn 44 buf = header_bytes DATA h) \/ (w_start h = 48 /\ firstn 44 buf = header_bytes LIST h))
    end).
  { intros e E1 E2. eexists. split; [reflexivity|]. split; [assumption|]. split; [intros; contradiction|lia]. }
  destruct (cut44 buf H) as (b0 & b1 & b2 & b3 & b4 & b5 & b6 & b7 & b8 & b9 & b10 & b11 & b12 & b13 & b14 & b15 & b16 & b17 & b18 & b19 & b20 & b21 & b22 & b23 & b24 & b25 & b26 & b27 & b28 & b29 & b30 & b31 & b32 & b33 & b34 & b35 & b36 & b37 & b38 & b39 & b40 & b41 & b42 & b43 & rest & E).
  assert (L : forall q, q <= 44 -> q <= len buf) by lia. rewrite E in B. cbn [app] in E, B. unfold bytes in B. repeat match goal with A : Forall is_byte (_ :: _) |- _ => let X := fresh "X" in apply Forall_inv in A as X; apply Forall_inv_tail in A end.
  repeat (first [rewrite sub_cut by (try apply L; lia) | rewrite get_u16_at by (try apply L; lia) | rewrite get_u32_at by (try apply L; lia)]; cbn [bind];
    try match goal with |- context [negb ?t] => let K := fresh "K" in destruct t eqn:K; cbn [negb]; [|apply R; discriminate] end).
  subst buf. revert K K0 K1 K2 K3. flat. unfold u16_at, u32_at. flat. intros K K0 K1 K2 K3. apply same_eq in K, K0, K1. injection K as -> -> -> ->. injection K0 as -> -> -> ->. injection K1 as -> -> -> ->.
  assert (F : forall d st, u32 d -> fields_ok (mkWav (b22 + 2 ^ 8 * b23) (b24 + 2 ^ 8 * b25 + 2 ^ 16 * b26 + 2 ^ 24 * b27) (b28 + 2 ^ 8 * b29 + 2 ^ 16 * b30 + 2 ^ 24 * b31) (b32 + 2 ^ 8 * b33) (b34 + 2 ^ 8 * b35) d st (b4 + 2 ^ 8 * b5 + 2 ^ 16 * b6 + 2 ^ 24 * b7))).
  { intros d st Hd. unfold fields_ok, u16, u32 in *. cbn [w_channels w_rate w_byte_rate w_align w_bits w_data w_file]. unfold is_byte in *. lia. }
  assert (D : u32 (b40 + 2 ^ 8 * b41 + 2 ^ 16 * b42 + 2 ^ 24 * b43)) by (unfold u32, is_byte in *; lia).
  assert (Z16 : le 4 16 = [b16; b17; b18; b19]) by (apply Z.eqb_eq in K2; rewrite <- K2; now apply le4_at). assert (Z1 : le 2 1 = [b20; b21]) by (apply Z.eqb_eq in K3; rewrite <- K3; now apply le2_at).
  assert (G : forall tag st, firstn 44 (82 :: 73 :: 70 :: 70 :: b4 :: b5 :: b6 :: b7 :: 87 :: 65 :: 86 :: 69 :: 102 :: 109 :: 116 :: 32 :: b16 :: b17 :: b18 :: b19 :: b20 :: b21 :: b22 :: b23 :: b24 :: b25 :: b26 :: b27 :: b28 :: b29 :: b30 :: b31 :: b32 :: b33 :: b34 :: b35 :: tag ++ b40 :: b41 :: b42 :: b43 :: rest) =
      firstn 44 (header_bytes tag (mkWav (b22 + 2 ^ 8 * b23) (b24 + 2 ^ 8 * b25 + 2 ^ 16 * b26 + 2 ^ 24 * b27) (b28 + 2 ^ 8 * b29 + 2 ^ 16 * b30 + 2 ^ 24 * b31) (b32 + 2 ^ 8 * b33) (b34 + 2 ^ 8 * b35) (b40 + 2 ^ 8 * b41 + 2 ^ 16 * b42 + 2 ^ 24 * b43) st (b4 + 2 ^ 8 * b5 + 2 ^ 16 * b6 + 2 ^ 24 * b7)) ++ rest)).
  { intros tag st. unfold header_bytes. cbn [w_channels w_rate w_byte_rate w_align w_bits w_data w_file]. rewrite Z16, Z1, !le4_at, !le2_at by assumption. unfold RIFF, WAVE, FMT. rewrite <- !app_assoc. reflexivity. }
  destruct (same [b36; b37; b38; b39] DATA) eqn:T.
  - apply same_eq in T. injection T as -> -> -> ->. eexists. split; [reflexivity|]. split; [now apply F|]. left. split; [reflexivity|]. exact (G DATA 44).
  - clear T. destruct (same [b36; b37; b38; b39] LIST) eqn:T; [|apply R; discriminate]. apply same_eq in T. injection T as -> -> -> ->. eexists. split; [reflexivity|]. split; [now apply F|]. right. split; [reflexivity|]. exact (G LIST 48).
Qed.
Print Assumptions C50_read_header.
(* a mono file with one second of silence, written and read *)
Definition ex_wav : wav := mkWav 1 48000 96000 2 16 96000 44 96036.
Example C50_case : fields_ok ex_wav /\ exists n buf', write_header ex_wav (repeat 255 50) = Ok (inr (n, buf')) /\ read_header buf' = Ok (inr ex_wav).
Proof. split; [unfold fields_ok, u16, u32; cbn; lia|]. eexists _, _. split; reflexivity. Qed.

(* The position and size returned are not those of the audio when the file has a LIST chunk in front of it: the chunk's own size is returned, and its first byte but four. *)
Definition list_wav : list Z := header_bytes LIST (mkWav 1 8000 16000 2 16 26 44 100) ++ [73; 78; 70; 79; 73; 83; 70; 84; 14; 0; 0; 0; 76; 97; 118; 102; 53; 55; 46; 56; 51; 46; 49; 48; 48; 0] ++ DATA ++ le 4 30 ++ repeat 7 30.
Theorem C50_list_chunk_refuted :
  exists buf h, bytes buf /\ read_header buf = Ok (inr h) /\ w_data h = 26 /\ w_start h = 48 /\
    (* the data chunk starts at byte 70: its samples are bytes 78 to 107, 30 bytes of them *)
    firstn 4 (skipn 70 buf) = DATA /\ firstn 4 (skipn 74 buf) = le 4 30 /\ len buf = 108.
Proof.
  exists list_wav. eexists. split; [|split; [vm_compute; reflexivity|repeat split; reflexivity]].
  assert (H : forallb (fun b => (0 <=? b) && (b <? 256)) list_wav = true) by (vm_compute; reflexivity). rewrite forallb_forall in H. apply Forall_forall. intros b Hb. specialize (H b Hb). unfold is_byte. lia.
Qed.
Print Assumptions C50_list_chunk_refuted.
(* Fields wider than the header's are cut silently *)
Theorem C50_wide_fields_refuted : exists h n buf' h', write_header h (repeat 0 44) = Ok (inr (n, buf')) /\ read_header buf' = Ok (inr h') /\ w_data h' <> w_data h.
Proof. exists (mkWav 2 48000 192000 4 16 4294967296 44 4294967332). eexists _, _, _. split; [reflexivity|]. split; [vm_compute; reflexivity|]. vm_compute. discriminate. Qed.
Print Assumptions C50_wide_fields_refuted.
