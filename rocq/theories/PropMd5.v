(** C82: the MD5 digest of data and of bitmaps *)
From Coq Require Import String Ascii.
From Verif Require Import Base RectModel CopyModel Md5Model Md5Spec Md5Proofs.
Open Scope Z_scope.

(** C82.  Buffers of 4 GiB and more: memory behind the buffer is read, ... *)
Theorem C82_read_beyond_refuted : forall input block data, 2 ^ 32 <= Z.of_nat (length data) < 2 ^ 64 -> Z.of_nat (length data) mod 2 ^ 32 < 64 -> md5_hash input block data = UB.
Proof. exact hash_large_ub. Qed.
Print Assumptions C82_read_beyond_refuted.

(** ... or the digest depends on the first bytes only, as many as the lower half of the size says. *)
Theorem C82_ignored_data_refuted : forall input block data data', length data = length data' -> Z.of_nat (length data) < 2 ^ 64 -> 64 <= Z.of_nat (length data) mod 2 ^ 32 ->
  firstn (Z.to_nat (Z.of_nat (length data) mod 2 ^ 32)) data = firstn (Z.to_nat (Z.of_nat (length data) mod 2 ^ 32)) data' -> md5_hash input block data = md5_hash input block data'.
Proof. exact hash_large_prefix. Qed.
Print Assumptions C82_ignored_data_refuted.

(** Otherwise it is the digest of RFC 1321, whatever was in memory before, ... *)
Theorem C82_digest_partial : forall input block data, length input = 64%nat -> length block = 16%nat -> Forall is_byte data -> Z.of_nat (length data) < 2 ^ 32 -> md5_hash input block data = Ok (md5 data).
Proof. exact md5_hash_ok. Qed.
Print Assumptions C82_digest_partial.

(** ... however the data is split, and of any total length, ... *)
Theorem C82_pieces_partial : forall input block l, length input = 64%nat -> length block = 16%nat -> Forall piece_ok l -> md5_of_pieces input block l = Ok (md5 (concat l)).
Proof. exact md5_pieces. Qed.
Print Assumptions C82_pieces_partial.

(** ... and for bitmaps that of the pixels, whatever the padding of the lines. *)
Theorem C82_bitmap_partial : forall input block b, length input = 64%nat -> length block = 16%nat -> bmp_wf b -> (forall a, is_byte (bdata b a)) -> bw b * bbpp b < 2 ^ 32 ->
  md5_bitmap input block b = Ok (md5 (rows b)).
Proof. exact md5_bitmap_ok. Qed.
Print Assumptions C82_bitmap_partial.

(** the test suite of RFC 1321 (appendix A.5) *)
Definition text (s : string) : bytes := List.map (fun c => Z.of_N (N_of_ascii c)) (list_ascii_of_string s).
Example C82_example :
  md5 (text "") = [212; 29; 140; 217; 143; 0; 178; 4; 233; 128; 9; 152; 236; 248; 66; 126] /\
  md5_hash (repeat 1 64) (repeat 2 16) (text "message digest") = Ok [249; 107; 105; 125; 124; 183; 147; 141; 82; 90; 47; 49; 170; 241; 97; 208] /\
  md5_of_pieces (repeat 1 64) (repeat 2 16) [text "1234567890123456789012345678901234567890"; []; text "123456789012345678901234567890"; text "1234567890"] =
    Ok [87; 237; 244; 162; 43; 227; 201; 85; 172; 73; 218; 46; 33; 7; 182; 122] /\
  md5_bitmap (repeat 1 64) (repeat 2 16) (mkBmp 2 2 5 1 7 (fun a => nth (Z.to_nat a) [97; 98; 9; 9; 9; 99; 100] 0)) = Ok [226; 252; 113; 76; 71; 39; 238; 147; 149; 243; 36; 205; 46; 127; 51; 31].
Proof. split; [vm_cast_no_check (@eq_refl bytes [212; 29; 140; 217; 143; 0; 178; 4; 233; 128; 9; 152; 236; 248; 66; 126])|]. split; [|split]; vm_compute; reflexivity. Qed.
