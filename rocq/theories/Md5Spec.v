(** The digest of RFC 1321. *)
From Verif Require Import Base RectModel CopyModel.
Open Scope Z_scope.

(** the series of sine, [terms] terms: sin x = x * (p / q) *)
Fixpoint sin_series (terms : nat) (k x : Z) : Z * Z :=
  match terms with
  | O => (1, 1)
  | S n => let '(p, q) := sin_series n (k + 1) x in let m := (2 * k + 2) * (2 * k + 3) in (q * m - x * x * p, q * m)
  end.
(** T[i]: the integer part of 2^32 * abs (sin i), section 3.4 *)
Definition sine (i : nat) : Z := let '(p, q) := sin_series 110 0 (Z.of_nat i) in (2 ^ 32 * Z.abs (Z.of_nat i * p)) / q.

(** words, section 2 and 3.4 *)
Definition not32 (x : Z) : Z := 2 ^ 32 - 1 - x.
Definition rF (x y z : Z) : Z := Z.lor (Z.land x y) (Z.land (not32 x) z).
Definition rG (x y z : Z) : Z := Z.lor (Z.land x z) (Z.land y (not32 z)).
Definition rH (x y z : Z) : Z := Z.lxor (Z.lxor x y) z.
Definition rI (x y z : Z) : Z := Z.lxor y (Z.lor x (not32 z)).
Definition rotl (x s : Z) : Z := (x * 2 ^ s) mod 2 ^ 32 + x / 2 ^ (32 - s).
(** step [i] of 64: function, word of the block, amount of the rotation *)
Definition round_fn (i : nat) : Z -> Z -> Z -> Z := nth (i / 16) [rF; rG; rH] rI.
Definition round_k (i : nat) : nat := nth (i / 16) [i; 5 * i + 1; 3 * i + 5]%nat (7 * i)%nat mod 16.
Definition round_s (i : nat) : Z := nth (i mod 4) (nth (i / 16) [[7; 12; 17; 22]; [5; 9; 14; 20]; [4; 11; 16; 23]] [6; 10; 15; 21]) 0.
Definition add32 (x y : Z) : Z := (x + y) mod 2 ^ 32.
Definition words : Type := Z * Z * Z * Z.
Definition round (X : list Z) (s : words) (i : nat) : words :=
  let '(a, b, c, d) := s in (d, add32 b (rotl (add32 a (add32 (round_fn i b c d) (add32 (nth (round_k i) X 0) (sine (i + 1))))) (round_s i)), b, c).
Definition block_words (m : bytes) : list Z := map (fun n => unle (firstn 4 (skipn (4 * n) m))) (seq 0 16).
Definition compress (s : words) (m : bytes) : words :=
  let '(a, b, c, d) := s in let '(a', b', c', d') := fold_left (round (block_words m)) (seq 0 64) s in (add32 a a', add32 b b', add32 c c', add32 d d').
Definition start : words := (0x67452301, 0xefcdab89, 0x98badcfe, 0x10325476).
(** 64 bytes at a time *)
Fixpoint compress_all (n : nat) (s : words) (m : bytes) : words :=
  match n with O => s | S n => compress_all n (compress s (firstn 64 m)) (skipn 64 m) end.
(** sections 3.1 and 3.2 *)
Definition padded (m : bytes) : bytes :=
  m ++ [128] ++ repeat 0 (Z.to_nat ((55 - Z.of_nat (length m)) mod 64)) ++ le 8 (8 * Z.of_nat (length m)).
Definition md5 (m : bytes) : bytes :=
  let p := padded m in let '(a, b, c, d) := compress_all (length p / 64) start p in le 4 a ++ le 4 b ++ le 4 c ++ le 4 d.
(** data whose length is below 4 GiB *)
Definition piece_ok (b : bytes) : Prop := Forall is_byte b /\ Z.of_nat (length b) < 2 ^ 32.
(** the pixels of a bitmap, line by line *)
Definition row (b : bmp) (y : nat) : bytes := concat (map (fun x => pix b (Z.of_nat x) (Z.of_nat y)) (seq 0 (Z.to_nat (bw b)))).
Definition rows (b : bmp) : bytes := concat (map (row b) (seq 0 (Z.to_nat (bh b)))).
