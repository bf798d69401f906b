(** MD5Sum.cpp l.12-237 (CMd5Sum), libCZI_Utilities.cpp l.161-174 and BitmapOperations.cpp l.17-61 (CalcMd5SumHash of a buffer
    and of a bitmap, little-endian hosts).  Words are numbers below 2^32; every access to the buffer of the caller and to the
    arrays of the context is checked. *)
From Verif Require Import Base RectModel CopyModel.
Open Scope Z_scope.

(** MD5Sum.h l.26-41 *)
Record ctx := Ctx { x_a : Z; x_b : Z; x_c : Z; x_d : Z; x_low : Z; x_high : Z; x_input : bytes; x_block : list Z }.
(** l.12-20: the arrays are not initialised *)
Definition md5_init (input : bytes) (block : list Z) : ctx := Ctx 0x67452301 0xefcdab89 0x98badcfe 0x10325476 0 0 input block.

(** l.116-120 *)
Definition mF (x y z : Z) : Z := Z.lxor z (Z.land x (Z.lxor y z)).
Definition mG (x y z : Z) : Z := Z.lxor y (Z.land z (Z.lxor x y)).
Definition mH (x y z : Z) : Z := Z.lxor (Z.lxor x y) z.
Definition mI (x y z : Z) : Z := Z.lxor y (Z.lor x (u32 (Z.lnot z))).
Definition rotate_left (x s : Z) : Z := Z.lor (u32 (Z.shiftl x s)) (Z.shiftr x (32 - s)).

Inductive fn := FF | FG | FH | FI.
Inductive reg := Ra | Rb | Rc | Rd.
Inductive word := SET (n : nat) | GET (n : nat).
Record step := St { s_f : fn; s_1 : reg; s_2 : reg; s_3 : reg; s_4 : reg; s_x : word; s_t : Z; s_s : Z }.
(** l.145-211 *)
Definition md5_steps : list step := [
    St FF Ra Rb Rc Rd (SET 0) 0xd76aa478 7; St FF Rd Ra Rb Rc (SET 1) 0xe8c7b756 12;
    St FF Rc Rd Ra Rb (SET 2) 0x242070db 17; St FF Rb Rc Rd Ra (SET 3) 0xc1bdceee 22;
    St FF Ra Rb Rc Rd (SET 4) 0xf57c0faf 7; St FF Rd Ra Rb Rc (SET 5) 0x4787c62a 12;
    St FF Rc Rd Ra Rb (SET 6) 0xa8304613 17; St FF Rb Rc Rd Ra (SET 7) 0xfd469501 22;
    St FF Ra Rb Rc Rd (SET 8) 0x698098d8 7; St FF Rd Ra Rb Rc (SET 9) 0x8b44f7af 12;
    St FF Rc Rd Ra Rb (SET 10) 0xffff5bb1 17; St FF Rb Rc Rd Ra (SET 11) 0x895cd7be 22;
    St FF Ra Rb Rc Rd (SET 12) 0x6b901122 7; St FF Rd Ra Rb Rc (SET 13) 0xfd987193 12;
    St FF Rc Rd Ra Rb (SET 14) 0xa679438e 17; St FF Rb Rc Rd Ra (SET 15) 0x49b40821 22;
    St FG Ra Rb Rc Rd (GET 1) 0xf61e2562 5; St FG Rd Ra Rb Rc (GET 6) 0xc040b340 9;
    St FG Rc Rd Ra Rb (GET 11) 0x265e5a51 14; St FG Rb Rc Rd Ra (GET 0) 0xe9b6c7aa 20;
    St FG Ra Rb Rc Rd (GET 5) 0xd62f105d 5; St FG Rd Ra Rb Rc (GET 10) 0x02441453 9;
    St FG Rc Rd Ra Rb (GET 15) 0xd8a1e681 14; St FG Rb Rc Rd Ra (GET 4) 0xe7d3fbc8 20;
    St FG Ra Rb Rc Rd (GET 9) 0x21e1cde6 5; St FG Rd Ra Rb Rc (GET 14) 0xc33707d6 9;
    St FG Rc Rd Ra Rb (GET 3) 0xf4d50d87 14; St FG Rb Rc Rd Ra (GET 8) 0x455a14ed 20;
    St FG Ra Rb Rc Rd (GET 13) 0xa9e3e905 5; St FG Rd Ra Rb Rc (GET 2) 0xfcefa3f8 9;
    St FG Rc Rd Ra Rb (GET 7) 0x676f02d9 14; St FG Rb Rc Rd Ra (GET 12) 0x8d2a4c8a 20;
    St FH Ra Rb Rc Rd (GET 5) 0xfffa3942 4; St FH Rd Ra Rb Rc (GET 8) 0x8771f681 11;
    St FH Rc Rd Ra Rb (GET 11) 0x6d9d6122 16; St FH Rb Rc Rd Ra (GET 14) 0xfde5380c 23;
    St FH Ra Rb Rc Rd (GET 1) 0xa4beea44 4; St FH Rd Ra Rb Rc (GET 4) 0x4bdecfa9 11;
    St FH Rc Rd Ra Rb (GET 7) 0xf6bb4b60 16; St FH Rb Rc Rd Ra (GET 10) 0xbebfbc70 23;
    St FH Ra Rb Rc Rd (GET 13) 0x289b7ec6 4; St FH Rd Ra Rb Rc (GET 0) 0xeaa127fa 11;
    St FH Rc Rd Ra Rb (GET 3) 0xd4ef3085 16; St FH Rb Rc Rd Ra (GET 6) 0x04881d05 23;
    St FH Ra Rb Rc Rd (GET 9) 0xd9d4d039 4; St FH Rd Ra Rb Rc (GET 12) 0xe6db99e5 11;
    St FH Rc Rd Ra Rb (GET 15) 0x1fa27cf8 16; St FH Rb Rc Rd Ra (GET 2) 0xc4ac5665 23;
    St FI Ra Rb Rc Rd (GET 0) 0xf4292244 6; St FI Rd Ra Rb Rc (GET 7) 0x432aff97 10;
    St FI Rc Rd Ra Rb (GET 14) 0xab9423a7 15; St FI Rb Rc Rd Ra (GET 5) 0xfc93a039 21;
    St FI Ra Rb Rc Rd (GET 12) 0x655b59c3 6; St FI Rd Ra Rb Rc (GET 3) 0x8f0ccc92 10;
    St FI Rc Rd Ra Rb (GET 10) 0xffeff47d 15; St FI Rb Rc Rd Ra (GET 1) 0x85845dd1 21;
    St FI Ra Rb Rc Rd (GET 8) 0x6fa87e4f 6; St FI Rd Ra Rb Rc (GET 15) 0xfe2ce6e0 10;
    St FI Rc Rd Ra Rb (GET 6) 0xa3014314 15; St FI Rb Rc Rd Ra (GET 13) 0x4e0811a1 21;
    St FI Ra Rb Rc Rd (GET 4) 0xf7537e82 6; St FI Rd Ra Rb Rc (GET 11) 0xbd3af235 10;
    St FI Rc Rd Ra Rb (GET 2) 0x2ad7d2bb 15; St FI Rb Rc Rd Ra (GET 9) 0xeb86d391 21].

Definition regs : Type := Z * Z * Z * Z.
Definition rget (r : regs) (n : reg) : Z := let '(a, b, c, d) := r in match n with Ra => a | Rb => b | Rc => c | Rd => d end.
Definition rset (r : regs) (n : reg) (v : Z) : regs := let '(a, b, c, d) := r in match n with Ra => (v, b, c, d) | Rb => (a, v, c, d) | Rc => (a, b, v, d) | Rd => (a, b, c, v) end.
Definition fn_of (f : fn) : Z -> Z -> Z -> Z := match f with FF => mF | FG => mG | FH => mH | FI => mI end.
(** l.127-131 SET; the 64 bytes at ptr *)
Definition word_at (ptr : bytes) (n : nat) : Z :=
  Z.lor (Z.lor (Z.lor (nth (n * 4) ptr 0) (Z.shiftl (nth (n * 4 + 1) ptr 0) 8)) (Z.shiftl (nth (n * 4 + 2) ptr 0) 16)) (Z.shiftl (nth (n * 4 + 3) ptr 0) 24).
Definition set_block (l : list Z) (n : nat) (v : Z) : list Z := firstn n l ++ v :: skipn (S n) l.
(** l.121-125 STEP *)
Definition do_step (ptr : bytes) (st : list Z * regs) (s : step) : list Z * regs :=
  let '(blk, r) := st in
  let '(blk, x) := match s_x s with SET n => (set_block blk n (word_at ptr n), word_at ptr n) | GET n => (blk, nth n blk 0) end in
  let a := u32 (rget r (s_1 s) + (fn_of (s_f s) (rget r (s_2 s)) (rget r (s_3 s)) (rget r (s_4 s)) + x + s_t s)) in
  let a := rotate_left a (s_s s) in
  (blk, rset r (s_1 s) (u32 (a + rget r (s_2 s)))).
(** l.138-220, one round of the loop *)
Definition md5_block (x : ctx) (ptr : bytes) : ctx :=
  let '(blk, (a, b, c, d)) := fold_left (do_step ptr) md5_steps (x_block x, (x_a x, x_b x, x_c x, x_d x)) in
  Ctx (u32 (a + x_a x)) (u32 (b + x_b x)) (u32 (c + x_c x)) (u32 (d + x_d x)) (x_low x) (x_high x) (x_input x) blk.
(** l.111-237: [data] is what is left of the buffer from ptr on; the bytes not consumed are returned *)
Fixpoint md5_transform (fuel : nat) (x : ctx) (data : bytes) (size : Z) : res (ctx * bytes) :=
  match fuel with
  | O => OutOfFuel
  | S fuel =>
      if (length data <? 64)%nat then UB
      else
        let x := md5_block x (firstn 64 data) in
        let size := u64 (size - 64) in
        if size =? 0 then Ok (x, skipn 64 data) else md5_transform fuel x (skipn 64 data) size
  end.
Definition transform (x : ctx) (data : bytes) (size : Z) : res (ctx * bytes) := md5_transform (S (length data)) x data size.

Definition with_input (x : ctx) (i : bytes) : ctx := Ctx (x_a x) (x_b x) (x_c x) (x_d x) (x_low x) (x_high x) i (x_block x).
Definition with_count (x : ctx) (low high : Z) : ctx := Ctx (x_a x) (x_b x) (x_c x) (x_d x) low high (x_input x) (x_block x).
(** memcpy(&input[pos], v, ...) *)
Definition store (x : ctx) (pos : Z) (v : bytes) : res ctx :=
  if (0 <=? pos) && (pos + Z.of_nat (length v) <=? 64)
  then Ok (with_input x (firstn (Z.to_nat pos) (x_input x) ++ v ++ skipn (Z.to_nat pos + length v) (x_input x))) else UB.

(** l.51-57 *)
Definition md5_rest (x : ctx) (buffer : bytes) : res ctx :=
  let size := Z.of_nat (length buffer) in
  let* (x, buffer) := if 64 <=? size then transform x buffer (Z.land size (u32 (Z.lnot 0x3f))) else Ok (x, buffer) in
  let n := size mod 64 in
  if n <=? Z.of_nat (length buffer) then store x 0 (firstn (Z.to_nat n) buffer) else UB.
(** l.22-49 *)
Definition md5_update (x : ctx) (buffer : bytes) : res ctx :=
  let size := Z.of_nat (length buffer) in
  let saved := x_low x in
  let low := Z.land (u64 (saved + size)) 0x1fffffff in
  let high := if low <? saved then u32 (x_high x + 1) else x_high x in
  let x := with_count x low (u32 (high + u32 (Z.shiftr size 29))) in
  let used := Z.land saved 0x3f in
  if used =? 0 then md5_rest x buffer
  else
    let free := u32 (64 - used) in
    if size <? free then store x used buffer
    else
      let* x := store x used (firstn (Z.to_nat free) buffer) in
      let* (x, _) := transform x (x_input x) 64 in
      md5_rest x (skipn (Z.to_nat free) buffer).

(** l.60-104 *)
Definition md5_complete (x : ctx) : res bytes :=
  let used := Z.land (x_low x) 0x3f in
  let* x := store x used [0x80] in
  let used := used + 1 in
  let free := u32 (64 - used) in
  let* (x, used, free) :=
    if free <? 8 then
      let* x := store x used (repeat 0 (Z.to_nat free)) in
      let* (x, _) := transform x (x_input x) 64 in Ok (x, 0, 64)
    else Ok (x, used, free) in
  let* x := store x used (repeat 0 (Z.to_nat (u32 (free - 8)))) in
  let low := u32 (Z.shiftl (x_low x) 3) in
  let byte_of v s := u8 (Z.shiftr v s) in
  let* x := store x 56 [byte_of low 0; byte_of low 8; byte_of low 16; byte_of low 24; byte_of (x_high x) 0; byte_of (x_high x) 8; byte_of (x_high x) 16; byte_of (x_high x) 24] in
  let* (x, _) := transform x (x_input x) 64 in
  Ok (flat_map (fun v => [byte_of v 0; byte_of v 8; byte_of v 16; byte_of v 24]) [x_a x; x_b x; x_c x; x_d x]).

(** libCZI_Utilities.cpp l.161-174; [input] and [block]: the content of uninitialised memory *)
Definition md5_hash (input : bytes) (block : list Z) (data : bytes) : res bytes :=
  let* x := md5_update (md5_init input block) data in md5_complete x.
(** BitmapOperations.cpp l.51-60 *)
Definition md5_bitmap (input : bytes) (block : list Z) (b : bmp) : res bytes :=
  let line := u64 (bw b * bbpp b) in
  let* x := for_loop (Z.to_nat (bh b)) 0 (fun y x =>
    let off := y * bstride b in
    if (0 <=? off) && (off + line <=? bsize b) then md5_update x (mread (bdata b) off (Z.to_nat line)) else UB) (md5_init input block) in
  md5_complete x.
(** any number of calls of update, as described in MD5Sum.h l.15-22 *)
Fixpoint updates (x : ctx) (l : list bytes) : res ctx := match l with [] => Ok x | b :: l => let* x := md5_update x b in updates x l end.
Definition md5_of_pieces (input : bytes) (block : list Z) (l : list bytes) : res bytes := let* x := updates (md5_init input block) l in md5_complete x.
