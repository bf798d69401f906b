(** Pixel types, compression modes and pyramid types with their numeric codes
    (Src/libCZI/CziUtils.cpp l.12-122, Src/libCZI/libCZI_Pixels.h l.146-182). *)
From Verif Require Import Base.

Inductive pixel_type := Gray8 | Gray16 | Gray32Float | Bgr24 | Bgr48 | Bgr96Float | Bgra32
  | Gray64ComplexFloat | Bgr192ComplexFloat | Gray32 | Gray64Float | PixInvalid.
Inductive compression := UnCompressed | Jpg | JpgXr | Zstd0 | Zstd1 | CompInvalid.
Inductive pyramid_type := PyrNone | PyrSingle | PyrMulti | PyrInvalid.

(** CziUtils.cpp l.12-30 PixelTypeFromInt *)
Definition pixel_type_from_int (i : Z) : pixel_type :=
  match i with
  | 0 => Gray8 | 1 => Gray16 | 2 => Gray32Float | 3 => Bgr24 | 4 => Bgr48 | 8 => Bgr96Float | 9 => Bgra32
  | 10 => Gray64ComplexFloat | 11 => Bgr192ComplexFloat | 12 => Gray32 | 13 => Gray64Float
  | _ => PixInvalid
  end.
(** CziUtils.cpp l.54-71 IntFromPixelType *)
Definition int_from_pixel_type (p : pixel_type) : Z :=
  match p with
  | Gray8 => 0 | Gray16 => 1 | Gray32Float => 2 | Bgr24 => 3 | Bgr48 => 4 | Bgr96Float => 8 | Bgra32 => 9
  | Gray64ComplexFloat => 10 | Bgr192ComplexFloat => 11 | Gray32 => 12 | Gray64Float => 13
  | PixInvalid => INT_MIN
  end.
(** CziUtils.cpp l.74-85 CompressionModeFromInt *)
Definition compression_from_int (i : Z) : compression :=
  match i with 0 => UnCompressed | 1 => Jpg | 4 => JpgXr | 5 => Zstd0 | 6 => Zstd1 | _ => CompInvalid end.
(** CziUtils.cpp l.87-104 CompressionModeToInt *)
Definition compression_to_int (m : compression) : Z :=
  match m with UnCompressed => 0 | Jpg => 1 | JpgXr => 4 | Zstd0 => 5 | Zstd1 => 6 | CompInvalid => INT_MIN end.
(** CziUtils.cpp l.32-42 PyramidTypeFromByte, l.44-52 ByteFromPyramidType *)
Definition pyramid_type_from_byte (b : Z) : pyramid_type :=
  match b with 0 => PyrNone | 1 => PyrSingle | 2 => PyrMulti | _ => PyrInvalid end.
Definition byte_from_pyramid_type (p : pyramid_type) : Z :=
  match p with PyrSingle => 1 | PyrMulti => 2 | _ => 0 end.
(** CziUtils.cpp l.106-122 GetBytesPerPel *)
Definition bytes_per_pel (p : pixel_type) : res Z :=
  match p with
  | Gray8 => Ok 1 | Gray16 => Ok 2 | Gray32Float => Ok 4 | Bgr24 => Ok 3 | Bgr48 => Ok 6 | Bgr96Float => Ok 12
  | Bgra32 => Ok 4 | Gray64ComplexFloat => Ok 16 | Bgr192ComplexFloat => Ok 24 | Gray32 => Ok 4 | Gray64Float => Ok 8
  | PixInvalid => Throw
  end.

(** The specification: the tables of the file format, as relations. *)
Definition pixel_codes : list (Z * pixel_type) :=
  [(0, Gray8); (1, Gray16); (2, Gray32Float); (3, Bgr24); (4, Bgr48); (8, Bgr96Float); (9, Bgra32);
   (10, Gray64ComplexFloat); (11, Bgr192ComplexFloat); (12, Gray32); (13, Gray64Float)].
Definition compression_codes : list (Z * compression) := [(0, UnCompressed); (1, Jpg); (4, JpgXr); (5, Zstd0); (6, Zstd1)].
Definition pyramid_codes : list (Z * pyramid_type) := [(0, PyrNone); (1, PyrSingle); (2, PyrMulti)].


Lemma small_cases (P : Z -> Prop) : P 0 -> P 1 -> P 2 -> P 3 -> P 4 -> P 5 -> P 6 -> P 7 -> P 8 -> P 9 -> P 10 -> P 11 -> P 12 -> P 13 ->
  (forall i, 13 < i -> P i) -> (forall i, i < 0 -> P i) -> forall i, P i.
Proof.
  intros. destruct (Z_lt_dec i 0); auto. destruct (Z_lt_dec 13 i); auto.
  assert (C : i = 0 \/ i = 1 \/ i = 2 \/ i = 3 \/ i = 4 \/ i = 5 \/ i = 6 \/ i = 7 \/ i = 8 \/ i = 9 \/ i = 10 \/ i = 11 \/ i = 12 \/ i = 13) by lia.
  repeat (destruct C as [->|C]; auto). now subst.
Qed.


Lemma not_small_pix i : ~ (0 <= i <= 13) -> pixel_type_from_int i = PixInvalid /\ compression_from_int i = CompInvalid /\ pyramid_type_from_byte i = PyrInvalid.
Proof.
  intros H. unfold pixel_type_from_int, compression_from_int, pyramid_type_from_byte.
  destruct i as [|p|p]; [lia| |auto].
  do 4 (destruct p as [p|p|]; try (repeat split; reflexivity); try lia).
Qed.

Lemma pixel_codes_ok : forall i p, p <> PixInvalid -> (pixel_type_from_int i = p <-> In (i, p) pixel_codes).
Proof.
  intros i p N. destruct (Z_le_dec 0 i); [destruct (Z_le_dec i 13)|].
  - assert (C : i = 0 \/ i = 1 \/ i = 2 \/ i = 3 \/ i = 4 \/ i = 5 \/ i = 6 \/ i = 7 \/ i = 8 \/ i = 9 \/ i = 10 \/ i = 11 \/ i = 12 \/ i = 13) by lia.
    unfold pixel_codes. cbn [In].
    repeat (destruct C as [->|C]; [cbn; split; intros E; [subst p; try congruence; tauto|repeat (destruct E as [E|E]; [inversion E; reflexivity|]); destruct E]|]).
    subst. cbn. split; intros E; [subst p; tauto|repeat (destruct E as [E|E]; [inversion E; reflexivity|]); destruct E].
  - rewrite (proj1 (not_small_pix i ltac:(lia))). split; [congruence|]. unfold pixel_codes. cbn [In].
    intros E. repeat (destruct E as [E|E]; [inversion E; lia|]). destruct E.
  - rewrite (proj1 (not_small_pix i ltac:(lia))). split; [congruence|]. unfold pixel_codes. cbn [In].
    intros E. repeat (destruct E as [E|E]; [inversion E; lia|]). destruct E.
Qed.
Lemma compression_codes_ok : forall i p, p <> CompInvalid -> (compression_from_int i = p <-> In (i, p) compression_codes).
Proof.
  intros i p N. destruct (Z_le_dec 0 i); [destruct (Z_le_dec i 13)|].
  - assert (C : i = 0 \/ i = 1 \/ i = 2 \/ i = 3 \/ i = 4 \/ i = 5 \/ i = 6 \/ i = 7 \/ i = 8 \/ i = 9 \/ i = 10 \/ i = 11 \/ i = 12 \/ i = 13) by lia.
    unfold compression_codes. cbn [In].
    repeat (destruct C as [->|C]; [cbn; split; intros E; [subst p; try congruence; tauto|repeat (destruct E as [E|E]; [inversion E; reflexivity|]); destruct E]|]).
    subst. cbn. split; intros E; [subst p; congruence|repeat (destruct E as [E|E]; [inversion E; reflexivity|]); destruct E].
  - rewrite (proj1 (proj2 (not_small_pix i ltac:(lia)))). split; [congruence|]. unfold compression_codes. cbn [In].
    intros E. repeat (destruct E as [E|E]; [inversion E; lia|]). destruct E.
  - rewrite (proj1 (proj2 (not_small_pix i ltac:(lia)))). split; [congruence|]. unfold compression_codes. cbn [In].
    intros E. repeat (destruct E as [E|E]; [inversion E; lia|]). destruct E.
Qed.
Lemma pyramid_codes_ok : forall i p, p <> PyrInvalid -> (pyramid_type_from_byte i = p <-> In (i, p) pyramid_codes).
Proof.
  intros i p N. destruct (Z_le_dec 0 i); [destruct (Z_le_dec i 13)|].
  - assert (C : i = 0 \/ i = 1 \/ i = 2 \/ i = 3 \/ i = 4 \/ i = 5 \/ i = 6 \/ i = 7 \/ i = 8 \/ i = 9 \/ i = 10 \/ i = 11 \/ i = 12 \/ i = 13) by lia.
    unfold pyramid_codes. cbn [In].
    repeat (destruct C as [->|C]; [cbn; split; intros E; [subst p; try congruence; tauto|repeat (destruct E as [E|E]; [inversion E; reflexivity|]); destruct E]|]).
    subst. cbn. split; intros E; [subst p; congruence|repeat (destruct E as [E|E]; [inversion E; reflexivity|]); destruct E].
  - rewrite (proj2 (proj2 (not_small_pix i ltac:(lia)))). split; [congruence|]. unfold pyramid_codes. cbn [In].
    intros E. repeat (destruct E as [E|E]; [inversion E; lia|]). destruct E.
  - rewrite (proj2 (proj2 (not_small_pix i ltac:(lia)))). split; [congruence|]. unfold pyramid_codes. cbn [In].
    intros E. repeat (destruct E as [E|E]; [inversion E; lia|]). destruct E.
Qed.

Lemma codes_round_trip :
  (forall p, p <> PixInvalid -> pixel_type_from_int (int_from_pixel_type p) = p) /\
  (forall m, m <> CompInvalid -> compression_from_int (compression_to_int m) = m) /\
  (forall p, p <> PyrInvalid -> pyramid_type_from_byte (byte_from_pyramid_type p) = p) /\
  (forall i, pixel_type_from_int i = PixInvalid \/ int_from_pixel_type (pixel_type_from_int i) = i) /\
  (forall i, compression_from_int i = CompInvalid \/ compression_to_int (compression_from_int i) = i) /\
  (pixel_type_from_int (int_from_pixel_type PixInvalid) = PixInvalid /\ compression_from_int (compression_to_int CompInvalid) = CompInvalid).
Proof.
  split; [intros []; try reflexivity; congruence|]. split; [intros []; try reflexivity; congruence|].
  split; [intros []; try reflexivity; congruence|].
  split; [apply small_cases; try (intros; left; apply not_small_pix; lia); cbn; auto|].
  split; [apply small_cases; try (intros; left; apply not_small_pix; lia); cbn; auto|]. split; reflexivity.
Qed.
