(** Examples for compression options as text. *)
From Coq Require Import String.
From Verif Require Import Base CopyModel HiLoModel HiLoProofs CodesModel TextModel XmlModel ZstdModel ZstdProofs OptsModel OptsSpec OptsProofs OptsUse.
Open Scope Z_scope.

Lemma ex_opts :
  parse_options (txt " ZStd1 : explicitlevel = -3 ; PreProcess=HiLoByteUnpack ; foo=bar;") = Ok (Zstd1, mkP (Some (-3)) true) /\
  parse_options (txt "zstd0:ExplicitLevel=3;EXPLICITLEVEL=+7") = Ok (Zstd0, mkP (Some 7) false) /\
  parse_options (txt "uncompressed:") = Ok (UnCompressed, mkP None false) /\
  parse_options (txt "zstd1:PreProcess=None") = Ok (Zstd1, mkP None false).
Proof. repeat split; vm_compute; reflexivity. Qed.
Lemma ex_opts_refused :
  parse_options (txt "zstd1") = Throw /\ parse_options (txt "zstd1:ExplicitLevel=x") = Throw /\ parse_options (txt "zstd1:ExplicitLevel=3.5") = Throw /\
  parse_options (txt "zstd1:ExplicitLevel=2147483648") = Throw /\ parse_options (txt "zstd2:ExplicitLevel=1") = Throw /\
  parse_options (txt "zstd1:ExplicitLevel=1;;") = Throw /\ parse_options (txt "zstd1:ExplicitLevel 1") = Throw.
Proof. repeat split; vm_compute; reflexivity. Qed.
Lemma ex_opts_meaning : meaning (txt " ZStd1 : explicitlevel = -3 ; PreProcess=HiLoByteUnpack ; foo=bar;") Zstd1 (Some (-3)) true.
Proof. apply (proj1 (parse_iff _ Zstd1 (mkP (Some (-3)) true))). exact (proj1 ex_opts). Qed.
Lemma ex_opts_line : option_line Zstd1 (Some (-22)) true = txt "zstd1:ExplicitLevel=-22;PreProcess=HiLoByteUnpack" /\
  parse_options (option_line Zstd1 (Some (-22)) true) = Ok (Zstd1, mkP (Some (-22)) true).
Proof. split; vm_compute; reflexivity. Qed.
Lemma ex_opts_pixels : used_level (-7) 22 (mkP (Some 99) true) = 22 /\ (forall l, zstd_ok (at_level (fun _ => z_compress zid) (z_size zid) (z_decompress zid) l)) /\
  exists c b, compress1 (at_level (fun _ => z_compress zid) (z_size zid) (z_decompress zid) 22) Neon true Gray16 ex_src 20 3 2 10 (fun _ => 0) = Ok (Some c) /\
  decode1 zid Scalar true c Gray16 3 2 (fun _ => 7) (fun _ => 7) (fun _ => 7) = Ok b /\ map (pixel_byte b 6) [0; 1; 5; 6; 7; 11] = [0; 1; 5; 10; 11; 15].
Proof.
  split; [reflexivity|]. split; [intros l; exact zid_ok|]. destruct ex_zstd1 as (_ & _ & c & b & A & _ & B & C). exists c, b. split; [exact A|]. split; [exact B|exact C].
Qed.
