(** Background colour and zoom: the cases behind the examples and the refutations. *)
From Coq Require Import String Floats.SpecFloat.
From Verif Require Import Base TextModel NumModel NumSpec BgModel BgSpec.
Open Scope Z_scope.

Definition zero32 : spec_float := S754_zero false.
Definition half32 : spec_float := S754_finite false 8388608 (-24).
Definition quarter32 : spec_float := S754_finite false 8388608 (-25).
Definition seven32 : spec_float := S754_finite false 14680064 (-21).
Definition colour_case : list (option colour) :=
  [Some (mkC half32 half32 half32); Some (mkC half32 quarter32 one32); Some (mkC half32 quarter32 one32); None; None; None].
Lemma colours : map background [txt "0.5"; txt "0.5;0.25,1"; txt " +5e-1 | .25 1e0 ;"; txt "0.5;0.25"; txt "0.5;0.25;1;0"; txt "red"] = colour_case.
Proof. vm_compute. reflexivity. Qed.
Lemma missing : map background [txt " "; txt ";"; txt ";;0.5"; txt "0.5;;0.5"] =
  [Some (mkC zero32 zero32 zero32); Some (mkC zero32 zero32 zero32); Some (mkC zero32 zero32 half32); Some (mkC half32 zero32 half32)].
Proof. vm_compute. reflexivity. Qed.
Lemma joined : map background [txt ".5.25.5"; txt "1-0.5-1"; txt "7"; txt "-7;0;0"] =
  [Some (mkC half32 quarter32 half32); Some (mkC one32 (SFopp half32) (SFopp one32)); Some (mkC seven32 seven32 seven32); Some (mkC (SFopp seven32) zero32 zero32)].
Proof. vm_compute. reflexivity. Qed.
Lemma nan_lost : background (txt "1;nan;nan") = Some (mkC one32 one32 one32) /\ background (txt "1;nan;0") = Some (mkC one32 S754_nan zero32).
Proof. vm_compute. split; reflexivity. Qed.
Lemma zooms_rest : map zoom_used [txt "0.5 %"; txt "1/2"; txt "0.5e"; txt "1.2.3"] = [Some half32; Some one32; Some half32; Some (S754_finite false 10066330 (-23))].
Proof. vm_compute. reflexivity. Qed.
Lemma zooms_range : map zoom_used [txt "7"; txt "nan"; txt "infinity"; txt "-nan"] = [Some seven32; Some S754_nan; Some (S754_infinity false); Some S754_nan].
Proof. vm_compute. reflexivity. Qed.
Lemma zooms_refused : map zoom_used [txt "0"; txt "-1"; txt "x"; txt "1e39"; txt "1e-50"; txt "0,5"] = [None; None; None; None; None; None].
Proof. vm_compute. reflexivity. Qed.
Lemma half_plain : plain (txt "0.5") half32.
Proof.
  exists [], false, (txt "0.5"), 5, (-1). split; [left; auto|]. split; [|split; [reflexivity|vm_compute; reflexivity]].
  apply (fraction [48] [53] [] 0); [repeat constructor; lia|repeat constructor; lia|discriminate|constructor|reflexivity|reflexivity].
Qed.
Lemma half_decimal : decimal_number (txt "0.5") half32 false.
Proof.
  exists [], [], false, (txt "0.5"), 5, (-1). split; [constructor|]. split; [left; auto|]. split; [|split; [reflexivity|vm_compute; reflexivity]].
  apply (fraction [48] [53] [] 0); [repeat constructor; lia|repeat constructor; lia|discriminate|constructor|reflexivity|reflexivity].
Qed.
Lemma huge_decimal : decimal_number (txt "1e39") (S754_infinity false) true.
Proof.
  exists [], [], false, (txt "1e39"), 1, 39. split; [constructor|]. split; [left; auto|]. split; [|split; [reflexivity|vm_compute; reflexivity]].
  apply (whole [49] [101; 51; 57] 39); [repeat constructor; lia|discriminate|apply (some_exponent 101 [] [51; 57]); [auto|auto|repeat constructor; lia|discriminate|reflexivity]|reflexivity|reflexivity].
Qed.
Lemma semicolon : separator (txt "; ").
Proof. split; [|discriminate]. exists [], [59], [32]. split; [constructor|]. split; [repeat constructor; lia|]. split; [auto|reflexivity]. Qed.
