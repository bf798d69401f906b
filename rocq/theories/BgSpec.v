(** Colours and zooms as text. *)
From Coq Require Import String Floats.SpecFloat.
From Verif Require Import Base TextModel NumSpec BgModel.
Open Scope Z_scope.

Definition white (s : str) : Prop := Forall (fun c => 9 <= c <= 13 \/ c = 32) s.
Definition sign (sg : str) (neg : bool) : Prop := (sg = [] /\ neg = false) \/ (sg = [43] /\ neg = false) \/ (sg = [45] /\ neg = true).
(** a decimal number, perhaps behind white space and a sign; x: the value rounded to binary32; false: in the range of the normal numbers (or exact) *)
Definition decimal_number (s : str) (x : spec_float) (erange : bool) : Prop :=
  exists w sg neg t M K, white w /\ sign sg neg /\ decimal t M K /\ s = w ++ sg ++ t /\ of_decimal32 neg M K = (x, erange).
(** the letters of a word, in either case *)
Definition word (w s : str) : Prop := Forall2 (fun a b => b = a \/ b = a - 32) w s.
Definition special_number (s : str) (x : spec_float) : Prop :=
  exists w sg neg t, white w /\ sign sg neg /\ s = w ++ sg ++ t /\
    ((word (txt "inf") t \/ word (txt "infinity") t) /\ x = S754_infinity neg \/ word (txt "nan") t /\ x = S754_nan).
Definition number (s : str) (x : spec_float) : Prop := (exists b, decimal_number s x b) \/ special_number s x.
(** white space with at most one comma, semicolon or bar *)
Definition gap (s : str) : Prop := exists a d b, white a /\ white b /\ (d = [] \/ d = [44] \/ d = [59] \/ d = [124]) /\ s = a ++ d ++ b.
(** the same, so that it separates two numbers *)
Definition separator (s : str) : Prop := gap s /\ s <> [].
(** a number left out counts as 0 *)
Definition number_or_none (s : str) (x : spec_float) : Prop := number s x \/ s = [] /\ x = S754_zero false.
(** a decimal number, not behind white space *)
Definition plain (s : str) (x : spec_float) : Prop := exists sg neg t M K, sign sg neg /\ decimal t M K /\ s = sg ++ t /\ x = fst (of_decimal32 neg M K).
(** what cannot continue a decimal number *)
Definition stop (r : str) : Prop := match r with [] => True | c :: _ => ~ (48 <= c <= 57) /\ c <> 46 /\ c <> 101 /\ c <> 69 end.
