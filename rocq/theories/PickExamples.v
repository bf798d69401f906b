(** Concrete files and arguments. *)
From Coq Require Import String Floats.SpecFloat.
From Verif Require Import Base CodecModel TextModel GuidModel GuidSpec GuidProofs NumModel JsonModel JsonSpec JsonRead WriterModel WriterSpec WriterExamples WriterMain EditSpec ReaderModel PixelModel HandAttProofs PickModel PickSpec PickProofs.
Open Scope Z_scope.

(** numbers to the nearest double; texts of ASCII *)
Definition p_num (t : str) : spec_float := fst (strtod t).
Definition p_wide (b : bytes) : option str := Some b.
Definition p_att (g : Z) (name type : string) (d : bytes) : attinfo :=
  mkAtt (repeat g 16) (txt type ++ repeat 0 (8 - List.length (txt type))) (txt name ++ repeat 0 (80 - List.length (txt name))) d.
Definition p_ops (a b : attinfo) : list wop := [OpSub ex_sub1 (Some 0%nat); OpAtt a; OpAtt b].
Definition p_ws (a b : attinfo) := fst (fst (session ex_info (p_ops a b))).
Definition p_run (a b : attinfo) (text : string) : res (list (str * bytes)) :=
  let f := file_of m_zero (p_ws a b) in
  let* o := open_file false popts_lax f in extract_attachments p_num p_wide (txt "d/out") (txt text) false f o.
Definition p1 := p_att 1 "Thumbnail" "JPG" [1; 2; 3].
Definition p2 := p_att 2 "Label" "" [4].

Lemma p_meets : session ex_info (p_ops p1 p2) = (p_ws p1 p2, [Ok tt; Ok tt; Ok tt], Ok tt) /\ creation_ok ex_info /\ Forall (request_ok INT_MAX) (p_ops p1 p2) /\
  file_size (p_ws p1 p2) < 2 ^ 63 /\ attached (p_ops p1 p2) [Ok tt; Ok tt; Ok tt] = [p1; p2] /\
  Forall (fun a => Z.of_nat (List.length (at_data a)) <= INT_MAX /\ convertible p_wide (fun b => b) a /\ ~ In 46 (cstring (at_type a))) [p1; p2] /\ reserved_ok ex_info 2 /\
  exists l, json_text (txt "{""name"":""Label"", ""index"":1.0}") (VObj l) /\ Forall (fun x => allowed p_num (snd x)) l /\ asks_for p_num l (Some (txt "Label")) (Some 1).
Proof.
  split; [vm_compute; reflexivity|]. split; [exact ex_info_ok|]. split.
  { repeat apply Forall_cons; try apply Forall_nil; [exact ex_sub1_ok|vm_compute; repeat split|vm_compute; repeat split]. }
  split; [vm_compute; reflexivity|]. split; [reflexivity|]. split.
  { repeat apply Forall_cons; try apply Forall_nil; (split; [vm_compute; discriminate|]); split; try (vm_compute; intuition discriminate);
      intros t [->| ->]; (split; [reflexivity|vm_compute; intuition discriminate]). }
  split; [vm_compute; exact Logic.I|]. exists [(txt "name", VStr (txt "Label")); (txt "index", VNum (txt "1.0"))].
  split; [apply read_iff; [vm_compute; intuition discriminate|vm_compute; reflexivity]|]. split; [repeat constructor|]. split.
  - exists (txt "Label"). split; [|apply c_text_iff; reflexivity]. exists [], (txt "name"), [(txt "index", VNum (txt "1.0"))]. split; [reflexivity|]. split; [apply c_text_iff; reflexivity|].
    intros k v [E|[]] U. injection E as <- <-. apply c_text_iff in U. discriminate U.
  - exists (txt "1.0"). split; [|vm_compute; reflexivity]. exists [(txt "name", VStr (txt "Label"))], (txt "index"), []. split; [reflexivity|]. split; [apply c_text_iff; reflexivity|intros k v []].
Qed.
Lemma p_seen : p_run p1 p2 "{""name"":""Label"", ""index"":1.0}" = Ok [(txt "d/out_Label_1.XXX", [4])] /\ p_run p1 p2 "{""name"":""Label"", ""index"":0.0}" = Ok [] /\
  p_run p1 p2 "" = Ok [(txt "d/out_Thumbnail_0.JPG", [1; 2; 3]); (txt "d/out_Label_1.XXX", [4])] /\ p_run p1 p2 "{""name"":null}" = Throw.
Proof. split; [vm_compute; reflexivity|]. split; [vm_compute; reflexivity|]. split; vm_compute; reflexivity. Qed.
Lemma fraction_refuted : p_run p1 p2 "{""index"":1.9}" = Ok [(txt "d/out_Label_1.XXX", [4])] /\ p_run p1 p2 "{""index"":-0.5}" = Ok [(txt "d/out_Thumbnail_0.JPG", [1; 2; 3])] /\
  (forall k, ~ whole (p_num (txt "1.9")) k) /\ (forall k, ~ whole (p_num (txt "-0.5")) k).
Proof.
  split; [vm_compute; reflexivity|]. split; [vm_compute; reflexivity|]. split; intros k W.
  - assert (E : p_num (txt "1.9") = S754_finite false 8556839292003942 (-52)) by (vm_compute; reflexivity). rewrite E in W. unfold whole in W.
    change (2 ^ Z.max 0 (- (-52))) with 4503599627370496 in W. change (2 ^ Z.max 0 (-52)) with 1 in W. lia.
  - assert (E : p_num (txt "-0.5") = S754_finite true 4503599627370496 (-53)) by (vm_compute; reflexivity). rewrite E in W. unfold whole in W.
    change (2 ^ Z.max 0 (- (-53))) with 9007199254740992 in W. change (2 ^ Z.max 0 (-53)) with 1 in W. lia.
Qed.
Lemma kind_refuted : p_run p1 p2 "{""name"":1.0}" = p_run p1 p2 "" /\ p_run p1 p2 "{""Name"":""Label""}" = p_run p1 p2 "" /\ p_run p1 p2 "{""index"":""1""}" = p_run p1 p2 "".
Proof. split; [vm_compute; reflexivity|]. split; vm_compute; reflexivity. Qed.
Lemma integer_refuted : json_text (txt "{""index"":1}") (VObj [(txt "index", VInt 1)]) /\ p_run p1 p2 "{""index"":1}" = Throw /\ p_run p1 p2 "{""index"":2147483648.0}" = UB.
Proof. split; [apply read_iff; [vm_compute; intuition discriminate|vm_compute; reflexivity]|]. split; vm_compute; reflexivity. Qed.
Definition s1 := p_att 1 "n" "x_1.y" [1].
Definition s2 := p_att 2 "n_0.x" "y" [2].
Lemma same_refuted : exists path, p_run s1 s2 "" = Ok [(path, [1]); (path, [2])].
Proof. eexists. vm_compute. reflexivity. Qed.
Definition e1 := p_att 1 "/../../../e" "sh" [1].
Lemma elsewhere_refuted : exists d, p_run e1 p2 "" = Ok ((txt "d/out_/../../../e_0.sh", [1]) :: d).
Proof. eexists. vm_compute. reflexivity. Qed.
