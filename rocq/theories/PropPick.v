(** C122: choosing what is extracted on the command line. *)
From Coq Require Import String Floats.SpecFloat.
From Verif Require Import Base CodecModel TextModel JsonModel JsonSpec WriterModel WriterSpec WriterExamples EditSpec ReaderModel HandAttProofs PickModel PickSpec PickProofs PickExamples.
Open Scope Z_scope.

(** Full statement: with "--selection" given as a JSON object, exactly the attachments whose name and index are equal to those given (the sub-blocks whose
    index is) are extracted, all of them without it; each into a file of its own in the directory of the output, with all its bytes; an object which says
    something else is refused. *)

(** the argument is refused exactly if it is no JSON object of texts, truth values and numbers written with fraction or exponent; otherwise its last members
    called name and index, if of the right kind, are asked for *)
Theorem C122_asked : forall num text, ~ In 0 text -> text <> [] ->
  (selection num text = Throw <-> ~ exists l, json_text text (VObj l) /\ Forall (fun x => allowed num (snd x)) l) /\
  forall l n i, json_text text (VObj l) -> Forall (fun x => allowed num (snd x)) l -> asks_for num l n i ->
    (forall k, i = Some k -> INT_MIN <= k <= INT_MAX) -> selection num text = Ok (n, i).
Proof. exact parsed. Qed.
Print Assumptions C122_asked.

(** from the writer to the files extracted; missing for the full statement: indices which are no integers, members of other kinds or names, and where the
    files are put *)
Theorem C122_extracted_partial : forall num wide w out text n i m0 strict po inf ops ws rs r,
  session inf ops = (ws, rs, r) -> creation_ok inf -> Forall (request_ok INT_MAX) ops ->
  file_size ws < 2 ^ 63 -> Z.of_nat (List.length ops) <= INT_MAX -> strict = false \/ added ops rs <> [] ->
  Forall (fun a => Z.of_nat (List.length (at_data a)) <= INT_MAX /\ convertible wide w a) (attached ops rs) -> reserved_ok inf (Z.of_nat (List.length (attached ops rs))) ->
  (text = [] /\ n = None /\ i = None \/
   exists l, ~ In 0 text /\ json_text text (VObj l) /\ Forall (fun x => allowed num (snd x)) l /\ asks_for num l n i /\ forall k, i = Some k -> INT_MIN <= k <= INT_MAX) ->
  exists o, open_file strict po (file_of m0 ws) = Ok o /\
    extract_attachments num wide out text strict (file_of m0 ws) o =
      Ok (map (fun x => (path_for w out x, at_data (snd x))) (filter (wanted n i) (numbered (attached ops rs)))) /\
    extract_subs num out text o = Ok (map (fun x => (fst x, out ++ [35] ++ dec (fst x) ++ txt ".PNG"))
      (filter (fun x => match i with Some k => k =? fst x | None => true end) (numbered (op_dir o)))).
Proof. exact extracted. Qed.
Print Assumptions C122_extracted_partial.
Example C122_extracted_ex1 : session ex_info (p_ops p1 p2) = (p_ws p1 p2, [Ok tt; Ok tt; Ok tt], Ok tt) /\ creation_ok ex_info /\ Forall (request_ok INT_MAX) (p_ops p1 p2) /\
  file_size (p_ws p1 p2) < 2 ^ 63 /\ attached (p_ops p1 p2) [Ok tt; Ok tt; Ok tt] = [p1; p2] /\
  Forall (fun a => Z.of_nat (List.length (at_data a)) <= INT_MAX /\ convertible p_wide (fun b => b) a /\ ~ In 46 (cstring (at_type a))) [p1; p2] /\ reserved_ok ex_info 2 /\
  exists l, json_text (txt "{""name"":""Label"", ""index"":1.0}") (VObj l) /\ Forall (fun x => allowed p_num (snd x)) l /\ asks_for p_num l (Some (txt "Label")) (Some 1).
Proof. exact p_meets. Qed.
Example C122_extracted_ex2 : p_run p1 p2 "{""name"":""Label"", ""index"":1.0}" = Ok [(txt "d/out_Label_1.XXX", [4])] /\ p_run p1 p2 "{""name"":""Label"", ""index"":0.0}" = Ok [] /\
  p_run p1 p2 "" = Ok [(txt "d/out_Thumbnail_0.JPG", [1; 2; 3]); (txt "d/out_Label_1.XXX", [4])] /\ p_run p1 p2 "{""name"":null}" = Throw.
Proof. exact p_seen. Qed.

(** the files are different ones if no type has a dot *)
Theorem C122_different_partial : forall w out n i (atts : list attinfo), Z.of_nat (List.length atts) < 10 ^ 19 ->
  Forall (fun a => ~ In 46 (w (cstring (at_type a)))) atts ->
  NoDup (map (path_for w out) (filter (wanted n i) (numbered atts))).
Proof. exact different. Qed.
Print Assumptions C122_different_partial.

(** an index with a fraction extracts an attachment whose index is not equal to it *)
Theorem C122_fraction_refuted : p_run p1 p2 "{""index"":1.9}" = Ok [(txt "d/out_Label_1.XXX", [4])] /\
  p_run p1 p2 "{""index"":-0.5}" = Ok [(txt "d/out_Thumbnail_0.JPG", [1; 2; 3])] /\
  (forall k, ~ whole (p_num (txt "1.9")) k) /\ (forall k, ~ whole (p_num (txt "-0.5")) k).
Proof. exact fraction_refuted. Qed.
Print Assumptions C122_fraction_refuted.

(** a name which is a number, an index which is a text, and a key written differently are accepted and everything is extracted *)
Theorem C122_kind_refuted : p_run p1 p2 "{""name"":1.0}" = p_run p1 p2 "" /\ p_run p1 p2 "{""Name"":""Label""}" = p_run p1 p2 "" /\ p_run p1 p2 "{""index"":""1""}" = p_run p1 p2 "".
Proof. exact kind_refuted. Qed.
Print Assumptions C122_kind_refuted.

(** an index written as integer is refused; one beyond the range of int is undefined *)
Theorem C122_integer_refuted : json_text (txt "{""index"":1}") (VObj [(txt "index", VInt 1)]) /\ p_run p1 p2 "{""index"":1}" = Throw /\ p_run p1 p2 "{""index"":2147483648.0}" = UB.
Proof. exact integer_refuted. Qed.
Print Assumptions C122_integer_refuted.

(** two attachments are written into the same file *)
Theorem C122_same_refuted : exists path, p_run s1 s2 "" = Ok [(path, [1]); (path, [2])].
Proof. exact same_refuted. Qed.
Print Assumptions C122_same_refuted.

(** the name in the document leads out of the directory of the output *)
Theorem C122_elsewhere_refuted : exists d, p_run e1 p2 "" = Ok ((txt "d/out_/../../../e_0.sh", [1]) :: d).
Proof. exact elsewhere_refuted. Qed.
Print Assumptions C122_elsewhere_refuted.
