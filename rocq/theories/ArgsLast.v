(** Arguments of the command-line tool: the statements which are claimed, and examples. *)
From Coq Require Import String QArith Qabs Lqa SpecFloat.
From Verif Require Import Base CodesModel TextModel TextProofs XmlModel FloatProofs LutToe CreateModel CreateSpec CreateNum OptsModel OptsSpec OptsProofs ArgsModel ArgsSpec ArgsProofs ArgsRect ArgsFormat ArgsFlags ArgsBytes.
Open Scope Z_scope.

Theorem tiles_statement s :
  (forall a b p, tiles_text s a b p -> proper a -> proper b -> (forall n, p = Some n -> proper n) ->
     exists i, parse_tiles s = Ok (Some i) /\ ti_rows i = dval a /\ ti_cols i = dval b /\
       (percent_of p <= 100 -> (Qabs (sfQ (ti_overlap i) - inject_Z (percent_of p) / 100) <= inject_Z (percent_of p) / 100 * (1 # 8388608))%Q)) /\
  (forall i, parse_tiles s = Ok (Some i) -> exists a b p, tiles_text s a b p /\ proper a /\ proper b /\ (forall n, p = Some n -> proper n)).
Proof.
  split.
  - intros a b p H A B P. exists (mkTiles (dval a) (dval b) (overlap_of (option_map dval p))). split; [apply tiles_accepted; exists a, b, p; repeat (split; [assumption|]); split; [destruct p; cbn; auto|reflexivity]|].
    split; [reflexivity|]. split; [reflexivity|]. intros L. cbn [ti_overlap]. destruct p as [n|]; cbn [option_map percent_of] in *.
    + assert (PO : percent_ok (Some (dval n))) by (cbn [percent_ok]; specialize (P n eq_refl); unfold proper in P; lia). destruct (overlap_ok _ PO) as (_ & _ & R1 & R2). cbn [share] in *. unfold ee in *. apply Qabs_Qle_condition. split; lra.
    + vm_compute. discriminate.
  - intros i H. apply tiles_accepted in H as (a & b & p & H & A & B & P & _). exists a, b, p. repeat (split; [assumption|]). intros n ->. exact P.
Qed.
Theorem size_statement s :
  (forall w h, parse_size s = Ok (Some (w, h)) <-> exists a b, size_text s a b /\ proper a /\ proper b /\ w = dval a /\ h = dval b) /\
  (parse_size s = Throw <-> exists a b, size_text s a b /\ (enormous a \/ proper a /\ enormous b)) /\
  (parse_size s = Throw \/ exists r, parse_size s = Ok r).
Proof. split; [apply size_accepted|]. split; [apply size_thrown|apply size_defined]. Qed.
Theorem rect_statement s absolute x y w h : parse_rect s = Some (mkRegion absolute x y w h) <-> rect_text s absolute x y w h.
Proof. exact (rect_accepted s (mkRegion absolute x y w h)). Qed.
Theorem format_statement s : ~ In 88 s ->
  (forall p al, parse_format s = Ok (Some (p, al)) <-> format_text s p al) /\ (parse_format s = Throw <-> enormous_alpha s).
Proof. intros N. split; [intros p al; now apply format_accepted|apply format_thrown]. Qed.
Theorem levels_statement s l : items s l -> no_hole l ->
  (parse_flags verbosities s = None <-> ~ Forall (known verbosity_words) l) /\
  (forall f, parse_flags verbosities s = Some f -> 0 <= f /\ forall n, 0 <= n -> (Z.testbit f n = true <-> exists i levels, In i l /\ names verbosity_words i levels /\ In n levels)) /\
  (parse_flags info_levels s = None <-> ~ Forall (known info_words) l) /\
  (forall f, parse_flags info_levels s = Some f -> 0 <= f /\ forall n, 0 <= n -> (Z.testbit f n = true <-> exists i levels, In i l /\ names info_words i levels /\ In n levels)).
Proof. intros I N. destruct (verbosity_ok s l I N) as [A B]. destruct (info_ok s l I N) as [C D]. auto. Qed.
Theorem bytes_statement s M K f : bytes_text s M K f -> (bytes_meant M K f < inject_Z (2 ^ 61))%Q ->
  exists k, parse_bytes s = Ok (Some k) /\ 0 <= k < 2 ^ 63 /\
    (Qabs (inject_Z k - bytes_meant M K f) <= (1 # 2) + bytes_meant M K f * (1 # 2 ^ 51) + (1 # 2 ^ 100))%Q.
Proof. intros H V. exact (bytes_ok s M K f H V). Qed.
Theorem bytes_others s :
  (forall M K f z, bytes_text s M K f -> M * f = z * 10 ^ K -> 0 <= z <= 2 ^ 49 -> parse_bytes s = Ok (Some z)) /\
  ((forall M K f, ~ bytes_text s M K f) -> parse_bytes s = Ok None).
Proof. split; [exact (fun M K f z => bytes_exact s M K f z)|apply bytes_refused]. Qed.

(** ** examples *)
Lemma digits_b s : forallb is_digit s = true -> Forall digit_char s.
Proof. apply digits_forallb. Qed.
Lemma numeral_b s : negb (Nat.eqb (List.length s) 0) && forallb is_digit s = true -> numeral s.
Proof. intros H. apply andb_true_iff in H as [A B]. split; [intros ->; discriminate|now apply digits_b]. Qed.
Example size_example : size_text (txt "1024 x 768") (txt "1024") (txt "768") /\ proper (txt "1024") /\ proper (txt "768") /\ parse_size (txt "1024 x 768") = Ok (Some (1024, 768)).
Proof.
  split; [|split; [unfold proper; vm_compute; split; reflexivity|split; [unfold proper; vm_compute; split; reflexivity|vm_compute; reflexivity]]].
  exists [32], 120, [32]. split; [apply numeral_b; reflexivity|]. split; [apply numeral_b; reflexivity|].
  split; [constructor; [left; reflexivity|constructor]|]. split; [constructor; [left; reflexivity|constructor]|]. split; [unfold times_char; lia|reflexivity].
Qed.
Example size_refused : parse_size (txt "0x5") = Ok None /\ parse_size (txt "4294967296x1") = Ok None /\ parse_size (txt " 4x4") = Ok None.
Proof. split; [|split]; vm_compute; reflexivity. Qed.
Example tiles_example : tiles_text (txt "4x5;10%") (txt "4") (txt "5") (Some (txt "10")) /\ proper (txt "4") /\ proper (txt "5") /\ proper (txt "10").
Proof.
  split; [|split; [|split]; unfold proper; vm_compute; split; reflexivity]. exists [], 120, [], [], (txt ";10%"), [].
  split; [apply numeral_b; reflexivity|]. split; [apply numeral_b; reflexivity|].
  do 4 (split; [constructor|]). split; [unfold times_char; lia|]. split; [reflexivity|]. exists 59, [], []. split; [lia|]. do 2 (split; [constructor|]). split; [|reflexivity].
  apply numeral_b; reflexivity.
Qed.
Example tiles_values : exists i, parse_tiles (txt "4x5;10%") = Ok (Some i) /\ ti_rows i = 4 /\ ti_cols i = 5 /\ parse_tiles (txt "4x5;0%") = Ok None.
Proof. eexists. split; [vm_compute; reflexivity|]. split; [reflexivity|]. split; [reflexivity|]. vm_compute. reflexivity. Qed.
Example rect_example : parse_rect (txt "rel(-10,+20,300,400)") = Some (mkRegion false (-10) 20 300 400) /\ parse_rect (txt "abs(0,0,0,5)") = None /\ parse_rect (txt "abs(|1,0,5,5)") = None.
Proof. split; [|split]; vm_compute; reflexivity. Qed.
Example pyramid_example : parse_pyramid (txt " 2 ; 3") = Some (2, 3) /\ parse_pyramid (txt "-2|-3") = Some (-2, -3) /\ parse_pyramid (txt "2") = None.
Proof. split; [|split]; vm_compute; reflexivity. Qed.
Example format_example : parse_format (txt "BGRA32(0x7f)") = Ok (Some (Bgra32, Some 127)) /\ parse_format (txt " bgr24 ") = Ok (Some (Bgr24, None)) /\ parse_format (txt "bgra32(300)") = Ok None /\ ~ In 88 (txt "BGRA32(0x7f)").
Proof. split; [vm_compute; reflexivity|]. split; [vm_compute; reflexivity|]. split; [vm_compute; reflexivity|]. vm_compute. intuition discriminate. Qed.
Example levels_example : items (txt "Errors1, warnings;") [txt "Errors1"; txt " warnings"; []] /\ no_hole [txt "Errors1"; txt " warnings"; []] /\ parse_flags verbosities (txt "Errors1, warnings;") = Some 13.
Proof.
  assert (F : forall i, forallb (fun c => negb (c =? 44) && negb (c =? 59)) i = true -> Forall (fun c => c <> 44 /\ c <> 59) i).
  { intros i H. apply Forall_forall. intros c C. rewrite forallb_forall in H. apply H in C. lia. }
  split; [|split; [|vm_compute; reflexivity]].
  - apply (items_more (txt "Errors1") 44 (txt " warnings;")); [apply F; reflexivity|lia|]. apply (items_more (txt " warnings") 59 []); [apply F; reflexivity|lia|]. constructor. constructor.
  - intros b i a E N X. subst i. apply N. destruct b as [|x [|y [|z b]]]; cbn [app] in E.
    + discriminate.
    + discriminate.
    + now injection E as _ _ <-.
    + injection E as _ _ _ E. symmetry in E. apply app_eq_nil in E as [_ E]. discriminate.
Qed.
Example info_example : parse_flags info_levels (txt "rawxml,GeneralInfo") = Some 258 /\ parse_flags info_levels (txt "rawxml,GeneralInfos") = None.
Proof. split; vm_compute; reflexivity. Qed.
Example bytes_example : bytes_text (txt " 1.5 GiB") 15 1 (2 ^ 30) /\ 15 * 2 ^ 30 = 1610612736 * 10 ^ 1 /\ parse_bytes (txt " 1.5 GiB") = Ok (Some 1610612736).
Proof.
  split; [|split; [reflexivity|vm_compute; reflexivity]]. exists [32], (txt "1.5"), [32], (txt "Gi"), (txt "gi"), (txt "B"), []. split; [constructor; [left; reflexivity|constructor]|]. split; [constructor; [left; reflexivity|constructor]|].
  split; [constructor|]. split; [|split; [cbn [units In]; do 6 right; left; reflexivity|]].
  - exists [], (txt "1"), (txt "5"). split; [auto|]. split; [apply digits_b; reflexivity|]. split; [apply digits_b; reflexivity|]. split; [reflexivity|]. split; [reflexivity|]. right. left. split; [discriminate|reflexivity].
  - split; [|split; [auto|reflexivity]]. constructor; [unfold same_letter; vm_compute; intuition discriminate|]. constructor; [left; reflexivity|constructor].
Qed.

(** ** what goes wrong *)
Theorem exceptions : parse_size (txt "20000000000000000000x1") = Throw /\ parse_tiles (txt "1x20000000000000000000") = Throw /\ parse_format (txt "bgra32(3000000000)") = Throw.
Proof. split; [|split]; vm_compute; reflexivity. Qed.
Theorem upper_hex : parse_format (txt "bgra32(0X7f)") = Ok (Some (Bgra32, Some 0)) /\ parse_format (txt "bgra32(0x7f)") = Ok (Some (Bgra32, Some 127)).
Proof. split; vm_compute; reflexivity. Qed.
Theorem hole : exists l, items (txt "Errors,,nonsense,Infos") l /\ ~ Forall (known verbosity_words) l /\ parse_flags verbosities (txt "Errors,,nonsense,Infos") = Some 3.
Proof.
  assert (F : forall i, forallb (fun c => negb (c =? 44) && negb (c =? 59)) i = true -> Forall (fun c => c <> 44 /\ c <> 59) i).
  { intros i H. apply Forall_forall. intros c C. rewrite forallb_forall in H. apply H in C. lia. }
  exists [txt "Errors"; []; txt "nonsense"; txt "Infos"]. split; [|split; [|vm_compute; reflexivity]].
  - apply (items_more (txt "Errors") 44 (txt ",nonsense,Infos")); [apply F; reflexivity|lia|]. apply (items_more [] 44 (txt "nonsense,Infos")); [apply F; reflexivity|lia|].
    apply (items_more (txt "nonsense") 44 (txt "Infos")); [apply F; reflexivity|lia|]. constructor. apply F. reflexivity.
  - intros H. inversion H as [|x1 l1 _ H1 E1]; subst. inversion H1 as [|x2 l2 _ H2 E2]; subst. inversion H2 as [|x3 l3 K _ E3]; subst. revert K.
    apply (flag_of_none verbosities verbosity_words); [apply agree_spec; vm_compute; reflexivity|apply distinct_spec; vm_compute; reflexivity|vm_compute; reflexivity].
Qed.
Theorem too_many_bytes : parse_bytes (txt "9300000t") = UB.
Proof. vm_compute. reflexivity. Qed.
