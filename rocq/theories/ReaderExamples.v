(** Concrete documents read through the reader object; documents of the writer. *)
From Coq Require Import Permutation.
From Verif Require Import Base RectModel StatModel StatSpec CodecModel CodecProofs WriterModel WriterProofs WriterSpec WriterLimits WriterMain WriterExamples
  CodesModel AccessModel EditModel EditSpec EditOpen EditExamples ReaderModel ReaderSpec ReaderProofs ReaderParts StrictProofs.
Open Scope Z_scope.

(** ** Documents of the writer are read without complaint *)
Definition shown_as (a : addinfo) : rinfo * (bytes * bytes * bytes) :=
  (rinfo_of (with_m (ai_e a) (if ai_mv a then e_m (ai_e a) else INT_MIN)), (src_bytes (ai_data a), src_bytes (ai_att a), src_bytes (ai_meta a))).

Lemma observe_block strict f e a : observe strict f e = Ok (expected a) ->
  exists d, read_subblock strict f (e_pos e) = Ok d /\ agree e (sd_info d) /\ e_w (sd_info d) = e_w (ai_e a) /\ e_h (sd_info d) = e_h (ai_e a)
    /\ (rinfo_of e, (sd_data d, sd_att d, sd_meta d)) = shown_as a.
Proof.
  unfold observe, expected. destruct (read_subblock strict f (e_pos e)) as [d| | |]; cbn [bind]; try discriminate. intros H.
  assert (E1 := f_equal (fun x => match x with Ok y => ob_entry y | _ => e end) H). assert (E2 := f_equal (fun x => match x with Ok y => ob_info y | _ => e end) H).
  assert (E3 := f_equal (fun x => match x with Ok y => ob_meta y | _ => [] end) H). assert (E4 := f_equal (fun x => match x with Ok y => ob_data y | _ => [] end) H).
  assert (E5 := f_equal (fun x => match x with Ok y => ob_att y | _ => [] end) H). cbn [ob_entry ob_info ob_meta ob_data ob_att] in *. clear H. exists d.
  split; [reflexivity|]. unfold shown_as. destruct e as [x0 x1 x2 x3 x4 x5 x6 x7 x8 x9 x10 x11], (sd_info d) as [y0 y1 y2 y3 y4 y5 y6 y7 y8 y9 y10 y11], (ai_e a) as [z0 z1 z2 z3 z4 z5 z6 z7 z8 z9 z10 z11]. cbn [with_pos with_m e_coord e_m e_x e_y e_w e_h e_sw e_sh e_pt e_pos e_comp e_pyr] in *.
  injection E1 as -> -> -> -> -> -> -> -> -> -> ->. injection E2 as -> -> -> -> -> -> -> -> -> -> ->.
  split; [|split; [reflexivity|split; [reflexivity|]]].
  - unfold agree. cbn [e_coord e_m e_x e_y e_w e_h e_sw e_sh e_pt e_pos e_comp e_pyr]. repeat split. destruct (ai_mv a); reflexivity.
  - rewrite E3, E4, E5. reflexivity.
Qed.
Lemma open_parts strict po f o : open_file strict po f = Ok o -> exists hd, read_file_header strict f = Ok hd /\ read_directory strict po f (fh_dir hd) = Ok (op_dir o).
Proof.
  unfold open_file. destruct (read_file_header strict f) as [hd| | |]; cbn [bind]; try discriminate. destruct (read_directory strict po f (fh_dir hd)) as [d| | |] eqn:E; cbn [bind]; try discriminate.
  destruct (if fh_att hd =? 0 then Ok [] else read_attdir strict f (fh_att hd)); cbn [bind]; try discriminate. injection 1 as <-. exists hd. split; [reflexivity|exact E].
Qed.
Lemma written_readable : forall m0 strict i ops ws rs r h o,
  session i ops = (ws, rs, r) -> creation_ok i -> Forall (request_ok INT_MAX) ops ->
  file_size ws < 2 ^ 63 -> Z.of_nat (length ops) <= INT_MAX -> strict = false \/ added ops rs <> [] ->
  Forall (fun a => e_w (ai_e a) <> 0 /\ e_h (ai_e a) <> 0) (added ops rs) -> Z.testbit (ro_policy o) 0 = false ->
  let s := fst (rrun reader0 h) in let f := file_of m0 ws in
  snd (rstep s (ROpen strict f o)) = Ok ADone ->
  exists l, Permutation l (added ops rs) /\
    forall k a, nth_error l k = Some a ->
    snd (rrun s [ROpen strict f o; RBlock (Z.of_nat k)]) = [Ok ADone; Ok (ABlock (Some (shown_as a)))].
Proof.
  intros m0 strict i ops ws rs r h o H1 H2 H3 H4 H5 H6 W P s f E.
  destruct (session_roundtrip m0 strict (popts_of o) i ops ws rs r H1 H2 H3 H4 H5 H6) as (_ & op & O & _ & Pm).
  destruct (open_parts _ _ _ _ O) as (hd & A1 & A2).
  apply Permutation_map_inv in Pm as (l & El & Pl). fold f in A1, A2, El. exists l. split; [now apply Permutation_sym|].
  intros k a Ka. assert (Kb : nth_error (map (observe strict f) (op_dir op)) k = Some (Ok (expected a))) by (rewrite El, nth_error_map, Ka; reflexivity).
  rewrite nth_error_map in Kb. destruct (nth_error (op_dir op) k) as [e|] eqn:Ke; [|discriminate]. cbn [option_map] in Kb. injection Kb as Kb.
  destruct (observe_block _ _ _ _ Kb) as (d & D & Ag & Ew & Eh & <-).
  assert (I : e_w (ai_e a) <> 0 /\ e_h (ai_e a) <> 0).
  { rewrite Forall_forall in W. apply W. eapply Permutation_in; [apply Permutation_sym; exact Pl|]. eapply nth_error_In. exact Ka. }
  destruct (reader_block h strict f o hd (op_dir op) k e d E A1 A2 Ke D) as [R _]; [lia|lia|].
  rewrite P in R. exact (R (or_intror Ag)).
Qed.

(** ** Witnesses *)
Definition look (qs : list rop) : list (res answer) := snd (rrun reader0 qs).
Lemma stale_attachments :
  look [ROpen false file2 ropts0; RClose; ROpen false file1 ropts0; RAttCount] = [Ok ADone; Ok ADone; Ok ADone; Ok (ACount 2)]
  /\ look [ROpen false file1 ropts0; RAttCount] = [Ok ADone; Ok (ACount 0)].
Proof. split; vm_compute; reflexivity. Qed.
Lemma closed_answers :
  (exists i, look [ROpen false file1 ropts0; RClose; RInfo 0] = [Ok ADone; Ok ADone; Ok (AInfo (Some i))])
  /\ look [RTransform FPixel (0, 0) FRaw] = [UB].
Proof. split; [eexists|]; vm_compute; reflexivity. Qed.

(** A document one byte of which is changed *)
Definition patched (f : file) (p b : Z) : file := mkFile (fun a => if a =? p then b else f_mem f a) (f_size f).
Definition pos1 : Z := match open_file false popts_lax file1 with Ok o => match op_dir o with e :: _ => e_pos e | _ => 0 end | _ => 0 end.
(** the header of the only sub-block of [file1] says X starts at 9, the directory says 0 *)
Definition file_x9 : file := patched file1 (pos1 + 84) 9.
Definition with_policy (p : Z) : ropts := mkRopts true false FInvalid p.
Definition x_of (l : list (res answer)) : res (option Z) :=
  match l with [Ok ADone; Ok (ABlock (Some (i, _)))] => Ok (Some (rx (ri_rect i))) | [Ok ADone; Throw] => Throw | [Ok ADone; UB] => UB | _ => Ok None end.
Lemma policies : x_of (look [ROpen false file_x9 (with_policy 0); RBlock 0]) = Throw
  /\ x_of (look [ROpen false file_x9 (with_policy 1); RBlock 0]) = Throw
  /\ x_of (look [ROpen false file_x9 (with_policy 128); RBlock 0]) = Ok (Some 0)
  /\ x_of (look [ROpen false file_x9 (with_policy 129); RBlock 0]) = Ok (Some 9).
Proof. repeat split; vm_compute; reflexivity. Qed.
(** the header's dimension X is named Y instead: the horizontal extent is never set *)
Definition file_noX : file := patched file1 (pos1 + 80) 89.
Lemma extent_unset : look [ROpen false file_noX ropts0; RBlock 0] = [Ok ADone; UB].
Proof. vm_compute. reflexivity. Qed.
(** the hypotheses of [reader_block] for that document, both cases *)
Definition block_test (f : file) (o : ropts) : bool :=
  match read_file_header false f with
  | Ok hd =>
    match read_directory false (popts_of o) f (fh_dir hd) with
    | Ok (e :: _) => match read_subblock false f (e_pos e) with Ok d => (e_w (sd_info d) =? 2) && (e_h (sd_info d) =? 2) && (e_x e =? 0) && (e_x (sd_info d) =? 9) | _ => false end
    | _ => false
    end
  | _ => false
  end.
Lemma block_tested f o : block_test f o = true -> exists hd es e d, read_file_header false f = Ok hd /\ read_directory false (popts_of o) f (fh_dir hd) = Ok es
  /\ nth_error es 0 = Some e /\ read_subblock false f (e_pos e) = Ok d /\ e_w (sd_info d) = 2 /\ e_h (sd_info d) = 2 /\ ~ agree e (sd_info d).
Proof.
  unfold block_test. destruct (read_file_header false f) as [hd| | |]; try discriminate. destruct (read_directory false (popts_of o) f (fh_dir hd)) as [[|e es]| | |] eqn:E; try discriminate.
  destruct (read_subblock false f (e_pos e)) as [d| | |] eqn:E2; try discriminate. intros V. apply andb_prop in V as [V V4]. apply andb_prop in V as [V V3]. apply andb_prop in V as [V1 V2].
  exists hd, (e :: es), e, d. repeat (split; [assumption||reflexivity|]). split; [lia|]. split; [lia|]. intros (_ & _ & _ & _ & X & _). lia.
Qed.
Lemma block_hypotheses : exists hd es e d, read_file_header false file_x9 = Ok hd /\ read_directory false (popts_of (with_policy 0)) file_x9 (fh_dir hd) = Ok es
  /\ nth_error es 0 = Some e /\ read_subblock false file_x9 (e_pos e) = Ok d /\ e_w (sd_info d) = 2 /\ e_h (sd_info d) = 2 /\ ~ agree e (sd_info d).
Proof. apply block_tested. vm_compute. reflexivity. Qed.
Lemma block_opens : snd (rstep reader0 (ROpen false file_x9 (with_policy 0))) = Ok ADone.
Proof. vm_compute. reflexivity. Qed.

(** Attachments: [file2] has two, both of a type of eight characters *)
Definition name79 : bytes := repeat 66 79.
Lemma attachments_found : forall t, In t [None; Some (repeat 65 7)] ->
  look [ROpen false file2 ropts0; RAttSubset t None; RAttSubset t (Some name79); RAttSubset t (Some (repeat 66 78))]
  = [Ok ADone; Ok (AAtts (match t with None => [(0, (repeat 1 16, repeat 65 8, name79)); (1, (repeat 2 16, repeat 65 8, name79))] | _ => [] end));
     Ok (AAtts (match t with None => [(0, (repeat 1 16, repeat 65 8, name79)); (1, (repeat 2 16, repeat 65 8, name79))] | _ => [] end)); Ok (AAtts [])].
Proof. intros t [<-|[<-|[]]]; vm_compute; reflexivity. Qed.
Lemma eight_found : look [ROpen false file2 ropts0; RAtts; RAttSubset (Some (repeat 65 8)) None]
  = [Ok ADone; Ok (AAtts [(0, (repeat 1 16, repeat 65 8, name79)); (1, (repeat 2 16, repeat 65 8, name79))]); UB].
Proof. vm_compute. reflexivity. Qed.
Definition atts_test (f : file) : bool :=
  match read_file_header false f with
  | Ok hd => negb (fh_att hd =? 0) && match read_attdir false f (fh_att hd) with Ok a => (length a =? 2)%nat | _ => false end
  | _ => false
  end.
Lemma atts_tested f : atts_test f = true -> exists hd a, read_file_header false f = Ok hd /\ fh_att hd <> 0 /\ read_attdir false f (fh_att hd) = Ok a /\ length a = 2%nat.
Proof.
  unfold atts_test. destruct (read_file_header false f) as [hd| | |]; try discriminate. intros V. apply andb_prop in V as [V1 V2].
  destruct (read_attdir false f (fh_att hd)) as [a| | |] eqn:E; try discriminate. exists hd, a. apply Nat.eqb_eq in V2. repeat (split; [assumption||reflexivity||lia|]). exact V2.
Qed.
Lemma atts_hypotheses : exists hd a, read_file_header false file2 = Ok hd /\ fh_att hd <> 0 /\ read_attdir false file2 (fh_att hd) = Ok a /\ length a = 2%nat.
Proof. apply atts_tested. vm_compute. reflexivity. Qed.
Lemma atts_opens : snd (rstep reader0 (ROpen false file2 ropts0)) = Ok ADone.
Proof. vm_compute. reflexivity. Qed.

(** A sub-block of a channel: [file1] has a single one, in channel 1 *)
Lemma channel_found : (exists i, look [ROpen false file1 ropts0; RChannel 1; RChannel 0] = [Ok ADone; Ok (AInfo (Some i)); Ok (AInfo None)]) /\ look [RChannel 1] = [Throw].
Proof. split; [eexists|]; vm_compute; reflexivity. Qed.
Lemma allowed_example : (forall p, allowed (mkRopts false true FInvalid p) ex_dims) /\ (forall p, ~ allowed (mkRopts false false FInvalid p) ex_dims)
  /\ (forall p b, allowed (mkRopts true b FInvalid p) ex_dims).
Proof.
  assert (K : forall d, In d ex_dims -> is_xym d = true \/ exists c, In c other_letters /\ letter c d = true).
  { intros d. unfold ex_dims. cbn [In]. intros [<-|[<-|[<-|[<-|[<-|[]]]]]]; [now left|now left|now left| |];
    right; exists 67; (split; [cbn; tauto|reflexivity]). }
  split; [|split].
  - intros p. split; [exact K|]. intros _. split; [eexists; split; [now left|reflexivity]|]. split; [eexists; split; [right; now left|reflexivity]|].
    split; [intros d; unfold ex_dims; cbn [In]; intros [<-|[<-|[<-|[<-|[<-|[]]]]]]; try discriminate; split; reflexivity|].
    intros [A|[A _]]; [discriminate|vm_compute in A; discriminate].
  - intros p [_ A]. destruct (A eq_refl) as (_ & _ & _ & B). specialize (B (or_introl eq_refl) (mkDE 77 2 3 3)).
    assert (3 = 1) by (apply B; [cbn; tauto|reflexivity]). lia.
  - intros p b. split; [exact K|discriminate].
Qed.
Lemma described_example : exists i, look [ROpen false file1 ropts0; RInfo 0] = [Ok ADone; Ok (AInfo (Some i))]
  /\ ri_rect i = mkRect 0 (-4) 2 2 /\ ri_pw i = 2 /\ ri_m i = 3 /\ ri_pt i = Gray8 /\ ri_pyr i = PyrNone
  /\ (let* hd := read_file_header false file1 in let* es := read_directory false (popts_of ropts0) file1 (fh_dir hd) in Ok (map e_y es)) = Ok [-4].
Proof. eexists. split; [vm_compute; reflexivity|]. repeat (split; [reflexivity|]). vm_compute. reflexivity. Qed.
