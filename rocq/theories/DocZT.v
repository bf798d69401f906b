(** What a document says about Z and T is read. *)
From Coq Require Import String QArith Qabs Lqa Floats.SpecFloat.
From Verif Require Import Base TextModel TextSpec TextProofs TextProofs3 XmlModel XmlSpec XmlProofs XmlValues XmlPaths PugiModel PugiSpec PugiProofs PugiTree PugiRound PugiBuild.
From Verif Require Import CodesModel DateModel DateSpec DateProofs FloatProofs SFloatProofs ScaleModel ScaleNum NumModel NumSpec NumProofs NumText NumRound DocModel DocSpec DocTree DocInt DocProofs DocScale DocDims.
Open Scope Z_scope.

(** ** Specification *)
(** the words of the schema, libCZI_Metadata.h l.343-374 *)
Inductive names_hand : Z -> string -> Prop := HandL : names_hand 0 "LeftHanded" | HandR : names_hand 1 "RightHanded" | HandU : names_hand 2 "Undefined".
Inductive names_axis : Z -> string -> Prop := AxisSO : names_axis 0 "FromSpecimenToObjective" | AxisOS : names_axis 1 "FromObjectiveToSpecimen" | AxisU : names_axis 2 "Undefined".
(** the element at a path below a node has this text *)
Definition reads (n : xml) (path : list string) (s : str) : Prop := exists c, descend (map txt path) n = Some c /\ text c = s.
(** ... a word with white space around it *)
Definition reads_word (n : xml) (path : list string) (w : string) : Prop := exists a b, DateSpec.blank a /\ DateSpec.blank b /\ reads n path (a ++ txt w ++ b).
Definition read_close (x : spec_float) (o : option spec_float) : Prop := exists y, o = Some y /\ close x y.

(** ** Proofs *)
Lemma dbl_read x : ordinary x -> exists y, strtod (dbl_text x) = (y, length (dbl_text x)) /\ close x y.
Proof.
  intros [(s & ->)|(F & M)]; [exists (S754_zero s); split; [destruct s; vm_compute; reflexivity|left; now exists s]|].
  destruct (write_read x F M) as (y & W & Fy & A & _). exists y. split; [exact W|right; now split].
Qed.
Lemma as_dbl_read c x : ordinary x -> text c = dbl_text x -> close x (as_dbl c).
Proof. intros O E. unfold as_dbl. rewrite E. destruct (dbl_read x O) as (y & W & C). now rewrite W. Qed.
Lemma hand_read n z w : names_hand z w -> reads_word n ["XYZHandedness"%string] w ->
  match descend [txt "XYZHandedness"] n with Some c => word_of (trim (text c)) [("LeftHanded"%string, 0); ("RightHanded"%string, 1); ("Undefined"%string, 2)] | None => None end = Some z.
Proof.
  intros N (a & b & A & B & c & D & T). cbn [map] in D. rewrite D, T. apply blank_all in A, B.
  destruct N; rewrite trim_spec by (try assumption; vm_compute; repeat split; discriminate); vm_compute; reflexivity.
Qed.
Lemma axis_read n z w : names_axis z w -> reads_word n ["ZAxisDirection"%string] w ->
  match descend [txt "ZAxisDirection"] n with Some c => word_of (trim (text c)) [("FromSpecimenToObjective"%string, 0); ("FromObjectiveToSpecimen"%string, 1); ("Undefined"%string, 2)] | None => None end = Some z.
Proof.
  intros N (a & b & A & B & c & D & T). cbn [map] in D. rewrite D, T. apply blank_all in A, B.
  destruct N; rewrite trim_spec by (try assumption; vm_compute; repeat split; discriminate); vm_compute; reflexivity.
Qed.
Lemma descend_app p q n : descend (p ++ q) n = match descend p n with Some c => descend q c | None => None end.
Proof. revert n. induction p as [|k p IH]; intros n; cbn [app descend]; [reflexivity|]. destruct (child k n); [apply IH|reflexivity]. Qed.
Lemma interval_positions n x y : ordinary x -> ordinary y -> reads n ["Positions"; "Interval"; "Start"]%string (dbl_text x) -> reads n ["Positions"; "Interval"; "Increment"]%string (dbl_text y) ->
  exists x' y', get_positions n = Ok (PosInterval x' y') /\ close x x' /\ close y y'.
Proof.
  intros Ox Oy (c & D & T) (c' & D' & T'). cbn [map] in D, D'.
  change [txt "Positions"; txt "Interval"; txt "Start"] with ([txt "Positions"; txt "Interval"] ++ [txt "Start"]) in D.
  change [txt "Positions"; txt "Interval"; txt "Increment"] with ([txt "Positions"; txt "Interval"] ++ [txt "Increment"]) in D'.
  rewrite descend_app in D, D'. unfold get_positions. destruct (descend [txt "Positions"; txt "Interval"] n) as [i|]; [|discriminate]. rewrite D, D'.
  do 2 eexists. split; [reflexivity|]. split; now apply as_dbl_read.
Qed.
Lemma z_read doc n z : get_node [txt "Metadata"; txt "Information"; txt "Image"; txt "Dimensions"; txt "Z"] doc = Some n -> get_zinfo doc = Ok (Some z) ->
  (forall h w, names_hand h w -> reads_word n ["XYZHandedness"%string] w -> z_hand z = Some h) /\
  (forall a w, names_axis a w -> reads_word n ["ZAxisDirection"%string] w -> z_axis z = Some a) /\
  (forall x, ordinary x -> reads n ["StartPosition"%string] (dbl_text x) -> read_close x (z_start z)) /\
  (forall x, ordinary x -> reads n ["ZDriveSpeed"%string] (dbl_text x) -> read_close x (z_speed z)) /\
  (forall x y, ordinary x -> ordinary y -> reads n ["Positions"; "Interval"; "Start"]%string (dbl_text x) -> reads n ["Positions"; "Interval"; "Increment"]%string (dbl_text y) ->
     exists x' y', z_pos z = PosInterval x' y' /\ close x x' /\ close y y').
Proof.
  intros N H. unfold get_zinfo in H. change (IMAGE ++ [txt "Dimensions"; txt "Z"]) with [txt "Metadata"; txt "Information"; txt "Image"; txt "Dimensions"; txt "Z"] in H. rewrite N in H.
  cbv zeta in H. destruct (match descend [txt "ZDriveSpeed"] n with Some c => _ | None => _ end) as [sp| | |] eqn:Sp; cbn [bind] in H; try discriminate.
  destruct (get_positions n) as [ps| | |] eqn:Ps; cbn [bind] in H; try discriminate. assert (X : forall a b : zinfo, Ok (Some a) = Ok (Some b) -> a = b) by congruence. apply X in H. rewrite <- H. clear H X.
  cbn [z_hand z_axis z_start z_speed z_pos]. split; [intros h w; apply hand_read|]. split; [intros a w; apply axis_read|]. split; [|split].
  - intros x O (c & D & T). cbn [map] in D. rewrite D. cbn [option_map]. eexists. split; [reflexivity|now apply as_dbl_read].
  - intros x O (c & D & T). cbn [map] in D. rewrite D, T in Sp. destruct (whole_dbl x O) as (Ne & y & W & C).
    assert (Tr : trim (dbl_text x) = dbl_text x).
    { pose proof (print_g_solid 15 x) as S0. fold (dbl_text x) in S0. rewrite <- (app_nil_r (dbl_text x)) at 1. change (dbl_text x ++ []) with ([] ++ dbl_text x ++ []). apply trim_spec; [constructor|constructor|].
      unfold solid in S0. destruct (dbl_text x) as [|c0 l] eqn:E; [easy|]. unfold no_outer_blank. rewrite Forall_forall in S0. split.
      - pose proof (S0 c0 (or_introl eq_refl)). unfold is_blank. lia.
      - assert (L : In (last (c0 :: l) 0) (c0 :: l)) by (destruct (exists_last Ne) as (p & q & ->); rewrite last_last; apply in_or_app; right; now left).
        pose proof (S0 _ L). unfold is_blank. lia. }
    rewrite Tr in Sp. destruct (dbl_text x) as [|c0 l] eqn:E; [easy|]. rewrite W in Sp. exists y. split; [congruence|exact C].
  - intros x y Ox Oy R1 R2. destruct (interval_positions n x y Ox Oy R1 R2) as (x' & y' & E & C). exists x', y'. split; [congruence|exact C].
Qed.
Lemma t_read doc n t : get_node [txt "Metadata"; txt "Information"; txt "Image"; txt "Dimensions"; txt "T"] doc = Some n -> get_tinfo doc = Ok (Some t) ->
  (forall d s, iso s d -> reads n ["StartTime"%string] s -> t_start t = Some d) /\
  (forall x y, ordinary x -> ordinary y -> reads n ["Positions"; "Interval"; "Start"]%string (dbl_text x) -> reads n ["Positions"; "Interval"; "Increment"]%string (dbl_text y) ->
     exists x' y', t_pos t = PosInterval x' y' /\ close x x' /\ close y y').
Proof.
  intros N H. unfold get_tinfo in H. change (IMAGE ++ [txt "Dimensions"; txt "T"]) with [txt "Metadata"; txt "Information"; txt "Image"; txt "Dimensions"; txt "T"] in H. rewrite N in H.
  destruct (match descend [txt "StartTime"] n with Some c => _ | None => _ end) as [st| | |] eqn:Sp; cbn [bind] in H; try discriminate.
  destruct (get_positions n) as [ps| | |] eqn:Ps; cbn [bind] in H; try discriminate. assert (X : forall a b : tinfo, Ok (Some a) = Ok (Some b) -> a = b) by congruence. apply X in H. rewrite <- H. clear H X.
  cbn [t_start t_pos]. split.
  - intros d s I (c & D & T). cbn [map] in D. rewrite D, T in Sp. pose proof (parse_complete s d [] [] I (Forall_nil _) (Forall_nil _)) as P. cbn [app] in P. rewrite app_nil_r in P. congruence.
  - intros x y Ox Oy R1 R2. destruct (interval_positions n x y Ox Oy R1 R2) as (x' & y' & E & C). exists x', y'. split; [congruence|exact C].
Qed.

(** ** Channels *)
(** the words of the schema for pixel types *)
Inductive names_pixel : CodesModel.pixel_type -> string -> Prop :=
| PixG8 : names_pixel CodesModel.Gray8 "Gray8" | PixG16 : names_pixel CodesModel.Gray16 "Gray16" | PixG32F : names_pixel CodesModel.Gray32Float "Gray32Float"
| PixB24 : names_pixel CodesModel.Bgr24 "Bgr24" | PixB48 : names_pixel CodesModel.Bgr48 "Bgr48" | PixB96 : names_pixel CodesModel.Bgr96Float "Bgr96Float" | PixBa32 : names_pixel CodesModel.Bgra32 "Bgra32"
| PixG64C : names_pixel CodesModel.Gray64ComplexFloat "Gray64ComplexFloat" | PixB192 : names_pixel CodesModel.Bgr192ComplexFloat "Bgr192ComplexFloat"
| PixG32 : names_pixel CodesModel.Gray32 "Gray32" | PixG64F : names_pixel CodesModel.Gray64Float "Gray64Float".
(** the children of a node with this name, in the order of the document *)
Fixpoint elements (name : string) (l : list xml) : list xml :=
  match l with
  | [] => []
  | Elem nm ats kids :: l' => if str_eqb nm (txt name) then Elem nm ats kids :: elements name l' else elements name l'
  | _ :: l' => elements name l'
  end.
Definition has_attribute (n : xml) (name : string) (v : str) : Prop := match n with Elem _ ats _ => exists a b, ats = a ++ (txt name, v) :: b /\ Forall (fun e => fst e <> txt name) a | _ => False end.
Definition says_channel (n : xml) (c : chinfo) : Prop :=
  (forall p w, names_pixel p w -> reads n ["PixelType"%string] (txt w) -> c_pixel c = Some p) /\
  (forall v, has_attribute n "Id" v -> c_id c = Some v) /\ (forall v, has_attribute n "Name" v -> c_name c = Some v).
Lemma word_pixel_named p w : names_pixel p w -> word_pixel (txt w) = Some p.
Proof. intros []; vm_compute; reflexivity. Qed.
Lemma has_attribute_get n k v : has_attribute n k v -> try_get_attribute (txt k) n = Some v.
Proof.
  unfold has_attribute, try_get_attribute. destruct n as [nm ats kids| |]; [|easy..]. intros (a & b & -> & H). induction H as [|[k' v'] a Ne _ IH]; cbn [app attr_of fst] in *.
  - now rewrite (proj2 (str_eqb_eq (txt k) (txt k)) eq_refl).
  - destruct (str_eqb k' (txt k)) eqn:E; [apply str_eqb_eq in E; contradiction|exact IH].
Qed.
Theorem channels_said doc n : get_node [txt "Metadata"; txt "Information"; txt "Image"; txt "Dimensions"; txt "Channels"] doc = Some n ->
  exists l, get_channels doc = Some l /\ Forall2 says_channel (elements "Channel" (kids_of n)) l.
Proof.
  intros N. unfold get_channels. change (IMAGE ++ [txt "Dimensions"; txt "Channels"]) with [txt "Metadata"; txt "Information"; txt "Image"; txt "Dimensions"; txt "Channels"]. rewrite N. eexists. split; [reflexivity|].
  induction (kids_of n) as [|[nm ats kids|s|s] l IH]; [constructor| |exact IH..]. cbn [elements filter matches forallb]. rewrite andb_true_r. destruct (str_eqb nm (txt "Channel")); [|exact IH]. cbn [map]. constructor; [|exact IH]. split; [|split].
  - intros p w P (c & D & T). cbn [map] in D. unfold channel_info. cbn [c_pixel]. rewrite D, T. now apply word_pixel_named.
  - intros v H. apply has_attribute_get in H. exact H.
  - intros v H. apply has_attribute_get in H. exact H.
Qed.

(** ** Where positions are written *)
Definition holds_text (n : xml) (q : list string) (v : str) : Prop := reads n (["Metadata"; "Information"; "Dimensions"]%string ++ q) v.
Definition keeps (l : list (list string * str)) (n : xml) : Prop := forall q v, In (q, v) l -> holds_text n q v.

Definition spec_of (q : list string) : list spec := plainly (DIMENSIONS ++ map txt q).
Fixpoint apart (l : list (list string * str)) : Prop :=
  match l with [] => True | (q, _) :: l' => (forall q' v', In (q', v') l' -> separate (spec_of q') (spec_of q)) /\ apart l' end.
Lemma puts_keep l : forall n n', sound n -> (forall q v, In (q, v) l -> decent (spec_of q) /\ chars v) -> apart l -> puts (map (fun '(q, v) => (spec_of q, v)) l) n = Ok n' -> keeps l n'.
Proof.
  induction l as [|[q v] l IH]; intros n n' S D A H; [easy|]. cbn [map puts] in H. destruct (put (set_value v) (spec_of q) n) as [n1| | |] eqn:P; cbn [bind] in H; try discriminate.
  destruct (D q v (or_introl eq_refl)) as [D1 D2]. destruct (put_sound v _ n n1 S D1 D2 P) as [S1 _]. cbn [apart] in A. destruct A as [A1 A2].
  intros q' v' [E|I]; [|apply (IH n1 n' S1); try assumption; intros; apply D; now right].
  assert (E1 : q = q' /\ v = v') by (split; congruence). destruct E1 as [<- <-]. clear E. destruct (put_there v _ n n1 S D1 P) as (c & F & El & K). unfold holds_text, reads.
  exists c. split; [|unfold text; now rewrite K]. rewrite descend_follow. change (map txt (["Metadata"; "Information"; "Dimensions"]%string ++ q)) with (DIMENSIONS ++ map txt q). fold (spec_of q).
  rewrite <- F. apply (puts_other (map (fun '(q, v) => (spec_of q, v)) l) (spec_of q) n1 n'); [|exact H].
  intros sts u I. apply in_map_iff in I. destruct I as ([q' u'] & E & I). assert (E1 : spec_of q' = sts /\ u' = u) by (split; congruence). destruct E1 as [<- <-]. split; [apply (D q' u'); now right|now apply (A1 q' u')].
Qed.
Definition some_text (q : list string) (o : option str) : list (list string * str) := match o with Some v => [(q, v)] | None => [] end.
Definition number_text (x : spec_float) : option str := if valid_scale x then Some (dbl_text x) else None.
Definition time_text (o : option datetime) : option str := match o with Some d => match to_xml d with Ok s => Some s | _ => None end | None => None end.
Definition writes_of (f : xml -> res xml) (l : list (list string * str)) : Prop := forall n n', is_element n -> f n = Ok n' -> puts (map (fun '(q, v) => (spec_of q, v)) l) n = Ok n'.
Lemma writes_bind f g a b : writes_of f a -> writes_of g b -> writes_of (fun t => let* t1 := f t in g t1) (a ++ b).
Proof.
  intros F G n n' E H. destruct (f n) as [n1| | |] eqn:Fn; cbn [bind] in H; try discriminate. pose proof (F n n1 E Fn) as P. rewrite map_app, puts_app, P. cbn [bind]. apply G; [|exact H]. now apply (puts_elem _ n n1 E P).
Qed.
Lemma writes_ok : writes_of Ok [].
Proof. intros n n' _ H. exact H. Qed.
Lemma writes_write p q v : path_of (dimensions ++ txt p) = Some (spec_of q) -> writes_of (write (dimensions ++ txt p) v) [(q, v)].
Proof. intros P n n' E H. rewrite write_edit, (edit_path _ _ _ _ P E) in H. cbn [map puts]. now rewrite H. Qed.
Lemma writes_dbl p q x : path_of (dimensions ++ txt p) = Some (spec_of q) -> writes_of (write_dbl p x) (some_text q (number_text x)).
Proof. intros P. unfold write_dbl, number_text. destruct (valid_scale x); [now apply writes_write|exact writes_ok]. Qed.
Lemma writes_time o : writes_of (write_time o) (some_text ["T"; "StartTime"]%string (time_text o)).
Proof.
  intros n n' E H. unfold write_time, time_text in *. destruct o as [d|]; [|exact H]. destruct (to_xml d) as [s| | |] eqn:T; cbn [bind] in H; try discriminate. revert H. now apply writes_write.
Qed.
Lemma t_interval_writes start x inc : writes_of (write_t_interval start x inc)
  (some_text ["T"; "StartTime"]%string (time_text start) ++ some_text ["T"; "Positions"; "Interval"; "Start"]%string (number_text x) ++ some_text ["T"; "Positions"; "Interval"; "Increment"]%string (number_text inc)).
Proof. unfold write_t_interval. apply writes_bind; [apply writes_time|]. apply writes_bind; apply writes_dbl; vm_compute; reflexivity. Qed.
Lemma t_list_writes start l : writes_of (write_t_list start l)
  (some_text ["T"; "StartTime"]%string (time_text start) ++ some_text ["T"; "Positions"; "List"; "Offsets"]%string (option_map offsets_text l)).
Proof. unfold write_t_list. apply writes_bind; [apply writes_time|]. destruct l; [apply writes_write; vm_compute; reflexivity|exact writes_ok]. Qed.
Lemma z_interval_writes pos x inc : writes_of (write_z_interval pos x inc)
  (some_text ["Z"; "StartPosition"]%string (number_text pos) ++ some_text ["Z"; "Positions"; "Interval"; "Start"]%string (number_text x) ++ some_text ["Z"; "Positions"; "Interval"; "Increment"]%string (number_text inc)).
Proof. unfold write_z_interval. apply writes_bind; [apply writes_dbl; vm_compute; reflexivity|]. apply writes_bind; apply writes_dbl; vm_compute; reflexivity. Qed.
Lemma z_list_writes pos l : writes_of (write_z_list pos l)
  (some_text ["T"; "StartTime"]%string (number_text pos) ++ some_text ["Z"; "Positions"; "List"; "Offsets"]%string (option_map offsets_text l)).
Proof. unfold write_z_list. apply writes_bind; [apply writes_dbl; vm_compute; reflexivity|]. destruct l; [apply writes_write; vm_compute; reflexivity|exact writes_ok]. Qed.
Definition POSITIONS : list (list string) := [["T"; "StartTime"]; ["T"; "Positions"; "Interval"; "Start"]; ["T"; "Positions"; "Interval"; "Increment"]; ["T"; "Positions"; "List"; "Offsets"];
  ["Z"; "StartPosition"]; ["Z"; "Positions"; "Interval"; "Start"]; ["Z"; "Positions"; "Interval"; "Increment"]; ["Z"; "Positions"; "List"; "Offsets"]]%string.
Lemma positions_decent q : In q POSITIONS -> decent (spec_of q).
Proof. intros H. apply decentb_ok. revert q H. apply Forall_forall. repeat constructor. Qed.
Fixpoint separateb (a b : list str) : bool :=
  match a, b with x :: a, y :: b => negb (str_eqb x y) || separateb a b | _, _ => false end.
Lemma separateb_ok a b : separateb a b = true -> separate (plainly a) (plainly b).
Proof.
  revert b. induction a as [|x a IH]; intros [|y b]; cbn [separateb plainly map separate]; try discriminate. intros H. apply orb_true_iff in H. destruct H as [H|H]; [left|right; now apply IH].
  apply names_differ. now apply negb_true_iff in H.
Qed.
Lemma positions_separate q q' : In q POSITIONS -> In q' POSITIONS -> q <> q' -> separate (spec_of q') (spec_of q).
Proof.
  intros H H' Ne. apply separateb_ok. cbn [In POSITIONS] in H, H'. repeat (destruct H as [<-|H]; [repeat (destruct H' as [<-|H']; [first [now contradiction Ne|vm_compute; reflexivity]|]); destruct H'|]). destruct H.
Qed.
Lemma number_chars x v : number_text x = Some v -> chars v.
Proof. unfold number_text. destruct (valid_scale x); [intros [= <-]|discriminate]. apply solid_chars, print_g_solid. Qed.
Lemma time_chars o v : time_text o = Some v -> chars v.
Proof. unfold time_text. destruct o as [d|]; [|discriminate]. destruct (to_xml d) as [s| | |] eqn:T; try discriminate. intros [= <-]. apply solid_chars. now apply (to_xml_solid d). Qed.
Lemma in_some_text q o q' v : In (q', v) (some_text q o) <-> q' = q /\ o = Some v.
Proof. destruct o as [w|]; cbn [some_text In]; split; try easy; [intros [H|[]]|intros [-> H]; left]; [split|]; congruence. Qed.
Lemma writes_keep f l n n' : writes_of f l -> sound n -> f n = Ok n' -> (forall q v, In (q, v) l -> In q POSITIONS /\ chars v) -> NoDup (map fst l) -> keeps l n'.
Proof.
  intros W S H D N. pose proof (W n n' (proj1 S) H) as P. revert P. apply puts_keep; [exact S| |].
  - intros q v I. destruct (D q v I). split; [now apply positions_decent|assumption].
  - clear W H S. induction l as [|[q v] l IH]; [exact I|]. cbn [map fst] in N. inversion N as [|? ? N1 N2]; subst. cbn [apart]. split; [|apply IH; [intros; apply D; now right|exact N2]].
    intros q' v' I. apply positions_separate; [apply (D q v); now left|apply (D q' v'); now right|]. intros ->. apply N1. apply (in_map fst) in I. exact I.
Qed.
Ltac where_ok := let q := fresh "q" in let v := fresh "v" in let I := fresh "I" in
  intros q v I; repeat rewrite in_app_iff in I; repeat rewrite in_some_text in I; repeat destruct I as [I|I]; destruct I as [-> I]; (split; [unfold POSITIONS; repeat (first [left; reflexivity|right])|]); lazymatch type of I with number_text ?x = _ => exact (number_chars x v I) | time_text ?o = _ => exact (time_chars o v I) | _ => idtac end.
Ltac one_each := repeat match goal with |- context [some_text _ ?o] => destruct o; cbn [some_text] end; cbn [some_text app map fst]; repeat (apply NoDup_cons; [let X := fresh in cbn [In]; intros X; repeat (destruct X as [X|X]; [discriminate X|]); destruct X|]); apply NoDup_nil.
Theorem t_interval_kept start x inc n n' : sound n -> write_t_interval start x inc n = Ok n' ->
  (forall d s, start = Some d -> to_xml d = Ok s -> holds_text n' ["T"; "StartTime"]%string s) /\
  (valid_scale x = true -> holds_text n' ["T"; "Positions"; "Interval"; "Start"]%string (dbl_text x)) /\
  (valid_scale inc = true -> holds_text n' ["T"; "Positions"; "Interval"; "Increment"]%string (dbl_text inc)).
Proof.
  intros S H. assert (K : keeps (some_text ["T"; "StartTime"]%string (time_text start) ++ some_text ["T"; "Positions"; "Interval"; "Start"]%string (number_text x) ++ some_text ["T"; "Positions"; "Interval"; "Increment"]%string (number_text inc)) n') by (apply (writes_keep _ _ n n' (t_interval_writes start x inc) S H); [where_ok|one_each]). split; [|split].
  - intros d s -> T. apply K. repeat rewrite in_app_iff. left. apply in_some_text. unfold time_text. now rewrite T.
  - intros V. apply K. repeat rewrite in_app_iff. right. left. apply in_some_text. unfold number_text. now rewrite V.
  - intros V. apply K. repeat rewrite in_app_iff. right. right. apply in_some_text. unfold number_text. now rewrite V.
Qed.
Theorem t_list_kept start l n n' : sound n -> write_t_list start l n = Ok n' ->
  (forall d s, start = Some d -> to_xml d = Ok s -> holds_text n' ["T"; "StartTime"]%string s) /\
  (forall xs, l = Some xs -> holds_text n' ["T"; "Positions"; "List"; "Offsets"]%string (offsets_text xs)).
Proof.
  intros S H. assert (K : keeps (some_text ["T"; "StartTime"]%string (time_text start) ++ some_text ["T"; "Positions"; "List"; "Offsets"]%string (option_map offsets_text l)) n').
  { apply (writes_keep _ _ n n' (t_list_writes start l) S H); [where_ok|one_each]. destruct l; [|discriminate]. cbn in I. injection I as <-. apply offsets_chars. }
  split.
  - intros d s -> T. apply K. rewrite in_app_iff. left. apply in_some_text. unfold time_text. now rewrite T.
  - intros xs ->. apply K. rewrite in_app_iff. right. apply in_some_text. split; reflexivity.
Qed.
Theorem z_interval_kept pos x inc n n' : sound n -> write_z_interval pos x inc n = Ok n' ->
  (valid_scale pos = true -> holds_text n' ["Z"; "StartPosition"]%string (dbl_text pos)) /\
  (valid_scale x = true -> holds_text n' ["Z"; "Positions"; "Interval"; "Start"]%string (dbl_text x)) /\
  (valid_scale inc = true -> holds_text n' ["Z"; "Positions"; "Interval"; "Increment"]%string (dbl_text inc)).
Proof.
  intros S H. assert (K : keeps (some_text ["Z"; "StartPosition"]%string (number_text pos) ++ some_text ["Z"; "Positions"; "Interval"; "Start"]%string (number_text x) ++ some_text ["Z"; "Positions"; "Interval"; "Increment"]%string (number_text inc)) n') by (apply (writes_keep _ _ n n' (z_interval_writes pos x inc) S H); [where_ok|one_each]). split; [|split].
  - intros V. apply K. repeat rewrite in_app_iff. left. apply in_some_text. unfold number_text. now rewrite V.
  - intros V. apply K. repeat rewrite in_app_iff. right. left. apply in_some_text. unfold number_text. now rewrite V.
  - intros V. apply K. repeat rewrite in_app_iff. right. right. apply in_some_text. unfold number_text. now rewrite V.
Qed.
Theorem z_list_kept pos l n n' : sound n -> write_z_list pos l n = Ok n' ->
  forall xs, l = Some xs -> holds_text n' ["Z"; "Positions"; "List"; "Offsets"]%string (offsets_text xs).
Proof.
  intros S H. assert (K : keeps (some_text ["T"; "StartTime"]%string (number_text pos) ++ some_text ["Z"; "Positions"; "List"; "Offsets"]%string (option_map offsets_text l)) n').
  { apply (writes_keep _ _ n n' (z_list_writes pos l) S H); [where_ok|one_each]. destruct l; [|discriminate]. cbn in I. injection I as <-. apply offsets_chars. }
  intros xs ->. apply K. rewrite in_app_iff. right. apply in_some_text. split; reflexivity.
Qed.
