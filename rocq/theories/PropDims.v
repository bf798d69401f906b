(** C91: dimensions and channels in the metadata. *)
From Coq Require Import String QArith Qabs Floats.SpecFloat.
From Verif Require Import Base RectModel TextModel CodesModel DateModel XmlModel XmlSpec PugiModel PugiSpec PugiTree FloatProofs ScaleNum NumModel NumSpec DocModel DocSpec DocTree DocInt DocProofs DocScale DocDims DocChan DispPoints DocList DateSpec DocZT DocImage.
Open Scope Z_scope.

(** Full statement: bounds of dimensions, positions in T and Z and channels which are written to the metadata of a document are
    what is read after it has been saved and loaded. *)

Definition empty_doc : list xml := [Elem ROOT [] []].
Definition some_bounds : bounds := [Some (5, 3); Some (2, 2); None; None; None; None; None; None; None].

(** false for bounds: the start of a dimension is not written *)
Theorem C91_start_refuted : exists b doc' d', tget b 1 = Some (5, 3) /\ on_root (write_statistics 10 20 b None) empty_doc = Ok doc' /\
  load (builder_get_xml false doc') = Ok d' /\ dim_info 1 d' = Some (mkD 0 3 false true).
Proof. exists some_bounds. do 2 eexists. split; [reflexivity|]. split; [vm_compute; reflexivity|]. split; [vm_compute; reflexivity|]. vm_compute. reflexivity. Qed.
Print Assumptions C91_start_refuted.
(** the sizes of all dimensions, of the image and of the M index are read as written; dimensions without bounds and starts stay as they were *)
Theorem C91_sizes_partial : forall ind w h b m doc doc', buildable doc -> (forall k st sz, tget b k = Some (st, sz) -> in_i32 sz) ->
  on_root (write_statistics w h b m) doc = Ok doc' ->
  exists d d', load (builder_get_xml ind doc) = Ok d /\ load (builder_get_xml ind doc') = Ok d' /\
    size_text 88 d' = Some (dec w) /\ size_text 89 d' = Some (dec h) /\
    size_text 77 d' = match m with Some (lo, hi) => Some (dec (hi - lo + 1)) | None => size_text 77 d end /\
    forall k, In k dims -> dim_info k d' = match tget b k with Some (_, size) => Some (sized size (dim_info k d)) | None => dim_info k d end.
Proof. exact sizes_read. Qed.
Print Assumptions C91_sizes_partial.
Example C91_sizes_meets : buildable empty_doc /\ (forall k st sz, tget some_bounds k = Some (st, sz) -> in_i32 sz).
Proof.
  split; [exact fresh_buildable|]. intros k st sz. unfold tget, some_bounds. destruct (Z.to_nat (k - 1)) as [|[|[|[|[|[|[|[|[|n]]]]]]]]]; cbn [nth]; try discriminate; [..|now destruct n]; intros [= <- <-]; unfold in_i32, INT_MIN, INT_MAX; lia.
Qed.
Example C91_sizes_example : exists doc1 d, on_root (write_statistics 10 20 some_bounds (Some (3, 7)))
    [Elem ROOT [] [Elem (txt "Metadata") [] [Elem (txt "Information") [] [Elem (txt "Image") [] [Elem (txt "SizeT") [] [Text (txt "9")]; Elem (txt "StartZ") [] [Text (txt "4")]]]]]] = Ok doc1 /\
  load (builder_get_xml true doc1) = Ok d /\ size_text 77 d = Some (txt "5") /\ enum_dimensions d = [1; 2; 3] /\
  dim_info 1 d = Some (mkD 4 3 true true) /\ dim_info 2 d = Some (mkD 0 2 false true) /\ dim_info 3 d = Some (mkD 0 9 false true).
Proof. do 2 eexists. split; [vm_compute; reflexivity|]. split; [vm_compute; reflexivity|]. vm_compute. repeat split. Qed.
(** the interval of a dimension which is read has the length which was written *)
Theorem C91_interval_partial : forall ind w h b m doc doc', buildable doc -> (forall k st sz, tget b k = Some (st, sz) -> in_i32 sz) ->
  on_root (write_statistics w h b m) doc = Ok doc' ->
  exists d d', load (builder_get_xml ind doc) = Ok d /\ load (builder_get_xml ind doc') = Ok d' /\
    forall k st sz, In k dims -> tget b k = Some (st, sz) ->
      exists i, dim_info k d' = Some i /\
        let start := match dim_info k d with Some o => d_start o | None => 0 end in
        in_i32 (start + sz) -> get_interval i = Ok (start, start + sz).
Proof. exact interval_read. Qed.
Print Assumptions C91_interval_partial.
Example C91_interval_example : get_interval (mkD 4 3 true true) = Ok (4, 7).
Proof. reflexivity. Qed.
(** the interval of a dimension overflows for texts of a document *)
Theorem C91_interval_refuted : exists doc i, dim_info 1 doc = Some i /\ get_interval i = UB.
Proof.
  exists [Elem ROOT [] [Elem (txt "Metadata") [] [Elem (txt "Information") [] [Elem (txt "Image") [] [Elem (txt "StartZ") [] [Text (txt "2147483647")]]]]]].
  eexists. split; [vm_compute; reflexivity|vm_compute; reflexivity].
Qed.
Print Assumptions C91_interval_refuted.

(** false for positions: what is written is elsewhere and not read *)
Theorem C91_positions_refuted : exists doc' d', on_root (write_z_interval (S754_zero false) (S754_zero false) (S754_finite false 1 0)) empty_doc = Ok doc' /\
  load (builder_get_xml false doc') = Ok d' /\ get_zinfo d' = Ok None.
Proof. do 2 eexists. split; [vm_compute; reflexivity|]. split; [vm_compute; reflexivity|]. vm_compute. reflexivity. Qed.
Print Assumptions C91_positions_refuted.
(** whatever is written: what is read about T and Z is the same as before *)
Theorem C91_positions_unread : forall ind f doc doc',
  (exists start x inc, f = write_t_interval start x inc) \/ (exists start l, f = write_t_list start l) \/
  (exists pos x inc, f = write_z_interval pos x inc) \/ (exists pos l, f = write_z_list pos l) ->
  buildable doc -> on_root f doc = Ok doc' ->
  exists d d', load (builder_get_xml ind doc) = Ok d /\ load (builder_get_xml ind doc') = Ok d' /\ get_tinfo d' = get_tinfo d /\ get_zinfo d' = get_zinfo d.
Proof.
  intros ind f doc doc' H. apply aside_unread. destruct H as [(s & x & i & ->)|[(s & l & ->)|[(p & x & i & ->)|(p & l & ->)]]];
    [apply t_interval_aside|apply t_list_aside|apply z_interval_aside|apply z_list_aside].
Qed.
Print Assumptions C91_positions_unread.
(** the start position given with a list of positions in Z is written as start time of T *)
Example C91_start_time : exists t, write_z_list (S754_finite false 3 0) None (Elem ROOT [] []) = Ok t /\ read (txt "Metadata/Information/Dimensions/T/StartTime") t = Ok (Some (txt "3")).
Proof. eexists. split; [vm_compute; reflexivity|vm_compute; reflexivity]. Qed.
(** the text of a list of positions, where it is read, gives the numbers back, up to fifteen digits *)
Theorem C91_offsets_partial : forall n o l, descend [txt "Positions"; txt "Interval"] n = None -> descend [txt "Positions"; txt "List"; txt "Offsets"] n = Some o ->
  text o = offsets_text l -> Forall ordinary l -> exists ys, get_positions n = Ok (PosList ys) /\ Forall2 close l ys.
Proof. exact positions_list. Qed.
Print Assumptions C91_offsets_partial.
Example C91_offsets_example : let l := [S754_zero false; S754_finite false 3 (-1); S754_finite true 5 10] in offsets_text l = txt "0 1.5 -5120" /\
  number_list (split_tokens 32 (offsets_text l)) = Ok [S754_zero false; S754_finite false 6755399441055744 (-52); S754_finite true 5629499534213120 (-40)].
Proof. vm_compute. split; reflexivity. Qed.
(** the list ends at the first word which is a number followed by something else *)
Theorem C91_offsets_end : forall n o l x c r rest,
  descend [txt "Positions"; txt "Interval"] n = None -> descend [txt "Positions"; txt "List"; txt "Offsets"] n = Some o ->
  Forall ordinary l -> ordinary x -> ends (c :: r) -> is_space c = false -> 0 <= c <= 255 -> ~ In 32 (c :: r) -> (forall s, In s rest -> ~ In 32 s) ->
  text o = join 32 (map dbl_text l ++ (dbl_text x ++ c :: r) :: rest) -> exists ys, get_positions n = Ok (PosList ys) /\ Forall2 close l ys.
Proof. exact positions_end. Qed.
Print Assumptions C91_offsets_end.
Example C91_offsets_end_meets : let l := [S754_zero false; S754_zero true] in Forall ordinary l /\ ends (txt "mm") /\ is_space 109 = false /\ ~ In 32 (txt "mm") /\
  txt "0 -0 0mm 7" = join 32 (map dbl_text l ++ (dbl_text (S754_zero false) ++ txt "mm") :: [txt "7"]) /\
  number_list (split_tokens 32 (txt "0 -0 0mm 7")) = Ok l.
Proof.
  split; [repeat constructor; eexists; reflexivity|]. split; [repeat split; discriminate|]. split; [reflexivity|].
  split; [intros [H|[H|[]]]; discriminate|]. split; vm_compute; reflexivity.
Qed.
(** what a document says about Z where it is looked for is read (except for the drive mode) *)
Theorem C91_z_read_partial : forall doc n z,
  get_node [txt "Metadata"; txt "Information"; txt "Image"; txt "Dimensions"; txt "Z"] doc = Some n -> get_zinfo doc = Ok (Some z) ->
  (forall h w, names_hand h w -> reads_word n ["XYZHandedness"%string] w -> z_hand z = Some h) /\
  (forall a w, names_axis a w -> reads_word n ["ZAxisDirection"%string] w -> z_axis z = Some a) /\
  (forall x, ordinary x -> reads n ["StartPosition"%string] (dbl_text x) -> read_close x (z_start z)) /\
  (forall x, ordinary x -> reads n ["ZDriveSpeed"%string] (dbl_text x) -> read_close x (z_speed z)) /\
  (forall x y, ordinary x -> ordinary y -> reads n ["Positions"; "Interval"; "Start"]%string (dbl_text x) -> reads n ["Positions"; "Interval"; "Increment"]%string (dbl_text y) ->
     exists x' y', z_pos z = PosInterval x' y' /\ close x x' /\ close y y').
Proof. exact z_read. Qed.
Print Assumptions C91_z_read_partial.
Definition z_said : xml := Elem (txt "Z") [] [Elem (txt "StartPosition") [] [Text (txt "1.5")]; Elem (txt "XYZHandedness") [] [Text (txt " RightHanded")];
  Elem (txt "ZAxisDirection") [] [Text (txt "FromObjectiveToSpecimen")]; Elem (txt "ZDriveSpeed") [] [Text (txt "0")];
  Elem (txt "Positions") [] [Elem (txt "Interval") [] [Elem (txt "Start") [] [Text (txt "0")]; Elem (txt "Increment") [] [Text (txt "-0")]]]].
Definition in_dimensions (n : xml) : list xml := [Elem ROOT [] [Elem (txt "Metadata") [] [Elem (txt "Information") [] [Elem (txt "Image") [] [Elem (txt "Dimensions") [] [n]]]]]].
Example C91_z_read_meets : get_node [txt "Metadata"; txt "Information"; txt "Image"; txt "Dimensions"; txt "Z"] (in_dimensions z_said) = Some z_said /\
  get_zinfo (in_dimensions z_said) = Ok (Some (mkZ (Some (S754_finite false 6755399441055744 (-52))) (Some 1) (Some 1) None (Some (S754_zero false)) (PosInterval (S754_zero false) (S754_zero true)))) /\
  reads_word z_said ["XYZHandedness"%string] "RightHanded" /\ reads z_said ["Positions"; "Interval"; "Increment"]%string (dbl_text (S754_zero true)) /\ ordinary (S754_zero true).
Proof.
  split; [reflexivity|]. split; [vm_compute; reflexivity|]. split; [exists [32], []; split; [repeat constructor|split; [constructor|eexists; split; reflexivity]]|].
  split; [eexists; split; reflexivity|left; eexists; reflexivity].
Qed.
(** ... and about T *)
Theorem C91_t_read : forall doc n t,
  get_node [txt "Metadata"; txt "Information"; txt "Image"; txt "Dimensions"; txt "T"] doc = Some n -> get_tinfo doc = Ok (Some t) ->
  (forall d s, iso s d -> reads n ["StartTime"%string] s -> t_start t = Some d) /\
  (forall x y, ordinary x -> ordinary y -> reads n ["Positions"; "Interval"; "Start"]%string (dbl_text x) -> reads n ["Positions"; "Interval"; "Increment"]%string (dbl_text y) ->
     exists x' y', t_pos t = PosInterval x' y' /\ close x x' /\ close y y').
Proof. exact t_read. Qed.
Print Assumptions C91_t_read.
Definition t_said : xml := Elem (txt "T") [] [Elem (txt "StartTime") [] [Text (txt "2020-02-29T12:00:00Z")];
  Elem (txt "Positions") [] [Elem (txt "Interval") [] [Elem (txt "Start") [] [Text (txt "0")]; Elem (txt "Increment") [] [Text (txt "-0")]]]].
Example C91_t_read_meets : get_node [txt "Metadata"; txt "Information"; txt "Image"; txt "Dimensions"; txt "T"] (in_dimensions t_said) = Some t_said /\
  exists d, get_tinfo (in_dimensions t_said) = Ok (Some (mkT (Some d) (PosInterval (S754_zero false) (S754_zero true)))) /\ reads t_said ["StartTime"%string] (txt "2020-02-29T12:00:00Z").
Proof. split; [reflexivity|]. eexists. split; [vm_compute; reflexivity|eexists; split; reflexivity]. Qed.
(** a number too large for a double in a list is an exception instead of an end of the list *)
Theorem C91_range_refuted : exists doc, get_tinfo doc = Throw.
Proof.
  exists [Elem ROOT [] [Elem (txt "Metadata") [] [Elem (txt "Information") [] [Elem (txt "Image") [] [Elem (txt "Dimensions") [] [Elem (txt "T") []
    [Elem (txt "Positions") [] [Elem (txt "List") [] [Elem (txt "Offsets") [] [Text (txt "0 1e400")]]]]]]]]]]. vm_compute. reflexivity.
Qed.
Print Assumptions C91_range_refuted.
(** the drive mode is read from the axis direction: never both are reported, whatever the document says *)
Theorem C91_drive_mode_refuted : forall doc z, get_zinfo doc = Ok (Some z) -> z_mode z = None \/ z_axis z = None.
Proof. exact zmode_axis. Qed.
Print Assumptions C91_drive_mode_refuted.
Example C91_drive_mode_case : exists z, get_zinfo [Elem ROOT [] [Elem (txt "Metadata") [] [Elem (txt "Information") [] [Elem (txt "Image") [] [Elem (txt "Dimensions") [] [Elem (txt "Z") []
  [Elem (txt "ZAxisDirection") [] [Text (txt "FromSpecimenToObjective")]; Elem (txt "ZDriveMode") [] [Text (txt "Step")]]]]]]]] = Ok (Some z) /\ z_mode z = None /\ z_axis z = Some 0.
Proof. eexists. split; [vm_compute; reflexivity|]. split; reflexivity. Qed.

(** the metadata prepared by a writer: sizes of all dimensions *)
Theorem C91_prepared : forall ind w h b m types nc names t, prepared_metadata w h b m types nc names = Ok t -> (forall k st sz, tget b k = Some (st, sz) -> in_i32 sz) ->
  (forall start size, tget b 2 = Some (start, size) -> good_names (channels_of start size) names) ->
  exists d, load (builder_get_xml ind [t]) = Ok d /\ size_text 88 d = Some (dec w) /\ size_text 89 d = Some (dec h) /\
    size_text 77 d = match m with Some (lo, hi) => Some (dec (hi - lo + 1)) | None => None end /\
    forall k, In k dims -> dim_info k d = match tget b k with Some (_, size) => Some (mkD 0 size false true) | None => None end.
Proof. exact prepared_sizes. Qed.
Print Assumptions C91_prepared.
(** and the channels in their order with identifier, name and pixel type *)
Theorem C91_channels_partial : forall ind w h b m types nc names t start size, prepared_metadata w h b m types nc names = Ok t -> tget b 2 = Some (start, size) -> 0 < size ->
  good_names (channels_of start size) names ->
  exists d, load (builder_get_xml ind [t]) = Ok d /\
    get_channels d = Some (map (fun c => mkCh (Some (fst (names c))) (snd (names c)) (match pixel_of types c with Some p => kept_type p | None => None end)) (channels_of start size)).
Proof. exact channels_read. Qed.
Print Assumptions C91_channels_partial.
Theorem C91_prepared_total : forall w h b m types nc names, (forall lo hi, m = Some (lo, hi) -> hi - lo + 1 <= INT_MAX) ->
  (forall start size, tget b 2 = Some (start, size) -> in_i32 (start + size) /\ good_names (channels_of start size) names) ->
  exists t, prepared_metadata w h b m types nc names = Ok t.
Proof. exact prepared_total. Qed.
Print Assumptions C91_prepared_total.
Theorem C91_default_names : forall start size, in_i32 start -> in_i32 (start + size) -> good_names (channels_of start size) default_names.
Proof. exact default_good. Qed.
Print Assumptions C91_default_names.
Example C91_channels_example : exists t d, prepared_metadata 10 20 some_bounds (Some (0, 3)) [(2, 3); (3, 0)] None default_names = Ok t /\
  load (builder_get_xml true [t]) = Ok d /\ get_channels d = Some [mkCh (Some (txt "Channel:2")) None (Some Bgr24); mkCh (Some (txt "Channel:3")) None (Some Gray8)].
Proof. do 2 eexists. split; [vm_compute; reflexivity|]. split; [vm_compute; reflexivity|]. vm_compute. reflexivity. Qed.
(** false for names with a comma: the path of the channel is invalid; and for pixel types without a word *)
Theorem C91_comma_refuted : prepared_metadata 10 20 some_bounds None [] None (fun c => (txt "Channel:" ++ dec c, Some (txt "red, far"))) = Throw.
Proof. vm_compute. reflexivity. Qed.
Print Assumptions C91_comma_refuted.
Theorem C91_types_refuted : exists t d, prepared_metadata 10 20 some_bounds None [(2, 12); (3, 13)] None default_names = Ok t /\ load (builder_get_xml true [t]) = Ok d /\
  pixel_of [(2, 12); (3, 13)] 2 = Some Gray32 /\ option_map (map c_pixel) (get_channels d) = Some [None; None].
Proof. do 2 eexists. split; [vm_compute; reflexivity|]. split; [vm_compute; reflexivity|]. vm_compute. split; reflexivity. Qed.
Print Assumptions C91_types_refuted.

(** The channels of a document are read with the pixel types, identifications and names given there. *)
Theorem C91_channel_words : forall doc n, get_node [txt "Metadata"; txt "Information"; txt "Image"; txt "Dimensions"; txt "Channels"] doc = Some n ->
  exists l, get_channels doc = Some l /\ Forall2 says_channel (elements "Channel" (kids_of n)) l.
Proof. exact channels_said. Qed.
Print Assumptions C91_channel_words.
Definition words_doc : list xml := [Elem ROOT [] [Elem (txt "Metadata") [] [Elem (txt "Information") [] [Elem (txt "Image") [] [Elem (txt "Dimensions") [] [Elem (txt "Channels") []
  [Elem (txt "Note") [] []; Elem (txt "Channel") [(txt "Id", txt "a"); (txt "Name", txt "DAPI")] [Elem (txt "PixelType") [] [Text (txt "Gray64Float")]]]]]]]]].
Example C91_channel_words_meets : (exists n, get_node [txt "Metadata"; txt "Information"; txt "Image"; txt "Dimensions"; txt "Channels"] words_doc = Some n /\
    exists c, elements "Channel" (kids_of n) = [c] /\ names_pixel Gray64Float "Gray64Float" /\ reads c ["PixelType"%string] (txt "Gray64Float") /\ has_attribute c "Name" (txt "DAPI")) /\
  get_channels words_doc = Some [mkCh (Some (txt "a")) (Some (txt "DAPI")) (Some Gray64Float)].
Proof.
  split; [|vm_compute; reflexivity]. eexists. split; [vm_compute; reflexivity|]. eexists. split; [vm_compute; reflexivity|]. split; [constructor|]. split.
  - eexists. split; vm_compute; reflexivity.
  - exists [(txt "Id", txt "a")], []. split; [reflexivity|]. constructor; [|constructor]. vm_compute. discriminate.
Qed.

(** Where positions are written (Metadata/Information/Dimensions, which is not where they are read) they can be found. *)
Theorem C91_t_interval_kept : forall start x inc n n', sound n -> write_t_interval start x inc n = Ok n' ->
  (forall d s, start = Some d -> to_xml d = Ok s -> holds_text n' ["T"; "StartTime"]%string s) /\
  (valid_scale x = true -> holds_text n' ["T"; "Positions"; "Interval"; "Start"]%string (dbl_text x)) /\
  (valid_scale inc = true -> holds_text n' ["T"; "Positions"; "Interval"; "Increment"]%string (dbl_text inc)).
Proof. exact t_interval_kept. Qed.
Print Assumptions C91_t_interval_kept.
Theorem C91_t_list_kept : forall start l n n', sound n -> write_t_list start l n = Ok n' ->
  (forall d s, start = Some d -> to_xml d = Ok s -> holds_text n' ["T"; "StartTime"]%string s) /\
  (forall xs, l = Some xs -> holds_text n' ["T"; "Positions"; "List"; "Offsets"]%string (offsets_text xs)).
Proof. exact t_list_kept. Qed.
Print Assumptions C91_t_list_kept.
Theorem C91_z_interval_kept : forall pos x inc n n', sound n -> write_z_interval pos x inc n = Ok n' ->
  (valid_scale pos = true -> holds_text n' ["Z"; "StartPosition"]%string (dbl_text pos)) /\
  (valid_scale x = true -> holds_text n' ["Z"; "Positions"; "Interval"; "Start"]%string (dbl_text x)) /\
  (valid_scale inc = true -> holds_text n' ["Z"; "Positions"; "Interval"; "Increment"]%string (dbl_text inc)).
Proof. exact z_interval_kept. Qed.
Print Assumptions C91_z_interval_kept.
Theorem C91_z_list_kept : forall pos l n n', sound n -> write_z_list pos l n = Ok n' ->
  forall xs, l = Some xs -> holds_text n' ["Z"; "Positions"; "List"; "Offsets"]%string (offsets_text xs).
Proof. exact z_list_kept. Qed.
Print Assumptions C91_z_list_kept.
Example C91_kept_meets : let n := Elem ROOT [] [] in sound n /\
  (exists n', write_t_interval None (S754_finite false 3 0) (S754_finite false 1 (-1)) n = Ok n' /\ holds_text n' ["T"; "Positions"; "Interval"; "Increment"]%string (txt "0.5")) /\
  (exists n', write_z_list (S754_finite false 3 0) (Some [S754_finite false 3 0; S754_finite false 1 (-1)]) n = Ok n' /\ holds_text n' ["Z"; "Positions"; "List"; "Offsets"]%string (txt "3 0.5")).
Proof.
  split; [|split]; [|eexists; split; [vm_compute; reflexivity|]; eexists; split; vm_compute; reflexivity..].
  exact root_sound.
Qed.

(** The pixel type of the image is that of the first channel which has a valid one, or of the sub-blocks without channel. *)
Theorem C91_image_type_partial : forall ind w h b m types nc names t p v, prepared_metadata w h b m types nc names = Ok t -> names_pixel p v -> pixel_word p <> None ->
  match tget b 2 with
  | Some (start, size) => good_names (channels_of start size) names /\
      exists c, start <= c < start + size /\ pixel_of types c = Some p /\ forall c', start <= c' < c -> pixel_of types c' = None \/ pixel_of types c' = Some PixInvalid
  | None => exists k, nc = Some k /\ pixel_type_from_int k = p
  end ->
  exists d, load (builder_get_xml ind [t]) = Ok d /\ image_type d (txt v).
Proof. exact image_type_read. Qed.
Print Assumptions C91_image_type_partial.
(** channel 2 of an unknown pixel type, channel 3 of Bgr24 *)
Example C91_image_type_meets : tget some_bounds 2 = Some (2, 2) /\ (exists t d, prepared_metadata 10 20 some_bounds None [(2, 77); (3, 3)] None default_names = Ok t /\
    load (builder_get_xml true [t]) = Ok d /\ image_type d (txt "Bgr24")) /\
  pixel_of [(2, 77); (3, 3)] 2 = Some PixInvalid /\ pixel_of [(2, 77); (3, 3)] 3 = Some Bgr24 /\ good_names (channels_of 2 2) default_names.
Proof.
  split; [reflexivity|]. split; [|split; [reflexivity|split; [reflexivity|apply default_good; unfold in_i32, INT_MIN, INT_MAX; lia]]]. do 2 eexists. split; [vm_compute; reflexivity|]. split; [vm_compute; reflexivity|].
  eexists. split; vm_compute; reflexivity.
Qed.
