(** What the JSON texts handed out by the C API say (JsonModel, JsonSpec). *)
From Coq Require Import String Floats.SpecFloat Sorted.
From Verif Require Import Base CodecModel TextModel TextProofs PugiModel PugiSpec DateModel DateSpec DateProofs CoordModel StatModel StatSpec PyrProofs NumModel DocModel GuidModel GuidSpec GuidProofs XmlProofs
  JsonModel JsonSpec JsonProofs JsonRead JsonWrite.
Open Scope Z_scope.
Local Open Scope list_scope.

(** ** Bytes *)
Definition bytesb (s : str) : bool := forallb (fun c => (0 <? c) && (c <? 256)) s.
Lemma bytes_b s : bytesb s = true -> bytes_text s.
Proof. intro H. unfold bytesb in H. rewrite forallb_forall in H. apply Forall_forall. intros c I. specialize (H c I). lia. Qed.
Lemma bytes_app a b : bytes_text a -> bytes_text b -> bytes_text (a ++ b).
Proof. intros. apply Forall_app. auto. Qed.
Lemma utf8_bytes s : chars s -> bytes_text (utf8_encode s).
Proof.
  induction 1 as [|c s C S IH]; [constructor|]. unfold utf8_encode in *. cbn [flat_map]. apply bytes_app; [|exact IH].
  unfold utf8_char, bytes_text. destruct (Z.ltb_spec c 128); [constructor; [lia|constructor]|]. destruct (Z.ltb_spec c 2048); [constructor; [lia|constructor; [lia|constructor]]|].
  destruct (Z.ltb_spec c 65536); [constructor; [lia|constructor; [lia|constructor; [lia|constructor]]]|].
  constructor; [lia|constructor; [lia|constructor; [lia|constructor; [lia|constructor]]]].
Qed.
Lemma dec_bytes z : bytes_text (dec z).
Proof.
  assert (D : forall n v, 0 <= v -> bytes_text (dec_digits n v)).
  { induction n as [|n IH]; intros v V; cbn [dec_digits]; [constructor|]. destruct (Z.ltb_spec v 10); [constructor; [lia|constructor]|].
    apply bytes_app; [apply IH; lia|constructor; [lia|constructor]]. }
  unfold dec. destruct (Z.ltb_spec z 0); [constructor; [lia|]|]; apply D; lia.
Qed.
Lemma padded_bytes n v : bytes_text (padded n v).
Proof. apply bytes_app; [|apply dec_bytes]. induction (n - length (dec v))%nat; [constructor|constructor; [lia|assumption]]. Qed.
Lemma to_xml_bytes d s : to_xml d = Ok s -> bytes_text s.
Proof.
  unfold to_xml. destruct (negb (is_valid d)); [discriminate|]. intros [= <-].
  assert (O : forall c, 0 < c < 256 -> bytes_text [c]) by (intros; constructor; [lia|constructor]).
  repeat first [apply bytes_app; [apply padded_bytes|]|apply Forall_cons; [lia|]].
  destruct (t_utc d); [apply O; lia|]. destruct (has_offset d); [|constructor].
  apply bytes_app; [destruct (0 <=? t_offh d); [apply O; lia|constructor]|]. apply bytes_app; [apply padded_bytes|]. apply Forall_cons; [lia|apply padded_bytes].
Qed.

(** ** Members which may be there *)
Definition gather (l : list (string * option jd)) : list (str * jd) := flat_map (fun e => given (fst e) (snd e)) l.
Lemma in_given key o k d : In (k, d) (given key o) <-> k = txt key /\ o = Some d.
Proof.
  unfold given. destruct o as [d'|]; cbn [In]; split.
  - intros [[= <- <-]|[]]. auto.
  - intros (-> & [= ->]). auto.
  - intros [].
  - intros (_ & H). discriminate.
Qed.
Lemma in_gather l k d : In (k, d) (gather l) <-> exists name, In (name, Some d) l /\ k = txt name.
Proof.
  unfold gather. rewrite in_flat_map. split.
  - intros ([name o] & I & G). cbn [fst snd] in G. apply in_given in G as (-> & ->). eauto.
  - intros (name & I & ->). exists (name, Some d). split; [exact I|]. apply in_given. auto.
Qed.
Lemma gather_nodup l : NoDup (map (fun e => txt (fst e)) l) -> NoDup (map fst (gather l)).
Proof.
  induction l as [|[name o] l IH]; cbn [map]; intro H; [constructor|]. inversion H as [|? ? N R]; subst. unfold gather in *. cbn [flat_map fst snd].
  destruct o as [d|]; cbn [given app map]; [|now apply IH]. constructor; [|now apply IH]. cbn [fst] in *. intro I. apply N.
  apply in_map_iff in I as ([k d'] & E & I). apply (in_gather l) in I as (name' & I & ->). cbn [fst] in E. rewrite <- E. apply in_map_iff. exists (name', Some d'). auto.
Qed.
Section Objects.
  Variable dtoa : spec_float -> str.
  Lemma gather_says l (says : str -> jv -> Prop) : NoDup (map (fun e => txt (fst e)) l) ->
    (forall name d, In (name, Some d) l -> says (txt name) (meant dtoa d)) ->
    (forall k x, says k x -> exists name d, In (name, Some d) l /\ k = txt name) -> object_saying (meant dtoa (DObj (gather l))) says.
  Proof.
    intros N H1 H2. cbn [meant]. eexists. split; [reflexivity|]. rewrite map_map. cbn [fst]. split; [now apply gather_nodup|]. split.
    - intros k x I. apply in_map_iff in I as ([k' d] & E & I). cbn [fst snd] in E. injection E as <- <-. apply in_gather in I as (name & I & ->). now apply H1.
    - intros k x S. destruct (H2 k x S) as (name & d & I & ->). apply in_map_iff. exists (txt name, d). split; [reflexivity|]. apply in_gather. eauto.
  Qed.
  Lemma gather_plain l : (forall name d, In (name, Some d) l -> bytes_text (txt name) /\ plain dtoa d) -> plain dtoa (DObj (gather l)).
  Proof. intro H. constructor. apply Forall_forall. intros [k d] I. apply in_gather in I as (name & I & ->). cbn [fst snd]. now apply H. Qed.
  Lemma gather_hole l : has_hole (DObj (gather l)) <-> exists name d, In (name, Some d) l /\ has_hole d.
  Proof.
    split.
    - intro H. inversion H as [| | |? k d I D]; subst. apply in_gather in I as (name & I & ->). eauto.
    - intros (name & d & I & D). apply (HObj _ (txt name) d); [|exact D]. apply in_gather. eauto.
  Qed.
End Objects.

(** ** General information *)
Definition general_list (g : ginfo) : list (string * option jd) :=
  map (fun e => (fst e, option_map text_value (snd e))) (general_texts g) ++ [("rating"%string, option_map DInt (g_rating g))].
Lemma general_gather g : general_json g = DObj (gather (general_list g)).
Proof.
  unfold general_json. f_equal. unfold general_list, general_texts, gather. cbn [map app flat_map fst snd]. now rewrite app_nil_r.
Qed.
Lemma to_int_range s : Z.abs (to_int s) < 10 ^ 19.
Proof.
  unfold to_int. set (s2 := if _ : bool then _ else _). set (p := match hex_lead s2 with Some _ => _ | None => _ end).
  assert (P : 0 <= snd p < 2 ^ 32). { unfold p. destruct (hex_lead s2); cbn [snd]; unfold u32; lia. }
  destruct p as [o r]. cbn [snd] in P. pose proof (s32_range (u32 (- r))) as R. unfold in_i32, INT_MIN, INT_MAX in *.
  repeat match goal with |- context [if ?b then _ else _] => destruct b end; lia.
Qed.
Lemma general_rating doc r : g_rating (get_general doc) = Some r -> Z.abs r < 10 ^ 19.
Proof.
  unfold get_general. destruct (get_node _ doc) as [n|]; cbn [g_rating]; [|discriminate]. destruct (descend _ n) as [c|]; cbn [option_map]; [|discriminate].
  intros [= <-]. apply to_int_range.
Qed.
Lemma general_list_in g name d : In (name, Some d) (general_list g) <->
  (exists s, In (name, Some s) (general_texts g) /\ d = text_value s) \/ (name = "rating"%string /\ exists r, g_rating g = Some r /\ d = DInt r).
Proof.
  unfold general_list. rewrite in_app_iff, in_map_iff. split.
  - intros [([n o] & E & I)|[E|[]]].
    + cbn [fst snd] in E. injection E as <- E. destruct o as [s|]; cbn [option_map] in E; [|discriminate]. injection E as <-. left. eauto.
    + injection E as <- E. right. split; [reflexivity|]. destruct (g_rating g) as [r|]; cbn [option_map] in E; [|discriminate]. injection E as <-. eauto.
  - intros [(s & I & ->)|(-> & r & R & ->)].
    + left. exists (name, Some s). auto.
    + right. left. rewrite R. reflexivity.
Qed.
Lemma general_names g : NoDup (map (fun e => txt (fst e)) (general_list g)) /\ forall e, In e (general_list g) -> bytes_text (txt (fst e)).
Proof.
  assert (E : map (fun e => txt (fst e)) (general_list g) =
    map txt ["name"; "title"; "user_name"; "description"; "comment"; "keywords"; "creation_date_time"; "rating"]%string) by reflexivity.
  rewrite E. split.
  - repeat (constructor; [cbn [In map]; intro H; repeat (destruct H as [H|H]; [vm_compute in H; discriminate|]); destruct H|]). constructor.
  - intros e I. apply bytes_b. assert (In (txt (fst e)) (map (fun e => txt (fst e)) (general_list g))) as J by (apply in_map_iff; eauto). rewrite E in J.
    cbn [map In] in J. repeat (destruct J as [J|J]; [rewrite <- J; vm_compute; reflexivity|]). destruct J.
Qed.
Lemma general_said_json dtoa doc : (forall name s, In (name, Some s) (general_texts (get_general doc)) -> chars s) ->
  exists t v, api_general dtoa doc = (COk, Some t) /\ json_text t v /\ object_saying v (general_says (get_general doc)).
Proof.
  intro C. set (g := get_general doc) in *. unfold api_general. fold g. rewrite general_gather. destruct (general_names g) as (N & B).
  do 2 eexists. split; [reflexivity|]. split; [apply written|].
  - apply gather_plain. intros name d I. split; [apply (B (name, Some d)); exact I|]. apply general_list_in in I as [(s & I & ->)|(_ & r & R & ->)].
    + constructor. apply utf8_bytes. eapply C, I.
    + constructor. now apply (general_rating doc).
  - intro H. apply gather_hole in H as (name & d & I & H). apply general_list_in in I as [(s & _ & ->)|(_ & r & _ & ->)]; inversion H.
  - apply gather_says; [exact N| |].
    + intros name d I. apply general_list_in in I as [(s & I & ->)|(-> & r & R & ->)].
      * left. exists name, s. auto.
      * right. exists r. auto.
    + intros k x [(name & s & I & -> & _)|(r & R & -> & _)].
      * exists name, (text_value s). split; [|reflexivity]. apply general_list_in. left. eauto.
      * exists "rating"%string, (DInt r). split; [|reflexivity]. apply general_list_in. right. eauto.
Qed.

(** ** Positions *)
Definition interval_json (p : positions) : option jd := match p with PosInterval x i => Some (DArr [DDbl x; DDbl i]) | _ => None end.
Definition list_json (p : positions) : option jd := match p with PosList l => Some (DArr (map DDbl l)) | _ => None end.
Lemma positions_gather key p : positions_json key p = gather [("interval_definition"%string, interval_json p); (key, list_json p)].
Proof. destruct p; reflexivity. Qed.
Section Numbers.
  Variable dtoa : spec_float -> str.
  Lemma number_plain x : writes dtoa x -> plain dtoa (DDbl x).
  Proof. intro W. constructor. intro F. destruct (W F) as (s & [= <-] & T & _). exact T. Qed.
  Lemma numbers_plain l : (forall x, In x l -> writes dtoa x) -> plain dtoa (DArr (map DDbl l)).
  Proof. intro W. constructor. apply Forall_forall. intros d I. apply in_map_iff in I as (x & <- & I). now apply number_plain, W. Qed.
  Lemma number_hole x : has_hole (DDbl x) <-> finite x = false.
  Proof. split; [intro H; inversion H; reflexivity|]. destruct x; try discriminate; constructor. Qed.
  Lemma numbers_hole l : has_hole (DArr (map DDbl l)) <-> exists x, In x l /\ finite x = false.
  Proof.
    split.
    - intro H. inversion H as [| |? d I D|]; subst. apply in_map_iff in I as (x & <- & I). apply number_hole in D. eauto.
    - intros (x & I & F). apply (HArr _ (DDbl x)); [apply in_map_iff; eauto|now apply number_hole].
  Qed.
  Lemma positions_plain key p name d : (forall x, In x (position_numbers p) -> writes dtoa x) ->
    In (name, Some d) [("interval_definition"%string, interval_json p); (key, list_json p)] -> plain dtoa d.
  Proof.
    intros W [H|[H|[]]]; injection H as _ H; destruct p as [|x i|l]; try discriminate H; injection H as <-.
    - apply (numbers_plain [x; i]). exact W.
    - apply numbers_plain. exact W.
  Qed.
  Lemma positions_hole key p : (exists name d, In (name, Some d) [("interval_definition"%string, interval_json p); (key, list_json p)] /\ has_hole d) <->
    exists x, In x (position_numbers p) /\ finite x = false.
  Proof.
    split.
    - intros (name & d & [H|[H|[]]] & D); injection H as _ H; destruct p as [|x i|l]; try discriminate H; injection H as <-.
      + apply (numbers_hole [x; i]) in D. exact D.
      + apply numbers_hole in D. exact D.
    - intro H. destruct p as [|x i|l].
      + destruct H as (x & [] & _).
      + exists "interval_definition"%string, (DArr [DDbl x; DDbl i]). split; [now left|]. now apply (numbers_hole [x; i]).
      + exists key, (DArr (map DDbl l)). split; [right; now left|]. now apply numbers_hole.
  Qed.
  Lemma positions_said key p : (forall x, In x (position_numbers p) -> finite x = true /\ writes dtoa x) ->
    (forall name d, In (name, Some d) [("interval_definition"%string, interval_json p); (key, list_json p)] -> positions_say key p (txt name) (meant dtoa d)) /\
    (forall k x, positions_say key p k x -> exists name d, In (name, Some d) [("interval_definition"%string, interval_json p); (key, list_json p)] /\ k = txt name).
  Proof.
    intro W. assert (N : forall x, In x (position_numbers p) -> number_as x (VNum (dtoa x))) by (intros x I; destruct (W x I) as (F & Q); exact (Q F)). split.
    - intros name d [H|[H|[]]]; injection H as <- H; destruct p as [|x i|l]; try discriminate H; injection H as <-; cbn [positions_say meant].
      + split; [reflexivity|]. exists (VNum (dtoa x)), (VNum (dtoa i)). split; [reflexivity|]. split; apply N; cbn [position_numbers In]; auto.
      + split; [reflexivity|]. exists (map (fun x => VNum (dtoa x)) l). split; [now rewrite map_map|]. cbn [position_numbers] in N. clear W.
        induction l as [|x l IH]; cbn [map]; constructor; [apply N; now left|]. apply IH. intros y I. apply N. now right.
    - intros k x S. destruct p as [|a i|l]; cbn [positions_say] in S; [destruct S| |]; destruct S as (-> & _).
      + exists "interval_definition"%string, (DArr [DDbl a; DDbl i]). split; [now left|reflexivity].
      + exists key, (DArr (map DDbl l)). split; [right; now left|reflexivity].
  Qed.
End Numbers.

(** ** Z *)
Definition hand_words := ["left_handed"; "right_handed"; "undefined"]%string.
Definition axis_words := ["from_specimen_to_objective"; "from_objective_to_specimen"; "undefined"]%string.
Definition mode_words := ["continuous"; "step"]%string.
Definition z_list (z : zinfo) : list (string * option jd) :=
  [("reference_position"%string, option_map DDbl (z_start z))] ++ [("interval_definition"%string, interval_json (z_pos z)); ("position_list"%string, list_json (z_pos z))] ++
  [("xyz_handedness"%string, option_map (word_json hand_words) (z_hand z)); ("z_axis_direction"%string, option_map (word_json axis_words) (z_axis z));
   ("z_drive_mode"%string, option_map (word_json mode_words) (z_mode z)); ("z_drive_speed"%string, option_map DDbl (z_speed z))].
Lemma z_gather z : z_json z = DObj (gather (z_list z)).
Proof.
  unfold z_json. f_equal. rewrite positions_gather. unfold z_list, gather. rewrite !flat_map_app. cbn [flat_map fst snd]. now rewrite !app_nil_r.
Qed.
Lemma word_of_in s ws v : word_of s ws = Some v -> In v (map snd ws).
Proof. induction ws as [|[w x] ws IH]; cbn [word_of map snd]; [discriminate|]. destruct (str_eqb s (txt w)); [intros [= ->]; now left|]. intro H. right. auto. Qed.
Definition word_ok (o : option Z) (n : Z) : Prop := forall v, o = Some v -> 0 <= v < n.
Lemma z_words doc z : get_zinfo doc = Ok (Some z) -> word_ok (z_hand z) 3 /\ word_ok (z_axis z) 3 /\ word_ok (z_mode z) 2.
Proof.
  unfold get_zinfo. destruct (get_node _ doc) as [n|]; [|discriminate]. cbn zeta. intro H.
  apply bind_ok in H as (sp & _ & H). apply bind_ok in H as (ps & _ & H).
  apply (f_equal (fun r => match r with Ok (Some y) => y | _ => z end)) in H. cbn beta iota in H. subst z. cbn [z_hand z_axis z_mode].
  assert (W : forall o ws m, (forall x, In x (map snd ws) -> 0 <= x < m) -> word_ok (match o with Some c => word_of (TextModel.trim (text c)) ws | None => None end) m).
  { intros o ws m R v. destruct o; [|discriminate]. intro E. apply R. eapply word_of_in, E. }
  split; [apply W; cbn [map snd In]; lia|]. split; [apply W; cbn [map snd In]; lia|]. intros v. destruct (descend _ n); [|discriminate]. intro E.
  apply word_of_in in E. cbn [map snd In] in E. lia.
Qed.
Lemma z_names z : NoDup (map (fun e => txt (fst e)) (z_list z)) /\ forall e, In e (z_list z) -> bytes_text (txt (fst e)).
Proof.
  assert (E : map (fun e => txt (fst e)) (z_list z) =
    map txt ["reference_position"; "interval_definition"; "position_list"; "xyz_handedness"; "z_axis_direction"; "z_drive_mode"; "z_drive_speed"]%string) by reflexivity.
  rewrite E. split.
  - repeat (constructor; [cbn [In map]; intro H; repeat (destruct H as [H|H]; [vm_compute in H; discriminate|]); destruct H|]). constructor.
  - intros e I. apply bytes_b. assert (In (txt (fst e)) (map (fun e => txt (fst e)) (z_list z))) as J by (apply in_map_iff; eauto). rewrite E in J.
    cbn [map In] in J. repeat (destruct J as [J|J]; [rewrite <- J; vm_compute; reflexivity|]). destruct J.
Qed.
Lemma word_nth ws table o n v : (forall v, 0 <= v < n -> In (v, nth (Z.to_nat v) ws ""%string) table) -> word_ok o n -> o = Some v ->
  word_says o table (VStr (txt (nth (Z.to_nat v) ws ""%string))).
Proof. intros T W E. exists v, (nth (Z.to_nat v) ws ""%string). split; [exact E|]. split; [apply T, W, E|reflexivity]. Qed.
Lemma hand_table v : 0 <= v < 3 -> In (v, nth (Z.to_nat v) hand_words ""%string) handedness.
Proof. intro H. assert (v = 0 \/ v = 1 \/ v = 2) as [->|[->| ->]] by lia; cbn; auto. Qed.
Lemma axis_table v : 0 <= v < 3 -> In (v, nth (Z.to_nat v) axis_words ""%string) direction.
Proof. intro H. assert (v = 0 \/ v = 1 \/ v = 2) as [->|[->| ->]] by lia; cbn; auto. Qed.
Lemma mode_table v : 0 <= v < 2 -> In (v, nth (Z.to_nat v) mode_words ""%string) drive_mode.
Proof. intro H. assert (v = 0 \/ v = 1) as [->| ->] by lia; cbn; auto. Qed.
Lemma word_bytes ws v : forallb (fun w => bytesb (txt w)) ws = true -> bytes_text (txt (nth (Z.to_nat v) ws ""%string)).
Proof.
  intro H. rewrite forallb_forall in H. apply bytes_b. destruct (nth_in_or_default (Z.to_nat v) ws ""%string) as [I| ->]; [now apply H|reflexivity].
Qed.
Section ZText.
  Variable dtoa : spec_float -> str.
  Variable z : zinfo.
  Lemma z_plain : (forall x, In x (z_numbers z) -> writes dtoa x) -> plain dtoa (z_json z).
  Proof.
    intro W. rewrite z_gather. unfold z_numbers in W. apply gather_plain. intros name d I. destruct (z_names z) as (_ & B). split; [apply (B (name, Some d)); exact I|].
    unfold z_list in I. rewrite !in_app_iff in I. destruct I as [[I|[]]|[I|I]].
    - injection I as _ I. destruct (z_start z) as [x|]; [|discriminate]. injection I as <-. apply number_plain, W. cbn [opt_list app In]. auto.
    - eapply positions_plain; [|exact I]. intros x X. apply W. rewrite !in_app_iff. auto.
    - destruct I as [I|[I|[I|[I|[]]]]]; injection I as _ I.
      + destruct (z_hand z); [|discriminate]. injection I as <-. constructor. now apply word_bytes.
      + destruct (z_axis z); [|discriminate]. injection I as <-. constructor. now apply word_bytes.
      + destruct (z_mode z); [|discriminate]. injection I as <-. constructor. now apply word_bytes.
      + destruct (z_speed z) as [x|]; [|discriminate]. injection I as <-. apply number_plain, W. rewrite !in_app_iff. cbn [opt_list In]. auto.
  Qed.
  Lemma z_hole : has_hole (z_json z) <-> exists x, In x (z_numbers z) /\ finite x = false.
  Proof.
    rewrite z_gather, gather_hole. unfold z_numbers. split.
    - intros (name & d & I & D). unfold z_list in I. rewrite !in_app_iff in I. destruct I as [[I|[]]|[I|I]].
      + injection I as _ I. destruct (z_start z) as [x|]; [|discriminate]. injection I as <-. apply number_hole in D. exists x. cbn [opt_list app In]. auto.
      + destruct (proj1 (positions_hole "position_list" (z_pos z))) as (x & X & F); [eauto|]. exists x. rewrite !in_app_iff. auto.
      + destruct I as [I|[I|[I|[I|[]]]]]; injection I as _ I.
        * destruct (z_hand z); [|discriminate]. injection I as <-. inversion D.
        * destruct (z_axis z); [|discriminate]. injection I as <-. inversion D.
        * destruct (z_mode z); [|discriminate]. injection I as <-. inversion D.
        * destruct (z_speed z) as [x|]; [|discriminate]. injection I as <-. apply number_hole in D. exists x. rewrite !in_app_iff. cbn [opt_list In]. auto.
    - intros (x & I & F). unfold z_list. rewrite !in_app_iff in I. destruct I as [I|[I|I]].
      + destruct (z_start z) as [y|]; [|destruct I]. destruct I as [->|[]]. exists "reference_position"%string, (DDbl x). split; [now left|now apply number_hole].
      + destruct (proj2 (positions_hole "position_list" (z_pos z))) as (name & d & J & D); [eauto|]. exists name, d. split; [rewrite !in_app_iff; auto|exact D].
      + destruct (z_speed z) as [y|]; [|destruct I]. destruct I as [->|[]]. exists "z_drive_speed"%string, (DDbl x). split; [|now apply number_hole].
        rewrite !in_app_iff. right. right. cbn [option_map In]. auto.
  Qed.
  Lemma z_saying : word_ok (z_hand z) 3 -> word_ok (z_axis z) 3 -> word_ok (z_mode z) 2 -> (forall x, In x (z_numbers z) -> finite x = true /\ writes dtoa x) ->
    object_saying (meant dtoa (z_json z)) (z_says z).
  Proof.
    intros W1 W2 W3 W. unfold z_numbers in W. destruct (positions_said dtoa "position_list" (z_pos z)) as (P1 & P2); [intros x X; apply W; rewrite !in_app_iff; auto|].
    rewrite z_gather. apply gather_says; [apply z_names| |].
    - intros name d I. unfold z_list in I. rewrite !in_app_iff in I. destruct I as [[I|[]]|[I|I]].
      + injection I as <- I. left. split; [reflexivity|]. destruct (z_start z) as [x|]; [|discriminate]. injection I as <-. exists x. split; [reflexivity|].
        destruct (W x) as (F & Q); [cbn [opt_list app In]; auto|]. exact (Q F).
      + right. left. now apply P1.
      + destruct I as [I|[I|[I|[I|[]]]]]; injection I as <- I.
        * right. right. left. split; [reflexivity|]. destruct (z_hand z) as [v|] eqn:E; [|discriminate]. injection I as <-. rewrite <- E. rewrite <- E in W1.
          apply (word_nth hand_words handedness _ 3 v); [exact hand_table|exact W1|exact E].
        * right. right. right. left. split; [reflexivity|]. destruct (z_axis z) as [v|] eqn:E; [|discriminate]. injection I as <-. rewrite <- E. rewrite <- E in W2.
          apply (word_nth axis_words direction _ 3 v); [exact axis_table|exact W2|exact E].
        * right. right. right. right. left. split; [reflexivity|]. destruct (z_mode z) as [v|] eqn:E; [|discriminate]. injection I as <-. rewrite <- E. rewrite <- E in W3.
          apply (word_nth mode_words drive_mode _ 2 v); [exact mode_table|exact W3|exact E].
        * right. right. right. right. right. split; [reflexivity|]. destruct (z_speed z) as [x|]; [|discriminate]. injection I as <-. exists x. split; [reflexivity|].
          destruct (W x) as (F & Q); [rewrite !in_app_iff; cbn [opt_list In]; auto|]. exact (Q F).
    - intros k x S. unfold z_list. destruct S as [(-> & v & E & _)|[S|[(-> & v & w & E & _)|[(-> & v & w & E & _)|[(-> & v & w & E & _)|(-> & v & E & _)]]]]].
      + rewrite E. do 2 eexists. split; [now left|reflexivity].
      + destruct (P2 k x S) as (name & d & I & ->). exists name, d. split; [|reflexivity]. rewrite !in_app_iff. auto.
      + rewrite E. do 2 eexists. split; [rewrite !in_app_iff; right; right; cbn [option_map In]; auto|reflexivity].
      + rewrite E. do 2 eexists. split; [rewrite !in_app_iff; right; right; cbn [option_map In]; auto|reflexivity].
      + rewrite E. do 2 eexists. split; [rewrite !in_app_iff; right; right; cbn [option_map In]; auto|reflexivity].
      + rewrite E. do 2 eexists. split; [rewrite !in_app_iff; right; right; cbn [option_map In]; auto|reflexivity].
  Qed.
End ZText.
Lemma z_written dtoa doc z : get_zinfo doc = Ok (Some z) -> (forall x, In x (z_numbers z) -> finite x = true /\ writes dtoa x) ->
  exists t v, api_dimension dtoa 1 doc = Ok (COk, Some t) /\ json_text t v /\ object_saying v (z_says z).
Proof.
  intros G W. destruct (z_words doc z G) as (W1 & W2 & W3). unfold api_dimension. rewrite G. cbn [Z.eqb Pos.eqb]. do 2 eexists. split; [reflexivity|].
  split; [apply written|now apply z_saying].
  - apply z_plain. intros x X. apply W, X.
  - intro H. apply z_hole in H as (x & X & F). destruct (W x X). congruence.
Qed.
Lemma z_torn dtoa doc z x : get_zinfo doc = Ok (Some z) -> (forall x, In x (z_numbers z) -> writes dtoa x) -> In x (z_numbers z) -> finite x = false ->
  exists t, api_dimension dtoa 1 doc = Ok (COk, Some t) /\ forall v, ~ json_text t v.
Proof.
  intros G W X F. unfold api_dimension. rewrite G. cbn [Z.eqb Pos.eqb]. eexists. split; [reflexivity|]. intro v. apply torn; [now apply z_plain|].
  apply z_hole. eauto.
Qed.

(** ** T *)
Lemma t_dates doc t d : get_tinfo doc = Ok (Some t) -> t_start t = Some d -> exists s, to_xml d = Ok s.
Proof.
  unfold get_tinfo. destruct (get_node _ doc) as [n|]; [|discriminate]. intro H. apply bind_ok in H as (o & O & H). apply bind_ok in H as (ps & _ & H). injection H as <-.
  cbn [t_start]. intros ->. destruct (descend _ n) as [c|]; [|discriminate]. apply DateProofs.read_iff in O as (a & s & b & _ & _ & _ & neg & y & f & zn & _ & _ & C & _).
  apply writes_iff. unfold calendar in *. intuition lia.
Qed.
Definition t_list (start : option jd) (t : tinfo) : list (string * option jd) :=
  [("start_time"%string, start)] ++ [("interval_definition"%string, interval_json (t_pos t)); ("offset_list"%string, list_json (t_pos t))].
Lemma t_names start t : NoDup (map (fun e => txt (fst e)) (t_list start t)) /\ forall e, In e (t_list start t) -> bytes_text (txt (fst e)).
Proof.
  assert (E : map (fun e => txt (fst e)) (t_list start t) = map txt ["start_time"; "interval_definition"; "offset_list"]%string) by reflexivity.
  rewrite E. split.
  - repeat (constructor; [cbn [In map]; intro H; repeat (destruct H as [H|H]; [vm_compute in H; discriminate|]); destruct H|]). constructor.
  - intros e I. apply bytes_b. assert (In (txt (fst e)) (map (fun e => txt (fst e)) (t_list start t))) as J by (apply in_map_iff; eauto). rewrite E in J.
    cbn [map In] in J. repeat (destruct J as [J|J]; [rewrite <- J; vm_compute; reflexivity|]). destruct J.
Qed.
Lemma t_form doc t : get_tinfo doc = Ok (Some t) ->
  exists o, t_json t = Ok (DObj (gather (t_list o t))) /\
    match t_start t with Some d => exists s, to_xml d = Ok s /\ o = Some (DStr s) | None => o = None end.
Proof.
  intro G. unfold t_json. pose proof (t_dates doc t) as D. rewrite positions_gather. destruct (t_start t) as [d|].
  - destruct (D d G eq_refl) as (s & S). rewrite S. cbn [bind]. eexists (Some (DStr s)). split; [reflexivity|]. eauto.
  - cbn [bind]. exists None. split; reflexivity.
Qed.
Section TText.
  Variable dtoa : spec_float -> str.
  Variables (t : tinfo) (o : option jd).
  Hypothesis O : match t_start t with Some d => exists s, to_xml d = Ok s /\ o = Some (DStr s) | None => o = None end.
  Lemma start_in name d : In (name, Some d) [("start_time"%string, o)] -> name = "start_time"%string /\ exists dt s, t_start t = Some dt /\ to_xml dt = Ok s /\ d = DStr s.
  Proof.
    intros [H|[]]. injection H as <- H. split; [reflexivity|]. destruct (t_start t) as [dt|]; [|congruence]. destruct O as (s & S & E). rewrite E in H. injection H as <-. eauto.
  Qed.
  Lemma t_plain : (forall x, In x (position_numbers (t_pos t)) -> writes dtoa x) -> plain dtoa (DObj (gather (t_list o t))).
  Proof.
    intro W. apply gather_plain. intros name d I. split; [apply (proj2 (t_names o t) (name, Some d)); exact I|]. unfold t_list in I. apply in_app_iff in I as [I|I].
    - apply start_in in I as (_ & dt & s & _ & S & ->). constructor. eapply to_xml_bytes, S.
    - eapply positions_plain; eassumption.
  Qed.
  Lemma t_hole : has_hole (DObj (gather (t_list o t))) <-> exists x, In x (position_numbers (t_pos t)) /\ finite x = false.
  Proof.
    rewrite gather_hole. rewrite <- (positions_hole "offset_list" (t_pos t)). unfold t_list. split.
    - intros (name & d & I & D). apply in_app_iff in I as [I|I]; [|eauto]. apply start_in in I as (_ & dt & s & _ & _ & ->). inversion D.
    - intros (name & d & I & D). exists name, d. split; [apply in_app_iff; auto|exact D].
  Qed.
  Lemma t_saying : (forall x, In x (position_numbers (t_pos t)) -> finite x = true /\ writes dtoa x) -> object_saying (meant dtoa (DObj (gather (t_list o t)))) (t_says t).
  Proof.
    intro W. destruct (positions_said dtoa "offset_list" (t_pos t) W) as (P1 & P2). apply gather_says; [apply t_names| |].
    - intros name d I. unfold t_list in I. apply in_app_iff in I as [I|I]; [|right; now apply P1]. apply start_in in I as (-> & dt & s & E & S & ->).
      left. split; [reflexivity|]. exists dt, s. auto.
    - intros k x [(-> & d & s & E & S & ->)|S].
      + rewrite E in O. destruct O as (s' & _ & ->). do 2 eexists. split; [now left|reflexivity].
      + destruct (P2 k x S) as (name & d & I & ->). exists name, d. split; [|reflexivity]. unfold t_list. apply in_app_iff. auto.
  Qed.
End TText.
Lemma t_written dtoa doc t : get_tinfo doc = Ok (Some t) -> (forall x, In x (position_numbers (t_pos t)) -> finite x = true /\ writes dtoa x) ->
  exists s v, api_dimension dtoa 3 doc = Ok (COk, Some s) /\ json_text s v /\ object_saying v (t_says t).
Proof.
  intros G W. destruct (t_form doc t G) as (o & J & O). unfold api_dimension. cbn [Z.eqb Pos.eqb]. rewrite G, J. do 2 eexists. split; [reflexivity|].
  split; [apply written|now apply t_saying].
  - apply t_plain; [exact O|]. intros x X. apply W, X.
  - intro H. apply (t_hole t o O) in H as (x & X & F). destruct (W x X). congruence.
Qed.
Lemma t_torn dtoa doc t x : get_tinfo doc = Ok (Some t) -> (forall x, In x (position_numbers (t_pos t)) -> writes dtoa x) -> In x (position_numbers (t_pos t)) -> finite x = false ->
  exists s, api_dimension dtoa 3 doc = Ok (COk, Some s) /\ forall v, ~ json_text s v.
Proof.
  intros G W X F. destruct (t_form doc t G) as (o & J & O). unfold api_dimension. cbn [Z.eqb Pos.eqb]. rewrite G, J. eexists. split; [reflexivity|].
  intro v. apply torn; [now apply t_plain|]. apply (t_hole t o O). eauto.
Qed.

(** ** Pyramid statistics *)
Lemma dec_inj a b : Z.abs a < 10 ^ 19 -> Z.abs b < 10 ^ 19 -> dec a = dec b -> a = b.
Proof.
  intros A B E. destruct (dec_value a A) as (VA & NA). destruct (dec_value b B) as (VB & _). rewrite <- E in VB.
  assert (T : forall v, json_value v (dec a) -> json_read (dec a) = Some v).
  { intros v V. apply JsonRead.read_iff; [now apply no_nul_in|]. exists [], (dec a), []. rewrite app_nil_r. repeat split; auto; constructor. }
  apply T in VA. apply T in VB. rewrite VA in VB. now injection VB.
Qed.
Lemma nodup_map_on {A B} (f : A -> B) l : (forall a b, In a l -> In b l -> f a = f b -> a = b) -> NoDup l -> NoDup (map f l).
Proof.
  intros I N. induction N as [|a l NI N IH]; cbn [map]; [constructor|]. constructor.
  - intro H. apply in_map_iff in H as (b & E & H). apply NI. rewrite (I a b); [exact H|now left|now right|now symmetry].
  - apply IH. intros x y X Y. apply I; now right.
Qed.
Lemma lt_nodup l : StronglySorted Z.lt l -> NoDup l.
Proof. induction 1 as [|a l S IH F]; constructor; [|exact IH]. intro I. rewrite Forall_forall in F. specialize (F a I). lia. Qed.
Definition layer_ok (s : pls) : Prop := let '((f, l), n) := s in Z.abs f < 10 ^ 19 /\ Z.abs l < 10 ^ 19 /\ Z.abs n < 10 ^ 19.
Lemma layer_plain dtoa s : layer_ok s -> plain dtoa (layer_json s) /\ ~ has_hole (layer_json s) /\ meant dtoa (layer_json s) = layer_said s.
Proof.
  destruct s as [[f l] n]. cbn [layer_ok layer_json]. intros (F & L & N).
  assert (PI : plain dtoa (DObj [(txt "minificationFactor", DInt f); (txt "pyramidLayerNo", DInt l)])).
  { constructor. constructor; [split; [now apply bytes_b|now constructor]|]. constructor; [split; [now apply bytes_b|now constructor]|constructor]. }
  split; [|split; [|reflexivity]].
  - constructor. constructor; [split; [now apply bytes_b|exact PI]|]. constructor; [split; [now apply bytes_b|now constructor]|constructor].
  - intro H. inversion H as [| | |? k d I D]; subst. destruct I as [[= _ <-]|[[= _ <-]|[]]]; [|inversion D].
    inversion D as [| | |? k' d' I' D']; subst. destruct I' as [[= _ <-]|[[= _ <-]|[]]]; inversion D'.
Qed.
Lemma pyramid_written dtoa p : NoDup (map fst p) -> (forall s ls, In (s, ls) p -> Z.abs s < 10 ^ 19 /\ Forall layer_ok ls) ->
  exists v, json_text (json_string dtoa (pyramid_json p)) v /\ pyramid_says p v.
Proof.
  intros N B. exists (meant dtoa (pyramid_json p)). unfold pyramid_json. split; [apply written|].
  - constructor. constructor; [|constructor]. split; [now apply bytes_b|]. cbn [snd]. constructor. apply Forall_forall. intros e I. apply in_map_iff in I as ([s ls] & <- & I).
    cbn [fst snd]. split; [apply dec_bytes|]. destruct (B s ls I) as (_ & L). constructor. apply Forall_forall. intros d D. apply in_map_iff in D as (y & <- & D).
    rewrite Forall_forall in L. now apply layer_plain, L.
  - intro H. inversion H as [| | |? k d I D]; subst. destruct I as [[= _ <-]|[]]. inversion D as [| | |? k' d' I' D']; subst.
    apply in_map_iff in I' as ([s ls] & [= <- <-] & I). cbn [snd] in D'. inversion D' as [| |? y Y E|]; subst. apply in_map_iff in Y as (q & <- & Q).
    destruct (B s ls I) as (_ & L). rewrite Forall_forall in L. now apply (layer_plain dtoa q (L q Q)).
  - eexists. split; [reflexivity|]. cbn [meant]. eexists. split; [reflexivity|]. rewrite !map_map. cbn [fst]. split; [|split].
    + rewrite <- (map_map fst dec). apply nodup_map_on; [|exact N]. intros a b A C. apply in_map_iff in A as ([a' la] & <- & A). apply in_map_iff in C as ([b' lb] & <- & C). cbn [fst].
      apply dec_inj; [eapply B, A|eapply B, C].
    + intros k x I. apply in_map_iff in I as ([s ls] & [= <- <-] & I). exists s, ls. split; [exact I|]. split; [reflexivity|]. cbn [snd]. rewrite map_map. f_equal.
      apply map_ext_in. intros q Q. destruct (B s ls I) as (_ & L). rewrite Forall_forall in L. now apply (layer_plain dtoa q (L q Q)).
    + intros k x (s & ls & I & -> & _). apply in_map_iff. exists (s, ls). auto.
Qed.
Lemma filter_le {A} (f : A -> bool) l : (length (filter f l) <= length l)%nat.
Proof. induction l as [|a l IH]; cbn [filter length]; [lia|]. destruct (f a); cbn [length]; lia. Qed.
Lemma layer_of_small e : let '(f, l) := layer_of e in Z.abs f <= 255 /\ Z.abs l <= 255.
Proof.
  unfold layer_of. destruct (layer0 e); [lia|]. destruct (find (fits_layer e) known_layers) as [[[b k] t]|] eqn:E; [|lia].
  apply find_some in E as (I & _). unfold known_layers in I. cbn [In] in I. repeat (destruct I as [I|I]; [injection I as <- <- _; lia|]). destruct I.
Qed.
Lemma pyramid_json_said dtoa es : Forall entry_ok es -> bounds_fit es -> Z.of_nat (length es) <= INT_MAX ->
  exists u p t v, open_stats es = Ok u /\ pyramid es p /\ api_pyramid dtoa u = (COk, Some t) /\ json_text t v /\ pyramid_says p v.
Proof.
  intros E F L. destruct (open_stats_ok es E F) as (u & U & _ & P). exists u, (fst (get_pyr u)). pose proof P as (S & K & C).
  destruct (pyramid_written dtoa (fst (get_pyr u))) as (v & T & V).
  - now apply lt_nodup.
  - intros s ls I. split.
    + destruct (proj1 (K s)) as (e & J & Q); [apply in_map_iff; exists (s, ls); auto|]. rewrite Forall_forall in E. destruct (E e J) as (_ & _ & _ & _ & _ & _ & _ & _ & D).
      unfold pyr_key in Q. unfold in_i32, INT_MIN, INT_MAX in *. destruct (nth_in_or_default 4 (e_coord e) None) as [N|N].
      * rewrite Forall_forall in D. specialize (D _ N). destruct (nth 4 (e_coord e) None); lia.
      * rewrite N in Q. lia.
    + destruct (C s ls I) as ((_ & Y & W) & _). apply Forall_forall. intros [i n] J. specialize (W i n J).
      destruct (proj1 (Y i)) as (e & _ & Q); [apply in_map_iff; exists (i, n); auto|]. pose proof (layer_of_small e) as M. rewrite Q in M. destruct i as [f l]. cbn [layer_ok].
      assert (Z.of_nat (length (filter (on_layer (f, l)) (filter (fun e => pyr_key e =? s) es))) <= INT_MAX) as X.
      { pose proof (filter_le (on_layer (f, l)) (filter (fun e => pyr_key e =? s) es)). pose proof (filter_le (fun e => pyr_key e =? s) es). lia. }
      unfold INT_MAX in X. lia.
  - exists (json_string dtoa (pyramid_json (fst (get_pyr u)))), v. split; [exact U|]. split; [exact P|]. split; [reflexivity|]. split; [exact T|exact V].
Qed.

(** ** Texts given to the C API *)
Lemma doc_iff s l : ~ In 0 s -> (json_doc s = Some l <-> exists m, json_text s (VObj m) /\ l = map (fun e => (fst e, seen_value (snd e))) m).
Proof.
  intro N. unfold json_doc. split.
  - destruct (json_read s) as [[| | | | | |m]|] eqn:E; try discriminate. intros [= <-]. exists m. split; [now apply JsonRead.read_iff|reflexivity].
  - intros (m & T & ->). apply JsonRead.read_iff in T; [|exact N]. now rewrite T.
Qed.

Lemma seen_member (f : jv -> bool) w k m : (forall v, f v = true <-> seen_value v = w) ->
  (exists pre post, map (fun e : str * jv => (fst e, seen_value (snd e))) m = pre ++ (k, w) :: post /\ ~ In k (map fst pre)) <->
  (exists v pre post, f v = true /\ m = pre ++ (k, v) :: post /\ ~ In k (map fst pre)).
Proof.
  intro F. split.
  - intros (pre & post & E & N). revert pre E N. induction m as [|[k1 v1] m IH]; intros pre E N; [destruct pre; discriminate|]. cbn [map fst snd] in E.
    destruct pre as [|[k0 v0] pre]; cbn [app] in E; injection E as -> E1 E.
    + exists v1, [], m. split; [now apply F|]. split; [reflexivity|intros []].
    + cbn [map fst In] in N. destruct (IH pre E ltac:(tauto)) as (v & pre' & post' & V & -> & N'). exists v, ((k0, v1) :: pre'), post'. split; [exact V|]. split; [reflexivity|].
      cbn [map fst In]. tauto.
  - intros (v & pre & post & V & -> & N). exists (map (fun e => (fst e, seen_value (snd e))) pre), (map (fun e => (fst e, seen_value (snd e))) post).
    rewrite map_app. cbn [map fst snd]. apply F in V. rewrite V. split; [reflexivity|]. now rewrite map_map.
Qed.
Lemma has_iff s k w f : ~ In 0 s -> (forall v, f v = true <-> seen_value v = w) -> (has (json_doc s) k w <-> exists v, f v = true /\ json_has s k v).
Proof.
  intros N F. unfold has, json_has. split.
  - intros (l & pre & post & D & E & P). apply doc_iff in D as (m & T & ->); [|exact N]. destruct (proj1 (seen_member f w (txt k) m F)) as (v & p & q & V & M & Q); [eauto|].
    exists v. split; [exact V|]. exists m, p, q. auto.
  - intros (v & V & m & p & q & T & M & Q). destruct (proj2 (seen_member f w (txt k) m F)) as (pre & post & E & P); [exists v, p, q; auto|].
    exists (map (fun e => (fst e, seen_value (snd e))) m), pre, post. split; [apply doc_iff; eauto|auto].
Qed.
Lemma has_bool s k b : ~ In 0 s -> (has (json_doc s) k (JBool b) <-> json_has s k (VBool b)).
Proof.
  intro N. rewrite (has_iff s k (JBool b) (fun v => match v with VBool c => Bool.eqb c b | _ => false end) N).
  - split; [|intro H; exists (VBool b); split; [apply Bool.eqb_true_iff; reflexivity|exact H]]. intros ([| |?|?|?|?|?] & V & H); try discriminate. apply Bool.eqb_true_iff in V as ->. exact H.
  - intros [| |?|?|?|?|?]; cbn [seen_value]; split; intro H; try discriminate; [apply Bool.eqb_true_iff in H as ->; reflexivity|injection H as ->; now apply Bool.eqb_true_iff].
Qed.
Lemma has_int s k z : ~ In 0 s -> (has (json_doc s) k (JInt z) <-> json_has s k (VInt z)).
Proof.
  intro N. rewrite (has_iff s k (JInt z) (fun v => match v with VInt c => c =? z | _ => false end) N).
  - split; [|intro H; exists (VInt z); split; [apply Z.eqb_refl|exact H]]. intros ([| |?|?|?|?|?] & V & H); try discriminate. apply Z.eqb_eq in V as ->. exact H.
  - intros [| |?|?|?|?|?]; cbn [seen_value]; split; intro H; try discriminate; [apply Z.eqb_eq in H as ->; reflexivity|injection H as ->; apply Z.eqb_refl].
Qed.
Lemma has_str s k t : ~ In 0 s -> (has (json_doc s) k (JStr t) <-> json_has s k (VStr t)).
Proof.
  intro N. rewrite (has_iff s k (JStr t) (fun v => match v with VStr c => str_eqb c t | _ => false end) N).
  - split; [|intro H; exists (VStr t); split; [now apply str_eqb_eq|exact H]]. intros ([| |?|?|?|?|?] & V & H); try discriminate. apply str_eqb_eq in V as ->. exact H.
  - intros [| |?|?|?|?|?]; cbn [seen_value]; split; intro H; try discriminate; [apply str_eqb_eq in H as ->; reflexivity|injection H as ->; now apply str_eqb_eq].
Qed.
Lemma options_text s : ~ In 0 s ->
  (duplicates_allowed (json_doc s) = true <-> json_has s "allow_duplicate_subblocks" (VBool true)) /\ (mask_aware (json_doc s) = true <-> json_has s "mask_aware" (VBool true)).
Proof. intro N. rewrite duplicates_iff, mask_aware_iff. split; now apply has_bool. Qed.
Lemma guid_given_iff s g : ~ In 0 s -> (guid_given (json_doc s) g <-> json_guid s g).
Proof.
  intro N. unfold guid_given, json_guid. split; intros (x & t & H & R); exists x, t; (split; [|exact R]); now apply (has_str s "file_guid" x N).
Qed.
Lemma number_given_iff s k lo hi n : ~ In 0 s -> (number_given (json_doc s) k lo hi n <-> json_number s k lo hi n).
Proof. intro N. unfold number_given, json_number. now rewrite has_int. Qed.
Lemma parameters_text fresh s : ~ In 0 s -> let p := in_force fresh (json_doc s) in
  (forall g, json_guid s g -> pr_guid p = g) /\ ((forall g, ~ json_guid s g) -> pr_guid p = fresh) /\
  (forall n, pr_rmeta p = Some n <-> json_number s "reserved_size_metadata_segment" 0 (2 ^ 32) n) /\
  (forall n, pr_rdir p = Some n <-> json_number s "reserved_size_subblock_directory" 0 (2 ^ 32) n) /\
  (forall n, pr_ratt p = Some n <-> json_number s "reserved_size_attachments_directory" 0 (2 ^ 32) n) /\
  (forall lo hi, pr_m p = Some (lo, hi) <-> json_number s "minimum_m_index" (- 2 ^ 31) (2 ^ 31) lo /\ json_number s "maximum_m_index" (- 2 ^ 31) (2 ^ 31) hi /\ lo <= hi).
Proof.
  intros N p. destruct (parameters fresh (json_doc s)) as (A & B & C & D & E). split; [intros g G; apply A; now apply guid_given_iff|].
  split; [intro G; apply B; intros g X; apply (G g); now apply guid_given_iff|].
  split; [intro n; rewrite <- (number_given_iff s) by exact N; apply C|]. split; [intro n; rewrite <- (number_given_iff s) by exact N; apply D|].
  split; [intro n; rewrite <- (number_given_iff s) by exact N; apply E|].
  intros lo hi. rewrite <- !(number_given_iff s) by exact N. apply m_range.
Qed.
Lemma other_dimensions dtoa doc d : d <> 1 -> d <> 2 -> d <> 3 -> api_dimension dtoa d doc = Ok (COk, None).
Proof. intros A _ B. unfold api_dimension. destruct (Z.eqb_spec d 1); [contradiction|]. destruct (Z.eqb_spec d 3); [contradiction|reflexivity]. Qed.
Lemma written_or_torn dtoa d : plain dtoa d ->
  (~ has_hole d -> json_text (json_string dtoa d) (meant dtoa d)) /\ (has_hole d -> forall v, ~ json_text (json_string dtoa d) v).
Proof. intro P. split; [intro H; now apply written|intros H v; now apply torn]. Qed.
Lemma torn_texts dtoa doc :
  (forall z x, get_zinfo doc = Ok (Some z) -> (forall x, In x (z_numbers z) -> writes dtoa x) -> In x (z_numbers z) -> finite x = false ->
     exists t, api_dimension dtoa 1 doc = Ok (COk, Some t) /\ forall v, ~ json_text t v) /\
  (forall t x, get_tinfo doc = Ok (Some t) -> (forall x, In x (position_numbers (t_pos t)) -> writes dtoa x) -> In x (position_numbers (t_pos t)) -> finite x = false ->
     exists s, api_dimension dtoa 3 doc = Ok (COk, Some s) /\ forall v, ~ json_text s v).
Proof. split; [intros z x; apply z_torn|intros t x; apply t_torn]. Qed.

(** where the document object has nothing to tell or throws, the C API returns an error and no text *)
Lemma nothing_told dtoa doc :
  (get_zinfo doc = Ok None -> api_dimension dtoa 1 doc = Ok (CInvalidArgument, None)) /\ (get_zinfo doc = Throw -> api_dimension dtoa 1 doc = Ok (CUnspecified, None)) /\
  (get_tinfo doc = Ok None -> api_dimension dtoa 3 doc = Ok (CInvalidArgument, None)) /\ (get_tinfo doc = Throw -> api_dimension dtoa 3 doc = Ok (CUnspecified, None)).
Proof. unfold api_dimension. cbn [Z.eqb Pos.eqb]. repeat split; intros ->; reflexivity. Qed.
