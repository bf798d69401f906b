(** Proofs about the metadata of sub-blocks. *)
From Coq Require Import String Permutation Floats.SpecFloat QArith Qabs.
From Verif Require Import Base CodecModel TextModel TextProofs XmlModel XmlSpec XmlProofs XmlValues XmlPaths XmlNumbers PugiModel PugiSpec PugiProofs PugiTree PugiRound PugiBuild.
From Verif Require Import FloatProofs SFloatProofs ScaleNum NumModel NumSpec NumProofs NumText NumRound NumNode CopyModel BitonalModel ChunkModel ChunkProofs.
From Verif Require Import WriterModel WriterSpec AddProofs SubMetaModel SubMetaSpec.
Open Scope Z_scope.

(** ** Paths *)
Lemma first_split name kids i c : first_such (has name []) kids i -> nth_error kids i = Some c -> the_first name kids c.
Proof.
  intros ((c' & E' & H) & F) E. assert (c' = c) by congruence. subst c'. apply nth_error_split in E. destruct E as (a & b & -> & L).
  exists a, b. split; [reflexivity|]. split; [exact H|]. intros c' I. apply In_nth_error in I. destruct I as (j & J).
  apply (F j). { rewrite <- L. apply nth_error_Some. congruence. }
  rewrite nth_error_app1; [exact J|]. apply nth_error_Some. congruence.
Qed.
Lemma split_first name kids c : the_first name kids c -> exists i, first_such (has name []) kids i /\ nth_error kids i = Some c.
Proof.
  intros (a & b & -> & H & F). exists (length a). assert (E : nth_error (a ++ c :: b) (length a) = Some c).
  { rewrite nth_error_app2, Nat.sub_diag by lia. reflexivity. }
  split; [|exact E]. split; [now exists c|]. intros j c' L J. apply F. rewrite nth_error_app1 in J by exact L. now apply nth_error_In in J.
Qed.
Lemma leads_goes names : names <> [] -> forall n c,
  (exists h, leads (map (fun k => (k, Any)) names) n h /\ node_at h n = Some c) <-> goes_to names (kids_of n) c.
Proof.
  induction names as [|k names IH]; [easy|]. intros _ n c. destruct names as [|k2 names].
  - split.
    + intros (h & L & N). inversion L as [|st sts n' i c' h' S C L']; subst. inversion L'; subst. cbn [selects snd fst] in S.
      constructor. apply (first_split k _ i); [exact S|]. destruct n as [nm ats ks| |]; cbn [kids_of] in C; try (now destruct i).
      cbn [node_at kids_of] in *. rewrite C in N. congruence.
    + intros G. inversion G as [? ? ? F|? ? ? ? ? F G']; subst; [|inversion G']. apply split_first in F. destruct F as (i & F & E). exists [i]. split.
      * econstructor; [exact F|exact E|constructor].
      * destruct n as [nm ats ks| |]; cbn [kids_of] in E; try (now destruct i). cbn [node_at kids_of]. now rewrite E.
  - specialize (IH ltac:(discriminate)). split.
    + intros (h & L & N). inversion L as [|st sts n' i c' h' S C L']; subst. cbn [selects snd fst] in S.
      apply goes_on with (n := c'); [now apply (first_split k _ i)|]. apply IH. exists h'. split; [exact L'|].
      destruct n as [nm ats ks| |]; cbn [kids_of] in C; try (now destruct i). cbn [node_at kids_of] in *. now rewrite C in N.
    + intros G. inversion G as [|? ? ? ? m F G']; subst. apply split_first in F. destruct F as (i & F & E). apply IH in G'. destruct G' as (h & L & N).
      exists (i :: h). split; [econstructor; [exact F|exact E|exact L]|]. destruct n as [nm ats ks| |]; cbn [kids_of] in E; try (now destruct i).
      cbn [node_at kids_of]. now rewrite E.
Qed.
Lemma names_text names : path_text (map (fun k => (k, Any)) names) = join 47 names.
Proof.
  unfold path_text. rewrite map_map. f_equal. rewrite <- (map_id names) at 2. apply map_ext. intros k. unfold step_text. cbn. now rewrite ?app_nil_r.
Qed.
Lemma node_child names n : names <> [] -> Forall tag_plain names ->
  exists o, child_node (join 47 names) n = Ok o /\ forall c, o = Some c <-> goes_to names (kids_of n) c.
Proof.
  intros N P. destruct (lookup_iff (map (fun k => (k, Any)) names) n) as (o & G & L).
  - now destruct names.
  - apply Forall_forall. intros st I. apply in_map_iff in I. destruct I as (k & <- & I). rewrite Forall_forall in P. destruct (P k I).
    split; [assumption|]. split; [assumption|]. exact Logic.I.
  - rewrite names_text in G. unfold child_node. rewrite G. cbn [bind]. eexists. split; [reflexivity|].
    intros c. rewrite <- (leads_goes names N). destruct o as [h|].
    + split; [intros E; exists h; split; [now apply L|exact E]|]. intros (h' & L' & E). apply L in L'. now injection L' as ->.
    + split; [discriminate|]. intros (h' & L' & E). apply L in L'. discriminate.
Qed.
Lemma text_value c v : has_text c v -> try_get_value c = Some v.
Proof. intros (V & nm & ats & r & ->). destruct v; [easy|reflexivity]. Qed.
Lemma text_none c : no_text c -> try_get_value c = None.
Proof. intros N. unfold try_get_value. unfold no_text in N. destruct (kids_of c) as [|[| t|] r]; try reflexivity. now destruct (N t r). Qed.
Lemma text_found names d o : (forall c, o = Some c <-> goes_to names d c) -> text_at names d (match o with Some c => try_get_value c | None => None end).
Proof.
  intros H. split; [|split].
  - intros c v G T. apply H in G. subst o. now apply text_value.
  - intros c G T. apply H in G. subst o. now apply text_none.
  - intros N. destruct o as [c|]; [|reflexivity]. destruct (N c). now apply H.
Qed.
Lemma the_first_unique name kids c c' : the_first name kids c -> the_first name kids c' -> c = c'.
Proof.
  intros (a & b & E & H & F) (a' & b' & E' & H' & F'). revert kids a' E E' F F'. induction a as [|x a IH]; intros kids a' E E' F F'.
  - destruct a' as [|y a']; cbn in *; [congruence|]. subst kids. injection E' as -> _. destruct (F' y); [now left|exact H].
  - destruct a' as [|y a']; cbn in *.
    + subst kids. injection E' as -> _. destruct (F c'); [now left|exact H'].
    + subst kids. injection E' as -> E'. apply (IH (a ++ c :: b) a'); [reflexivity|exact E'| |]; intros k I; [apply F|apply F']; now right.
Qed.
Lemma goes_unique names : forall kids c c', goes_to names kids c -> goes_to names kids c' -> c = c'.
Proof.
  induction names as [|k names IH]; intros kids c c' G G'; [inversion G|]. inversion G as [? ? ? F|? ? ? ? n F G2]; subst; inversion G' as [? ? ? F'|? ? ? ? n' F' G2']; subst.
  - now apply (the_first_unique k kids).
  - inversion G2'.
  - inversion G2.
  - pose proof (the_first_unique _ _ _ _ F F'). subst n'. now apply (IH (kids_of n)).
Qed.
Lemma goes_app names : names <> [] -> forall more kids c, more <> [] ->
  (goes_to (names ++ more) kids c <-> exists n, goes_to names kids n /\ goes_to more (kids_of n) c).
Proof.
  induction names as [|k names IH]; [easy|]. intros _ more kids c M. destruct names as [|k2 names].
  - cbn [app]. split.
    + intros G. inversion G as [|? ? ? ? n F G']; subst; [easy|]. exists n. split; [now constructor|exact G'].
    + intros (n & G & G'). inversion G as [? ? ? F|? ? ? ? ? ? X]; subst; [|inversion X]. now apply goes_on with (n := n).
  - specialize (IH ltac:(discriminate) more). split.
    + intros G. inversion G as [? ? ? F|? ? ? ? n F G']; subst.  apply IH in G'; [|exact M]. destruct G' as (m & G1 & G2). exists m.
      split; [now apply goes_on with (n := n)|exact G2].
    + intros (m & G1 & G2). inversion G1 as [|? ? ? ? n F G']; subst. apply goes_on with (n := n); [exact F|]. apply IH; [exact M|]. now exists m.
Qed.

Definition TAGS : list str := [txt "METADATA"; txt "Tags"].
Definition FORMAT : list str := [txt "METADATA"; txt "AttachmentSchema"; txt "DataFormat"].
Lemma ascii_plain s : forallb (fun c => (97 <=? c) && (c <=? 122) || (65 <=? c) && (c <=? 90)) s = true -> s <> [] -> tag_plain s.
Proof. intros H N. rewrite forallb_forall in H. split; [exact N|]. intros c I J. specialize (H c I). cbn in J. lia. Qed.
Lemma tags_plain : Forall tag_plain TAGS.
Proof. repeat constructor; try discriminate; apply ascii_plain; reflexivity || discriminate. Qed.
Lemma format_plain : Forall tag_plain FORMAT.
Proof. repeat constructor; try discriminate; apply ascii_plain; reflexivity || discriminate. Qed.

Lemma tag_node d tag : tag_plain tag -> exists o, tag_of (Some d) tag = Ok o /\ forall c, o = Some c <-> goes_to (TAGS ++ [tag]) d c.
Proof.
  intros P. unfold tag_of, document. cbn [bind]. destruct (node_child TAGS (Elem [] [] d) ltac:(discriminate) tags_plain) as (o & E & G).
  change (join 47 TAGS) with (txt "METADATA/Tags") in E. rewrite E. cbn [bind kids_of] in *. destruct o as [n|].
  - destruct (node_child [tag] n ltac:(discriminate)) as (o' & E' & G'); [constructor; [exact P|constructor]|]. cbn [join] in E'. exists o'.
    split; [exact E'|]. intros c. rewrite G', goes_app by discriminate. split.
    + intros H. exists n. split; [now apply G|exact H].
    + intros (n' & H & H'). apply G in H. now injection H as <-.
  - exists None. split; [reflexivity|]. intros c. split; [discriminate|]. intros H. apply goes_app in H; [|discriminate|discriminate].
    destruct H as (n & H & _). apply G in H. discriminate.
Qed.
(** ** Tags *)
Theorem tags_read d tag : tag_plain tag -> exists o, tag_string (Some d) tag = Ok o /\ text_at [txt "METADATA"; txt "Tags"; tag] d o.
Proof.
  intros P. unfold tag_string. destruct (tag_node d tag P) as (o & E & G). rewrite E. cbn [bind]. eexists. split; [reflexivity|]. now apply text_found.
Qed.
Theorem format_read d : exists o, data_format (Some d) = Ok o /\ text_at [txt "METADATA"; txt "AttachmentSchema"; txt "DataFormat"] d o.
Proof.
  unfold data_format, document. cbn [bind]. destruct (node_child FORMAT (Elem [] [] d) ltac:(discriminate) format_plain) as (o & E & G).
  change (join 47 FORMAT) with (txt "METADATA/AttachmentSchema/DataFormat") in E. rewrite E. cbn [bind]. eexists. split; [reflexivity|]. now apply text_found.
Qed.
Lemma stage_tags fuel m : stage_position fuel m =
  let* ox := tag_of m (txt "StageXPosition") in
  let* oy := tag_of m (txt "StageYPosition") in
  match ox, oy with
  | Some cx, Some cy => let* vx := as_double strtod fuel cx in
                        match vx with
                        | None => Ok None
                        | Some x => let* vy := as_double strtod fuel cy in Ok (match vy with Some y => Some (x, y) | None => None end)
                        end
  | _, _ => Ok None
  end.
Proof.
  unfold stage_position, tag_of. destruct m as [d|]; cbn [document bind]; [|reflexivity].
  destruct (node_child TAGS (Elem [] [] d) ltac:(discriminate) tags_plain) as (o & E & _).
  change (join 47 TAGS) with (txt "METADATA/Tags") in E. rewrite E. cbn [bind]. destruct o as [c|]; [|reflexivity].
  assert (P : forall s, tag_plain s -> exists o, child_node s c = Ok o).
  { intros s P. destruct (node_child [s] c ltac:(discriminate)) as (o & Eo & _); [constructor; [exact P|constructor]|]. now exists o. }
  destruct (P (txt "StageXPosition")) as (ox & Ex); [apply ascii_plain; [reflexivity|discriminate]|].
  destruct (P (txt "StageYPosition")) as (oy & Ey); [apply ascii_plain; [reflexivity|discriminate]|].
  rewrite Ex, Ey. cbn [bind]. destruct ox; [|destruct oy; reflexivity]. destruct oy; reflexivity.
Qed.

(** ** Numbers *)
Theorem number_read fuel d tag c (neg : bool) t M K : tag_plain tag -> goes_to [txt "METADATA"; txt "Tags"; tag] d c ->
  has_text c ((if neg then [45] else []) ++ t) -> decimal t M K -> 0 < M -> (ten (-307) <= inject_Z M * ten K <= ten 307)%Q ->
  exists x, tag_double fuel (Some d) tag = Ok (Some x) /\ fin64 x /\
    let v := (if neg then - (inject_Z M * ten K) else inject_Z M * ten K)%Q in (Qabs (sfQ x - v) <= Qabs v * b2 (-52))%Q.
Proof.
  intros P G T D HM B. unfold tag_double. destruct (tag_node d tag P) as (o & E & F). rewrite E. cbn [bind].
  apply F in G. subst o. apply text_value in T. destruct (node_decimal fuel neg t M K c D T) as (x & R & X).
  exists x. split; [exact R|]. destruct (X HM B) as (X1 & X2 & _). now split.
Qed.
Lemma tail_hangs c b : is_space c = true -> forall fuel, tail_loop fuel (c :: b) = OutOfFuel.
Proof.
  intros Sp. assert (R : c_isspace c = Ok true).
  { unfold c_isspace. rewrite Sp. unfold is_space in Sp. replace ((c <? -1) || (255 <? c)) with false by lia. reflexivity. }
  induction fuel as [|f IH]; cbn [tail_loop]; rewrite R; cbn [bind]; [reflexivity|exact IH].
Qed.
Lemma double_hangs fuel n s c b : try_get_value n = Some s -> skipn (snd (strtod s)) s = c :: b -> is_space c = true -> as_double strtod fuel n = OutOfFuel.
Proof. intros V S Sp. unfold as_double, try_convert. rewrite V. rewrite S, (tail_hangs c b Sp). reflexivity. Qed.

(** ** Written *)
Lemma proper_tag s : proper_name s -> tag_plain s.
Proof.
  intros (_ & N & L). split; [now destruct s|]. rewrite Forall_forall in N. intros c I J. specialize (N c I). unfold name_char, letter in N. cbn in J. lia.
Qed.
Lemma tags_saved ind tags : Forall tag_ok tags -> load (builder_get_xml ind [tags_document tags]) = Ok [tags_document tags].
Proof.
  intros T. assert (W : forall s, forallb (fun c => (97 <=? c) && (c <=? 122) || (65 <=? c) && (c <=? 90)) s = true -> s <> [] -> proper_name s).
  { intros s H E. rewrite forallb_forall in H. split; [|split].
    - apply Forall_forall. intros c I. specialize (H c I). lia.
    - apply Forall_forall. intros c I. specialize (H c I). unfold name_char, letter. lia.
    - destruct s as [|c s]; [easy|]. specialize (H c (or_introl eq_refl)). unfold letter. lia. }
  apply (saved_is_loaded ind [tags_document tags]); [discriminate|repeat constructor| |].
  - constructor; [|constructor]. unfold tags_document. cbn [named]. split; [apply W; [reflexivity|discriminate]|]. split; [constructor|].
    split; [|exact I]. split; [apply W; [reflexivity|discriminate]|]. split; [constructor|].
    induction T as [|[k v] tags (P & V & _) T IH]; cbn [map fst snd] in *; [exact I|]. split; [|exact IH].
    split; [exact P|]. split; [constructor|]. split; [exact V|exact I].
  - constructor; [|constructor]. unfold tags_document. cbn [durable apart]. split; [|split; [|exact I]]. 1: cbn; auto.
    assert (A : apart (map (fun t : str * str => Elem (fst t) [] [Text (snd t)]) tags)).
    { clear T. induction tags as [|t tags IH]; [exact I|]. cbn [map apart]. destruct tags; cbn [map] in *; auto. }
    split; [exact A|]. clear A. induction T as [|[k v] tags (_ & V & B & C) T IH]; cbn [map fst snd] in *; [exact I|]. split; [|exact IH].
    cbn [durable apart]. auto.
Qed.
Lemma tag_goes a b k v : (forall t, In t a -> fst t <> k) ->
  goes_to [txt "METADATA"; txt "Tags"; k] [tags_document (a ++ (k, v) :: b)] (Elem k [] [Text v]).
Proof.
  intros N. unfold tags_document. eapply goes_on; [exists [], []; split; [reflexivity|]; split; [now exists [], [Elem (txt "Tags") [] (map (fun t : str * str => Elem (fst t) [] [Text (snd t)]) (a ++ (k, v) :: b))]|intros ? []]|].
  cbn [kids_of]. eapply goes_on; [exists [], []; split; [reflexivity|]; split; [now exists [], (map (fun t : str * str => Elem (fst t) [] [Text (snd t)]) (a ++ (k, v) :: b))|intros ? []]|].
  cbn [kids_of]. constructor. rewrite map_app. cbn [map fst snd].
  exists (map (fun t : str * str => Elem (fst t) [] [Text (snd t)]) a), (map (fun t : str * str => Elem (fst t) [] [Text (snd t)]) b).
  split; [reflexivity|]. split; [now exists [], [Text v]|]. intros c' I (at_ & ks & E & _). apply in_map_iff in I. destruct I as (t & E' & I).
  apply (N t I). subst c'. now injection E.
Qed.
Lemma tag_absent tags k : (forall t, In t tags -> fst t <> k) -> forall c, ~ goes_to [txt "METADATA"; txt "Tags"; k] [tags_document tags] c.
Proof.
  intros N c G. inversion G as [|? ? ? ? n F G']; subst. assert (n = tags_document tags).
  { destruct F as (a & b & E & _). destruct a as [|? [|? ?]]; cbn in E; try discriminate; now injection E. }
  subst n. unfold tags_document in G'. cbn [kids_of] in G'. inversion G' as [|? ? ? ? n F' G2]; subst.
  assert (n = Elem (txt "Tags") [] (map (fun t : str * str => Elem (fst t) [] [Text (snd t)]) tags)).
  { destruct F' as (a & b & E & _). destruct a as [|? [|? ?]]; cbn in E; try discriminate; now injection E. }
  subst n. cbn [kids_of] in G2. inversion G2 as [? ? ? F2|? ? ? ? ? ? X]; subst; [|inversion X].
  destruct F2 as (a & b & E & (at_ & ks & -> & _) & _). assert (I : In (Elem k at_ ks) (map (fun t : str * str => Elem (fst t) [] [Text (snd t)]) tags)).
  { rewrite E. apply in_or_app. right. now left. }
  apply in_map_iff in I. destruct I as (t & E' & I). apply (N t I). now injection E'.
Qed.
Lemma some_load text d : load text = Ok d -> sub_metadata text = Some d. Proof. intros E. unfold sub_metadata. now rewrite E. Qed.
Lemma blank_some v : blank v = false -> v <> []. Proof. intros B ->. discriminate B. Qed.

(** *** The builder *)
Definition els (ts : list (str * str)) : list xml := map (fun t : str * str => Elem (fst t) [] [Text (snd t)]) ts.
Fixpoint put (ts : list (str * str)) (k v : str) : list (str * str) :=
  match ts with [] => [(k, v)] | (k', v') :: r => if str_eqb k' k then (k, v) :: r else (k', v') :: put r k v end.
Definition put_all (tags ts : list (str * str)) : list (str * str) := fold_left (fun m t => put m (fst t) (snd t)) tags ts.
Lemma put_find k v ts : match find_index (matches k []) (els ts) with
  | Some i => (exists w, nth i (els ts) dummy = Elem k [] [Text w] /\ nth_error (els ts) i = Some (Elem k [] [Text w])) /\ upd (els ts) i (Elem k [] [Text v]) = els (put ts k v)
  | None => els ts ++ [Elem k [] [Text v]] = els (put ts k v)
  end.
Proof.
  induction ts as [|[k' w] ts IH]; [reflexivity|]. change (els ((k', w) :: ts)) with (Elem k' [] [Text w] :: els ts). cbn [find_index matches forallb put].
  rewrite Bool.andb_true_r. destruct (str_eqb k' k) eqn:E.
  - apply str_eqb_eq in E. subst k'. split; [exists w; split; reflexivity|reflexivity].
  - destruct (find_index (matches k []) (els ts)) as [i|].
    + destruct IH as (W & U). split; [exact W|]. cbn [upd]. now rewrite U.
    + cbn [app]. now rewrite IH.
Qed.
Lemma upd_last {A} (l : list A) x y : upd (l ++ [x]) (length l) y = l ++ [y].
Proof. induction l as [|a l IH]; [reflexivity|]. cbn [app length upd]. now rewrite IH. Qed.
Lemma nth_last {A} (l : list A) x d : nth (length l) (l ++ [x]) d = x.
Proof. induction l as [|a l IH]; [reflexivity|exact IH]. Qed.
Lemma nth_error_last {A} (l : list A) x : nth_error (l ++ [x]) (length l) = Some x.
Proof. induction l as [|a l IH]; [reflexivity|exact IH]. Qed.
Lemma upd_same {A} (d : A) : forall l i, (i < length l)%nat -> upd l i (nth i l d) = l.
Proof. induction l as [|a l IH]; intros [|i] H; cbn in *; try lia; [reflexivity|]. rewrite IH by lia. reflexivity. Qed.
Lemma write_tag k v root ts : tag_plain k -> (root = Elem (txt "METADATA") [] [] /\ ts = [] \/ root = tags_document ts) ->
  write (txt "Tags/" ++ k) v root = Ok (tags_document (put ts k v)).
Proof.
  intros (N & P) R. unfold write, get_or_create.
  assert (T : path_tokens (txt "Tags/" ++ k) = Ok [txt "Tags"; k]).
  { change (txt "Tags/" ++ k) with (join 47 [txt "Tags"; k]). rewrite <- names_text. rewrite path_tokens_text.
    - cbn [map]. unfold step_text. cbn [fst snd]. now rewrite !app_nil_r.
    - discriminate.
    - assert (Q : tag_plain (txt "Tags")) by (apply ascii_plain; [reflexivity|discriminate]).
      repeat constructor; cbn [fst snd]; try exact I; try discriminate; try exact N; try exact P. apply Q. }
  rewrite T. assert (CT : create_spec (txt "Tags") = Ok (txt "Tags", [])) by (vm_compute; reflexivity).
  assert (CK : create_spec k = Ok (k, [])) by (unfold create_spec; now rewrite parse_step_name).
  assert (S1 : exists ks, root = Elem (txt "METADATA") [] ks /\ (match find_index (matches (txt "Tags") []) ks with Some i => (i, ks) | None => (length ks, ks ++ [Elem (txt "Tags") [] []]) end) = (O, [Elem (txt "Tags") [] (els ts)])).
  { destruct R as [(-> & ->)| ->]; eexists; (split; [reflexivity|]); reflexivity. }
  destruct S1 as (ks & -> & S1). cbn [create_path]. rewrite CT, S1, CK. cbn [nth].
  pose proof (put_find k v ts) as F. destruct (find_index (matches k []) (els ts)) as [i|] eqn:Fi.
  - destruct F as ((w & W & W') & U).
    assert (I2 : (i < length (els ts))%nat) by (apply nth_error_Some; congruence).
    assert (X : forall f, change_at [0%nat; i] f (Elem (txt "METADATA") [] (upd [Elem (txt "Tags") [] (els ts)] 0 (Elem (txt "Tags") [] (upd (els ts) i (nth i (els ts) dummy))))) =
      let* c' := f (Elem k [] [Text w]) in Ok (Elem (txt "METADATA") [] [Elem (txt "Tags") [] (upd (els ts) i c')])).
    { intros f. rewrite upd_same by exact I2. cbn [upd change_at nth_error]. rewrite W'. destruct (f (Elem k [] [Text w])); reflexivity. }
    cbn [bind]. rewrite X. cbn [set_value existsb is_elem orb find_index is_text upd bind]. rewrite U. reflexivity.
  - rewrite nth_last. cbn [bind]. rewrite upd_last. cbn [upd change_at nth_error]. rewrite nth_error_last. cbn [set_value existsb find_index app bind].
    rewrite upd_last, F. reflexivity.
Qed.
Lemma put_ok ts k v : Forall tag_ok ts -> tag_ok (k, v) -> Forall tag_ok (put ts k v).
Proof.
  intros H V. induction H as [|[k' v'] ts T H IH]; cbn [put]; [repeat constructor; apply V|]. destruct (str_eqb k' k); constructor; assumption.
Qed.
Lemma put_all_ok tags : Forall tag_ok tags -> forall ts, Forall tag_ok ts -> Forall tag_ok (put_all tags ts).
Proof. induction 1 as [|[k v] tags V H IH]; intros ts T; [exact T|]. apply IH. now apply put_ok. Qed.
Lemma put_tags_all tags : Forall tag_ok tags -> forall root ts, (root = Elem (txt "METADATA") [] [] /\ ts = [] \/ root = tags_document ts) ->
  exists root', put_tags tags root = Ok root' /\ (root' = Elem (txt "METADATA") [] [] /\ put_all tags ts = [] \/ root' = tags_document (put_all tags ts)).
Proof.
  induction 1 as [|[k v] tags (P & _) H IH]; intros root ts R; [exists root; split; [reflexivity|exact R]|].
  cbn [put_tags]. rewrite (write_tag k v root ts (proper_tag k P) R). cbn [bind]. destruct (IH (tags_document (put ts k v)) (put ts k v) (or_intror eq_refl)) as (root' & E & X).
  exists root'. split; [exact E|exact X].
Qed.
(** the last value counts *)
Definition first_value (ts : list (str * str)) (k v : str) : Prop := exists t1 t2, ts = t1 ++ (k, v) :: t2 /\ forall t, In t t1 -> fst t <> k.
Lemma put_first ts k v : first_value (put ts k v) k v.
Proof.
  induction ts as [|[k' v'] ts (t1 & t2 & E & F)]; cbn [put]; [exists [], []; split; [reflexivity|intros ? []]|]. destruct (str_eqb k' k) eqn:Q.
  - exists [], ts. split; [reflexivity|intros ? []].
  - exists ((k', v') :: t1), t2. split; [now rewrite E|]. intros t [<-|I]; [|now apply F]. cbn [fst]. intros ->. rewrite str_eqb_refl in Q. discriminate.
Qed.
Lemma put_other ts k v k' v' : k <> k' -> first_value ts k' v' -> first_value (put ts k v) k' v'.
Proof.
  intros N (t1 & t2 & -> & F). induction t1 as [|[a b] t1 IH]; cbn [app put].
  - assert (Q : str_eqb k' k = false) by (destruct (str_eqb k' k) eqn:Q; [apply str_eqb_eq in Q; congruence|reflexivity]). rewrite Q.
    exists [], (put t2 k v). split; [reflexivity|intros ? []].
  - assert (A : a <> k') by (apply (F (a, b)); now left). destruct (str_eqb a k) eqn:Q.
    + exists ((k, v) :: t1), t2. split; [reflexivity|]. intros t [<-|I]; [exact N|apply F; now right].
    + destruct IH as (u1 & u2 & E & G); [intros t I; apply F; now right|]. exists ((a, b) :: u1), u2. split; [now rewrite E|]. intros t [<-|I]; [exact A|now apply G].
Qed.
Lemma put_all_keep tags k v : (forall t, In t tags -> fst t <> k) -> forall ts, first_value ts k v -> first_value (put_all tags ts) k v.
Proof.
  induction tags as [|[a b] tags IH]; intros N ts F; [exact F|]. apply IH; [intros t I; apply N; now right|]. cbn [fst snd]. apply put_other; [|exact F].
  apply (N (a, b)). now left.
Qed.
Lemma last_first tags k v : last_given tags k v -> first_value (put_all tags []) k v.
Proof.
  intros (t1 & t2 & -> & N). unfold put_all. rewrite fold_left_app. cbn [fold_left fst snd]. fold (put_all t1 []). apply (put_all_keep t2 k v N). apply put_first.
Qed.
Lemma put_absent ts k v k' : k <> k' -> (forall t, In t ts -> fst t <> k') -> forall t, In t (put ts k v) -> fst t <> k'.
Proof.
  intros N. induction ts as [|[a b] ts IH]; intros F t I; cbn [put] in I; [destruct I as [<-|[]]; exact N|]. destruct (str_eqb a k).
  - destruct I as [<-|I]; [exact N|apply F; now right].
  - destruct I as [<-|I]; [apply (F (a, b)); now left|]. apply IH; [intros u J; apply F; now right|exact I].
Qed.
Lemma put_all_absent tags k : (forall t, In t tags -> fst t <> k) -> forall ts, (forall t, In t ts -> fst t <> k) -> forall t, In t (put_all tags ts) -> fst t <> k.
Proof.
  induction tags as [|[a b] tags IH]; intros N ts F; [exact F|]. apply IH; [intros t I; apply N; now right|]. cbn [fst snd]. apply put_absent; [|exact F].
  apply (N (a, b)). now left.
Qed.
Lemma empty_saved ind : load (builder_get_xml ind [Elem (txt "METADATA") [] []]) = Ok [Elem (txt "METADATA") [] []].
Proof. destruct ind; vm_compute; reflexivity. Qed.

Theorem tags_written m0 strict po i ops ws rs r a ind tags :
  session i ops = (ws, rs, r) -> creation_ok i -> Forall (request_ok INT_MAX) ops ->
  file_size ws < 2 ^ 63 -> Z.of_nat (length ops) <= INT_MAX -> In a (added ops rs) ->
  Forall tag_ok tags ->
  exists root, create_sub_metadata tags = Ok root /\ (src_bytes (ai_meta a) = builder_get_xml ind [root] ->
  r = Ok tt /\ exists o e ob, open_file strict po (file_of m0 ws) = Ok o /\ In e (op_dir o) /\ observe strict (file_of m0 ws) e = Ok ob /\
    let m := sub_metadata (ob_meta ob) in
    is_xml_valid m = true /\
    (forall k v, last_given tags k v -> tag_string m k = Ok (Some v)) /\
    (forall k, tag_plain k -> (forall t, In t tags -> fst t <> k) -> tag_string m k = Ok None) /\
    (forall fuel k x, last_given tags k (dbl_text x) -> fin64 x -> moderate (sfQ x) ->
      exists y, tag_double fuel m k = Ok (Some y) /\ fin64 y /\ (Qabs (sfQ y - sfQ x) <= Qabs (sfQ x) * ten (-14))%Q)).
Proof.
  intros Hs Hc Hr Hf Hl Ha Ht. destruct (put_tags_all tags Ht (Elem (txt "METADATA") [] []) [] (or_introl (conj eq_refl eq_refl))) as (root & Er & Rt).
  exists root. split; [exact Er|]. intros Hm.
  destruct (session_finds m0 strict po i ops ws rs r a Hs Hc Hr Hf Hl Ha) as (R & o & e & O & Ie & E).
  split; [exact R|]. exists o, e, (expected a). split; [exact O|]. split; [exact Ie|]. split; [exact E|]. cbv zeta. cbn [ob_meta expected].
  rewrite Hm. assert (Hp : Forall tag_ok (put_all tags [])) by (apply put_all_ok; [exact Ht|constructor]).
  assert (L : load (builder_get_xml ind [root]) = Ok [root]).
  { destruct Rt as [(-> & _)| ->]; [apply empty_saved|now apply tags_saved]. }
  rewrite (some_load _ _ L). split; [reflexivity|].
  assert (K : forall k v, last_given tags k v -> tag_ok (k, v) /\ goes_to [txt "METADATA"; txt "Tags"; k] [root] (Elem k [] [Text v])).
  { intros k v G. apply last_first in G. destruct G as (t1 & t2 & Q & N). destruct Rt as [(_ & X)| ->].
    - rewrite X in Q. now destruct t1.
    - rewrite Q in *. split; [|now apply tag_goes]. apply Forall_app in Hp as (_ & Hp). now apply Forall_inv in Hp. }
  split; [|split].
  - intros k v G. destruct (K k v G) as ((P & _ & B & _) & Gt). cbn [fst snd] in *.
    destruct (tags_read [root] k (proper_tag k P)) as (x & Ex & T & _). rewrite Ex. f_equal.
    apply (T (Elem k [] [Text v])); [exact Gt|]. split; [now apply blank_some|]. now exists k, [], [].
  - intros k P N. destruct (tags_read [root] k P) as (x & Ex & _ & _ & T). rewrite Ex. f_equal. apply T. destruct Rt as [(-> & _)| ->].
    + intros c G. inversion G as [|? ? ? ? n F G']; subst. assert (n = Elem (txt "METADATA") [] []).
      { destruct F as (a1 & b1 & Q & _). destruct a1 as [|? [|? ?]]; cbn in Q; try discriminate; now injection Q. }
      subst n. cbn [kids_of] in G'. inversion G' as [|? ? ? ? n F' ?]; subst. destruct F' as (a1 & b1 & Q & _). now destruct a1.
    + apply tag_absent. apply (put_all_absent tags k N []). intros ? [].
  - intros fuel k x G F M. destruct (K k (dbl_text x) G) as ((P & _ & B & _) & Gt). cbn [fst snd] in *.
    destruct (tag_node [root] k (proper_tag k P)) as (n & En & Gn).
    apply Gn in Gt. subst n. destruct (write_read x F M) as (y & Rd & Fy & A & _).
    exists y. unfold tag_double. rewrite En. cbn [bind]. split; [|now split]. apply (read_all fuel _ (dbl_text x)); [|exact Rd].
    apply text_value. split; [now apply blank_some|]. now exists k, [], [].
Qed.

(** ** Masks *)
Lemma container_iff d b : has_chunk_container (Some d) = Ok b -> (forall c, goes_to FORMAT d c -> no_text c \/ exists v, has_text c v) ->
  (b = true <-> exists c, goes_to FORMAT d c /\ has_text c (txt "CHUNKCONTAINER")).
Proof.
  unfold has_chunk_container. cbn [is_xml_valid]. destruct (format_read d) as (o & E & T1 & T2 & T3). rewrite E. cbn [bind].
  intros H W. assert (R : b = match o with Some f => str_eqb f (txt "CHUNKCONTAINER") | None => false end) by congruence. clear H. subst b. split.
  - destruct o as [f|]; [|discriminate]. intros Q. apply str_eqb_eq in Q. subst f.
    destruct (node_child FORMAT (Elem [] [] d) ltac:(discriminate) format_plain) as (oc & _ & G). cbn [kids_of] in G.
    destruct oc as [c|].
    + assert (Gc := proj1 (G c) eq_refl). exists c. split; [exact Gc|]. destruct (W c Gc) as [N|(v & V)].
      * discriminate (T2 c Gc N).
      * pose proof (T1 c v Gc V) as X. assert (Y : txt "CHUNKCONTAINER" = v) by congruence. rewrite Y. exact V.
    + assert (X : Some (txt "CHUNKCONTAINER") = None); [|discriminate X]. apply T3. intros c Gc. apply G in Gc. discriminate.
  - intros (c & G & V). rewrite (T1 c _ G V). apply str_eqb_refl.
Qed.
Lemma container_total m : exists b, has_chunk_container m = Ok b.
Proof.
  unfold has_chunk_container. destruct m as [d|]; cbn [is_xml_valid]; [|now exists false]. destruct (format_read d) as (o & E & _). rewrite E. cbn [bind]. now eexists.
Qed.
Theorem mask_none text att : (load text = Throw \/ exists d, load text = Ok d /\ has_chunk_container (Some d) = Ok false) -> try_get_mask text att = Ok None.
Proof.
  unfold try_get_mask, sub_metadata. intros [E|(d & E & C)]; rewrite E; cbn [is_xml_valid]; [reflexivity|]. rewrite C. cbn [bind]. reflexivity.
Qed.
Lemma mask_some text att d b : load text = Ok d -> has_chunk_container (Some d) = Ok true -> create_mask true att = Ok b -> try_get_mask text att = Ok (Some b).
Proof. intros E C M. unfold try_get_mask, sub_metadata. rewrite E. cbn [is_xml_valid]. rewrite C. cbn [bind]. now rewrite M. Qed.
Theorem mask_written m0 strict po i ops ws rs r a d c (empties : list (bytes * bytes)) w h stride data tail :
  session i ops = (ws, rs, r) -> creation_ok i -> Forall (request_ok INT_MAX) ops ->
  file_size ws < 2 ^ 63 -> Z.of_nat (length ops) <= INT_MAX -> In a (added ops rs) ->
  load (src_bytes (ai_meta a)) = Ok d -> goes_to [txt "METADATA"; txt "AttachmentSchema"; txt "DataFormat"] d c -> has_text c (txt "CHUNKCONTAINER") ->
  src_bytes (ai_att a) = container (empties ++ [(GUID_MASK, enc_mask w h stride data)]) ++ tail ->
  Forall chunk_ok empties -> Forall (fun c : bytes * bytes => snd c = [] /\ fst c <> GUID_MASK) empties ->
  Forall is_byte data -> len tail < 21 -> len (src_bytes (ai_att a)) + 41 < 4294967296 ->
  0 < w <= UINT_MAX - 7 -> 0 < h <= UINT_MAX -> in_u32 stride -> (w + 7) / 8 <= stride ->
  (h - 1) * stride + (w + 7) / 8 <= len data ->
  r = Ok tt /\ exists o e ob b, open_file strict po (file_of m0 ws) = Ok o /\ In e (op_dir o) /\ observe strict (file_of m0 ws) e = Ok ob /\
    try_get_mask (ob_meta ob) (ob_att ob) = Ok (Some b) /\ mw b = w /\ mh b = h /\
    forall x y, 0 <= x < w -> 0 <= y < h -> mask_bit b x y = Z.testbit (nth (Z.to_nat (y * stride + x / 8)) data 0) (7 - x mod 8).
Proof.
  intros Hs Hc Hr Hf Hl Ha Hm G V Hatt H1 H2 H3 H4 H5 H6 H7 H8 H9 H10.
  destruct (session_finds m0 strict po i ops ws rs r a Hs Hc Hr Hf Hl Ha) as (R & o & e & O & Ie & E).
  rewrite Hatt in H5. destruct (create_mask_exact empties w h stride data tail H1 H2 H3 H4 H5 H6 H7 H8 H9 H10) as (b & B & B1 & B2 & _ & B4).
  split; [exact R|]. exists o, e, (expected a), b. split; [exact O|]. split; [exact Ie|]. split; [exact E|]. cbn [ob_meta ob_att expected].
  split; [|split; [exact B1|]; split; [exact B2|]; intros x y X Y; apply (B4 x y X Y)].
  apply (mask_some _ _ d); [exact Hm| |rewrite Hatt; exact B]. destruct (format_read d) as (f & F & T1 & _).
  unfold has_chunk_container. cbn [is_xml_valid]. rewrite F. cbn [bind]. rewrite (T1 c _ G V). reflexivity.
Qed.

(** ** The stage position: the two tags *)
Theorem stage_read fuel d x y : tag_double fuel (Some d) (txt "StageXPosition") = Ok x -> tag_double fuel (Some d) (txt "StageYPosition") = Ok y ->
  stage_position fuel (Some d) = Ok (match x, y with Some x, Some y => Some (x, y) | _, _ => None end).
Proof.
  rewrite stage_tags. unfold tag_double. destruct (tag_of (Some d) (txt "StageXPosition")) as [ox| | |]; cbn [bind]; try discriminate.
  destruct (tag_of (Some d) (txt "StageYPosition")) as [oy| | |]; cbn [bind]; try discriminate.
  destruct ox as [cx|]; [|intros X _; assert (x = None) as -> by congruence; reflexivity]. intros X.
  destruct oy as [cy|]; [|intros Y; assert (y = None) as -> by congruence; now destruct x]. intros Y.
  rewrite X. cbn [bind]. destruct x as [x|]; [|reflexivity]. rewrite Y. cbn [bind]. reflexivity.
Qed.
Theorem undeclared text att :
  (load text = Throw \/ exists d, load text = Ok d /\ forall c v, goes_to [txt "METADATA"; txt "AttachmentSchema"; txt "DataFormat"] d c -> try_get_value c = Some v -> v <> txt "CHUNKCONTAINER") ->
  try_get_mask text att = Ok None.
Proof.
  intros [E|(d & E & N)]; apply mask_none; [now left|]. right. exists d. split; [exact E|].
  unfold has_chunk_container, data_format, document. cbn [is_xml_valid bind].
  destruct (node_child FORMAT (Elem [] [] d) ltac:(discriminate) format_plain) as (o & Eo & G).
  change (join 47 FORMAT) with (txt "METADATA/AttachmentSchema/DataFormat") in Eo. rewrite Eo. cbn [bind kids_of] in *.
  destruct o as [c|]; [|reflexivity]. specialize (N c). destruct (try_get_value c) as [v|]; [|reflexivity]. specialize (N v (proj1 (G c) eq_refl) eq_refl).
  destruct (str_eqb v (txt "CHUNKCONTAINER")) eqn:Q; [|reflexivity]. now apply str_eqb_eq in Q.
Qed.

Lemma validity : forall text, (is_xml_valid (sub_metadata text) = true <-> exists d, load text = Ok d) /\
  (is_xml_valid (sub_metadata text) = false -> let m := sub_metadata text in
    sub_get_xml m = Throw /\ data_format m = Throw /\ (forall tag, tag_string m tag = Throw) /\
    (forall fuel tag, tag_double fuel m tag = Throw) /\ forall fuel, stage_position fuel m = Throw).
Proof.
  intro text. unfold sub_metadata. destruct (load text) as [d| | |]; (split; [split; [intro H|intros [e H]]|]); try discriminate; eauto;
    try reflexivity; intros _; repeat split; reflexivity.
Qed.
