(** Lemmas: sizes of dimensions and positions in T and Z in the metadata. *)
From Coq Require Import String QArith Qabs Lqa Floats.SpecFloat.
From Verif Require Import Base TextModel TextSpec TextProofs XmlModel XmlSpec XmlProofs XmlValues XmlPaths PugiModel PugiSpec PugiProofs PugiTree PugiRound PugiBuild.
From Verif Require Import CodesModel DateModel FloatProofs SFloatProofs ScaleModel ScaleNum NumModel NumSpec NumText NumRound DocModel DocSpec DocTree DocInt DocProofs DocScale.
Open Scope Z_scope.

(** ** sizes *)
Definition letters : list Z := [88; 89; 77] ++ map dim_char dims.
Definition size_path (c : Z) : list spec := plainly (IMAGE ++ [txt "Size" ++ [c]]).
Definition start_path (c : Z) : list spec := plainly (IMAGE ++ [txt "Start" ++ [c]]).
Lemma letter_cases (P : Z -> Prop) : Forall P letters -> forall c, In c letters -> P c.
Proof. intros H. now apply Forall_forall. Qed.
Ltac by_letters := repeat (apply Forall_cons; [vm_compute; reflexivity|]); apply Forall_nil.
Lemma size_path_of c : In c letters -> path_of (image ++ txt "Size" ++ [c]) = Some (size_path c).
Proof. revert c. apply letter_cases. by_letters. Qed.
Lemma size_decent c : In c letters -> decent (size_path c).
Proof. intros I. apply decentb_ok. revert c I. apply letter_cases. by_letters. Qed.
Lemma size_separate a b : a <> b -> separate (size_path a) (size_path b).
Proof.
  intros N. cbn [size_path plainly map app IMAGE separate]. right. right. right. left. apply names_differ.
  destruct (str_eqb (txt "Size" ++ [a]) (txt "Size" ++ [b])) eqn:E; [|reflexivity]. apply str_eqb_eq in E. apply app_inv_head in E. congruence.
Qed.
Lemma size_start a b : separate (size_path a) (start_path b).
Proof. cbn [size_path start_path plainly map app IMAGE separate]. right. right. right. left. apply names_differ. reflexivity. Qed.
Lemma write_sizes_jobs l : (forall c s, In (c, s) l -> In c letters) -> forall n, is_element n ->
  write_sizes l n = puts (jobs size_path (map (fun '(c, s) => (c, Some (dec s))) l)) n.
Proof.
  induction l as [|[c s] l IH]; intros H n E; [reflexivity|]. cbn [write_sizes map jobs flat_map app puts]. unfold write_size. rewrite write_edit.
  rewrite (edit_path _ _ (size_path c)); [|apply size_path_of, (H c s); now left|exact E]. destruct (put _ _ n) as [n1| | |] eqn:P; cbn [bind]; try reflexivity.
  apply IH; [intros c0 s0 I; apply (H c0 s0); now right|]. apply (kind_element _ n); [|exact E]. now apply (put_kind _ _ _ _ (set_value_steady _) P).
Qed.
Definition stat_sizes (w h : Z) (b : bounds) (m : option (Z * Z)) : list (Z * Z) :=
  [(88, w); (89, h)] ++ map (fun '(d, i) => (dim_char d, snd i)) (valid_bounds dims b) ++ match m with Some (lo, hi) => [(77, hi - lo + 1)] | None => [] end.
Lemma valid_bounds_in ds b d i : In (d, i) (valid_bounds ds b) <-> In d ds /\ tget b d = Some i.
Proof.
  induction ds as [|e ds IH]; cbn [valid_bounds]; [cbn; tauto|]. destruct (tget b e) as [j|] eqn:T; cbn [In]; rewrite IH.
  - split; [intros [[= <- <-]|(A & B)]; auto|intros ([<-|A] & B); [left; congruence|auto]].
  - split; [intros (A & B); auto|intros ([<-|A] & B); [congruence|auto]].
Qed.
Lemma valid_bounds_nodup ds b : NoDup ds -> NoDup (map fst (valid_bounds ds b)).
Proof.
  induction 1 as [|e ds N _ IH]; [constructor|]. cbn [valid_bounds]. destruct (tget b e) as [j|]; [|exact IH]. cbn [map fst]. constructor; [|exact IH].
  intros I. apply in_map_iff in I. destruct I as ([d i] & <- & I). apply valid_bounds_in in I. now apply N.
Qed.
Lemma dim_cases (P : Z -> Prop) : Forall P dims -> forall d, In d dims -> P d.
Proof. intros H. now apply Forall_forall. Qed.
Lemma dim_char_letter d : In d dims -> In (dim_char d) letters /\ dim_char d <> 88 /\ dim_char d <> 89 /\ dim_char d <> 77.
Proof. revert d. apply dim_cases. repeat (apply Forall_cons; [vm_compute; intuition discriminate|]). apply Forall_nil. Qed.
Lemma dim_char_inj d e : In d dims -> In e dims -> dim_char d = dim_char e -> d = e.
Proof.
  intros Hd He E. cbn [In dims] in Hd, He. repeat (destruct Hd as [<-|Hd]; [repeat (destruct He as [<-|He]; [first [reflexivity|discriminate E]|]); destruct He|]). destruct Hd.
Qed.
Lemma dims_nodup : NoDup dims.
Proof. unfold dims. repeat constructor; cbn; lia. Qed.
Lemma stat_letters w h b m c s : In (c, s) (stat_sizes w h b m) -> In c letters.
Proof.
  unfold stat_sizes. rewrite !in_app_iff. intros [I|[I|I]].
  - cbn in I. destruct I as [[= <- _]|[[= <- _]|[]]]; cbn; auto.
  - apply in_map_iff in I. destruct I as ([d i] & [= <- _] & I). apply valid_bounds_in in I. now apply dim_char_letter.
  - destruct m as [[lo hi]|]; [|easy]. destruct I as [[= <- _]|[]]. cbn. auto.
Qed.
Lemma stat_nodup w h b m : NoDup (map fst (stat_sizes w h b m)).
Proof.
  unfold stat_sizes. rewrite !map_app.
  assert (E0 : map fst (map (fun '(d, i) => (dim_char d, snd i)) (valid_bounds dims b)) = map dim_char (map fst (valid_bounds dims b))) by (rewrite !map_map; apply map_ext; now intros [d [i j]]).
  rewrite E0. clear E0.
  set (ds := map fst (valid_bounds dims b)). assert (H : forall d, In d ds -> In d dims).
  { intros d I. apply in_map_iff in I. destruct I as ([e i] & <- & I). now apply valid_bounds_in in I. }
  assert (N : NoDup ds) by (apply valid_bounds_nodup, dims_nodup). clearbody ds.
  assert (A : NoDup (map dim_char ds)).
  { induction N as [|d ds N1 N2 IH]; [constructor|]. cbn [map]. constructor; [|apply IH; intros e I; apply H; now right].
    intros I. apply in_map_iff in I. destruct I as (e & E & I). apply N1. rewrite <- (dim_char_inj e d); auto; apply H; [now right|now left]. }
  assert (C : forall c, In c (map dim_char ds) -> c <> 88 /\ c <> 89 /\ c <> 77) by (intros c I; apply in_map_iff in I; destruct I as (d & <- & I); now apply dim_char_letter, H).
  assert (E : NoDup (map dim_char ds ++ map fst (match m with Some (lo, hi) => [(77, hi - lo + 1)] | None => [] end))).
  { destruct m as [[lo hi]|]; [|cbn [map]; now rewrite app_nil_r]. cbn [map fst]. apply NoDup_rev in A. rewrite <- (rev_involutive (map dim_char ds)). change [77] with (rev [77]). rewrite <- rev_app_distr. apply NoDup_rev.
    constructor; [|exact A]. intros I. apply in_rev in I. now apply C in I. }
  cbn [map fst app]. assert (X : forall c, c = 88 \/ c = 89 -> ~ In c (map dim_char ds ++ map fst (match m with Some (lo, hi) => [(77, hi - lo + 1)] | None => [] end))).
  { intros c Hc I. apply in_app_iff in I. destruct I as [I|I]; [apply C in I; lia|]. destruct m as [[lo hi]|]; [|easy]. cbn in I. lia. }
  constructor; [intros [I|I]; [discriminate|now apply (X 88); auto]|]. constructor; [now apply X; auto|exact E].
Qed.
Lemma write_sizes_app a : forall b n, write_sizes (a ++ b) n = let* n1 := write_sizes a n in write_sizes b n1.
Proof. induction a as [|[c s] a IH]; intros b n; [reflexivity|]. cbn [app write_sizes]. destruct (write_size c s n); cbn [bind]; [apply IH|reflexivity..]. Qed.
Lemma write_statistics_sizes w h b m n : (forall lo hi, m = Some (lo, hi) -> hi - lo + 1 <= INT_MAX) -> write_statistics w h b m n = write_sizes (stat_sizes w h b m) n.
Proof.
  intros H. unfold write_statistics, stat_sizes. rewrite !write_sizes_app. destruct (write_sizes _ n) as [n1| | |]; cbn [bind]; try reflexivity.
  rewrite write_sizes_app. destruct (write_sizes _ n1) as [n2| | |]; cbn [bind]; try reflexivity. destruct m as [[lo hi]|]; [|reflexivity]. specialize (H lo hi eq_refl).
  destruct (INT_MAX <? hi - lo + 1) eqn:E; [lia|]. cbn [write_sizes]. now destruct (write_size 77 _ n2).
Qed.
Lemma write_statistics_ok w h b m n n' : write_statistics w h b m n = Ok n' -> forall lo hi, m = Some (lo, hi) -> hi - lo + 1 <= INT_MAX.
Proof.
  unfold write_statistics. intros H lo hi ->. destruct (write_sizes _ n) as [n1| | |]; cbn [bind] in H; try discriminate. destruct (write_sizes _ n1) as [n2| | |]; cbn [bind] in H; try discriminate.
  destruct (INT_MAX <? hi - lo + 1) eqn:E; [discriminate|lia].
Qed.
Definition stat_fields (w h : Z) (b : bounds) (m : option (Z * Z)) : list (Z * option str) := map (fun '(c, s) => (c, Some (dec s))) (stat_sizes w h b m).
Lemma stat_jobs w h b m n n' : is_element n -> write_statistics w h b m n = Ok n' -> puts (jobs size_path (stat_fields w h b m)) n = Ok n'.
Proof.
  intros E H. rewrite write_statistics_sizes in H by (exact (write_statistics_ok w h b m n n' H)). rewrite write_sizes_jobs in H; [exact H| |exact E]. intros c s. apply stat_letters.
Qed.
Lemma stat_keys w h b m : map fst (stat_fields w h b m) = map fst (stat_sizes w h b m).
Proof. unfold stat_fields. rewrite map_map. apply map_ext. now intros [c s]. Qed.
Lemma stat_key_letter w h b m c : In c (map fst (stat_fields w h b m)) -> In c letters.
Proof. rewrite stat_keys. intros I. apply in_map_iff in I. destruct I as ([c0 s] & <- & I). now apply stat_letters in I. Qed.
Definition node_of (n : xml) (sts : list spec) : option xml := follow sts n.
Lemma dim_info_follow d r k : find (matches ROOT []) d = Some r -> dim_info k d =
  match follow (start_path (dim_char k)) r, follow (size_path (dim_char k)) r with
  | None, None => None
  | a, b => Some (mkD (match a with Some n => as_int n | None => 0 end) (match b with Some n => as_int n | None => 1 end)
                      (match a with Some _ => true | None => false end) (match b with Some _ => true | None => false end))
  end.
Proof.
  intros F. unfold dim_info, get_node. rewrite F, descend_follow. unfold start_path, size_path, plainly. rewrite !map_app, !follow_app. fold (plainly IMAGE).
  destruct (follow (plainly IMAGE) r) as [c|]; [|reflexivity]. now rewrite !descend_follow.
Qed.
Lemma size_text_follow d r c : find (matches ROOT []) d = Some r -> size_text c d = option_map text (follow (size_path c) r).
Proof. intros F. unfold size_text, get_node. now rewrite F, descend_follow. Qed.
Theorem sizes_read ind w h b m doc doc' : buildable doc -> (forall k st sz, tget b k = Some (st, sz) -> in_i32 sz) -> on_root (write_statistics w h b m) doc = Ok doc' ->
  exists d d', load (builder_get_xml ind doc) = Ok d /\ load (builder_get_xml ind doc') = Ok d' /\
    size_text 88 d' = Some (dec w) /\ size_text 89 d' = Some (dec h) /\ size_text 77 d' = match m with Some (lo, hi) => Some (dec (hi - lo + 1)) | None => size_text 77 d end /\
    forall k, In k dims -> dim_info k d' = match tget b k with Some (_, size) => Some (sized size (dim_info k d)) | None => dim_info k d end.
Proof.
  intros B Bd H. set (fs := stat_fields w h b m).
  assert (Fc : forall c v, In (c, Some v) fs -> chars v /\ solid v).
  { intros c v I. apply in_map_iff in I. destruct I as ([c0 s] & [= -> <-] & I). split; [apply solid_chars|]; apply dec_solid. }
  assert (Fd : forall c, In c (map fst fs) -> decent (size_path c)) by (intros c I; apply size_decent; now apply stat_key_letter in I).
  destruct (saved ind doc _ doc' B H) as (r & r' & d & d' & S & W & S' & L & L' & F & F' & B').
  { intros r r' S W. apply stat_jobs in W; [|apply S]. apply (puts_sound _ r r' S) in W; [exact W|]. intros sts v I. apply jobs_in in I. destruct I as (c & I & ->).
    split; [apply Fd; now apply (in_map fst) in I|now apply (Fc c)]. }
  apply stat_jobs in W; [|apply S]. fold fs in W.
  assert (N : NoDup (map fst fs)) by (unfold fs; rewrite stat_keys; apply stat_nodup).
  assert (R : forall c v, In (c, Some v) fs -> exists e, follow (size_path c) r' = Some e /\ text (settle e) = v).
  { intros c v I. pose proof (fields_read size_path fs N Fd (fun a b _ _ X => size_separate a b X) (fun a v X => proj1 (Fc a v X)) r r' S W c (Some v) I) as X.
    destruct X as (e & X1 & X2 & X3). exists e. split; [exact X1|]. apply text_two; [exact X2|exact X3|now apply (Fc c)]. }
  assert (O : forall c, ~ In c (map fst fs) -> follow (size_path c) r' = follow (size_path c) r).
  { intros c X. apply (puts_other (jobs size_path fs) (size_path c) r r'); [|exact W]. intros sts v I. apply jobs_in in I. destruct I as (a & I & ->). apply (in_map fst) in I. cbn [fst] in I.
    split; [now apply Fd|]. apply size_separate. intros ->. now apply X. }
  assert (St : forall c, follow (start_path c) r' = follow (start_path c) r).
  { intros c. apply (puts_other (jobs size_path fs) (start_path c) r r'); [|exact W]. intros sts v I. apply jobs_in in I. destruct I as (a & I & ->). apply (in_map fst) in I. cbn [fst] in I.
    split; [now apply Fd|]. apply size_start. }
  assert (In1 : forall c s, In (c, s) (stat_sizes w h b m) -> In (c, Some (dec s)) fs) by (intros c s I; exact (in_map (fun '(c, s) => (c, Some (dec s))) _ _ I)).
  assert (T : forall c s, In (c, s) (stat_sizes w h b m) -> size_text c d' = Some (dec s)).
  { intros c s I. rewrite (size_text_follow d' _ c F'), follow_settle by apply S'. destruct (R c _ (In1 c s I)) as (e & -> & E). cbn [option_map]. now rewrite E. }
  exists d, d'. split; [exact L|]. split; [exact L'|]. split; [apply T; cbn; auto|]. split; [apply T; cbn; auto|]. split.
  - destruct m as [[lo hi]|]; [apply T; unfold stat_sizes; rewrite !in_app_iff; right; right; now left|].
    rewrite (size_text_follow d' _ 77 F'), (size_text_follow d _ 77 F), !follow_settle by (apply S || apply S'). rewrite O; [reflexivity|].
    unfold fs. rewrite stat_keys. unfold stat_sizes. rewrite !map_app, !in_app_iff. intros [I|[I|[]]]; [cbn in I; lia|]. rewrite map_map in I. apply in_map_iff in I. destruct I as ([k i] & E & I). cbn [fst] in E.
    apply valid_bounds_in in I. destruct I as (I & _). apply dim_char_letter in I. lia.
  - intros k Ik. rewrite (dim_info_follow d' _ k F'), (dim_info_follow d _ k F), !follow_settle by (apply S || apply S'). rewrite St.
    destruct (tget b k) as [[st sz]|] eqn:Tk.
    + destruct (R (dim_char k) (dec sz)) as (e & E1 & E2).
      { apply In1. unfold stat_sizes. rewrite !in_app_iff. right. left. apply in_map_iff. exists (k, (st, sz)). split; [reflexivity|]. now apply valid_bounds_in. }
      assert (E3 : as_int (settle e) = sz) by (unfold as_int; rewrite E2; exact (read_dec sz (Bd k st sz Tk))).
      rewrite E1. cbn [option_map]. rewrite E3. unfold sized.
      destruct (follow (start_path (dim_char k)) r), (follow (size_path (dim_char k)) r); reflexivity.
    + rewrite O; [reflexivity|]. unfold fs. rewrite stat_keys. unfold stat_sizes. rewrite !map_app, !in_app_iff. destruct (dim_char_letter k Ik) as (_ & C1 & C2 & C3). intros [I|[I|I]].
      * cbn in I. lia.
      * rewrite map_map in I. apply in_map_iff in I. destruct I as ([k' i] & E & I). cbn [fst] in E. apply valid_bounds_in in I. destruct I as (I & T'). apply dim_char_inj in E; [congruence|exact I|exact Ik].
      * destruct m as [[lo hi]|]; [|easy]. destruct I as [I|[]]. cbn [fst] in I. lia.
Qed.
Theorem statistics_total w h b m nm ats : (forall lo hi, m = Some (lo, hi) -> hi - lo + 1 <= INT_MAX) -> exists t, write_statistics w h b m (Elem nm ats []) = Ok t.
Proof.
  intros M. rewrite (write_statistics_sizes _ _ _ _ _ M), write_sizes_jobs by (exact I || (intros c s; apply stat_letters)). fold (stat_fields w h b m).
  apply fields_total.
  - rewrite stat_keys. apply stat_nodup.
  - intros c X. apply size_decent. now apply stat_key_letter in X.
  - intros a c _ _. apply size_separate.
  - exact I.
  - intros a c _ X. discriminate X.
Qed.

(** ** positions: what is written is elsewhere *)
Definition DIMENSIONS : list str := [txt "Metadata"; txt "Information"; txt "Dimensions"].
Definition elsewhere (sts : list spec) : Prop := decent sts /\ exists q, sts = plainly (DIMENSIONS ++ q).
Definition aside (f : xml -> res xml) : Prop := forall r r', is_element r -> f r = Ok r' -> exists l, puts l r = Ok r' /\ forall sts v, In (sts, v) l -> elsewhere sts /\ chars v.
Lemma aside_ok : aside Ok.
Proof. intros r r' E [= <-]. exists []. split; [reflexivity|easy]. Qed.
Lemma aside_bind f g : aside f -> aside g -> aside (fun t => let* t1 := f t in g t1).
Proof.
  intros F G r r' E H. destruct (f r) as [r1| | |] eqn:R; cbn [bind] in H; try discriminate. destruct (F r r1 E R) as (l1 & P1 & Q1). destruct (G r1 r') as (l2 & P2 & Q2); [now apply (puts_elem l1 r)|exact H|].
  exists (l1 ++ l2). split; [rewrite puts_app, P1; exact P2|]. intros sts v I. apply in_app_iff in I. destruct I; [now apply Q1|now apply Q2].
Qed.
Lemma aside_write p v q : path_of (dimensions ++ txt p) = Some (plainly (DIMENSIONS ++ q)) -> decentb (plainly (DIMENSIONS ++ q)) = true -> chars v -> aside (write (dimensions ++ txt p) v).
Proof.
  intros P D V r r' E H. rewrite write_edit, (edit_path _ _ _ _ P E) in H. exists [(plainly (DIMENSIONS ++ q), v)]. cbn [puts]. split; [now rewrite H|].
  intros sts v0 [[= <- <-]|[]]. split; [|exact V]. split; [now apply decentb_ok|exists q; reflexivity].
Qed.
Lemma aside_dbl p x q : path_of (dimensions ++ txt p) = Some (plainly (DIMENSIONS ++ q)) -> decentb (plainly (DIMENSIONS ++ q)) = true -> aside (write_dbl p x).
Proof. intros P D. unfold write_dbl. destruct (valid_scale x); [|exact aside_ok]. apply (aside_write p _ q P D). apply solid_chars, print_g_solid. Qed.
Lemma padded_solid n v : solid (DateModel.padded n v).
Proof. unfold DateModel.padded. apply solid_app. split; [apply solid_repeat|apply dec_solid]. Qed.
Ltac few := apply Forall_forall; intros ? I; cbn in I; lia.
Lemma to_xml_solid d s : to_xml d = Ok s -> solid s.
Proof.
  unfold to_xml. destruct (is_valid d); cbn [negb]; [|discriminate]. intros H. assert (X : forall a b : str, Ok a = Ok b -> a = b) by congruence. apply X in H. rewrite <- H. clear H X. repeat (apply Forall_app; split); try apply solid_repeat; try apply dec_solid; try few.
  destruct (t_utc d); [few|]. destruct (has_offset d); [|few]. repeat (apply Forall_app; split); try apply solid_repeat; try apply dec_solid; try few.
  destruct (0 <=? t_offh d); few.
Qed.
Lemma aside_time o : aside (write_time o).
Proof.
  intros r r' E H. unfold write_time in H. destruct o as [d|]; [|now apply aside_ok]. destruct (to_xml d) as [s| | |] eqn:T; cbn [bind] in H; try discriminate.
  assert (A : aside (write (dimensions ++ txt "T/StartTime") s)).
  { apply aside_write with (q := [txt "T"; txt "StartTime"]); [vm_compute; reflexivity..|]. apply solid_chars. now apply (to_xml_solid d). }
  now apply A.
Qed.
Lemma offsets_chars l : chars (offsets_text l).
Proof.
  induction l as [|x l IH]; [constructor|]. cbn [offsets_text]. destruct l as [|y l]; [apply solid_chars, print_g_solid|]. apply Forall_app. split; [apply solid_chars, print_g_solid|].
  constructor; [lia|exact IH].
Qed.
Lemma t_interval_aside start x inc : aside (write_t_interval start x inc).
Proof.
  unfold write_t_interval. apply aside_bind; [apply aside_time|]. apply aside_bind; [apply aside_dbl with (q := [txt "T"; txt "Positions"; txt "Interval"; txt "Start"])|apply aside_dbl with (q := [txt "T"; txt "Positions"; txt "Interval"; txt "Increment"])]; vm_compute; reflexivity.
Qed.
Lemma t_list_aside start l : aside (write_t_list start l).
Proof.
  unfold write_t_list. apply aside_bind; [apply aside_time|]. destruct l as [l|]; [|exact aside_ok].
  apply aside_write with (q := [txt "T"; txt "Positions"; txt "List"; txt "Offsets"]); [vm_compute; reflexivity..|apply offsets_chars].
Qed.
Lemma z_interval_aside pos x inc : aside (write_z_interval pos x inc).
Proof.
  unfold write_z_interval. apply aside_bind; [apply aside_dbl with (q := [txt "Z"; txt "StartPosition"]); vm_compute; reflexivity|].
  apply aside_bind; [apply aside_dbl with (q := [txt "Z"; txt "Positions"; txt "Interval"; txt "Start"])|apply aside_dbl with (q := [txt "Z"; txt "Positions"; txt "Interval"; txt "Increment"])]; vm_compute; reflexivity.
Qed.
Lemma z_list_aside pos l : aside (write_z_list pos l).
Proof.
  unfold write_z_list. apply aside_bind; [apply aside_dbl with (q := [txt "T"; txt "StartTime"]); vm_compute; reflexivity|]. destruct l as [l|]; [|exact aside_ok].
  apply aside_write with (q := [txt "Z"; txt "Positions"; txt "List"; txt "Offsets"]); [vm_compute; reflexivity..|apply offsets_chars].
Qed.
Theorem aside_unread ind f doc doc' : aside f -> buildable doc -> on_root f doc = Ok doc' ->
  exists d d', load (builder_get_xml ind doc) = Ok d /\ load (builder_get_xml ind doc') = Ok d' /\ get_tinfo d' = get_tinfo d /\ get_zinfo d' = get_zinfo d.
Proof.
  intros A B H. destruct (saved ind doc _ doc' B H) as (r & r' & d & d' & S & W & S' & L & L' & F & F' & B').
  { intros r r' S W. destruct (A r r' (proj1 S) W) as (l & P & Q). apply (puts_sound l r r' S); [|exact P]. intros sts v I. destruct (Q sts v I) as ((D & _) & V). now split. }
  exists d, d'. split; [exact L|]. split; [exact L'|]. destruct (A r r' (proj1 S) W) as (l & P & Q).
  assert (G : forall q, get_node (IMAGE ++ q) d' = get_node (IMAGE ++ q) d).
  { intros q. unfold get_node. rewrite F, F', !descend_follow, !follow_settle by (apply S || apply S'). f_equal. apply (puts_other l _ r r'); [|exact P].
    intros sts v I. destruct (Q sts v I) as ((D & (q' & ->)) & _). split; [exact D|]. cbn [plainly map app IMAGE DIMENSIONS separate]. right. right. left. apply names_differ. reflexivity. }
  unfold get_tinfo, get_zinfo. now rewrite !G.
Qed.
Lemma zmode_axis doc z : get_zinfo doc = Ok (Some z) -> z_mode z = None \/ z_axis z = None.
Proof.
  unfold get_zinfo. destruct (get_node _ doc) as [n|]; [|discriminate]. cbv zeta. destruct (match descend [txt "ZDriveSpeed"] n with Some c => _ | None => _ end) as [sp| | |]; cbn [bind]; try discriminate.
  destruct (get_positions n) as [ps| | |]; cbn [bind]; try discriminate. intros H. assert (X : forall a b : zinfo, Ok (Some a) = Ok (Some b) -> a = b) by congruence. apply X in H. rewrite <- H. cbn [z_mode z_axis]. clear H X.
  destruct (descend [txt "ZDriveMode"] n); [|now left]. destruct (descend [txt "ZAxisDirection"] n) as [c|]; [|now right]. set (s := trim (text c)). cbn [word_of].
  destruct (str_eqb s (txt "Continuous")) eqn:E1; [apply str_eqb_eq in E1; rewrite E1; right; reflexivity|].
  destruct (str_eqb s (txt "Step")) eqn:E2; [apply str_eqb_eq in E2; rewrite E2; right; reflexivity|]. now left.
Qed.

(** ** lists of offsets *)
Lemma offsets_join l : offsets_text l = join 32 (map dbl_text l).
Proof. induction l as [|x l IH]; [reflexivity|]. cbn [offsets_text map join]. destruct l as [|y l]; [reflexivity|]. rewrite IH. reflexivity. Qed.
Lemma near_normal x y : moderate (sfQ x) -> (Qabs (sfQ y - sfQ x) <= Qabs (sfQ x) * ten (-14))%Q -> (b2 (-1022) < Qabs (sfQ y))%Q.
Proof.
  intros [M _] A. assert (T : (Qabs (sfQ x) <= Qabs (sfQ y) + Qabs (sfQ y - sfQ x))%Q).
  { rewrite (Qabs_Qminus (sfQ y) (sfQ x)). setoid_replace (sfQ x) with (sfQ y + (sfQ x - sfQ y))%Q at 1 by ring. apply Qabs_triangle. }
  assert (C1 : (b2 (-1022) < ten (-307) * (1 # 2))%Q) by (vm_compute; reflexivity).
  assert (C2 : (ten (-14) <= 1 # 2)%Q) by (vm_compute; discriminate).
  assert (P : (0 <= Qabs (sfQ x))%Q) by apply Qabs_nonneg. assert (ten (-14) * Qabs (sfQ x) <= (1 # 2) * Qabs (sfQ x))%Q by (apply Qmult_le_compat_r; assumption).
  lra.
Qed.
Lemma normal_mantissa y : fin64 y -> (b2 (-1022) < Qabs (sfQ y))%Q -> match y with S754_finite _ m _ => 2 ^ 52 <= Z.pos m | S754_zero _ => False | _ => True end.
Proof.
  intros F B. destruct y as [s|s| |s m e]; try exact I; [apply Qlt_not_le in B; apply B; vm_compute; discriminate|].
  assert (Fn : nn 53 1024 (S754_finite false m e)) by (destruct F as [V _]; split; [exact V|reflexivity]). destruct (nn_bounds 53 1024 m e Fn) as (C & _). pose proof (digits_bounds m e) as [D1 D2].
  assert (Q : (Qabs (sfQ (S754_finite s m e)) == inject_Z (Z.pos m) * b2 e)%Q).
  { cbn [sfQ]. rewrite Qabs_Qmult, (Qabs_pos (b2 e)) by (apply Qlt_le_weak, b2_pos). destruct s; cbn [cond_Zopp]; rewrite <- ?inject_Z_opp; now destruct m. }
  rewrite Q in B. unfold SpecFloat.fexp, emin in C.
  destruct (Z_le_gt_dec 53 (Z.pos (digits2_pos m))) as [L|L].
  - pose proof (digits2_pos_spec m) as (D & _). eapply Z.le_trans; [|exact D]. apply Z.pow_le_mono_r; lia.
  - exfalso. assert (e = -1074) by lia. subst e. apply Qlt_not_le in B. apply B. eapply Qle_trans; [apply Qlt_le_weak, D2|]. apply b2_le. lia.
Qed.
(** zero, or a number which can be written with ten digits of exponent to spare *)
Lemma whole_dbl x : ordinary x -> dbl_text x <> [] /\ exists y, whole (dbl_text x) = Ok (Some y) /\ close x y.
Proof.
  intros [(s & ->)|(F & M)]; [split; [now destruct s|exists (S754_zero s); split; [now destruct s|left; now exists s]]|].
  destruct (write_read x F M) as (y & E & Fy & A & _). pose proof (near_normal x y M A) as B. pose proof (normal_mantissa y Fy B) as C.
  assert (N : dbl_text x <> []). { intros N. rewrite N in E. vm_compute in E. injection E as <-. destruct C. }
  split; [exact N|]. exists y. split; [|right; now split]. unfold whole, stod. rewrite E. destruct (length (dbl_text x)) as [|k] eqn:K; [now destruct (dbl_text x)|].
  replace (firstn (S k) (dbl_text x)) with (dbl_text x) by (symmetry; apply firstn_all2; lia). replace (skipn (S k) (dbl_text x)) with (@nil Z) by (symmetry; apply skipn_all2; lia).
  destruct y as [s|s| |s m e]; [destruct C|destruct Fy; discriminate|destruct Fy; discriminate|]. cbn [tiny orb]. destruct (Z.pos m <? 2 ^ 52) eqn:X; [lia|]. reflexivity.
Qed.
Lemma dbl_no_space x c : In c (dbl_text x) -> (c =? 32) = false.
Proof. intros I. pose proof (print_g_solid 15 x) as S0. unfold solid in S0. rewrite Forall_forall in S0. specialize (S0 c I). cbn in S0. lia. Qed.
Theorem offsets_read l : Forall ordinary l -> exists ys, number_list (split_tokens 32 (offsets_text l)) = Ok ys /\ Forall2 close l ys.
Proof.
  intros O. assert (T : split_tokens 32 (offsets_text l) = map dbl_text l).
  { unfold split_tokens. destruct l as [|x l]; [reflexivity|]. rewrite offsets_join, tokens_join; [|reflexivity|discriminate|].
    - assert (G : forall l, Forall ordinary l -> filter nonempty (map dbl_text l) = map dbl_text l).
      { clear. induction 1 as [|x l Ox _ IH]; [reflexivity|]. cbn [map filter]. rewrite IH. destruct (whole_dbl x Ox) as (N & _). now destruct (dbl_text x). }
      now apply G.
    - intros s c I. apply in_map_iff in I. destruct I as (y & <- & _). apply dbl_no_space. }
  rewrite T. clear T. induction O as [|x l Ox _ (ys & IH1 & IH2)]; [exists []; split; [reflexivity|constructor]|]. destruct (whole_dbl x Ox) as (_ & y & W & C).
  exists (y :: ys). cbn [map number_list]. rewrite W. cbn [bind]. rewrite IH1. cbn [bind]. split; [reflexivity|now constructor].
Qed.
Theorem positions_list n o l : descend [txt "Positions"; txt "Interval"] n = None -> descend [txt "Positions"; txt "List"; txt "Offsets"] n = Some o ->
  text o = offsets_text l -> Forall ordinary l -> exists ys, get_positions n = Ok (PosList ys) /\ Forall2 close l ys.
Proof. intros H1 H2 H3 H4. destruct (offsets_read l H4) as (ys & E & C). exists ys. split; [|exact C]. unfold get_positions. now rewrite H1, H2, H3, E. Qed.

(** the interval which is read for a dimension begins at the start stated before (0 by default) and has the length which was written *)
Lemma interval_read : forall ind w h b m doc doc', buildable doc -> (forall k st sz, tget b k = Some (st, sz) -> in_i32 sz) ->
  on_root (write_statistics w h b m) doc = Ok doc' ->
  exists d d', load (builder_get_xml ind doc) = Ok d /\ load (builder_get_xml ind doc') = Ok d' /\
    forall k st sz, In k dims -> tget b k = Some (st, sz) ->
      exists i, dim_info k d' = Some i /\
        let start := match dim_info k d with Some o => d_start o | None => 0 end in
        in_i32 (start + sz) -> get_interval i = Ok (start, start + sz).
Proof.
  intros ind w h b m doc doc' H1 H2 H3. destruct (sizes_read ind w h b m doc doc' H1 H2 H3) as (d & d' & A & B & _ & _ & _ & E).
  exists d, d'. split; [exact A|]. split; [exact B|]. intros k st sz Hk T. specialize (E k Hk). rewrite T in E. eexists. split; [exact E|].
  cbn zeta. intros R. apply in_i32b_spec in R. unfold get_interval, sized. destruct (dim_info k d) as [o|]; cbn [d_start d_size] in *; rewrite Z.add_comm in R; rewrite R; now rewrite (Z.add_comm sz).
Qed.
