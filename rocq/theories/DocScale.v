(** Lemmas: when writing goes through; the scaling; sizes of dimensions; positions in T and Z. *)
From Coq Require Import String QArith Qabs Floats.SpecFloat.
From Verif Require Import Base TextModel TextSpec TextProofs XmlModel XmlSpec XmlProofs XmlValues XmlPaths PugiModel PugiSpec PugiProofs PugiTree PugiRound PugiBuild.
From Verif Require Import CodesModel DateModel FloatProofs SFloatProofs ScaleModel ScaleNum NumModel NumSpec NumText NumRound DocModel DocSpec DocTree DocInt DocProofs.
Open Scope Z_scope.

(** ** when writing goes through *)
Definition no_elements (n : xml) : Prop := existsb is_elem (kids_of n) = false.
Lemma set_value_total v n : is_element n -> no_elements n -> exists n', set_value v n = Ok n'.
Proof. destruct n as [nm ats ks| |]; try easy. unfold no_elements. cbn [kids_of set_value]. intros _ ->. eexists; reflexivity. Qed.
Lemma follow_element sts : forall n c, is_element n -> follow sts n = Some c -> is_element c.
Proof.
  induction sts as [|[k ats] sts IH]; intros n c E H; [now injection H as <-|]. cbn [follow] in H. destruct (find (matches k ats) (kids_of n)) as [x|] eqn:F; [|discriminate].
  apply (IH x); [|exact H]. apply find_some in F. destruct F as (_ & F). now apply matches_is_elem in F.
Qed.
Lemma put_value_total v sts n : is_element n -> (forall c, follow sts n = Some c -> no_elements c) -> exists n', put (set_value v) sts n = Ok n'.
Proof.
  intros E H. apply put_total; [exact E| |intros nm ats; eexists; reflexivity]. intros c F. apply set_value_total; [now apply (follow_element sts n)|now apply H].
Qed.
Lemma fields_total {A} (path : A -> list spec) fs : NoDup (map fst fs) -> (forall a, In a (map fst fs) -> decent (path a)) ->
  (forall a b, In a (map fst fs) -> In b (map fst fs) -> a <> b -> separate (path a) (path b)) ->
  forall r, is_element r -> (forall a c, In a (map fst fs) -> follow (path a) r = Some c -> no_elements c) -> exists r', puts (jobs path fs) r = Ok r'.
Proof.
  induction fs as [|[a0 o0] fs IH]; intros N D Sp r E H; [eexists; reflexivity|]. cbn [map fst] in *. inversion N as [|? ? N1 N2]; subst.
  specialize (IH N2 (fun x Hx => D x (or_intror Hx)) (fun x y Hx Hy => Sp x y (or_intror Hx) (or_intror Hy))). cbn [jobs flat_map]. destruct o0 as [v|]; cbn [app puts].
  - destruct (put_value_total v (path a0) r E (fun c => H a0 c (or_introl eq_refl))) as (r1 & P). rewrite P. cbn [bind]. apply IH.
    + apply (kind_element _ r); [|exact E]. now apply (put_kind _ _ _ _ (set_value_steady v) P).
    + intros a c I F. apply (H a c (or_intror I)). destruct (put_other _ _ (set_value_steady v) (proj1 (D a0 (or_introl eq_refl))) (path a) r r1) as (G & _); [|exact P|congruence].
      apply Sp; [now left|now right|]. intros ->. now apply N1.
  - apply IH; [exact E|]. intros a c I. apply H. now right.
Qed.
Theorem general_total g doc : Forall is_element doc -> (exists r, find (matches ROOT []) doc = Some r) ->
  (forall name c, In name (map fst (general_fields g)) -> get_node [txt "Metadata"; txt "Information"; txt "Document"; txt name] doc = Some c -> forall k, In k (kids_of c) -> ~ is_element k) ->
  exists doc', on_root (write_general g) doc = Ok doc'.
Proof.
  intros E (r & F) H. unfold on_root. destruct (find_index (matches ROOT []) doc) as [i|] eqn:I.
  - destruct (find_find_index _ _ _ I) as (F1 & L). rewrite F in F1. injection F1 as <-. assert (Er : is_element r) by (apply find_some in F; destruct F as (_ & F); now apply matches_is_elem in F).
    rewrite general_jobs by exact Er. destruct (fields_total doc_field (general_fields g)) with (r := r) as (r' & ->); [..|eexists; reflexivity].
    + cbn. repeat constructor; cbn; intuition discriminate.
    + apply doc_field_decent.
    + apply doc_field_separate.
    + exact Er.
    + intros a c Ha Fa. unfold no_elements. destruct (existsb is_elem (kids_of c)) eqn:X; [|reflexivity]. apply existsb_exists in X. destruct X as (k & K1 & K2). exfalso.
      apply (H a c Ha) with (k := k); [|exact K1|now destruct k]. unfold get_node. rewrite F, descend_follow. exact Fa.
  - exfalso. apply find_some in F. destruct F as (F1 & F2). pose proof (find_index_none _ _ I r F1). congruence.
Qed.

Lemma NoDup_keys {A B} (fs : list (A * B)) : NoDup (map fst fs) -> forall a x y, In (a, x) fs -> In (a, y) fs -> x = y.
Proof.
  induction fs as [|[b z] fs IH]; intros N a x y I J; [easy|]. cbn [map fst] in N. inversion N as [|? ? N1 N2]; subst.
  destruct I as [I|I], J as [J|J]; [congruence|injection I as -> ->; apply (in_map fst) in J; easy|injection J as -> ->; apply (in_map fst) in I; easy|now apply (IH N2 a)].
Qed.
(** ** what is first followed, then selected *)
Definition look (pre qs : list spec) (n : xml) : list xml := match follow pre n with Some c => select qs c | None => [] end.
Lemma put_look f sts : steady f -> Forall distinct sts -> forall pre qs n n', separate sts (pre ++ qs) -> put f sts n = Ok n' -> look pre qs n' = look pre qs n.
Proof.
  intros St. induction sts as [|[k ats] sts IH]; intros D [|[q qats] pre] qs n n' X H; [now destruct qs|easy|cbn [app] in X; unfold look; cbn [follow]; now apply (put_other f ((k, ats) :: sts))|].
  inversion D as [|? ? D1 D2]; subst. cbn [app separate] in X.
  apply put_inv in H. destruct H as (nm & at_ & kids & a & c & c' & b & -> & -> & A & P & Y). pose proof (put_kind f sts c c' St P) as K.
  assert (M : matches k ats c = true) by (destruct Y as [[_ M]|(_ & -> & _)]; [exact M|now apply matches_new]).
  unfold look. cbn [follow kids_of]. pose proof (matches_kind q qats c' c K) as Q. fold (look pre qs).
  assert (G : forall l, match match find (matches q qats) l with Some x => follow pre x | None => None end with Some y => select qs y | None => [] end =
              match find (matches q qats) l with Some x => look pre qs x | None => [] end) by (intros l; now destruct (find _ l)).
  rewrite !G. assert (C : find (matches q qats) (a ++ c' :: b) = None /\ find (matches q qats) (a ++ c :: b) = None \/
     exists x y, find (matches q qats) (a ++ c' :: b) = Some x /\ find (matches q qats) (a ++ c :: b) = Some y /\ look pre qs x = look pre qs y).
  { assert (W : matches q qats c = true -> look pre qs c' = look pre qs c).
    { intros W. destruct X as [X|X]; [specialize (X c M); cbn [fst snd] in X; congruence|]. now apply (IH D2). }
    clear -Q W. induction a as [|x a IH]; cbn [app find].
    - rewrite Q. destruct (matches q qats c) eqn:E; [right; exists c', c; auto|]. destruct (find (matches q qats) b) as [y|]; [right; exists y, y|left]; auto.
    - destruct (matches q qats x); [right; exists x, x; auto|exact IH]. }
  assert (R : match find (matches q qats) (a ++ c' :: b) with Some x => look pre qs x | None => [] end = match find (matches q qats) (a ++ c :: b) with Some x => look pre qs x | None => [] end).
  { destruct C as [(-> & ->)|(x & y & -> & -> & C)]; [reflexivity|exact C]. }
  rewrite R. destruct Y as [[-> _]|(-> & -> & ->)]; [reflexivity|].
  clear -X M. induction a as [|x a IH]; cbn [app find]; [|destruct (matches q qats x); [reflexivity|exact IH]].
  destruct (matches q qats (Elem k ats [])) eqn:E; [|reflexivity]. destruct X as [X|X]; [specialize (X _ M); cbn [fst snd] in X; congruence|].
  unfold look. destruct pre as [|[p1 p2] pre]; [|reflexivity]. cbn [app] in X. destruct qs as [|[q1 q2] qs]; [destruct sts; easy|reflexivity].
Qed.
Lemma puts_look l pre qs : forall r r', (forall sts v, In (sts, v) l -> decent sts /\ separate sts (pre ++ qs)) -> puts l r = Ok r' -> look pre qs r' = look pre qs r.
Proof.
  induction l as [|[sts v] l IH]; intros r r' D H; cbn [puts] in H; [now injection H as <-|].
  destruct (put (set_value v) sts r) as [r1| | |] eqn:P; cbn [bind] in H; try discriminate. destruct (D sts v (or_introl eq_refl)) as ((D1 & _) & D2).
  rewrite (IH r1 r' (fun a b I => D a b (or_intror I)) H). now apply (put_look _ _ (set_value_steady v) D1 pre qs r r1 D2 P).
Qed.
Lemma look_settle pre qs n : is_element n -> look pre qs (settle n) = map settle (look pre qs n).
Proof.
  intros E. unfold look. rewrite (follow_settle pre n E). destruct (follow pre n) as [c|] eqn:F; [|reflexivity]. cbn [option_map]. apply select_settle. now apply (follow_element pre n).
Qed.
Lemma follow_look pre qs n c : follow (pre ++ qs) n = Some c -> hd_error (look pre qs n) = Some c.
Proof. rewrite follow_app. unfold look. destruct (follow pre n) as [x|]; [|discriminate]. apply follow_select. Qed.

(** ** texts of numbers *)
Definition solid (s : str) : Prop := Forall (fun c => 43 <= c <= 122) s.
Lemma stored_solid s : solid s -> stored s = s.
Proof.
  intros H. unfold stored. destruct s as [|c s]; [reflexivity|]. inversion H as [|? ? H1 H2]; subst. unfold blank. cbn [forallb]. replace (ws c) with false by (unfold ws; cbn [existsb]; lia). cbn [andb].
  apply line_ends_id. intros I. unfold solid in H. rewrite Forall_forall in H. specialize (H 13 I). lia.
Qed.
Lemma solid_chars s : solid s -> chars s.
Proof. apply Forall_impl. lia. Qed.
Lemma dec_solid n : solid (dec n).
Proof. apply dec_all; [lia|]. lia. Qed.
Lemma solid_app a b : solid (a ++ b) <-> solid a /\ solid b.
Proof. apply Forall_app. Qed.
Lemma solid_cut n s : solid s -> solid (firstn n s) /\ solid (skipn n s).
Proof. intros H. apply solid_app. now rewrite firstn_skipn. Qed.
Lemma solid_strip s : solid s -> solid (strip0 s).
Proof. intros H. destruct (strip0_ok s) as (k & E). rewrite E in H. now apply solid_app in H. Qed.
Lemma solid_point a b : solid a -> solid b -> solid (with_point a b).
Proof. intros A B. unfold with_point. destruct b; [exact A|]. apply solid_app. split; [exact A|]. constructor; [lia|exact B]. Qed.
Lemma solid_exp X : solid (exp_text X).
Proof.
  unfold exp_text. apply solid_app. split; [destruct (X <? 0); repeat constructor; lia|]. apply solid_app. split; [destruct (Z.abs X <? 10); repeat constructor; lia|apply dec_solid].
Qed.
Lemma solid_repeat k : solid (repeat 48 k).
Proof. induction k; constructor; [lia|assumption]. Qed.
Lemma print_g_solid P x : solid (print_g P x).
Proof.
  assert (G : forall DX, solid (g_text P DX)).
  { intros [D X]. unfold g_text. pose proof (dec_solid D) as H. destruct ((X <? -4) || (P <=? X)).
    - apply solid_app. split; [|apply solid_exp]. apply solid_point; [|apply solid_strip]; now apply solid_cut.
    - destruct (X <? 0); [|apply solid_point; [|apply solid_strip]; now apply solid_cut].
      apply solid_app. split; [repeat constructor; lia|]. apply solid_app. split; [apply solid_repeat|now apply solid_strip]. }
  assert (M : forall s : bool, solid (if s then [45] else [])) by (intros []; repeat constructor; lia).
  destruct x as [s|s| |s m e]; cbn [print_g].
  - apply solid_app. split; [apply M|repeat constructor; lia].
  - apply solid_app. split; [apply M|]. apply Forall_forall. intros c I. cbn in I. lia.
  - apply Forall_forall. intros c I. cbn in I. lia.
  - destruct (frac (SFabs (S754_finite s m e))) as [[n d]|]; [|constructor]. apply solid_app. split; [apply M|apply G].
Qed.

(** ** scaling *)
Definition scale_path (a : Z * string) : list spec := plainly [txt "Metadata"; txt "Scaling"] ++ distance_steps (fst a) (snd a).
Definition scale_fields1 (with_units : bool) (l : list (Z * (spec_float * str))) : list ((Z * string) * option str) :=
  flat_map (fun '(d, (x, u)) => [((d, "Value"%string), if valid_scale x then Some (dbl_text x) else None);
                                 ((d, "DefaultUnitFormat"%string), if with_units then match u with [] => None | _ => Some u end else None)]) l.
Lemma axis_cases (P : Z -> Prop) : P 88 -> P 89 -> P 90 -> forall d, In d axes -> P d.
Proof. intros H1 H2 H3 d I. cbn in I. destruct I as [<-|[<-|[<-|[]]]]; assumption. Qed.
Lemma write_distance d what v n : In d axes -> what = "Value"%string \/ what = "DefaultUnitFormat"%string -> is_element n ->
  write (distance d what) v n = put (set_value v) (scale_path (d, what)) n.
Proof.
  intros I W E. rewrite write_edit. apply edit_path; [|exact E]. revert d I. apply axis_cases; destruct W as [-> | ->]; vm_compute; reflexivity.
Qed.
Lemma scale_jobs with_units l : (forall d p, In (d, p) l -> In d axes) -> forall n, is_element n -> write_scales with_units l n = puts (jobs scale_path (scale_fields1 with_units l)) n.
Proof.
  induction l as [|[d [x u]] l IH]; intros H n E; [reflexivity|]. cbn [write_scales scale_fields1 flat_map]. rewrite jobs_app, puts_app.
  assert (Hd : In d axes) by (apply (H d (x, u)); now left).
  assert (K : forall n, is_element n -> (let* t := (if with_units then match u with [] => Ok n | _ => write (distance d "DefaultUnitFormat") u n end else Ok n) in write_scales with_units l t) =
              (let* t := puts (jobs scale_path [((d, "DefaultUnitFormat"%string), if with_units then match u with [] => None | _ => Some u end else None)]) n in puts (jobs scale_path (scale_fields1 with_units l)) t)).
  { clear n E. intros n E. assert (IH' := fun n => IH (fun d p I => H d p (or_intror I)) n). destruct with_units; [|cbn [jobs flat_map puts bind]; now apply IH'].
    destruct u as [|c u]; [cbn [jobs flat_map puts bind]; now apply IH'|]. rewrite write_distance by (auto; exact E). cbn [jobs flat_map app puts].
    destruct (put _ _ n) as [n1| | |] eqn:P; cbn [bind]; try reflexivity. apply IH'. apply (kind_element _ n); [|exact E]. now apply (put_kind _ _ _ _ (set_value_steady _) P). }
  match goal with |- context [puts (jobs scale_path [?p; ?q]) n] => change [p; q] with ([p] ++ [q]) end. rewrite jobs_app, puts_app.
  destruct (valid_scale x); [|cbn [jobs flat_map puts bind]; apply K; exact E]. rewrite write_distance by (auto; exact E). cbn [jobs flat_map app puts].
  destruct (put _ _ n) as [n1| | |] eqn:P; cbn [bind]; try reflexivity. apply K. apply (kind_element _ n); [|exact E]. now apply (put_kind _ _ _ _ (set_value_steady _) P).
Qed.
Lemma scale_keys with_units s a : In a (map fst (scale_fields1 with_units (combine axes s))) -> In (fst a) axes /\ (snd a = "Value"%string \/ snd a = "DefaultUnitFormat"%string).
Proof.
  intros I. apply in_map_iff in I. destruct I as ([a0 o] & <- & I). unfold scale_fields1 in I. apply in_flat_map in I. destruct I as ([d [x u]] & I & J).
  apply in_combine_l in I. destruct J as [J|[J|[]]]; injection J as <- _; cbn [fst snd]; auto.
Qed.
Lemma scale_decent a : In (fst a) axes -> snd a = "Value"%string \/ snd a = "DefaultUnitFormat"%string -> decent (scale_path a).
Proof.
  destruct a as [d what]. cbn [fst snd]. intros I W. apply decentb_ok. revert d I. apply axis_cases; destruct W as [-> | ->]; vm_compute; reflexivity.
Qed.
Lemma scale_separate a b : In (fst a) axes -> snd a = "Value"%string \/ snd a = "DefaultUnitFormat"%string -> In (fst b) axes -> snd b = "Value"%string \/ snd b = "DefaultUnitFormat"%string ->
  a <> b -> separate (scale_path a) (scale_path b).
Proof.
  destruct a as [d w], b as [d' w']. cbn [fst snd]. intros Ha Wa Hb Wb N. cbn [scale_path plainly map app distance_steps fst snd separate]. right. right. right.
  destruct (Z.eq_dec d d') as [<-|Nd].
  - right. left. apply names_differ. destruct Wa as [-> | ->], Wb as [-> | ->]; try (now elim N); reflexivity.
  - left. apply values_differ. destruct (str_eqb [d] [d']) eqn:Q; [apply str_eqb_eq in Q; congruence|reflexivity].
Qed.
Lemma get_scaling_look d r : find (matches ROOT []) d = Some r -> get_scaling d =
  map (fun a => (match look (plainly [txt "Metadata"; txt "Scaling"]) (distance_steps a "Value") r with n :: _ => as_dbl n | [] => S754_nan end,
                 match look (plainly [txt "Metadata"; txt "Scaling"]) (distance_steps a "DefaultUnitFormat") r with n :: _ => text n | [] => [] end)) axes.
Proof. intros F. unfold get_scaling, get_node. rewrite F, descend_follow. unfold look. now destruct (follow _ r). Qed.
Lemma text_two c v : is_element c -> kids_of c = [Text v] -> solid v -> text (settle c) = v.
Proof. intros E K S. rewrite (text_settle c v E K). now apply stored_solid. Qed.
Lemma fin_valid x : fin64 x -> valid_scale x = true.
Proof. destruct x; intros F; try reflexivity; destruct F; discriminate. Qed.
Theorem scaling_read ind with_units s doc doc' : buildable doc -> length s = 3%nat -> Forall (fun p => chars (snd p)) s -> on_root (write_scaling with_units s) doc = Ok doc' ->
  exists d d', load (builder_get_xml ind doc) = Ok d /\ load (builder_get_xml ind doc') = Ok d' /\
    length (get_scaling d) = 3%nat /\ length (get_scaling d') = 3%nat /\
    forall i old new written, nth_error s i = Some written -> nth_error (get_scaling d) i = Some old -> nth_error (get_scaling d') i = Some new -> scale_kept with_units old written new.
Proof.
  intros B Ls Cs H. set (fs := scale_fields1 with_units (combine axes s)). set (pre := plainly [txt "Metadata"; txt "Scaling"]).
  assert (Ax : forall d p, In (d, p) (combine axes s) -> In d axes) by (intros d p I; now apply in_combine_l in I).
  assert (Fc : forall a v, In (a, Some v) fs -> chars v).
  { intros a v I. unfold fs, scale_fields1 in I. apply in_flat_map in I. destruct I as ([d [x u]] & I & J). destruct J as [J|[J|[]]]; injection J as _ J.
    - destruct (valid_scale x); [|discriminate]. injection J as <-. apply solid_chars, print_g_solid.
    - destruct with_units; [|discriminate]. destruct u as [|c u]; [discriminate|]. injection J as <-. apply in_combine_r in I. rewrite Forall_forall in Cs. exact (Cs _ I). }
  assert (Fd : forall a, In a (map fst fs) -> decent (scale_path a)) by (intros a I; apply scale_keys in I; now apply scale_decent).
  assert (Fs : forall a b, In a (map fst fs) -> In b (map fst fs) -> a <> b -> separate (scale_path a) (scale_path b)).
  { intros a b Ia Ib N. apply scale_keys in Ia. apply scale_keys in Ib. now apply scale_separate. }
  destruct (saved ind doc _ doc' B H) as (r & r' & d & d' & S & W & S' & L & L' & F & F' & B').
  { intros r r' S W. unfold write_scaling in W. rewrite (scale_jobs with_units _ Ax) in W by apply S. apply (puts_sound _ r r' S) in W; [exact W|]. intros sts v I. apply jobs_in in I. destruct I as (a & I & ->).
    split; [|now apply (Fc a)]. apply Fd. now apply (in_map fst) in I. }
  exists d, d'. split; [exact L|]. split; [exact L'|]. rewrite (get_scaling_look d _ F), (get_scaling_look d' _ F'). split; [reflexivity|]. split; [reflexivity|].
  unfold write_scaling in W. rewrite (scale_jobs with_units _ Ax) in W by apply S. fold fs in W. fold pre.
  assert (N : NoDup (map fst fs)).
  { unfold fs. destruct s as [|[x1 u1] [|[x2 u2] [|[x3 u3] [|]]]]; try discriminate. cbn. repeat constructor; cbn; intuition discriminate. }
  assert (R : forall a o, In (a, o) fs -> match o with
      | Some v => exists c l, look pre (distance_steps (fst a) (snd a)) r' = c :: l /\ is_element c /\ kids_of c = [Text v]
      | None => look pre (distance_steps (fst a) (snd a)) r' = look pre (distance_steps (fst a) (snd a)) r end).
  { intros a o I. pose proof (fields_read scale_path fs N Fd Fs Fc r r' S W a o I) as X. unfold field_read in X. destruct o as [v|].
    - destruct X as (c & X1 & X2 & X3). apply (follow_look pre) in X1. destruct (look pre _ r') as [|c0 l]; [discriminate|]. injection X1 as ->. exists c, l. auto.
    - clear X. pose proof I as I0. apply (in_map fst) in I0. cbn [fst] in I0. apply (puts_look (jobs scale_path fs)); [|exact W]. intros sts v J. apply jobs_in in J. destruct J as (b & J & ->).
      pose proof J as J0. apply (in_map fst) in J0. cbn [fst] in J0. split; [now apply Fd|]. apply Fs; [exact J0|exact I0|]. intros ->.
      apply (NoDup_keys fs N a (Some v) None) in J; [discriminate J|exact I]. }
  assert (Q : forall a x u, In (a, (x, u)) (combine axes s) ->
    scale_kept with_units (match look pre (distance_steps a "Value") (settle r) with n :: _ => as_dbl n | [] => S754_nan end, match look pre (distance_steps a "DefaultUnitFormat") (settle r) with n :: _ => text n | [] => [] end) (x, u)
      (match look pre (distance_steps a "Value") (settle r') with n :: _ => as_dbl n | [] => S754_nan end, match look pre (distance_steps a "DefaultUnitFormat") (settle r') with n :: _ => text n | [] => [] end)).
  { intros a x u I.
    pose proof (R (a, "Value"%string) (if valid_scale x then Some (dbl_text x) else None)) as R1. cbn [fst snd] in R1.
    pose proof (R (a, "DefaultUnitFormat"%string) (if with_units then match u with [] => None | _ => Some u end else None)) as R2. cbn [fst snd] in R2.
    specialize (R1 ltac:(apply in_flat_map; exists (a, (x, u)); split; [exact I|left; reflexivity])).
    specialize (R2 ltac:(apply in_flat_map; exists (a, (x, u)); split; [exact I|right; left; reflexivity])).
    rewrite !(look_settle _ _ r) by apply S. rewrite !(look_settle _ _ r') by apply S'. unfold scale_kept. cbn [fst snd].
    assert (V : valid_scale x = true -> match map settle (look pre (distance_steps a "Value") r') with n :: _ => as_dbl n | [] => S754_nan end = fst (strtod (dbl_text x))).
    { intros V. rewrite V in R1. destruct R1 as (c & l & -> & Ec & Kc). cbn [map]. unfold as_dbl. rewrite (text_two c _ Ec Kc (print_g_solid 15 x)). reflexivity. }
    split; [|split; [|split]].
    - intros V0. rewrite V0 in R1. now rewrite R1.
    - intros s0 ->. rewrite V by reflexivity. destruct s0; reflexivity.
    - intros Fx M. rewrite (V (fin_valid x Fx)). destruct (write_read x Fx M) as (y & Ey & Fy & Ay & _). rewrite Ey. now split.
    - destruct with_units; [|now rewrite R2]. destruct u as [|c u]; [now rewrite R2|]. destruct R2 as (e & l & -> & Ec & Kc). cbn [map]. now apply text_settle. }
  intros i old new written H1 H2 H3. destruct s as [|w1 [|w2 [|w3 [|]]]]; try discriminate.
  destruct i as [|[|[|i]]]; cbn [nth_error map axes] in H1, H2, H3; [| | |destruct i; discriminate]; injection H1 as <-; injection H2 as <-; injection H3 as <-.
  - destruct w1 as [x u]. apply Q. cbn. tauto.
  - destruct w2 as [x u]. apply Q. cbn. tauto.
  - destruct w3 as [x u]. apply Q. cbn. tauto.
Qed.

(** ** texts which survive *)
Lemma stored_plain s : (s = [] \/ blank s = false) /\ ~ In 13 s -> stored s = s.
Proof. intros ([-> |B] & N); [reflexivity|]. unfold stored. rewrite B. now apply line_ends_id. Qed.
Theorem general_exact ind g doc doc' : buildable doc -> proper_info g -> plain_info g -> on_root (write_general g) doc = Ok doc' ->
  exists d d', load (builder_get_xml ind doc) = Ok d /\ load (builder_get_xml ind doc') = Ok d' /\ get_general d' = replaced g (get_general d).
Proof.
  intros B P Q H. destruct (general_read ind g doc doc' B P H) as (d & d' & L & L' & E & _). exists d, d'. split; [exact L|]. split; [exact L'|]. rewrite E. unfold over, replaced.
  assert (X : forall o o0, In o (texts g) -> newer stored o o0 = newer (fun s => s) o o0) by (intros [s|] o0 I; [cbn [newer]; now rewrite stored_plain by exact (Q s I)|reflexivity]).
  rewrite !X by (cbn; tauto). reflexivity.
Qed.
Lemma fresh_buildable : buildable [Elem ROOT [] []].
Proof.
  assert (N : proper_name ROOT) by (apply wordb_name; vm_compute; reflexivity).
  split; [discriminate|]. split; [constructor; [exact I|constructor]|]. split; (constructor; [|constructor]).
  - split; [exact N|]. split; constructor.
  - apply tidy_new.
Qed.
