(** Lemmas: values written to a builder as read from the document it is saved as. *)
From Coq Require Import String QArith Qabs Floats.SpecFloat.
From Verif Require Import Base TextModel TextSpec TextProofs XmlModel XmlSpec XmlProofs XmlValues XmlPaths PugiModel PugiSpec PugiProofs PugiTree PugiRound PugiBuild.
From Verif Require Import SFloatProofs ScaleNum NumModel NumSpec NumRound DocModel DocSpec DocTree DocInt.
Open Scope Z_scope.

(** ** tidy documents *)
Lemma tidy_elem nm ats ks : tidy (Elem nm ats ks) <-> tidy_kids ks /\ Forall tidy ks.
Proof.
  split.
  - intros T. split; [exact (T [] _ eq_refl)|]. apply Forall_forall. intros k I h n H. apply In_nth_error in I. destruct I as (i & I).
    apply (T (i :: h) n). cbn [node_at kids_of]. now rewrite I.
  - intros (K & F) [|i h] n H; cbn [node_at kids_of] in H; [injection H as <-; exact K|]. destruct (nth_error ks i) as [c|] eqn:E; [|discriminate].
    rewrite Forall_forall in F. apply (F c (nth_error_In _ _ E) h n H).
Qed.
Lemma tidy_kids_swap a c c' b : is_element c -> is_element c' -> tidy_kids (a ++ c :: b) -> tidy_kids (a ++ c' :: b).
Proof.
  intros E E' (H1 & H2). split.
  - intros s I. apply (H1 s). rewrite in_app_iff in *. destruct I as [I|[->|I]]; [now left|destruct E'|right; now right].
  - rewrite filter_app in *. cbn [filter] in *. destruct c; try easy. destruct c'; easy.
Qed.
Lemma tidy_kids_more a c : is_element c -> tidy_kids a -> tidy_kids (a ++ [c]).
Proof.
  intros E (H1 & H2). split.
  - intros s I. rewrite in_app_iff in I. destruct I as [I|[->|[]]]; [now apply (H1 s)|destruct E].
  - rewrite filter_app. cbn [filter]. destruct c; try easy. now rewrite app_nil_r.
Qed.
Lemma tidy_new k ats : tidy (Elem k ats []).
Proof. apply tidy_elem. split; [|constructor]. split; [intros s []|cbn; lia]. Qed.
Lemma kind_element a b : kind_of a = kind_of b -> is_element b -> is_element a.
Proof. destruct a, b; cbn; easy. Qed.
Lemma put_tidy f sts : steady f -> (forall a b, tidy a -> f a = Ok b -> tidy b) -> Forall distinct sts -> forall n n', tidy n -> put f sts n = Ok n' -> tidy n'.
Proof.
  intros St G D. induction D as [|[k ats] sts D1 D IH]; intros n n' T P; [now apply (G n)|].
  apply put_inv in P. destruct P as (nm & at_ & kids & a & c & c' & b & -> & -> & A & P & Y). pose proof (put_kind f sts c c' St P) as K.
  apply tidy_elem in T. destruct T as (T1 & T2). apply tidy_elem. destruct Y as [[-> M]|(-> & -> & ->)].
  - apply matches_is_elem in M. pose proof (kind_element _ _ K M) as M'. apply Forall_app in T2. destruct T2 as (T2 & T3). inversion T3; subst.
    split; [now apply (tidy_kids_swap a c)|]. apply Forall_app. split; [exact T2|]. constructor; [now apply (IH c)|assumption].
  - pose proof (kind_element _ _ K I) as M'. split; [now apply tidy_kids_more|]. apply Forall_app. split; [exact T2|]. constructor; [|constructor].
    apply (IH (Elem k ats [])); [apply tidy_new|exact P].
Qed.
Lemma follow_tidy sts : forall n c, tidy n -> follow sts n = Some c -> tidy c.
Proof.
  induction sts as [|[k ats] sts IH]; intros n c T H; [now injection H as <-|]. cbn [follow] in H.
  destruct (find (matches k ats) (kids_of n)) as [x|] eqn:F; [|discriminate]. apply (IH x c); [|exact H]. apply find_some in F. destruct F as (F & _).
  destruct n as [nm at_ ks| |]; [|destruct F..]. apply tidy_elem in T. destruct T as (_ & T). rewrite Forall_forall in T. now apply T.
Qed.
Lemma set_value_keeps_tidy v a b : tidy a -> set_value v a = Ok b -> tidy b.
Proof. intros T H. apply (change_tidy v [] a b T H). Qed.

(** ** a list of values to be written *)
Definition sound (r : xml) : Prop := is_element r /\ named r /\ tidy r.
Definition decent (sts : list spec) : Prop := Forall distinct sts /\ Forall named_spec sts.
Fixpoint puts (l : list (list spec * str)) (r : xml) : res xml :=
  match l with [] => Ok r | (sts, v) :: l' => let* r1 := put (set_value v) sts r in puts l' r1 end.
Lemma put_sound v sts r r' : sound r -> decent sts -> chars v -> put (set_value v) sts r = Ok r' -> sound r' /\ kind_of r' = kind_of r.
Proof.
  intros (E & N & T) (D1 & D2) V H. pose proof (put_kind _ _ _ _ (set_value_steady v) H) as K. split; [|exact K]. split; [now apply (kind_element _ r)|]. split.
  - apply (put_named (set_value v) sts (fun a b => set_value_named v a b V) D2 r r' N H).
  - apply (put_tidy (set_value v) sts (set_value_steady v) (set_value_keeps_tidy v) D1 r r' T H).
Qed.
Lemma put_there v sts r r' : sound r -> decent sts -> put (set_value v) sts r = Ok r' ->
  exists c, follow sts r' = Some c /\ is_element c /\ kids_of c = [Text v].
Proof.
  intros (E & N & T) (D1 & D2) H. destruct (put_same _ _ (set_value_steady v) D1 r r' H) as (c & c' & F1 & F2 & F3). exists c'. split; [exact F1|].
  split; [destruct c; cbn [set_value] in F2; try discriminate; destruct (existsb is_elem kids); [discriminate|]; injection F2 as <-; exact I|].
  apply (set_value_tidy v c c'); [|exact F2]. destruct F3 as [F3|(_ & _ & ->)]; [exact (follow_tidy _ _ _ T F3 [] c eq_refl)|]. split; [intros s []|cbn; lia].
Qed.
Lemma puts_sound l : forall r r', sound r -> (forall sts v, In (sts, v) l -> decent sts /\ chars v) -> puts l r = Ok r' -> sound r' /\ kind_of r' = kind_of r.
Proof.
  induction l as [|[sts v] l IH]; intros r r' S D H; cbn [puts] in H; [now injection H as <-|].
  destruct (put (set_value v) sts r) as [r1| | |] eqn:P; cbn [bind] in H; try discriminate. destruct (D sts v (or_introl eq_refl)) as (D1 & D2).
  destruct (put_sound v sts r r1 S D1 D2 P) as (S1 & K1). destruct (IH r1 r' S1 (fun a b I => D a b (or_intror I)) H) as (S2 & K2). split; [exact S2|congruence].
Qed.
Lemma puts_other l qs : forall r r', (forall sts v, In (sts, v) l -> decent sts /\ separate sts qs) -> puts l r = Ok r' -> follow qs r' = follow qs r /\ select qs r' = select qs r.
Proof.
  induction l as [|[sts v] l IH]; intros r r' D H; cbn [puts] in H; [now injection H as <-|].
  destruct (put (set_value v) sts r) as [r1| | |] eqn:P; cbn [bind] in H; try discriminate. destruct (D sts v (or_introl eq_refl)) as ((D1 & _) & D2).
  destruct (put_other _ _ (set_value_steady v) D1 qs r r1 D2 P) as (A & B). destruct (IH r1 r' (fun a b I => D a b (or_intror I)) H) as (A2 & B2). split; congruence.
Qed.
(** a value for each key, or none *)
Section Fields.
  Context {A : Type} (path : A -> list spec).
  Definition jobs (fs : list (A * option str)) : list (list spec * str) :=
    flat_map (fun '(a, o) => match o with Some v => [(path a, v)] | None => [] end) fs.
  Lemma jobs_in fs sts v : In (sts, v) (jobs fs) <-> exists a, In (a, Some v) fs /\ sts = path a.
  Proof.
    unfold jobs. rewrite in_flat_map. split.
    - intros ([a [w|]] & I & J); [|easy]. destruct J as [J|[]]. injection J as <- <-. eauto.
    - intros (a & I & ->). exists (a, Some v). split; [exact I|now left].
  Qed.
  Definition field_read (r r' : xml) (a : A) (o : option str) : Prop :=
    match o with
    | Some v => exists c, follow (path a) r' = Some c /\ is_element c /\ kids_of c = [Text v]
    | None => follow (path a) r' = follow (path a) r /\ select (path a) r' = select (path a) r
    end.
  Lemma fields_read fs : NoDup (map fst fs) -> (forall a, In a (map fst fs) -> decent (path a)) ->
    (forall a b, In a (map fst fs) -> In b (map fst fs) -> a <> b -> separate (path a) (path b)) -> (forall a v, In (a, Some v) fs -> chars v) ->
    forall r r', sound r -> puts (jobs fs) r = Ok r' -> forall a o, In (a, o) fs -> field_read r r' a o.
  Proof.
    induction fs as [|[a0 o0] fs IH]; intros N D Sp V r r' S H a o I; [easy|]. cbn [map fst] in *. inversion N as [|? ? N1 N2]; subst.
    specialize (IH N2 (fun x Hx => D x (or_intror Hx)) (fun x y Hx Hy => Sp x y (or_intror Hx) (or_intror Hy)) (fun x v Hx => V x v (or_intror Hx))).
    assert (K : exists r1, puts (jobs fs) r1 = Ok r' /\ sound r1 /\ match o0 with Some v => put (set_value v) (path a0) r = Ok r1 | None => r1 = r end).
    { cbn [jobs flat_map] in H. destruct o0 as [v|]; cbn [app puts] in H; [|exists r; auto].
      destruct (put (set_value v) (path a0) r) as [r1| | |] eqn:P; cbn [bind] in H; try discriminate. exists r1. split; [exact H|]. split; [|reflexivity].
      apply (put_sound v (path a0) r r1 S); [apply D; now left|apply (V a0 v); now left|exact P]. }
    destruct K as (r1 & H1 & S1 & P). destruct I as [E|I].
    - injection E as <- <-. destruct (puts_other (jobs fs) (path a0) r1 r') as (O1 & O2); [|exact H1|].
      { intros sts v J. apply jobs_in in J. destruct J as (b & J & ->). apply (in_map fst) in J. cbn [fst] in J. split; [apply D; now right|].
        apply Sp; [now right|now left|]. intros ->. now apply N1. }
      unfold field_read. destruct o0 as [v|]; [|subst r1; now split]. rewrite O1. apply (put_there v (path a0) r r1 S); [apply D; now left|exact P].
    - pose proof (IH r1 r' S1 H1 a o I) as F. unfold field_read in *. destruct o as [v|]; [exact F|]. destruct F as (F1 & F2). destruct o0 as [w|]; [|now subst r1].
      pose proof I as J. apply (in_map fst) in J. cbn [fst] in J.
      destruct (put_other _ _ (set_value_steady w) (proj1 (D a0 (or_introl eq_refl))) (path a) r r1) as (G1 & G2); [|exact P|split; congruence].
      apply Sp; [now left|now right|]. intros ->. now apply N1.
  Qed.
End Fields.

(** ** names and paths, by computation *)
Definition letterb (c : Z) : bool := (97 <=? c) && (c <=? 122) || (65 <=? c) && (c <=? 90).
Definition wordb (s : str) : bool := match s with [] => false | _ => forallb letterb s end.
Lemma wordb_name s : wordb s = true -> proper_name s.
Proof.
  unfold wordb. destruct s as [|c s]; [discriminate|]. intros H. rewrite forallb_forall in H. unfold letterb in H. split; [|split].
  - apply Forall_forall. intros d I. specialize (H d I). lia.
  - apply Forall_forall. intros d I. specialize (H d I). unfold name_char, letter. lia.
  - specialize (H c (or_introl eq_refl)). unfold letter. lia.
Qed.
Definition decentb (sts : list spec) : bool :=
  forallb (fun '(k, ats) => wordb k && match ats with [] => true | [(a, v)] => wordb a && wordb v | _ => false end) sts.
Lemma decentb_ok sts : decentb sts = true -> decent sts.
Proof.
  unfold decentb. rewrite forallb_forall. intros H. split; apply Forall_forall; intros [k ats] I; specialize (H _ I); cbn in H; apply andb_prop in H; destruct H as (H1 & H2).
  - unfold distinct. cbn [snd]. destruct ats as [|[a v] [|]]; [constructor| |discriminate]. repeat constructor. intros [].
  - split; [now apply wordb_name|]. cbn [snd]. destruct ats as [|[a v] [|]]; [constructor| |discriminate]. apply andb_prop in H2. destruct H2 as (A & B).
    repeat constructor; [apply wordb_name in A; apply A..|apply wordb_name in B; apply B].
Qed.
Fixpoint parsed (l : list str) : option (list spec) :=
  match l with
  | [] => Some []
  | k :: l' => match create_spec k, parsed l' with Ok st, Some r => Some (st :: r) | _, _ => None end
  end.
Lemma parsed_ok l : forall sts, parsed l = Some sts -> Forall2 (fun k st => create_spec k = Ok st) l sts.
Proof.
  induction l as [|k l IH]; intros sts H; cbn [parsed] in H; [injection H as <-; constructor|]. destruct (create_spec k) eqn:E; try discriminate.
  destruct (parsed l) as [r|]; [|discriminate]. injection H as <-. constructor; auto.
Qed.
Definition path_of (p : str) : option (list spec) := match path_tokens p with Ok toks => parsed toks | _ => None end.
Lemma edit_path p f sts n : path_of p = Some sts -> is_element n -> edit p f n = put f sts n.
Proof. unfold path_of. destruct (path_tokens p) as [toks| | |] eqn:T; try discriminate. intros H E. apply (edit_put p f toks sts n T); [now apply parsed_ok|exact E]. Qed.

(** ** documents *)
Lemma find_find_index (p : xml -> bool) doc i : find_index p doc = Some i -> find p doc = Some (nth i doc dummy) /\ (i < length doc)%nat.
Proof.
  revert i. induction doc as [|x doc IH]; intros i H; cbn [find_index find] in *; [discriminate|]. destruct (p x); [injection H as <-; cbn; split; [reflexivity|lia]|].
  destruct (find_index p doc) as [j|]; [|discriminate]. injection H as <-. destruct (IH j eq_refl). cbn [nth length]. split; [assumption|lia].
Qed.
Lemma find_upd (p : xml -> bool) doc : forall i r, find_index p doc = Some i -> p r = true -> find p (upd doc i r) = Some r.
Proof.
  induction doc as [|x doc IH]; intros i r H P; cbn [find_index] in *; [discriminate|]. destruct (p x) eqn:X; [injection H as <-; cbn [upd find]; now rewrite P|].
  destruct (find_index p doc) as [j|]; [|discriminate]. injection H as <-. cbn [upd find]. rewrite X. now apply IH.
Qed.
Lemma find_settle k ats doc : find (matches k ats) (map settle doc) = option_map settle (find (matches k ats) doc).
Proof. induction doc as [|x doc IH]; [reflexivity|]. cbn [map find]. rewrite matches_settle. destruct (matches k ats x); [reflexivity|exact IH]. Qed.
Lemma saved ind doc f doc' : buildable doc -> on_root f doc = Ok doc' -> (forall r r', sound r -> f r = Ok r' -> sound r' /\ kind_of r' = kind_of r) ->
  exists r r' d d', sound r /\ f r = Ok r' /\ sound r' /\ load (builder_get_xml ind doc) = Ok d /\ load (builder_get_xml ind doc') = Ok d' /\
    find (matches ROOT []) d = Some (settle r) /\ find (matches ROOT []) d' = Some (settle r') /\ buildable doc'.
Proof.
  intros (B1 & B2 & B3 & B4) H G. unfold on_root in H. destruct (find_index (matches ROOT []) doc) as [i|] eqn:F; [|discriminate].
  destruct (find_find_index _ _ _ F) as (F1 & L). set (r := nth i doc dummy) in *.
  assert (In r doc) by (apply nth_In; exact L). assert (S : sound r) by (rewrite Forall_forall in *; split; [auto|split; auto]).
  destruct (f r) as [r'| | |] eqn:E; cbn [bind] in H; try discriminate. injection H as <-. destruct (G r r' S E) as ((S1 & S2 & S3) & K).
  assert (M : matches ROOT [] r' = true). { rewrite (matches_kind _ _ _ _ K). apply find_some in F1. apply F1. }
  assert (B' : buildable (upd doc i r')). { split; [destruct doc; [easy|now destruct i]|]. split; [now apply Forall_upd|]. split; now apply Forall_upd. }
  exists r, r', (map settle doc), (map settle (upd doc i r')). split; [exact S|]. split; [exact E|]. split; [now split|].
  split; [now apply builder_round|]. split; [apply builder_round; apply B'|]. rewrite !find_settle, F1, (find_upd _ _ _ _ F M). repeat split; apply B'.
Qed.
Lemma text_settle c v : is_element c -> kids_of c = [Text v] -> text (settle c) = stored v.
Proof.
  destruct c as [nm ats ks| |]; try easy. cbn [kids_of]. intros _ ->. rewrite settle_elem. cbn [settles app]. unfold text, kept, stored. cbn [kids_of].
  destruct (blank v); reflexivity.
Qed.

(** ** general information *)
Definition doc_field (name : string) : list spec := plainly [txt "Metadata"; txt "Information"; txt "Document"; txt name].
Definition general_fields (g : ginfo) : list (string * option str) :=
  [("Name"%string, g_name g); ("Title"%string, g_title g); ("UserName"%string, g_user g); ("Description"%string, g_description g); ("Comment"%string, g_comment g);
   ("Keywords"%string, g_keywords g); ("CreationDate"%string, g_date g); ("Rating"%string, option_map dec (g_rating g))].
Lemma general_cases (P : string -> Prop) : P "Name"%string -> P "Title"%string -> P "UserName"%string -> P "Description"%string -> P "Comment"%string ->
  P "Keywords"%string -> P "CreationDate"%string -> P "Rating"%string -> forall g a, In a (map fst (general_fields g)) -> P a.
Proof. intros. cbn in H7. repeat match goal with H : _ \/ _ |- _ => destruct H as [<-|H]; [assumption|] end. easy. Qed.
Lemma set_field_jobs a o n : In a (map fst (general_fields ginfo0)) -> is_element n -> set_field a o n = puts (jobs doc_field [(a, o)]) n.
Proof.
  intros I E. destruct o as [v|]; [|reflexivity]. cbn [set_field jobs flat_map app puts]. rewrite write_edit.
  rewrite (edit_path _ _ (doc_field a)); [destruct (put _ _ n); reflexivity| |exact E].
  revert I. apply (general_cases (fun a => path_of (txt "Metadata/Information/Document/" ++ txt a) = Some (doc_field a))); vm_compute; reflexivity.
Qed.
Lemma puts_app l1 : forall l2 r, puts (l1 ++ l2) r = let* r1 := puts l1 r in puts l2 r1.
Proof. induction l1 as [|[s v] l1 IH]; intros l2 r; [reflexivity|]. cbn [app puts]. destruct (put _ s r); cbn [bind]; [apply IH|reflexivity..]. Qed.
Lemma puts_elem l : forall r r', is_element r -> puts l r = Ok r' -> is_element r'.
Proof.
  induction l as [|[s v] l IH]; intros r r' E H; cbn [puts] in H; [now injection H as <-|]. destruct (put _ s r) as [r1| | |] eqn:P; cbn [bind] in H; try discriminate.
  apply (IH r1); [|exact H]. apply (kind_element _ r); [|exact E]. now apply (put_kind _ _ _ _ (set_value_steady v) P).
Qed.
Lemma jobs_app {A} (path : A -> list spec) a b : jobs path (a ++ b) = jobs path a ++ jobs path b.
Proof. unfold jobs. apply flat_map_app. Qed.
Lemma general_jobs g r : is_element r -> write_general g r = puts (jobs doc_field (general_fields g)) r.
Proof.
  intros E. unfold write_general.
  assert (Step : forall a o fs (k : xml -> res xml) n, In a (map fst (general_fields ginfo0)) -> is_element n ->
    (forall n', is_element n' -> k n' = puts (jobs doc_field fs) n') -> (let* n' := set_field a o n in k n') = puts (jobs doc_field ((a, o) :: fs)) n).
  { intros a o fs k n I En K. rewrite (set_field_jobs a o n I En). change ((a, o) :: fs) with ([(a, o)] ++ fs). rewrite jobs_app, puts_app.
    destruct (puts (jobs doc_field [(a, o)]) n) as [n'| | |] eqn:P; cbn [bind]; try reflexivity. apply K. now apply (puts_elem _ _ _ En P). }
  unfold general_fields. do 7 (apply Step; [cbn; tauto|assumption|]; clear r E; intros r E). apply set_field_jobs; [cbn; tauto|exact E].
Qed.
Lemma doc_field_separate g a b : In a (map fst (general_fields g)) -> In b (map fst (general_fields g)) -> a <> b -> separate (doc_field a) (doc_field b).
Proof.
  intros Ha Hb N. cbn [doc_field plainly map separate]. right. right. right. left. apply names_differ.
  revert a Ha b Hb N. apply (general_cases (fun a => forall b, In b _ -> a <> b -> str_eqb (txt a) (txt b) = false));
    apply (general_cases (fun b => _ <> b -> str_eqb _ (txt b) = false)); intros N; try (now elim N); vm_compute; reflexivity.
Qed.
Lemma doc_field_decent g a : In a (map fst (general_fields g)) -> decent (doc_field a).
Proof. intros I. apply decentb_ok. revert a I. apply (general_cases (fun a => decentb (doc_field a) = true)); vm_compute; reflexivity. Qed.
Lemma dec_all (P : Z -> Prop) : P 45 -> (forall c, 48 <= c <= 57 -> P c) -> forall n, Forall P (dec n).
Proof.
  intros P0 PD n. assert (D : forall fuel m, 0 <= m -> Forall P (dec_digits fuel m)).
  { induction fuel as [|f IH]; intros m M; [constructor|]. cbn [dec_digits]. destruct (m <? 10) eqn:E; [constructor; [apply PD; lia|constructor]|].
    apply Forall_app. split; [apply IH; apply Z.div_pos; lia|]. constructor; [apply PD; lia|constructor]. }
  unfold dec. destruct (n <? 0) eqn:E; [constructor; [exact P0|]|]; apply D; lia.
Qed.
Lemma dec_chars n : chars (dec n).
Proof. apply (dec_all (fun c => 1 <= c < 2 ^ 21)); lia. Qed.
Lemma dec_nonempty n : dec n <> [].
Proof. unfold dec. destruct (n <? 0); [discriminate|]. cbn [dec_digits]. destruct (n <? 10); [discriminate|]. intros H. apply app_eq_nil in H. destruct H as (_ & H). discriminate H. Qed.
Lemma dec_not_blank n : blank (dec n) = false.
Proof.
  pose proof (dec_nonempty n) as N. pose proof (dec_all (fun c => ws c = false)) as A. specialize (A eq_refl ltac:(intros c H; unfold ws; cbn [existsb]; lia) n).
  destruct (dec n) as [|c s]; [easy|]. inversion A as [|? ? H1 H2]; subst. unfold blank. cbn [forallb]. now rewrite H1.
Qed.
Lemma dec_no13 n : ~ In 13 (dec n).
Proof. intros I. assert (A : Forall (fun c => c <> 13) (dec n)) by (apply dec_all; intros; lia). rewrite Forall_forall in A. now apply (A 13). Qed.
Lemma general_chars g a v : proper_info g -> In (a, Some v) (general_fields g) -> chars v.
Proof.
  intros (P & _) I. unfold general_fields in I. cbn [In] in I.
  repeat match goal with H : _ \/ _ |- _ => destruct H as [H|H]; [injection H as _ H; first [apply P; unfold texts; rewrite H; cbn; tauto|destruct (g_rating g); cbn in H; [injection H as <-; apply dec_chars|discriminate]]|] end.
  easy.
Qed.
Lemma get_general_fields d r : find (matches ROOT []) d = Some r ->
  let field a := follow (doc_field a) r in
  get_general d = mkG (option_map text (field "Name"%string)) (option_map text (field "Title"%string)) (option_map text (field "UserName"%string))
    (option_map text (field "Description"%string)) (option_map text (field "Comment"%string)) (option_map text (field "Keywords"%string))
    (option_map text (field "CreationDate"%string)) (option_map as_int (field "Rating"%string)).
Proof.
  intros F. cbv zeta. unfold get_general, get_node. rewrite F, descend_follow.
  assert (E : forall a, follow (doc_field a) r = match follow (plainly [txt "Metadata"; txt "Information"; txt "Document"]) r with Some c => follow (plainly [txt a]) c | None => None end).
  { intros a. unfold doc_field. change [txt "Metadata"; txt "Information"; txt "Document"; txt a] with ([txt "Metadata"; txt "Information"; txt "Document"] ++ [txt a]).
    unfold plainly at 1. rewrite map_app. apply follow_app. }
  rewrite !E. destruct (follow _ r) as [np|]; [|reflexivity]. cbv zeta. rewrite !descend_follow. reflexivity.
Qed.
Theorem general_read ind g doc doc' : buildable doc -> proper_info g -> on_root (write_general g) doc = Ok doc' ->
  exists d d', load (builder_get_xml ind doc) = Ok d /\ load (builder_get_xml ind doc') = Ok d' /\ get_general d' = over g (get_general d) /\ buildable doc'.
Proof.
  intros B P H. destruct (saved ind doc (write_general g) doc' B H) as (r & r' & d & d' & S & W & S' & L & L' & F & F' & B').
  { intros r r' S W. rewrite general_jobs in W by apply S. apply (puts_sound _ r r' S) in W; [exact W|]. intros sts v I. apply jobs_in in I. destruct I as (a & I & ->).
    split; [|now apply (general_chars g a)]. apply (in_map fst) in I. now apply (doc_field_decent g). }
  exists d, d'. split; [exact L|]. split; [exact L'|]. split; [|exact B']. rewrite (get_general_fields d _ F), (get_general_fields d' _ F'). cbv zeta.
  rewrite general_jobs in W by apply S.
  assert (R : forall a o, In (a, o) (general_fields g) -> field_read doc_field r r' a o).
  { apply (fields_read doc_field (general_fields g)); [|apply doc_field_decent|apply doc_field_separate|intros a v; now apply general_chars|exact S|exact W].
    cbn. repeat constructor; cbn; intuition discriminate. }
  rewrite !(follow_settle _ r) by apply S. rewrite !(follow_settle _ r') by apply S'.
  assert (T : forall a o, In (a, o) (general_fields g) -> option_map text (option_map settle (follow (doc_field a) r')) =
    newer stored o (option_map text (option_map settle (follow (doc_field a) r)))).
  { intros a o I. specialize (R a o I). unfold field_read in R. destruct o as [v|]; cbn [newer]; [|destruct R as (-> & _); reflexivity].
    destruct R as (c & -> & Ec & Kc). cbn [option_map]. now rewrite (text_settle c v Ec Kc). }
  assert (T2 : option_map as_int (option_map settle (follow (doc_field "Rating") r')) =
    newer (fun r => r) (g_rating g) (option_map as_int (option_map settle (follow (doc_field "Rating") r)))).
  { specialize (R "Rating"%string (option_map dec (g_rating g)) ltac:(cbn; tauto)). unfold field_read in R. destruct (g_rating g) as [x|] eqn:X; cbn [newer option_map] in *; [|destruct R as (-> & _); reflexivity].
    destruct R as (c & -> & Ec & Kc). cbn [option_map]. unfold as_int. rewrite (text_settle c _ Ec Kc). f_equal.
    destruct P as (_ & P). specialize (P x X). unfold stored. rewrite (dec_not_blank x), (line_ends_id _ (dec_no13 x)). now apply read_dec. }
  rewrite (T "Name"%string (g_name g)), (T "Title"%string (g_title g)), (T "UserName"%string (g_user g)), (T "Description"%string (g_description g)), (T "Comment"%string (g_comment g)),
    (T "Keywords"%string (g_keywords g)), (T "CreationDate"%string (g_date g)), T2 by (cbn; tauto). reflexivity.
Qed.
