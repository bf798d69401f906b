(** Lemmas: a document as printed is read back as the settled document. *)
From Coq Require Import String.
From Verif Require Import Base TextModel TextSpec TextProofs XmlModel XmlSpec XmlProofs PugiModel PugiSpec PugiProofs.
Open Scope Z_scope.

Lemma xml_induction (P : xml -> Prop) :
  (forall nm ats ks, Forall P ks -> P (Elem nm ats ks)) -> (forall s, P (Text s)) -> (forall s, P (CData s)) -> forall n, P n.
Proof.
  intros HE HT HC. fix IH 1. intros [nm ats ks|s|s]; [|apply HT|apply HC]. apply HE.
  induction ks as [|k ks IHk]; [constructor|]. constructor; [apply IH|exact IHk].
Qed.

(** ** tags *)
Lemma span_stops_at p a c r : all p a -> p c = false -> span p (a ++ c :: r) = (a, c :: r).
Proof. intros A C. apply span_app; [exact A|exact C]. Qed.
Lemma proper_span nm c r : proper_name nm -> ct_symbol c = false -> span ct_symbol (nm ++ c :: r) = (nm, c :: r).
Proof. intros (_ & N & _) C. apply span_stops_at; [now apply name_all|exact C]. Qed.
Lemma proper_head nm : proper_name nm -> exists c r, nm = c :: r /\ ct_start c = true.
Proof. intros (_ & _ & S). destruct nm as [|c r]; [easy|]. exists c, r. split; [reflexivity|]. now apply letter_start. Qed.
Lemma chars_nonneg s : chars s -> Forall (fun c => 0 <= c) s.
Proof. apply Forall_impl. lia. Qed.

(** the end of a start tag, after the attributes *)
Definition tag_end (l : layout) (closed : bool) : str :=
  if closed then match l with Raw => [47; 62] | Indented _ => [32; 47; 62] end else [62].
Lemma parse_attrs_space f s : parse_attrs f (32 :: s) = parse_attrs f s.
Proof.
  destruct f as [|f]; [reflexivity|]. cbn [parse_attrs]. cbn [span]. change (ct_space 32) with true. cbn iota.
  destruct (span ct_space s) as [a b]. reflexivity.
Qed.
Lemma tag_end_read f l closed r : parse_attrs (S f) (tag_end l closed ++ r) = Ok ([], closed, r).
Proof. destruct l, closed; reflexivity. Qed.
Lemma parse_attrs_read l closed r : forall ats, Forall attr_named ats -> forall f, (length ats < f)%nat ->
  parse_attrs f (attrs_out ats ++ tag_end l closed ++ r) = Ok (ats, closed, r).
Proof.
  induction 1 as [|[k v] ats (K & V) A IH]; intros f F; cbn [length] in F; (destruct f as [|f]; [lia|]).
  - apply tag_end_read.
  - unfold attrs_out. cbn [flat_map]. fold (attrs_out ats). unfold attr_out. cbn [fst snd]. rewrite <- !app_assoc. cbn [app].
    rewrite parse_attrs_space. cbn [fst snd] in K, V. destruct (proper_head k K) as (c & k' & -> & C).
    destruct (start_not_special c C) as (_ & _ & _ & _ & W).
    set (X := 34 :: escaped special_attr v ++ 34 :: attrs_out ats ++ tag_end l closed ++ r).
    assert (E0 : span ct_space ((c :: k') ++ 61 :: X) = ([], (c :: k') ++ 61 :: X)) by (cbn [app span]; now rewrite W).
    pose proof (proper_span (c :: k') 61 X K eq_refl) as E. cbn [app] in E0, E. cbn [parse_attrs app]. rewrite E0. cbn [snd]. rewrite C, E.
    change (span ct_space (61 :: X)) with (@nil Z, 61 :: X). cbn [snd starts]. change (61 =? 61) with true. cbn iota.
    unfold X. change (span ct_space (34 :: ?x)) with (@nil Z, 34 :: x). cbn [snd]. change ((34 =? 34) || _) with true. cbn iota.
    rewrite (attr_esc _ v (chars_nonneg v V)).
    assert (D : match attrs_out ats ++ tag_end l closed ++ r with d :: _ => ct_start d | [] => false end = false).
    { destruct ats as [|[k2 v2] ats]; [destruct l, closed; reflexivity|reflexivity]. }
    rewrite D, IH by lia. cbn [bind]. now rewrite (c_str_id v (chars_nz v V)).
Qed.
Lemma attrs_len ats r : (length ats <= length (attrs_out ats ++ r))%nat.
Proof.
  induction ats as [|[k v] ats IH]; [cbn; lia|]. unfold attrs_out. cbn [flat_map]. fold (attrs_out ats). rewrite <- app_assoc.
  unfold attr_out at 1. cbn [app length fst snd]. rewrite !app_length in *. lia.
Qed.

Definition opened (closed : bool) nm ats (cur : list xml) (stk : stack) (r : str) : pos :=
  if closed then (r, Elem nm ats [] :: cur, stk) else (r, [], (nm, ats, cur) :: stk).
Lemma start_read l closed nm ats r cur stk : proper_name nm -> Forall attr_named ats ->
  turn ([60] ++ nm ++ attrs_out ats ++ tag_end l closed ++ r) cur stk = Ok (opened closed nm ats cur stk r).
Proof.
  intros N A. destruct (proper_head nm N) as (c & nm' & E & C). unfold turn. change (starts [60] ([60] ++ ?x)) with (Some x).
  cbn iota. rewrite E at 1. cbn [app]. rewrite C. fold (app nm' (attrs_out ats ++ tag_end l closed ++ r)).
  replace (c :: nm' ++ attrs_out ats ++ tag_end l closed ++ r) with (nm ++ attrs_out ats ++ tag_end l closed ++ r) by now rewrite E.
  unfold start_tag. destruct ats as [|a ats].
  - cbn [attrs_out flat_map app]. destruct closed; [destruct l|]; cbn [tag_end app].
    + rewrite (proper_span nm 47 _ N eq_refl). reflexivity.
    + rewrite (proper_span nm 32 _ N eq_refl). change (32 =? 62) with false. change (ct_space 32) with true. cbn iota.
      change (47 :: 62 :: r) with (tag_end Raw true ++ r). rewrite tag_end_read. reflexivity.
    + rewrite (proper_span nm 62 _ N eq_refl). reflexivity.
  - pose proof (parse_attrs_read l closed r (a :: ats) A) as P.
    assert (X : exists x, attrs_out (a :: ats) ++ tag_end l closed ++ r = 32 :: x).
    { unfold attrs_out. cbn [flat_map]. unfold attr_out at 1. rewrite <- app_assoc. cbn [app]. now eexists. }
    destruct X as (x & X). pose proof (attrs_len (a :: ats) (tag_end l closed ++ r)) as L. rewrite X in *.
    rewrite (proper_span nm 32 _ N eq_refl). change (32 =? 62) with false. change (ct_space 32) with true. cbn iota.
    specialize (P (S (S (length x)))). rewrite parse_attrs_space in P. rewrite (parse_attrs_fuel _ (S (S (length x)))) by lia.
    rewrite P by (cbn [length] in *; lia). cbn [bind]. now destruct closed.
Qed.
Lemma end_read nm ats par r cur stk : proper_name nm ->
  turn ([60; 47] ++ nm ++ [62] ++ r) cur ((nm, ats, par) :: stk) = Ok (r, Elem nm ats (rev cur) :: par, stk).
Proof.
  intros N. unfold turn. change (starts [60] ([60; 47] ++ ?x)) with (Some (47 :: x)). cbn iota. change (ct_start 47) with false.
  change (47 =? 47) with true. cbn iota. unfold end_tag. cbn [app]. rewrite (proper_span nm 62 r N eq_refl), str_eqb_refl. reflexivity.
Qed.

(** ** texts and sections *)
Lemma run_start l closed nm ats r cur stk : proper_name nm -> Forall attr_named ats ->
  run ([60] ++ nm ++ attrs_out ats ++ tag_end l closed ++ r) cur stk =
  (if closed then run r (Elem nm ats [] :: cur) stk else run r [] ((nm, ats, cur) :: stk)).
Proof. intros N A. rewrite run_turn by discriminate. rewrite start_read by assumption. now destruct closed. Qed.
Lemma run_end nm ats par r cur stk : proper_name nm ->
  run ([60; 47] ++ nm ++ [62] ++ r) cur ((nm, ats, par) :: stk) = run r (Elem nm ats (rev cur) :: par) stk.
Proof. intros N. rewrite run_turn by discriminate. now rewrite end_read by assumption. Qed.
Lemma space_not_lt c : ct_space c = true -> c <> 60.
Proof. unfold ct_space. lia. Qed.
Lemma run_space w r cur stk : all ct_space w -> run (w ++ 60 :: r) cur stk = run (60 :: r) cur stk.
Proof.
  intros W. destruct w as [|c w]; [reflexivity|]. rewrite run_turn by discriminate. unfold turn.
  inversion W as [|? ? C W']; subst. cbn [app]. rewrite starts_no by now apply space_not_lt.
  rewrite (app_comm_cons w). rewrite (span_stops_at ct_space (c :: w) 60 r W eq_refl). reflexivity.
Qed.
Lemma blank_all s : blank s = true <-> all ct_space s.
Proof.
  unfold blank. rewrite forallb_forall, Forall_forall. split; intros H c I; specialize (H c I); rewrite ws_space in *; exact H.
Qed.
Lemma esc_space c : ct_space c = true -> esc special_pcdata c = [c].
Proof. intros H. unfold esc. destruct (special_pcdata c) eqn:E; [|reflexivity]. unfold ct_space, special_pcdata in *. lia. Qed.
Lemma escaped_blank s : blank s = true -> escaped special_pcdata s = s.
Proof.
  rewrite blank_all. induction 1 as [|c s C _ IH]; [reflexivity|]. unfold escaped in *. cbn [flat_map]. now rewrite (esc_space c C), IH.
Qed.
Lemma esc_head c : ct_space c = false -> exists d r, esc special_pcdata c = d :: r /\ ct_space d = false /\ d <> 60.
Proof.
  intros H. unfold esc. destruct (special_pcdata c) eqn:E.
  - destruct (c =? 38); [now eexists _, _|]. destruct (c =? 60); [now eexists _, _|]. destruct (c =? 62); [now eexists _, _|].
    destruct (c =? 34); [now eexists _, _|]. destruct (c =? 39); now eexists _, _.
  - exists c, []. repeat split; [exact H|]. intros ->. discriminate.
Qed.
Lemma escaped_text s : blank s = false -> exists w d r, escaped special_pcdata s = w ++ d :: r /\ all ct_space w /\ ct_space d = false /\ d <> 60.
Proof.
  induction s as [|c s IH]; [discriminate|]. unfold blank, escaped. cbn [forallb flat_map]. rewrite ws_space. intros H.
  destruct (ct_space c) eqn:C.
  - destruct (IH H) as (w & d & r & E & W & D1 & D2). exists (c :: w), d, r. rewrite (esc_space c C).
    change (flat_map (esc special_pcdata) s) with (escaped special_pcdata s). rewrite E. repeat split; [|exact D1|exact D2]. now constructor.
  - destruct (esc_head c C) as (d & r & E & D1 & D2). exists [], d, (r ++ flat_map (esc special_pcdata) s). rewrite E. repeat split; [constructor|exact D1|exact D2].
Qed.
Lemma line_ends_nz s : Forall (fun c => c <> 0) s -> Forall (fun c => c <> 0) (line_ends s).
Proof.
  assert (G : forall n s, (length s <= n)%nat -> Forall (fun c => c <> 0) s -> Forall (fun c => c <> 0) (line_ends s)).
  { clear s. induction n as [|n IH]; intros s L H; (destruct s as [|c s]; [constructor|]); [cbn in L; lia|]. cbn [length] in L.
    inversion H; subst. cbn [line_ends]. destruct (c =? 13).
    - destruct s as [|d s]; [constructor; [lia|constructor]|]. destruct (d =? 10); constructor; try lia; apply IH; cbn [length] in *; try lia.
      + now inversion H3.
      + assumption.
    - constructor; [assumption|]. apply IH; [lia|assumption]. }
  now apply (G (length s)).
Qed.
Lemma run_text s w r cur stk : chars s -> all ct_space w -> (s = [] \/ w = []) -> stk <> [] ->
  run (escaped special_pcdata s ++ w ++ 60 :: r) cur stk = run (60 :: r) (rev (kept s) ++ cur) stk.
Proof.
  intros Cs W SW K. unfold kept. destruct (blank s) eqn:B.
  - rewrite (escaped_blank s B). rewrite app_assoc. rewrite run_space; [reflexivity|]. apply Forall_app. split; [now apply blank_all|exact W].
  - destruct SW as [->| ->]; [discriminate|]. cbn [app rev]. destruct (escaped_text s B) as (w & d & x & E & W' & D1 & D2).
    assert (P := pcdata_esc (length s) s r (le_n _) (chars_nonneg s Cs)).
    assert (N : escaped special_pcdata s ++ 60 :: r <> []) by now destruct (escaped special_pcdata s).
    rewrite run_turn by exact N. unfold turn.
    assert (S1 : starts [60] (escaped special_pcdata s ++ 60 :: r) = None).
    { rewrite E. destruct w as [|c w]; cbn [app]; apply starts_no; [exact D2|]. inversion W'; subst. now apply space_not_lt. }
    rewrite S1, P. rewrite E at 1. rewrite <- app_assoc. cbn [app]. rewrite (span_stops_at ct_space w d _ W' D1). cbn [snd].
    destruct (Z.eqb_spec d 60); [congruence|]. destruct stk as [|f stk]; [easy|].
    cbn [bind]. rewrite c_str_id; [reflexivity|]. now apply line_ends_nz, chars_nz.
Qed.
Lemma run_section p r cur stk : ~ has_close p -> chars p ->
  run (cdata_open ++ p ++ cdata_close ++ r) cur stk = run r (CData (line_ends p) :: cur) stk.
Proof.
  intros H C. rewrite run_turn by discriminate. unfold turn. change (starts [60] (cdata_open ++ ?x)) with (Some (33 :: txt "[CDATA[" ++ x)).
  cbn iota. change (ct_start 33) with false. change (33 =? 47) with false. change (33 =? 63) with false. change (33 =? 33) with true. cbn iota.
  unfold exclamation. change (starts [45; 45] (txt "[CDATA[" ++ ?x)) with (@None str). cbn iota. rewrite starts_app.
  rewrite (cdata_read (length p)) by auto. cbn [bind]. now rewrite c_str_id by now apply line_ends_nz, chars_nz.
Qed.
Lemma run_pieces r stk : forall ps cur, Forall (fun p => ~ has_close p) ps -> Forall chars ps ->
  run (flat_map (fun p => cdata_open ++ p ++ cdata_close) ps ++ r) cur stk = run r (rev (map (fun p => CData (line_ends p)) ps) ++ cur) stk.
Proof.
  induction ps as [|p ps IH]; intros cur H C; [reflexivity|]. inversion H; inversion C; subst. cbn [flat_map map rev].
  rewrite <- !app_assoc. rewrite run_section by assumption. rewrite IH by assumption. reflexivity.
Qed.
Lemma pieces_chars s : chars s -> Forall chars (pieces s).
Proof.
  intros H. destruct (pieces_spec (length s) s (le_n _)) as (E & _). rewrite <- E in H. clear E. induction (pieces s) as [|p ps IH]; [constructor|].
  cbn [concat] in H. apply chars_app in H. destruct H. constructor; auto.
Qed.
Lemma run_cdata s r cur stk : chars s ->
  run (cdata_out s ++ r) cur stk = run r (rev (map (fun p => CData (line_ends p)) (pieces s)) ++ cur) stk.
Proof.
  intros H. rewrite cdata_pieces. apply run_pieces; [|now apply pieces_chars]. apply (pieces_spec (length s) s (le_n _)).
Qed.

(** ** trees *)
Fixpoint settles (t : str) (ks : list xml) : list xml :=
  match ks with
  | [] => kept t
  | Text s :: ks' => settles (t ++ s) ks'
  | CData s :: ks' => kept t ++ map (fun p => CData (line_ends p)) (pieces s) ++ settles [] ks'
  | k :: ks' => kept t ++ settle k :: settles [] ks'
  end.
Lemma settle_elem nm ats ks : settle (Elem nm ats ks) = Elem nm ats (settles [] ks).
Proof. reflexivity. Qed.
Lemma named_elem nm ats ks : named (Elem nm ats ks) <-> proper_name nm /\ Forall attr_named ats /\ Forall named ks.
Proof.
  cbn [named]. assert (E : (fix all ks := match ks with [] => True | k :: ks' => named k /\ all ks' end) ks <-> Forall named ks).
  { induction ks as [|k ks IH]; [split; constructor|]. rewrite IH. split; [intros (A & B); now constructor|]. intros H; inversion H; auto. }
  now rewrite E.
Qed.
Definition body (l : layout) (ks : list xml) depth fl : str := fst (outs l ks depth fl).
Definition flags (l : layout) (ks : list xml) depth fl : iflags := snd (outs l ks depth fl).
Lemma body_cons l k ks depth fl : body l (k :: ks) depth fl = fst (out l k depth fl) ++ body l ks depth (snd (out l k depth fl)).
Proof. unfold body. cbn [outs]. destruct (out l k depth fl) as [a f1]. cbn [fst snd]. now destruct (outs l ks depth f1). Qed.
Lemma flags_cons l k ks depth fl : flags l (k :: ks) depth fl = flags l ks depth (snd (out l k depth fl)).
Proof. unfold flags. cbn [outs]. destruct (out l k depth fl) as [a f1]. cbn [fst snd]. now destruct (outs l ks depth f1). Qed.
Lemma out_elem l nm ats ks depth fl : out l (Elem nm ats ks) depth fl =
  match ks with
  | [] => (lead l depth fl ++ [60] ++ nm ++ attrs_out ats ++ tag_end l true, both)
  | _ => (lead l depth fl ++ [60] ++ nm ++ attrs_out ats ++ tag_end l false ++ body l ks (S depth) both ++ lead l depth (flags l ks (S depth) both) ++
          [60; 47] ++ nm ++ [62], both)
  end.
Proof.
  cbn [out]. destruct ks as [|k ks]; [rewrite <- !app_assoc; reflexivity|].
  assert (E : forall ks fl, (fix outs (ks0 : list xml) (fl0 : iflags) {struct ks0} : str * iflags :=
            match ks0 with
            | [] => ([], fl0)
            | k0 :: ks' => let '(a, f1) := out l k0 (S depth) fl0 in let '(b0, f2) := outs ks' f1 in (a ++ b0, f2)
            end) ks fl = outs l ks (S depth) fl).
  { clear. induction ks as [|k ks IH]; intros fl; [reflexivity|]. cbn [outs]. destruct (out l k (S depth) fl) as [a f1]. now rewrite IH. }
  unfold body, flags. cbn [outs]. destruct (out l k (S depth) both) as [a f1]. rewrite E. destruct (outs l ks (S depth) f1) as [b f].
  cbn [fst snd tag_end]. rewrite <- !app_assoc. reflexivity.
Qed.
Definition spaced (l : layout) : Prop := match l with Raw => True | Indented ind => all ct_space ind end.
Lemma lead_space l depth fl : spaced l -> all ct_space (lead l depth fl).
Proof.
  intros S. destruct l as [|ind]; [constructor|]. cbn [lead]. apply Forall_app. split; [destruct (fst fl); repeat constructor|].
  destruct (snd fl); [|constructor]. induction depth as [|d IH]; [constructor|]. cbn. apply Forall_app. now split.
Qed.
Lemma lead_none l depth : lead l depth (false, false) = [].
Proof. now destruct l. Qed.

(** after the nodes there is the start of a tag *)
Lemma settled_list l depth stk (ks : list xml) :
  spaced l -> stk <> [] -> Forall named ks ->
  Forall (fun k => match k with Elem _ _ _ => forall r cur stk, named k ->
     run ((fst (out l k depth (false, false))) ++ r) cur stk = run r (settle k :: cur) stk | _ => True end) ks ->
  forall t fl d r cur, chars t -> (t = [] \/ fl = (false, false)) ->
  run (escaped special_pcdata t ++ body l ks depth fl ++ lead l d (flags l ks depth fl) ++ 60 :: r) cur stk =
  run (60 :: r) (rev (settles t ks) ++ cur) stk.
Proof.
  intros S K. induction ks as [|k ks IH]; intros N H t fl d r cur T TF.
  - cbn [settles]. unfold body, flags. cbn [outs fst snd app]. apply run_text; [exact T|now apply lead_space| |exact K].
    destruct TF as [->| ->]; [now left|right; apply lead_none].
  - apply Forall_cons_iff in N, H. destruct N as (N1 & N2), H as (H1 & H2). rewrite body_cons, flags_cons. destruct k as [nm ats kk|s|s].
    + (* an element: white space, then its start *)
      specialize (H1 (body l ks depth both ++ lead l d (flags l ks depth both) ++ 60 :: r) (rev (kept t) ++ cur) stk N1).
      rewrite out_elem in *. cbn [settles]. rewrite rev_app_distr, <- app_assoc. cbn [rev]. rewrite <- app_assoc. cbn [app].
      specialize (IH N2 H2 [] both d r (settle (Elem nm ats kk) :: rev (kept t) ++ cur) ltac:(constructor) (or_introl eq_refl)).
      cbn [escaped flat_map app] in IH.
      assert (G : forall x, run (escaped special_pcdata t ++ lead l depth fl ++ 60 :: x) cur stk = run (60 :: x) (rev (kept t) ++ cur) stk).
      { intros x. apply run_text; [exact T|now apply lead_space| |exact K]. destruct TF as [->| ->]; [now left|right; apply lead_none]. }
      destruct kk as [|k0 kk]; cbn [fst snd] in *; rewrite lead_none in H1; cbn [app] in H1;
        do 4 (rewrite <- ?app_assoc in H1; cbn [app] in H1); do 4 (rewrite <- ?app_assoc; cbn [app]);
        rewrite G, H1, IH; reflexivity.
    + (* a text *)
      cbn [out fst snd settles]. specialize (IH N2 H2 (t ++ s) (false, false) d r cur). rewrite <- IH.
      * unfold escaped. rewrite flat_map_app. now rewrite <- !app_assoc.
      * apply chars_app. now split.
      * now right.
    + (* a section *)
      cbn [out fst snd settles]. specialize (IH N2 H2 [] (false, false) d r). cbn [escaped flat_map app] in IH.
      assert (X : exists x, cdata_out s = 60 :: x) by (eexists; reflexivity). destruct X as (x & X). rewrite X. rewrite <- app_assoc. cbn [app].
      pose proof (run_text t [] (x ++ body l ks depth (false, false) ++ lead l d (flags l ks depth (false, false)) ++ 60 :: r) cur stk T
        (Forall_nil _) (or_intror eq_refl) K) as R.
      cbn [app] in R. rewrite R. rewrite (app_comm_cons x), <- X. rewrite (run_cdata s _ _ _ N1). rewrite IH by (first [apply Forall_nil | now left]).
      rewrite !rev_app_distr, <- !app_assoc. reflexivity.
Qed.
Lemma settled_elem l : spaced l -> forall n, (match n with Elem _ _ _ => forall depth r cur stk, named n ->
  run (fst (out l n depth (false, false)) ++ r) cur stk = run r (settle n :: cur) stk | _ => True end).
Proof.
  intros S n. induction n as [nm ats ks H|s|s] using xml_induction; [|exact I|exact I]. intros depth r cur stk N.
  apply named_elem in N. destruct N as (N1 & N2 & N3). rewrite out_elem, lead_none. destruct ks as [|k ks].
  - cbn [fst]. pose proof (run_start l true nm ats r cur stk N1 N2) as R. cbn [app] in *. rewrite <- !app_assoc. cbn [app]. exact R.
  - cbn [fst].
    assert (R := run_start l false nm ats (body l (k :: ks) (Datatypes.S depth) both ++ lead l depth (flags l (k :: ks) (Datatypes.S depth) both) ++ [60; 47] ++ nm ++ [62] ++ r) cur stk N1 N2).
    cbn [app] in R. do 4 (rewrite <- ?app_assoc in R; cbn [app] in R). do 4 (rewrite <- ?app_assoc; cbn [app]).
    rewrite R. clear R.
    assert (G := settled_list l (Datatypes.S depth) ((nm, ats, cur) :: stk) (k :: ks) S ltac:(discriminate) N3).
    assert (G' : Forall (fun k => match k with Elem _ _ _ => forall r cur stk, named k ->
       run ((fst (out l k (Datatypes.S depth) (false, false))) ++ r) cur stk = run r (settle k :: cur) stk | _ => True end) (k :: ks)).
    { eapply Forall_impl; [|exact H]. intros [? ? ?|?|?]; auto. }
    specialize (G G' [] both depth (47 :: nm ++ 62 :: r) [] ltac:(constructor) (or_introl eq_refl)). cbn [escaped flat_map app] in G.
    rewrite G. rewrite app_nil_r. pose proof (run_end nm ats cur r (rev (settles [] (k :: ks))) stk N1) as E. cbn [app] in E. rewrite E.
    now rewrite rev_involutive, settle_elem.
Qed.

(** ** documents *)
Definition is_element (n : xml) : Prop := match n with Elem _ _ _ => True | _ => False end.
Lemma settled_top l : spaced l -> forall doc, Forall is_element doc -> Forall named doc -> forall fl cur,
  run (body l doc 0 fl ++ match l with Raw => [] | Indented _ => if fst (flags l doc 0 fl) then [10] else [] end) cur [] =
  Ok (rev cur ++ map settle doc).
Proof.
  intros S. induction doc as [|k doc IH]; intros E N fl cur.
  - cbn [map]. rewrite app_nil_r. unfold body, flags. cbn [outs fst snd app]. destruct l; [reflexivity|]. destruct (fst fl); reflexivity.
  - inversion E; inversion N; subst. rewrite body_cons, flags_cons. destruct k as [nm ats ks|s|s]; try easy.
    pose proof (settled_elem l S (Elem nm ats ks) 0%nat) as R. cbn beta iota in R. rewrite out_elem in *.
    assert (G : forall x, run (lead l 0 fl ++ 60 :: x) cur [] = run (60 :: x) cur []) by (intros x; apply run_space; now apply lead_space).
    specialize (IH ltac:(assumption) ltac:(assumption) both (settle (Elem nm ats ks) :: cur)).
    cbn [map rev] in *. rewrite <- app_assoc in IH. cbn [app] in IH. rewrite <- IH.
    rewrite <- R by assumption. destruct ks; cbn [fst snd]; rewrite lead_none; do 4 (rewrite <- ?app_assoc; cbn [app]); apply G.
Qed.
