(** The general information a document says, however its metadata were made. *)
From Coq Require Import String.
From Verif Require Import Base TextModel TextProofs XmlModel XmlSpec XmlProofs PugiModel PugiSpec DocModel DocSpec DocTree DocProofs SubMetaSpec SubMetaProofs.
Open Scope Z_scope.

(** the first text among the children, ordinary or a CDATA section *)
Definition says (c : xml) (s : str) : Prop :=
  exists nm ats es x r, c = Elem nm ats (es ++ x :: r) /\ (forall e, In e es -> exists n a k, e = Elem n a k) /\ (x = Text s \/ x = CData s).
Definition text_fields : list (string * (ginfo -> option str)) :=
  [("Name"%string, g_name); ("Title"%string, g_title); ("UserName"%string, g_user); ("Description"%string, g_description);
   ("Comment"%string, g_comment); ("Keywords"%string, g_keywords); ("CreationDate"%string, g_date)].
Definition field_names (name : string) : list str := [txt "ImageDocument"; txt "Metadata"; txt "Information"; txt "Document"; txt name].

Lemma says_text c s : says c s -> text c = s.
Proof.
  intros (nm & ats & es & x & r & -> & E & X). unfold text. cbn [kids_of]. induction es as [|e es IH]; cbn [app find].
  - destruct X as [-> | ->]; reflexivity.
  - destruct (E e (or_introl eq_refl)) as (n & a & k & ->). cbn [is_data is_elem negb]. apply IH. intros e' I. apply E. now right.
Qed.
Lemma find_first name kids c : find (matches name []) kids = Some c <-> the_first name kids c.
Proof.
  assert (M : forall n, matches name [] n = true <-> has name [] n).
  { intros [nm at_ k|t|t]; cbn [matches forallb]; [|split; [discriminate|intros (a & b & E & _); discriminate E]..].
    rewrite andb_true_r, str_eqb_eq. split; [intros ->; exists at_, k; split; [reflexivity|intros ? ? []]|intros (a & b & E & _); congruence]. }
  split.
  - induction kids as [|x kids IH]; cbn [find]; [discriminate|]. destruct (matches name [] x) eqn:E.
    + injection 1 as <-. exists [], kids. split; [reflexivity|]. split; [now apply M|intros ? []].
    + intros F. destruct (IH F) as (a & b & -> & H & N). exists (x :: a), b. split; [reflexivity|]. split; [exact H|]. intros c' [<-|I]; [|now apply N]. intros H'. apply M in H'. congruence.
  - intros (a & b & -> & H & N). induction a as [|x a IH]; cbn [app find].
    + apply M in H. now rewrite H.
    + destruct (matches name [] x) eqn:E; [apply M in E; exfalso; apply (N x); [now left|exact E]|]. apply IH. intros c' I. apply N. now right.
Qed.
Lemma goes_follow ks : forall k kids c, goes_to (k :: ks) kids c <-> exists r, find (matches k []) kids = Some r /\ follow (plainly ks) r = Some c.
Proof.
  induction ks as [|k2 ks IH]; intros k kids c; split.
  - intros G. inversion G as [? ? ? F|? ? ? ? ? F G']; subst; [|inversion G']. exists c. split; [now apply find_first|reflexivity].
  - intros (r & F & E). cbn [plainly map follow] in E. injection E as <-. constructor. now apply find_first.
  - intros G. inversion G as [|? ? ? ? n F G']; subst. exists n. split; [now apply find_first|]. apply IH in G'. destruct G' as (r & F' & E). cbn [plainly map follow]. rewrite F'. exact E.
  - intros (r & F & E). apply goes_on with r; [now apply find_first|]. apply IH. cbn [plainly map follow] in E. destruct (find (matches k2 []) (kids_of r)) as [m|]; [|discriminate]. exists m. split; [reflexivity|exact E].
Qed.
Theorem general_said d name get : In (name, get) text_fields ->
  (forall c s, goes_to (field_names name) d c -> says c s -> get (get_general d) = Some s) /\
  ((forall c, ~ goes_to (field_names name) d c) -> get (get_general d) = None).
Proof.
  intros I. assert (G : get (get_general d) = match find (matches ROOT []) d with Some r => option_map text (follow (doc_field name) r) | None => None end).
  { destruct (find (matches ROOT []) d) as [r|] eqn:F.
    - rewrite (get_general_fields d r F). cbv zeta. cbn [text_fields In] in I. repeat (destruct I as [I|I]; [injection I as <- <-; reflexivity|]). destruct I.
    - unfold get_general, get_node. rewrite F. cbn [text_fields In] in I. repeat (destruct I as [I|I]; [injection I as <- <-; reflexivity|]). destruct I. }
  rewrite G. split.
  - intros c s Go S. apply goes_follow in Go. destruct Go as (r & F & E). fold ROOT in F. rewrite F. unfold doc_field. rewrite E. cbn [option_map]. f_equal. now apply says_text.
  - intros N. destruct (find (matches ROOT []) d) as [r|] eqn:F; [|reflexivity]. destruct (follow (doc_field name) r) as [c|] eqn:E; [|reflexivity].
    exfalso. apply (N c). apply goes_follow. exists r. split; [exact F|exact E].
Qed.
Definition said_doc : list xml :=
  [Elem (txt "ImageDocument") [] [Elem (txt "Metadata") [] [Elem (txt "Information") [] [Elem (txt "Document") []
    [Elem (txt "Name") [] [Elem (txt "b") [] [Text (txt "no")]; CData (txt "<cells>"); Text (txt "more")]; Elem (txt "Title") [] [Text (txt "t")]; Elem (txt "Name") [] []]]]]].
Lemma said_meets : goes_to (field_names "Name") said_doc (Elem (txt "Name") [] [Elem (txt "b") [] [Text (txt "no")]; CData (txt "<cells>"); Text (txt "more")]) /\
  says (Elem (txt "Name") [] [Elem (txt "b") [] [Text (txt "no")]; CData (txt "<cells>"); Text (txt "more")]) (txt "<cells>") /\
  g_name (get_general said_doc) = Some (txt "<cells>") /\ g_comment (get_general said_doc) = None.
Proof.
  split; [apply goes_follow; eexists; split; reflexivity|]. split; [|split; reflexivity].
  exists (txt "Name"), [], [Elem (txt "b") [] [Text (txt "no")]], (CData (txt "<cells>")), [Text (txt "more")]. split; [reflexivity|]. split; [|now right].
  intros e [<-|[]]. eauto.
Qed.
