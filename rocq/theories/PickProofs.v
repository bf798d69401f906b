(** Choosing and extracting: proofs. *)
From Coq Require Import String Floats.SpecFloat.
From Verif Require Import Base CodecModel TextModel GuidModel GuidSpec GuidProofs JsonModel JsonSpec JsonRead JsonInfo WriterModel WriterSpec WriterProofs WriterMain ReaderModel PixelModel EditSpec HandAttProofs DocProofs PickModel PickSpec.
Open Scope Z_scope.

Section P.
Variable num : str -> spec_float.
Lemma item_allowed v : (exists i, item_of num v = Some i) <-> allowed num v.
Proof.
  destruct v as [|b|z|t|s|l|l]; cbn [item_of allowed]; try (split; [intros (i & E); discriminate E|intros []]); try (split; [intros _; exact Logic.I|intros _; eauto]).
  - destruct ((- 2 ^ 63 <=? z) && (z <? 2 ^ 64)) eqn:E; [split; [intros (i & F); discriminate F|lia]|]. destruct (finite (num (dec z))) eqn:G; split; eauto; try (intros (i & F); discriminate F); try (intros (_ & F); discriminate F).
    intros _. split; [lia|reflexivity].
  - destruct (finite (num t)); split; eauto; [intros (i & F); discriminate F|discriminate].
Qed.
Lemma says_cons k v l key w : says ((k, v) :: l) key w <-> says l key w \/ (until_nul k key /\ v = w /\ forall k' v', In (k', v') l -> ~ until_nul k' key).
Proof.
  split.
  - intros (l1 & k0 & l2 & E & U & N). destruct l1 as [|x l1]; cbn [app] in E.
    + injection E as -> -> ->. right. auto.
    + injection E as <- ->. left. exists l1, k0, l2. auto.
  - intros [(l1 & k0 & l2 & -> & U & N)|(U & -> & N)]; [exists ((k, v) :: l1), k0, l2|exists [], k, l]; auto.
Qed.
Lemma says_some l key : (exists v, says l key v) \/ (forall k v, In (k, v) l -> ~ until_nul k key).
Proof.
  induction l as [|(k, v) l IH]; [right; intros k v []|]. destruct IH as [(w & IH)|IH]; [left; exists w; apply says_cons; now left|].
  destruct (list_eq_dec Z.eq_dec (c_text k) key) as [E|E]; [left; exists v; apply says_cons; right; split; [now apply c_text_iff|auto]|].
  right. intros k' v' [J|J]; [injection J as <- <-; rewrite <- c_text_iff; exact E|exact (IH k' v' J)].
Qed.
Lemma says_in l key v : says l key v -> exists k, In (k, v) l /\ until_nul k key.
Proof. intros (l1 & k & l2 & -> & U & _). exists k. split; [apply in_or_app; right; now left|exact U]. Qed.
Lemma says_one l key v w : says l key v -> says l key w -> v = w.
Proof.
  induction l as [|(k, x) l IH]; intros A B; [apply says_in in A as (k & [] & _)|]. apply says_cons in A. apply says_cons in B.
  destruct A as [A|(A1 & A2 & A3)], B as [B|(B1 & B2 & B3)]; [auto| | |congruence].
  - apply says_in in A as (k' & A & U). elim (B3 _ _ A U).
  - apply says_in in B as (k' & B & U). elim (A3 _ _ B U).
Qed.
Lemma eqbytes_iff a b : eqbytes a b = true <-> a = b.
Proof. unfold eqbytes. destruct (list_eq_dec Z.eq_dec a b); split; congruence. Qed.
Lemma get_put k v m key : get key (put k v m) = if eqbytes k key then Some v else get key m.
Proof.
  unfold get, put. cbn [find fst]. destruct (eqbytes k key) eqn:E; [reflexivity|]. f_equal. induction m as [|(a, b) m IH]; [reflexivity|]. cbn [filter fst].
  destruct (eqbytes a k) eqn:A; cbn [negb find fst].
  - apply eqbytes_iff in A. subst a. rewrite E. exact IH.
  - destruct (eqbytes a key); [reflexivity|exact IH].
Qed.
Lemma items_get l : forall m m', items num l m = Some m' -> forall key,
  (exists v i, says l key v /\ item_of num v = Some i /\ get key m' = Some i) \/ ((forall v, ~ says l key v) /\ get key m' = get key m).
Proof.
  induction l as [|(k, v) l IH]; intros m m' E key; cbn [items] in E.
  - injection E as <-. right. split; [intros v S; apply says_in in S as (k & [] & _)|reflexivity].
  - destruct (item_of num v) as [i|] eqn:I; [|discriminate E]. destruct (IH _ _ E key) as [(w & j & S & J & G)|(S & G)].
    + left. exists w, j. split; [apply says_cons; now left|auto].
    + rewrite get_put in G. assert (N : forall k' v', In (k', v') l -> ~ until_nul k' key).
      { destruct (says_some l key) as [(w & W)|W]; [elim (S w W)|exact W]. }
      destruct (eqbytes (c_text k) key) eqn:Q.
      * apply eqbytes_iff, c_text_iff in Q. left. exists v, i. split; [apply says_cons; right; auto|auto].
      * right. split; [|exact G]. intros w W. apply says_cons in W as [W|(W & _)]; [exact (S w W)|]. apply c_text_iff, eqbytes_iff in W. congruence.
Qed.
Lemma items_some l : forall m, (exists m', items num l m = Some m') <-> Forall (fun x => allowed num (snd x)) l.
Proof.
  induction l as [|(k, v) l IH]; intros m; cbn [items]; [split; [constructor|eauto]|]. pose proof (item_allowed v) as A.
  destruct (item_of num v) as [i|].
  - rewrite IH. split; [intro F; constructor; [apply A; eauto|exact F]|intro F; now inversion F].
  - split; [intros (m' & E); discriminate E|]. intro F. inversion F as [|? ? B _]. apply A in B as (i & B). discriminate B.
Qed.
Lemma whole_cast x k : INT_MIN <= k <= INT_MAX -> whole x k -> f32_cast INT_MIN INT_MAX x = Ok k.
Proof.
  intros R W. destruct x as [s|s| |s m e]; cbn [whole f32_cast] in *; try contradiction; [now subst|]. cbv zeta.
  assert (T : (if s then - (if 0 <=? e then Zpos m * 2 ^ e else Zpos m / 2 ^ (- e)) else (if 0 <=? e then Zpos m * 2 ^ e else Zpos m / 2 ^ (- e))) = k).
  { destruct (Z.leb_spec 0 e) as [E|E].
    - rewrite (Z.max_l 0 (- e)), (Z.max_r 0 e) in W by lia. rewrite <- W. cbn [Z.pow]. destruct s; lia.
    - rewrite (Z.max_r 0 (- e)), (Z.max_l 0 e) in W by lia. assert (P : 2 ^ (- e) <> 0) by (apply Z.pow_nonzero; lia).
      assert (Q : Zpos m / 2 ^ (- e) = if s then - k else k) by (replace (Zpos m) with ((if s then - k else k) * 2 ^ (- e)) by lia; now apply Z.div_mul).
      rewrite Q. destruct s; lia. }
  rewrite T. assert (X : ((INT_MIN <=? k) && (k <=? INT_MAX)) = true) by lia. now rewrite X.
Qed.
(** what the argument asks for *)
Theorem parsed text : ~ In 0 text -> text <> [] ->
  (selection num text = Throw <-> ~ exists l, json_text text (VObj l) /\ Forall (fun x => allowed num (snd x)) l) /\
  forall l n i, json_text text (VObj l) -> Forall (fun x => allowed num (snd x)) l -> asks_for num l n i ->
    (forall k, i = Some k -> INT_MIN <= k <= INT_MAX) -> selection num text = Ok (n, i).
Proof.
  intros Z0 N0. assert (S0 : selection num text = match parse_selection num text with Some m => selection_info m | None => Throw end) by (destruct text; [congruence|reflexivity]).
  rewrite S0. unfold parse_selection. split.
  - assert (X : forall m, selection_info m <> Throw).
    { intros m. unfold selection_info. cbv zeta. destruct (get (txt "index") m) as [[s|x|b]|]; try discriminate. destruct x as [s|s| |s p e]; cbn [f32_cast bind]; try discriminate.
      cbv zeta. match goal with |- context [if ?c then Ok _ else UB] => destruct c end; discriminate. }
    destruct (json_read text) as [v|] eqn:R.
    + apply read_iff in R; [|exact Z0]. assert (U : forall l, json_text text (VObj l) -> v = VObj l).
      { intros l J. apply read_iff in J; [|exact Z0]. apply read_iff in R; [|exact Z0]. congruence. }
      destruct v as [|b|z|t|s|l|l]; try (split; [intros _ (l' & J & _); specialize (U l' J); discriminate U|reflexivity]).
      destruct (items num l []) as [m|] eqn:E.
      * split; [intro Q; elim (X m Q)|]. intro Q. elim Q. exists l. split; [exact R|]. apply (items_some l []). eauto.
      * split; [|reflexivity]. intros _ (l' & J & F). injection (U l' J) as <-. apply (items_some l []) in F as (m & F). congruence.
    + split; [|reflexivity]. intros _ (l & J & _). apply read_iff in J; [|exact Z0]. congruence.
  - intros l n i J F (An & Ai) Ri. apply read_iff in J; [|exact Z0]. rewrite J. destruct (proj2 (items_some l []) F) as (m & E). rewrite E.
    pose proof (items_get l [] m E) as G. unfold selection_info. cbv zeta.
    assert (HN : match get (txt "name") m with Some (IStr s) => Some s | _ => None end = n).
    { destruct (G (txt "name")) as [(v & j & S & I & Q)|(S & Q)]; rewrite Q.
      - destruct n as [t|].
        + destruct An as (s & S' & U). rewrite (says_one _ _ _ _ S S') in I. cbn [item_of] in I. injection I as <-. f_equal. now apply c_text_iff.
        + destruct v as [|b|z|t|s|l0|l0]; cbn [item_of] in I; try discriminate I.
          * injection I as <-. reflexivity.
          * destruct (_ && _); [discriminate I|]. destruct (finite _); [injection I as <-; reflexivity|discriminate I].
          * destruct (finite _); [injection I as <-; reflexivity|discriminate I].
          * elim (An s S).
      - destruct n as [t|]; [destruct An as (s & S' & _); elim (S _ S')|reflexivity]. }
    rewrite HN. destruct (G (txt "index")) as [(v & j & S & I & Q)|(S & Q)]; rewrite Q.
    + destruct i as [k|].
      * destruct Ai as (t & S' & W). rewrite (says_one _ _ _ _ S S') in I. cbn [item_of] in I. destruct (finite (num t)); [injection I as <-|discriminate I].
        rewrite (whole_cast _ k (Ri k eq_refl) W). reflexivity.
      * specialize (Ai v S). destruct v as [|b|z|t|s|l0|l0]; cbn [item_of] in I; try discriminate I; try contradiction; injection I as <-; reflexivity.
    + destruct i as [k|]; [destruct Ai as (t & S' & _); elim (S _ S')|reflexivity].
Qed.
End P.

(** ** Extracting *)
Fixpoint number_from {A} (k : Z) (l : list A) : list (Z * A) := match l with [] => [] | x :: l' => (k, x) :: number_from (k + 1) l' end.
Lemma numbered_from {A} (l : list A) : numbered l = number_from 0 l.
Proof.
  unfold numbered. change 0 with (Z.of_nat 0). generalize 0%nat as k. induction l as [|x l IH]; intro k; [reflexivity|]. cbn [List.length seq map combine number_from].
  f_equal. rewrite IH. f_equal. lia.
Qed.
Lemma c_string_of n : In 0 n -> c_string n = Ok (cstring n).
Proof.
  induction n as [|b n IH]; intros I; [destruct I|]. cbn [c_string cstring]. destruct (Z.eqb_spec b 0) as [->|N]; [reflexivity|].
  destruct I as [->|I]; [congruence|]. rewrite (IH I). reflexivity.
Qed.
Lemma c_text_cstring n : c_text n = cstring n.
Proof. induction n as [|b n IH]; [reflexivity|]. cbn [c_text cstring]. destruct (b =? 0); [reflexivity|]. now rewrite IH. Qed.
Lemma cut_name (n : bytes) : List.length n = 80%nat -> In 0 (upd n 79 0) /\ cstring (upd n 79 0) = cstring (firstn 79 n).
Proof.
  intro L. rewrite (upd_cut n L). split; [apply in_or_app; right; now left|]. clear L. induction (firstn 79 n) as [|b m IH]; [reflexivity|]. cbn [app cstring]. destruct (b =? 0); [reflexivity|]. now rewrite IH.
Qed.
Lemma c_text_none s : ~ In 0 s -> c_text s = s.
Proof. induction s as [|c s IH]; intro N; [reflexivity|]. cbn [c_text]. destruct (Z.eqb_spec c 0) as [->|Q]; [elim N; now left|]. f_equal. apply IH. intro J. apply N. now right. Qed.
Lemma dec_no z (c : Z) : c <> 45 -> (c < 48 \/ 57 < c) -> ~ In c (dec z).
Proof. intros A B J. pose proof (dec_all (fun x => x <> c) ltac:(cbn beta; congruence) ltac:(cbn beta; intros; lia) z) as F. rewrite Forall_forall in F. exact (F c J eq_refl). Qed.
Definition att_read strict f (e : attentry) := (ae_guid e, ae_type e, ae_name e, read_attachment strict f (ae_pos e)).
Definition att_given (a : attinfo) := (at_guid a, at_type a, upd (at_name a) 79 0, Ok (at_data a)).
Lemma named_ok wide w out k e a : ae_type e = at_type a -> ae_name e = upd (at_name a) 79 0 -> List.length (at_name a) = 80%nat -> convertible wide w a ->
  exists i, ainfo_of e = Ok i /\ (forall n j, is_selection k i (n, j) = wanted n j (k, a)) /\ file_name wide out k i = Ok (path_for w out (k, a)).
Proof.
  intros ET EN L C. destruct (cut_name (at_name a) L) as (I0 & EC). unfold ainfo_of. rewrite EN, (c_string_of _ I0), EC. cbn [bind]. eexists. split; [reflexivity|].
  split; [reflexivity|]. unfold file_name, path_for. cbn [fst snd]. rewrite c_text_cstring, ET. fold (name_of a).
  destruct (C (name_of a) (or_introl eq_refl)) as (C1 & C2). destruct (C (cstring (at_type a)) (or_intror eq_refl)) as (C3 & C4).
  assert (DZ : ~ In 0 (dec k)) by (apply dec_no; lia).
  assert (R : forall e' s', ~ In 0 e' -> ~ In 0 s' -> output_name out (s' ++ dec k) e' = out ++ s' ++ dec k ++ [46] ++ e').
  { intros e' s' N1 N2. unfold output_name. rewrite (c_text_none e' N1), (c_text_none (s' ++ dec k)); [now rewrite <- app_assoc|]. intro J. apply in_app_or in J as [J|J]; auto. }
  assert (N3 : ~ In 0 (txt "XXX")) by (vm_compute; intuition discriminate).
  assert (N1 : ~ In 0 [95]) by (intros [Q|[]]; discriminate Q).
  assert (N2 : ~ In 0 ([95] ++ w (name_of a) ++ [95])).
  { intro J. apply in_app_or in J as [[Q|[]]|J]; [discriminate Q|]. apply in_app_or in J as [J|[Q|[]]]; [auto|discriminate Q]. }
  unfold widened. destruct (cstring (at_type a)) as [|c1 t1]; destruct (name_of a) as [|c0 t0]; rewrite ?C3; cbn [bind]; rewrite ?C1; cbn [bind]; rewrite R by assumption; f_equal; rewrite <- ?app_assoc; reflexivity.
Qed.
Lemma extracted_from wide w out n i strict f : forall es l, map (att_read strict f) es = map att_given l ->
  Forall (fun a => List.length (at_name a) = 80%nat /\ convertible wide w a) l -> forall k,
  extract_from wide out (n, i) strict f k es = Ok (map (fun x => (path_for w out x, at_data (snd x))) (filter (wanted n i) (number_from k l))).
Proof.
  induction es as [|e es IH]; intros [|a l] M F k; try discriminate M; [reflexivity|]. cbn [map] in M. injection M as M1 M2 M3 M4 M5. inversion F as [|? ? (L & C) F']; subst.
  cbn [extract_from number_from filter]. destruct (named_ok wide w out k e a M2 M3 L C) as (x & X & S & P). rewrite X. cbn [bind]. rewrite S.
  destruct (wanted n i (k, a)); [|exact (IH l M5 F' (k + 1))]. rewrite P. cbn [bind]. rewrite M4. cbn [bind]. rewrite (IH l M5 F' (k + 1)). reflexivity.
Qed.
Theorem extracted num wide w out text n i m0 strict po inf ops ws rs r :
  session inf ops = (ws, rs, r) -> creation_ok inf -> Forall (request_ok INT_MAX) ops ->
  file_size ws < 2 ^ 63 -> Z.of_nat (List.length ops) <= INT_MAX -> strict = false \/ added ops rs <> [] ->
  Forall (fun a => Z.of_nat (List.length (at_data a)) <= INT_MAX /\ convertible wide w a) (attached ops rs) -> reserved_ok inf (Z.of_nat (List.length (attached ops rs))) ->
  (text = [] /\ n = None /\ i = None \/
   exists l, ~ In 0 text /\ json_text text (VObj l) /\ Forall (fun x => allowed num (snd x)) l /\ asks_for num l n i /\ forall k, i = Some k -> INT_MIN <= k <= INT_MAX) ->
  exists o, open_file strict po (file_of m0 ws) = Ok o /\
    extract_attachments num wide out text strict (file_of m0 ws) o =
      Ok (map (fun x => (path_for w out x, at_data (snd x))) (filter (wanted n i) (numbered (attached ops rs)))) /\
    extract_subs num out text o = Ok (map (fun x => (fst x, out ++ [35] ++ dec (fst x) ++ txt ".PNG"))
      (filter (fun x => match i with Some k => k =? fst x | None => true end) (numbered (op_dir o)))).
Proof.
  intros S CI RQ FS LC ST F RA T.
  destruct (session_attachments m0 strict po inf ops ws rs r S CI RQ FS LC ST) as (o & OP & MA & _); [eapply Forall_impl; [|exact F]; cbn beta; tauto|exact RA|].
  assert (Sz : Forall (fun a => List.length (at_name a) = 80%nat) (attached ops rs)).
  { clear -RQ. revert rs. induction RQ as [|x ops R RQ IH]; intros rs; [constructor|]. destruct rs as [|y rs]; [destruct x; constructor|].
    destruct x, y; cbn [attached]; try apply IH. constructor; [|apply IH]. cbn [request_ok] in R. tauto. }
  assert (SE : selection num text = Ok (n, i)).
  { destruct T as [(-> & -> & ->)|(l & Z0 & J & FA & A & R)]; [reflexivity|]. apply (proj2 (parsed num text Z0 ltac:(intros ->; apply read_iff in J; [discriminate J|exact Z0])) l n i J FA A R). }
  exists o. split; [exact OP|]. unfold extract_attachments, extract_subs. rewrite SE. cbn [bind]. split.
  - rewrite numbered_from. apply extracted_from; [exact MA|]. apply Forall_forall. intros a J. split; [exact (proj1 (Forall_forall _ _) Sz a J)|exact (proj2 (proj1 (Forall_forall _ _) F a J))].
  - f_equal. rewrite numbered_from. generalize 0 as k. induction (op_dir o) as [|e es IH]; intro k; [reflexivity|]. cbn [extract_subs_from number_from filter fst snd].
    rewrite IH. destruct (match i with Some j => j =? k | None => true end); [|reflexivity]. cbn [map fst]. f_equal. f_equal. unfold output_name. f_equal.
    rewrite c_text_none; [now rewrite <- app_assoc|]. intros [Q|Q]; [discriminate Q|]. revert Q. apply dec_no; lia.
Qed.

(** ** The names of the files are different *)
Lemma split_last (c : Z) a b a' b' : ~ In c b -> ~ In c b' -> a ++ c :: b = a' ++ c :: b' -> a = a' /\ b = b'.
Proof.
  intros N N' E. apply (f_equal (@rev Z)) in E. rewrite !rev_app_distr in E. cbn [rev] in E. rewrite <- !app_assoc in E. cbn [app] in E.
  assert (M : ~ In c (rev b)) by (rewrite <- in_rev; exact N). assert (M' : ~ In c (rev b')) by (rewrite <- in_rev; exact N').
  assert (G : forall x x' y y', ~ In c x -> ~ In c x' -> x ++ c :: y = x' ++ c :: y' -> x = x' /\ y = y').
  { clear. induction x as [|u x IH]; intros [|u' x'] y y' A B E; cbn [app] in E.
    - injection E as ->. auto.
    - injection E as E1 E2. elim B. left. auto.
    - injection E as E1 E2. elim A. left. auto.
    - injection E as E1 E2. destruct (IH x' y y' ltac:(intro; apply A; now right) ltac:(intro; apply B; now right) E2). now subst. }
  destruct (G _ _ _ _ M M' E) as (P & Q). apply (f_equal (@rev Z)) in P, Q. rewrite !rev_involutive in P, Q. auto.
Qed.
Lemma path_key w out x y : let ext a := match cstring (at_type (snd a)) with [] => txt "XXX" | t => w t end in
  ~ In 46 (ext x) -> ~ In 46 (ext y) -> 0 <= fst x < 10 ^ 19 -> 0 <= fst y < 10 ^ 19 -> path_for w out x = path_for w out y -> fst x = fst y.
Proof.
  cbv zeta. intros A B K J E. unfold path_for in E. apply app_inv_head in E.
  assert (H : forall z : Z * attinfo, exists p, forall e, [95] ++ (match name_of (snd z) with [] => [] | t => w t ++ [95] end) ++ dec (fst z) ++ [46] ++ e = (p ++ 95 :: dec (fst z)) ++ 46 :: e).
  { intros z. destruct (name_of (snd z)) as [|c t]; [exists []|exists ([95] ++ w (c :: t))]; intro e; rewrite <- ?app_assoc; reflexivity. }
  destruct (H x) as (p & P). destruct (H y) as (q & Q). rewrite P, Q in E. apply split_last in E as (E & _); [|exact A|exact B].
  apply split_last in E as (_ & E); [|apply dec_no; lia|apply dec_no; lia]. apply dec_inj in E; lia.
Qed.
Lemma number_keys {A} (l : list A) : forall k x, In x (number_from k l) -> k <= fst x < k + Z.of_nat (List.length l) /\ In (snd x) l.
Proof.
  induction l as [|a l IH]; intros k x J; [destruct J|]. cbn [number_from] in J. cbn [List.length]. destruct J as [<-|J]; [cbn [fst snd]; split; [lia|now left]|].
  destruct (IH _ _ J) as (B & C). split; [lia|now right].
Qed.
Theorem different w out n i (atts : list attinfo) : Z.of_nat (List.length atts) < 10 ^ 19 ->
  Forall (fun a => ~ In 46 (w (cstring (at_type a)))) atts ->
  NoDup (map (path_for w out) (filter (wanted n i) (numbered atts))).
Proof.
  intros L F. rewrite numbered_from. assert (G : forall l k, 0 <= k -> k + Z.of_nat (List.length l) < 10 ^ 19 -> Forall (fun a => ~ In 46 (w (cstring (at_type a)))) l ->
    NoDup (map (path_for w out) (filter (wanted n i) (number_from k l)))).
  { clear. induction l as [|a l IH]; intros k K L F; [constructor|]. inversion F as [|? ? A F']; subst. cbn [List.length] in L. cbn [number_from filter].
    specialize (IH (k + 1) ltac:(lia) ltac:(lia) F'). destruct (wanted n i (k, a)); [|exact IH]. cbn [map]. constructor; [|exact IH].
    intro J. apply in_map_iff in J as (y & E & J). apply filter_In in J as (J & _). destruct (number_keys l _ _ J) as (B & C).
    assert (X : forall z, ~ In 46 (w (cstring (at_type z))) -> ~ In 46 (match cstring (at_type z) with [] => txt "XXX" | t => w t end)).
    { intros z Q. destruct (cstring (at_type z)); [vm_compute; intuition discriminate|exact Q]. }
    apply path_key in E; [cbn [fst] in E; lia| | |cbn [fst]; lia|cbn [fst]; lia]; apply X; [exact (proj1 (Forall_forall _ _) F' _ C)|exact A]. }
  apply G; [lia|lia|exact F].
Qed.
