(** Proofs about streams asked for by class, and about blobs. *)
From Coq Require Import String.
From Verif Require Import Base CodecModel TextModel PugiModel TextSpec TextProofs3 XmlProofs GuidModel GuidSpec JsonRead BlobModel BlobSpec.
Open Scope Z_scope.

(** ** the classes *)
Lemma entries_named f e : In e (stream_classes f) ->
  class_named (en_name e) (en_class e) /\ built_in f (en_class e) /\ en_narrow e = true /\ (en_wide e = true -> en_class e <> CurlHttp /\ en_class e <> AzureBlob).
Proof.
  unfold stream_classes, entry_if. intro I. rewrite !in_app_iff in I.
  destruct f as [a b c d e' g]; cbn [fl_curl fl_azure fl_winapi fl_uwp fl_pread] in I.
  destruct I as [I|[I|[I|[I|[I|I]]]]];
    [destruct a|destruct b|destruct c|destruct d|destruct e'|]; try (now destruct I); destruct I as [<-|[]];
    cbn [en_name en_class en_narrow en_wide]; (split; [constructor|split; [exact Logic.I||reflexivity|split; [reflexivity|]]]); intro H; try discriminate H; split; discriminate.
Qed.
Lemma named_entry f n c : class_named n c -> built_in f c -> exists e, In e (stream_classes f) /\ en_name e = n /\ en_class e = c.
Proof.
  unfold stream_classes. intros N B. destruct f as [f1 f2 f3 f4 f5 f6].
  destruct N; cbn [built_in fl_curl fl_azure fl_winapi fl_uwp fl_pread] in *; unfold entry_if;
    [exists (mkEntry (txt "curl_http_inputstream") CurlHttp true false)|exists (mkEntry (txt "azure_blob_inputstream") AzureBlob true false)
    |exists (mkEntry (txt "windows_file_inputstream") WindowsFile true true)|exists (mkEntry (txt "uwp_file_inputstream") UwpFile true true)
    |exists (mkEntry (txt "pread_file_inputstream") PreadFile true false)|exists (mkEntry (txt "c_runtime_file_inputstream") CRuntimeFile true true)];
    (split; [rewrite !in_app_iff; try rewrite B|split; reflexivity]); cbn [In]; tauto.
Qed.
Lemma named_unique n c d : class_named n c -> class_named n d -> c = d.
Proof. intros A B. inversion A; subst; inversion B; subst; try reflexivity; discriminate. Qed.
Lemma class_named_inj n m c : class_named n c -> class_named m c -> n = m.
Proof. intros A B. inversion A; subst; inversion B; subst; reflexivity. Qed.

Theorem classes_told f n : told_of f n <-> exists c, class_named n c /\ built_in f c.
Proof.
  unfold told_of, class_info, classes_count. split.
  - intros (i & H). destruct ((i <? 0) || (Z.of_nat (List.length (stream_classes f)) <=? i)); [discriminate|].
    destruct (nth_error (stream_classes f) (Z.to_nat i)) as [e|] eqn:E; [|discriminate]. apply nth_error_In in E.
    apply entries_named in E as (A & B & _). injection H as <-. now exists (en_class e).
  - intros (c & N & B). destruct (named_entry f n c N B) as (e & I & E & _). apply In_nth_error in I as (k & K).
    assert (L : (k < List.length (stream_classes f))%nat) by (apply nth_error_Some; congruence).
    exists (Z.of_nat k). assert (X : (Z.of_nat k <? 0) || (Z.of_nat (List.length (stream_classes f)) <=? Z.of_nat k) = false) by lia.
    rewrite X, Nat2Z.id, K. cbn [option_map]. now rewrite E.
Qed.
Theorem classes_indices f : (forall i, (exists n, class_info f i = Some n) <-> 0 <= i < classes_count f) /\
  (forall i j n, class_info f i = Some n -> class_info f j = Some n -> i = j).
Proof.
  split.
  - intro i. unfold class_info. destruct ((i <? 0) || (classes_count f <=? i)) eqn:X; unfold classes_count in *.
    + split; [intros (n & H); discriminate|lia].
    + split; [lia|]. intros _. destruct (nth_error (stream_classes f) (Z.to_nat i)) as [e|] eqn:E; [now exists (en_name e)|].
      apply nth_error_None in E. lia.
  - assert (N : NoDup (map en_name (stream_classes f))).
    { assert (D : NoDup (map en_name (stream_classes (mkFlavor true true true true true true)))).
      { vm_compute. repeat (constructor; [cbn [In]; intuition discriminate|]). constructor. }
      destruct f as [[] [] [] [] [] g]; vm_compute; repeat (constructor; [cbn [In]; intuition discriminate|]); constructor. }
    intros i j n A B. unfold class_info in *.
    destruct ((i <? 0) || (classes_count f <=? i)) eqn:X; [discriminate|]. destruct ((j <? 0) || (classes_count f <=? j)) eqn:Y; [discriminate|].
    rewrite <- nth_error_map in A, B. assert (E : Z.to_nat i = Z.to_nat j); [|lia].
    apply (proj1 (NoDup_nth_error _) N); [|congruence]. apply nth_error_Some. congruence.
Qed.

Lemma find_class f n : match find (fun e => str_eqb n (en_name e)) (stream_classes f) with
  | None => ~ told_of f n
  | Some e => In e (stream_classes f) /\ en_name e = n
  end.
Proof.
  destruct (find _ _) as [e|] eqn:F.
  - apply find_some in F as (I & E). apply str_eqb_eq in E. now split.
  - intro T. apply classes_told in T as (c & N & B). destruct (named_entry f n c N B) as (e & I & E & _).
    pose proof (find_none _ _ F e I) as X. cbn beta in X. rewrite E in X. assert (str_eqb n n = true) by now apply str_eqb_eq. congruence.
Qed.
Theorem create_unknown f cd n p id : ~ told_of f n -> create_stream f cd n p id = Ok None.
Proof.
  intro T. unfold create_stream. pose proof (find_class f n) as F. destruct (find _ _) as [e|]; [|reflexivity].
  destruct F as (I & E). exfalso. apply T. apply classes_told. apply entries_named in I as (A & B & _). exists (en_class e). now rewrite <- E.
Qed.
Lemma made_class f cd p c s x : make_narrow f cd p c s = Ok x -> class_of x = c.
Proof.
  unfold make_narrow. destruct c; intro H; try (now injection H as <-); apply bind_ok in H as (y & _ & H); now injection H as <-.
Qed.
Lemma make_wide_class f cd c w x : make_wide f cd c w = Ok x -> class_of x = c.
Proof. unfold make_wide. intro H. apply bind_ok in H as (y & _ & H). now injection H as <-. Qed.
Theorem create_class f cd n c p id : class_named n c -> built_in f c ->
  create_stream f cd n p id <> Ok None /\ forall x, create_stream f cd n p id = Ok (Some x) -> class_of x = c.
Proof.
  intros N B. unfold create_stream. pose proof (find_class f n) as F. destruct (find _ _) as [e|].
  - destruct F as (I & E). destruct (entries_named f e I) as (A & _ & R & _). rewrite E in A. rewrite (named_unique n c _ N A). rewrite R.
    destruct id as [s|w].
    + split.
      * intro H. apply bind_ok in H as (x & _ & H). discriminate H.
      * intros x H. apply bind_ok in H as (y & M & H). injection H as <-. now apply made_class in M.
    + destruct (en_wide e).
      * split; [intro H; apply bind_ok in H as (x & _ & H); discriminate H|].
        intros x H. apply bind_ok in H as (y & M & H). injection H as <-. now apply make_wide_class in M.
      * split; [intro H; apply bind_ok in H as (s & _ & H); apply bind_ok in H as (x & _ & H); discriminate H|].
        intros x H. apply bind_ok in H as (s & _ & H). apply bind_ok in H as (y & M & H). injection H as <-. now apply made_class in M.
  - exfalso. apply F. apply classes_told. now exists c.
Qed.

(** ** narrow and wide *)
Lemma file_same f cd s w : same_text cd s w -> file_narrow f cd s = file_wide f cd w.
Proof.
  intros (A & B & C & D). unfold file_narrow, file_wide, widen, narrow. rewrite (c_text_id s A), (c_text_id w B), C, D. cbn [bind].
  rewrite (c_text_id s A), (c_text_id w B). reflexivity.
Qed.
Theorem create_same f cd n p s w : same_text cd s w -> create_stream f cd n p (Narrow s) = create_stream f cd n p (Wide w).
Proof.
  intro S. unfold create_stream. pose proof (find_class f n) as F. destruct (find _ _) as [e|]; [|reflexivity]. destruct F as (I & _).
  destruct (entries_named f e I) as (_ & _ & R & W). rewrite R. destruct (en_wide e).
  - destruct (W eq_refl) as (X & Y). unfold make_narrow, make_wide. rewrite (file_same f cd s w S). destruct (en_class e); try reflexivity; congruence.
  - destruct S as (A & B & C & D). unfold narrow. rewrite (c_text_id w B), D. reflexivity.
Qed.
Theorem default_same f cd s w : same_text cd s w -> default_stream f cd (Narrow s) = default_stream f cd (Wide w).
Proof. intro S. unfold default_stream. rewrite (file_same f cd s w S). reflexivity. Qed.
(** the file which is opened has the name given *)
Theorem create_file f cd n c p s w : same_text cd s w -> class_named n c -> built_in f c -> c <> CurlHttp -> c <> AzureBlob ->
  create_stream f cd n p (Narrow s) = Ok (Some (SFile c (if fl_win32 f then Wide w else Narrow s))).
Proof.
  intros S N B X Y. unfold create_stream. pose proof (find_class f n) as F. destruct (find _ _) as [e|].
  - destruct F as (I & E). destruct (entries_named f e I) as (A & _ & R & _). rewrite E in A. rewrite <- (named_unique n c _ N A). rewrite R.
    destruct S as (S1 & S2 & S3 & S4). unfold make_narrow, file_narrow, widen. rewrite (c_text_id s S1), S3. cbn [bind]. rewrite (c_text_id w S2).
    destruct c; try congruence; destruct (fl_win32 f); reflexivity.
  - exfalso. apply F. apply classes_told. now exists c.
Qed.
Lemma c_text_stops s r : c_text (s ++ 0 :: r) = c_text s.
Proof. induction s as [|c s IH]; [reflexivity|]. cbn [app c_text]. rewrite IH. reflexivity. Qed.
Theorem create_truncates f cd n p s r : create_stream f cd n p (Narrow (s ++ 0 :: r)) = create_stream f cd n p (Narrow s).
Proof.
  unfold create_stream. destruct (find _ _) as [e|]; [|reflexivity]. unfold make_narrow, azure_narrow, file_narrow, widen. rewrite c_text_stops. reflexivity.
Qed.

(** ** blobs *)
Lemma text_no_nul s : text s -> ~ In 0 s.
Proof. intros A I. pose proof (proj1 (Forall_forall _ _) A 0 I) as X. unfold scalar in X. lia. Qed.
Lemma utf8_no_nul s : text s -> ~ In 0 (utf8_encode s).
Proof.
  intros A I. unfold utf8_encode in I. apply in_flat_map in I as (c & I & J). pose proof (proj1 (Forall_forall _ _) A c I) as X. unfold scalar in X. unfold utf8_char in J.
  destruct (c <? 128); [cbn [In] in J; lia|]. destruct (c <? 2048); [cbn [In] in J; lia|]. destruct (c <? 65536); cbn [In] in J; lia.
Qed.
Lemma utf8_app a b : utf8_encode (a ++ b) = utf8_encode a ++ utf8_encode b.
Proof. apply flat_map_app. Qed.
Lemma text_app a b : text a -> text b -> text (a ++ b).
Proof. intros A B. apply Forall_app. now split. Qed.
Lemma text_esc s : text s -> text (esc s).
Proof.
  unfold esc. induction 1 as [|c s C S IH]; [constructor|]. cbn [flat_map]. apply text_app; [|exact IH].
  assert (B : scalar BSL) by (left; unfold BSL; lia). destruct ((c =? SEMI) || (c =? EQU)); [apply Forall_cons; [exact B|]|]; (apply Forall_cons; [exact C|apply Forall_nil]).
Qed.
Lemma text_bag l : Forall (fun kv : str * str => text (fst kv) /\ text (snd kv)) l -> text (bag_text l).
Proof.
  induction 1 as [|(k, v) l (K & V) H IH]; [constructor|]. cbn [fst snd] in *. cbn [bag_text].
  assert (Q : forall r, text r -> text (esc k ++ EQU :: esc v ++ r)).
  { intros r R. apply text_app; [now apply text_esc|]. constructor; [left; unfold EQU; lia|]. apply text_app; [now apply text_esc|exact R]. }
  destruct l as [|y l]; [rewrite <- (app_nil_r (esc v)); apply Q; constructor|]. apply Q. constructor; [left; unfold SEMI; lia|exact IH].
Qed.
Lemma narrow_text cd s : codec_ok cd -> text s -> narrow cd s = Ok (utf8_encode s).
Proof. intros C A. unfold narrow. rewrite (c_text_id s (text_no_nul s A)), (proj2 (C s A)). reflexivity. Qed.
Lemma widen_text cd s : codec_ok cd -> text s -> widen cd (utf8_encode s) = Ok s.
Proof. intros C A. unfold widen. rewrite (c_text_id _ (utf8_no_nul s A)), (proj1 (C s A)). reflexivity. Qed.

Lemma auth_words_named s a : In (s, a) auth_words <-> auth_named s a.
Proof.
  split.
  - unfold auth_words. cbn [In]. intros [E|[E|[E|[E|[E|[E|[]]]]]]]; injection E as <- <-; constructor.
  - intros []; unfold auth_words; cbn [In]; auto 10.
Qed.
Lemma auth_named_unique s a b : auth_named s a -> auth_named s b -> a = b.
Proof. intros A B. inversion A; subst; inversion B; subst; try reflexivity; discriminate. Qed.
Lemma prop_unique (p : props) k v w : NoDup (map fst p) -> In (k, v) p -> In (k, w) p -> v = w.
Proof.
  induction p as [|(k', v') p IH]; [intros _ []|]. intros N. inversion N as [|? ? A B]; subst. cbn [fst] in *. intros [E|I] [F|J].
  - congruence.
  - injection E as -> ->. exfalso. apply A. apply (in_map fst) in J. exact J.
  - injection F as -> ->. exfalso. apply A. apply (in_map fst) in I. exact I.
  - now apply IH.
Qed.
Theorem auth_mode_asked p a : NoDup (map fst p) -> (auth_mode p = Ok a <-> auth_asked p a).
Proof.
  intros N. unfold auth_mode, auth_asked, auth_key. destruct (find (fun e : Z * pvalue => fst e =? 200) p) as [(k, v)|] eqn:F.
  - apply find_some in F as (I & E). cbn [fst] in E. assert (k = 200) by lia. subst k. split.
    + intro H. left. destruct v as [s|b|z]; try discriminate. destruct (find (fun e : str * auth => str_eqb s (fst e)) auth_words) as [(s', m)|] eqn:G; [|discriminate].
      injection H as <-. apply find_some in G as (G & S). cbn [fst] in S. apply str_eqb_eq in S. subst s'. exists s. split; [exact I|now apply auth_words_named].
    + intros [(s & J & A)|(A & _)]; [|exfalso; exact (A v I)]. rewrite (prop_unique p 200 v (PVString s) N I J).
      destruct (find (fun e : str * auth => str_eqb s (fst e)) auth_words) as [(s', m)|] eqn:G.
      * apply find_some in G as (G & S). cbn [fst] in S. apply str_eqb_eq in S. subst s'. apply auth_words_named in G. now rewrite (auth_named_unique s m a G A).
      * exfalso. apply auth_words_named in A. pose proof (find_none _ _ G _ A) as X. cbn [fst] in X. assert (str_eqb s s = true) by now apply str_eqb_eq. congruence.
  - split.
    + intros [= <-]. right. split; [|reflexivity]. intros v I. pose proof (find_none _ _ F _ I) as X. cbn [fst] in X. discriminate X.
    + intros [(s & J & _)|(_ & ->)]; [|reflexivity]. pose proof (find_none _ _ F _ J) as X. cbn [fst] in X. discriminate X.
Qed.

Lemma auth_cases (a : auth) : a = ConnectionString \/ a <> ConnectionString.
Proof. destruct a; (now left) || (right; discriminate). Qed.

Lemma pair_unique (p : list (str * str)) k v w : NoDup (map fst p) -> In (k, v) p -> In (k, w) p -> v = w.
Proof. intros N A B. apply (proj2 (lookup_nodup p k v N)) in A. apply (proj2 (lookup_nodup p k w N)) in B. rewrite A in B. now injection B. Qed.

Section Bag.
  Context (cd : codec) (l : list (str * str)) (C : codec_ok cd) (W : writable l).
  Let ND : NoDup (map fst l). Proof. apply W. Qed.
  Let AS : Forall (fun kv : str * str => text (fst kv) /\ text (snd kv)) l. Proof. apply W. Qed.
  Lemma bag_values k v : In (k, v) l -> text v.
  Proof. intro I. now apply (proj1 (Forall_forall _ _) AS) in I. Qed.
  Lemma said_says k b : said cd l (txt k) = Ok b <-> exists v, says l k v /\ b = utf8_encode v.
  Proof.
    unfold said, says. destruct (lookup l (txt k)) as [x|] eqn:L.
    - apply (lookup_nodup l _ x ND) in L. rewrite (narrow_text cd x C (bag_values _ _ L)). split; [intros [= <-]; now exists x|].
      intros (v & J & ->). do 2 f_equal. exact (pair_unique l _ x v ND L J).
    - split; [discriminate|]. intros (v & J & _). apply (proj2 (lookup_nodup l _ v ND)) in J. rewrite L in J. discriminate J.
  Qed.
  Lemma said_or k : (exists v, said cd l (txt k) = Ok v) \/ said cd l (txt k) = Throw.
  Proof.
    unfold said. destruct (lookup l (txt k)) as [x|] eqn:L; [left|now right]. apply (lookup_nodup l _ x ND) in L.
    eexists. apply (narrow_text cd x C (bag_values _ _ L)).
  Qed.
  Lemma silent_lookup k : silent l k <-> lookup l (txt k) = None.
  Proof.
    unfold silent, says. split.
    - intro S. destruct (lookup l (txt k)) as [x|] eqn:L; [|reflexivity]. apply (lookup_nodup l _ x ND) in L. exfalso. exact (S x L).
    - intros L v I. apply (proj2 (lookup_nodup l _ v ND)) in I. rewrite L in I. discriminate I.
  Qed.
  Lemma service_url_asked a b : a <> ConnectionString -> (service_url cd l = Ok b <-> exists u, service_asked l a u /\ b = utf8_encode u).
  Proof.
    intro A. assert (Q : forall u, service_asked l a u <-> (says l "accounturl" u
         \/ lookup l (txt "accounturl") = None /\ exists n, says l "account" n /\ u = txt "https://" ++ n ++ txt ".blob.core.windows.net")) by (intro u; rewrite <- silent_lookup; destruct a; try reflexivity; congruence).
    pose proof (said_says "accounturl" b) as S. unfold service_url. unfold said in S.
    destruct (lookup l (txt "accounturl")) as [x|].
    - rewrite S. split.
      + intros (v & V & E). exists v. split; [apply Q; now left|exact E].
      + intros (u & U & E). exists u. apply Q in U as [U|(U & _)]; [now split|discriminate U].
    - destruct (lookup l (txt "account")) as [y|] eqn:L.
      + apply (lookup_nodup l _ y ND) in L. rewrite (narrow_text cd y C (bag_values _ _ L)). cbn [bind].
        assert (E : txt "https://" ++ utf8_encode y ++ txt ".blob.core.windows.net" = utf8_encode (txt "https://" ++ y ++ txt ".blob.core.windows.net")) by (rewrite !utf8_app; reflexivity).
        match goal with |- context [Ok ?x = Ok b] => let h := fresh in assert (h : x = utf8_encode (txt "https://" ++ y ++ txt ".blob.core.windows.net")) by exact E; rewrite h; clear h end. split.
        * intro H. assert (H2 : b = utf8_encode (txt "https://" ++ y ++ txt ".blob.core.windows.net")) by congruence. exists (txt "https://" ++ y ++ txt ".blob.core.windows.net"). split; [|exact H2]. apply Q. right. split; [reflexivity|]. now exists y.
        * intros (u & U & ->). apply Q in U as [U|(_ & n & N & ->)].
          -- discriminate (proj2 S (ex_intro _ u (conj U eq_refl))).
          -- now rewrite (pair_unique l _ y n ND L N).
      + split; [discriminate|]. intros (u & U & ->). apply Q in U as [U|(_ & n & N & ->)].
        * exact (proj2 S (ex_intro _ u (conj U eq_refl))).
        * unfold says in N. apply (proj2 (lookup_nodup l _ n ND)) in N. rewrite L in N. discriminate N.
  Qed.
  Lemma service_or : (exists v, service_url cd l = Ok v) \/ service_url cd l = Throw.
  Proof.
    unfold service_url. destruct (lookup l (txt "accounturl")) as [x|] eqn:L.
    - left. apply (lookup_nodup l _ x ND) in L. eexists. apply (narrow_text cd x C (bag_values _ _ L)).
    - destruct (lookup l (txt "account")) as [y|] eqn:M; [left|now right]. apply (lookup_nodup l _ y ND) in M.
      rewrite (narrow_text cd y C (bag_values _ _ M)). cbn [bind]. eexists. reflexivity.
  Qed.
  Lemma auth_or p : (exists a, auth_mode p = Ok a) \/ auth_mode p = Throw.
  Proof.
    unfold auth_mode. destruct (find (fun e : Z * pvalue => fst e =? auth_key) p) as [(k, [s|b|z])|]; eauto.
    destruct (find (fun e : str * auth => str_eqb s (fst e)) auth_words) as [(w, m)|]; eauto.
  Qed.
  Lemma tokens : tokenize (bag_text l) = Ok l.
  Proof. destruct W as (A & B & D & E & _). now apply bag_round_trip. Qed.

  Theorem azure_asked p t : NoDup (map fst p) -> (azure_wide cd (bag_text l) p = Ok t <-> blob_asked l p t).
  Proof.
    intro NP. unfold azure_wide, blob_asked. rewrite tokens. cbn [bind]. split.
    - intro H. apply bind_ok in H as (a & A & H). apply (auth_mode_asked p a NP) in A.
      destruct (auth_cases a) as [->|Q].
      + unfold with_connection_string in H. apply bind_ok in H as (s & S & H). apply bind_ok in H as (c & D & H). apply bind_ok in H as (b & E & H). injection H as <-.
        cbn [t_auth t_service t_container t_blob service_asked]. apply said_says in S as (u & S & ->), D as (vc & D & ->), E as (vb & E & ->). exists u, vc, vb. auto 10.
      + assert (H' : with_credential cd l a = Ok t) by (destruct a; try exact H; congruence). clear H.
        unfold with_credential in H'. apply bind_ok in H' as (c & D & H). apply bind_ok in H as (b & E & H). apply bind_ok in H as (u & U & H). injection H as <-.
        cbn [t_auth t_service t_container t_blob]. apply said_says in D as (vc & D & ->), E as (vb & E & ->). apply (service_url_asked a u Q) in U as (vu & U & ->). exists vu, vc, vb. auto 10.
    - intros (u & c & b & A & S & D & E & Tu & Tc & Tb). apply (auth_mode_asked p _ NP) in A. rewrite A. cbn [bind]. destruct t as [a tu tc tb]. cbn [t_auth t_service t_container t_blob] in *.
      assert (D' := proj2 (said_says "containername" tc) (ex_intro _ c (conj D Tc))). assert (E' := proj2 (said_says "blobname" tb) (ex_intro _ b (conj E Tb))).
      destruct (auth_cases a) as [->|Q].
      + cbn [service_asked] in S. assert (S' := proj2 (said_says "connectionstring" tu) (ex_intro _ u (conj S Tu))).
        unfold with_connection_string. rewrite S'. cbn [bind]. rewrite D'. cbn [bind]. rewrite E'. reflexivity.
      + assert (S' := proj2 (service_url_asked a tu Q) (ex_intro _ u (conj S Tu))). assert (X : with_credential cd l a = Ok (mkTarget a tu tc tb)).
        { unfold with_credential. rewrite D'. cbn [bind]. rewrite E'. cbn [bind]. rewrite S'. reflexivity. }
        destruct a; try exact X. congruence.
  Qed.
  Theorem azure_or p : (exists t, azure_wide cd (bag_text l) p = Ok t) \/ azure_wide cd (bag_text l) p = Throw.
  Proof.
    unfold azure_wide. rewrite tokens. cbn [bind]. destruct (auth_or p) as [(a & ->)| ->]; [|now right]. cbn [bind].
    assert (X : (exists t, with_credential cd l a = Ok t) \/ with_credential cd l a = Throw).
    { unfold with_credential. destruct (said_or "containername") as [(c & ->)| ->]; [|now right]. cbn [bind].
      destruct (said_or "blobname") as [(b & ->)| ->]; [|now right]. cbn [bind]. destruct service_or as [(u & ->)| ->]; [|now right]. left. eexists. reflexivity. }
    destruct a; try exact X. unfold with_connection_string. destruct (said_or "connectionstring") as [(s & ->)| ->]; [|now right]. cbn [bind].
    destruct (said_or "containername") as [(c & ->)| ->]; [|now right]. cbn [bind]. destruct (said_or "blobname") as [(b & ->)| ->]; [|now right]. left. eexists. reflexivity.
  Qed.
  Lemma bag_same : same_text cd (utf8_encode (bag_text l)) (bag_text l).
  Proof. assert (A := text_bag l AS). split; [now apply utf8_no_nul|]. split; [now apply text_no_nul|]. exact (C _ A). Qed.
  Lemma azure_created f p id : fl_azure f = true -> id = Narrow (utf8_encode (bag_text l)) \/ id = Wide (bag_text l) ->
    create_stream f cd (txt "azure_blob_inputstream") p id = let* t := azure_wide cd (bag_text l) p in Ok (Some (SBlob t)).
  Proof.
    intros F I. assert (E : create_stream f cd (txt "azure_blob_inputstream") p id = create_stream f cd (txt "azure_blob_inputstream") p (Narrow (utf8_encode (bag_text l)))).
    { destruct I as [-> | ->]; [reflexivity|]. symmetry. apply create_same, bag_same. }
    rewrite E. clear E I. unfold create_stream. pose proof (find_class f (txt "azure_blob_inputstream")) as Q. destruct (find _ _) as [e|].
    - destruct Q as (I & E). destruct (entries_named f e I) as (A & _ & R & _). rewrite E in A. rewrite <- (named_unique _ AzureBlob _ Named_azure A). rewrite R.
      unfold make_narrow, azure_narrow. rewrite (widen_text cd _ C (text_bag l AS)). cbn [bind]. destruct (azure_wide cd (bag_text l) p); reflexivity.
    - exfalso. apply Q. apply classes_told. exists AzureBlob. split; [constructor|exact F].
  Qed.
  (** exactly the blob asked for, or an exception *)
  Theorem blob_created f p id : fl_azure f = true -> NoDup (map fst p) -> id = Narrow (utf8_encode (bag_text l)) \/ id = Wide (bag_text l) ->
    (forall x, create_stream f cd (txt "azure_blob_inputstream") p id = Ok (Some x) <-> exists t, x = SBlob t /\ blob_asked l p t) /\
    ((forall t, ~ blob_asked l p t) -> create_stream f cd (txt "azure_blob_inputstream") p id = Throw).
  Proof.
    intros F NP I. rewrite (azure_created f p id F I). split.
    - intro x. split.
      + intro H. apply bind_ok in H as (t & T & H). injection H as <-. exists t. split; [reflexivity|]. now apply azure_asked.
      + intros (t & -> & B). apply (azure_asked p t NP) in B. rewrite B. reflexivity.
    - intro N. destruct (azure_or p) as [(t & T)| ->]; [|reflexivity]. exfalso. apply (N t). now apply azure_asked.
  Qed.
End Bag.

(** the host is the account's when its name is of letters, figures and hyphens *)
Theorem account_host n : Forall plain n -> host_of (txt "https://" ++ n ++ txt ".blob.core.windows.net") (n ++ txt ".blob.core.windows.net").
Proof.
  intro P. exists []. rewrite app_nil_r. split; [reflexivity|].
  assert (D : Forall (fun c => c <> 64 /\ ~ ends_host c) (n ++ txt ".blob.core.windows.net")).
  { apply Forall_app. split.
    - refine (Forall_impl _ _ P). intros c Q. unfold plain in Q. unfold ends_host. lia.
    - assert (B : forallb (fun c => negb ((c =? 64) || (c =? 47) || (c =? 63) || (c =? 35) || (c =? 58))) (txt ".blob.core.windows.net") = true) by reflexivity.
      apply Forall_forall. intros c I. pose proof (proj1 (forallb_forall _ _) B c I) as X. cbn beta in X. unfold ends_host. lia. }
  split; [|split].
  - intro I. pose proof (proj1 (Forall_forall _ _) D _ I) as (X & _). now apply X.
  - refine (Forall_impl _ _ D). now intros c (_ & Q).
  - now left.
Qed.
Lemma host_unique u a b : host_of u a -> host_of u b -> a = b.
Proof.
  intros (r & -> & _ & A & R) (r' & E & _ & B & R'). apply app_inv_head in E. revert b B E. induction A as [|c a C A IH]; intros b B E.
  - destruct b as [|d b]; [reflexivity|]. exfalso. inversion B as [|? ? D _]; subst. cbn [app] in E. destruct R as [-> |(x & y & -> & X & _)]; [discriminate|]. injection E as -> _. now apply D.
  - destruct b as [|d b].
    + exfalso. cbn [app] in E. destruct R' as [-> |(x & y & -> & X & _)]; [discriminate|]. injection E as -> _. now apply C.
    + inversion B as [|? ? D B']; subst. cbn [app] in E. injection E as -> E. f_equal. now apply IH.
Qed.

(** ** reading *)
Theorem blob_reads sv blob offset size : serves sv blob -> Z.of_nat (List.length blob) < 2 ^ 63 -> 0 <= offset < Z.of_nat (List.length blob) -> 0 < size < 2 ^ 63 ->
  reads (blob_read sv) blob offset size.
Proof.
  intros S L O N. unfold reads, blob_read, int64_max. assert (X : (2 ^ 63 - 1 <? size) = false) by lia. assert (Y : (2 ^ 63 - 1 <? offset) = false) by lia. rewrite X, Y.
  pose proof (S offset size ltac:(lia) ltac:(lia)) as H. destruct (sv offset size) as [a|]; [|lia]. destruct H as (_ & T & F & D & E).
  assert (Z : (an_status a =? 200) || (an_status a =? 206) = true) by lia. rewrite Z, E, F, Z.eqb_refl. cbn [negb]. rewrite D.
  set (part := firstn (Z.to_nat size) (skipn (Z.to_nat offset) blob)). assert (Q : Z.of_nat (List.length part) <= size) by (unfold part; rewrite firstn_length; lia).
  assert (W : (size <? Z.of_nat (List.length part)) = false) by lia. rewrite W. rewrite Z.mod_small; [reflexivity|lia].
Qed.
Theorem blob_count sv offset size d n : 0 <= offset -> 0 <= size -> (forall a k, sv offset size = Some a -> an_length a = Some k -> 0 <= k) ->
  blob_read sv offset size = Ok (d, n) -> n <= size /\ exists a, sv offset size = Some a /\ an_offset a = offset /\ an_length a = Some n /\ an_data a = d.
Proof.
  intros O N K. unfold blob_read, int64_max. destruct (2 ^ 63 - 1 <? size) eqn:X; [discriminate|]. destruct (2 ^ 63 - 1 <? offset); [discriminate|].
  destruct (sv offset size) as [a|]; [|discriminate]. destruct ((an_status a =? 200) || (an_status a =? 206)); [|discriminate].
  destruct (Z.eqb_spec (an_offset a) offset) as [F|]; [|discriminate]. cbn [negb]. destruct (an_length a) as [k|] eqn:E; [|discriminate].
  destruct (size <? k) eqn:W; [discriminate|]. intros [= <- <-]. specialize (K a k eq_refl E). rewrite Z.mod_small by lia. split; [lia|]. exists a. auto.
Qed.
Theorem blob_end sv blob offset size : serves sv blob -> Z.of_nat (List.length blob) <= offset -> 0 < size -> blob_read sv offset size = Throw.
Proof.
  intros S O N. unfold blob_read. destruct (int64_max <? size); [reflexivity|]. destruct (int64_max <? offset); [reflexivity|].
  pose proof (S offset size ltac:(lia) ltac:(lia)) as H. destruct (sv offset size) as [a|]; [|reflexivity]. lia.
Qed.
