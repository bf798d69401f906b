(** Cases and counterexamples for streams asked for by class, and blobs. *)
From Coq Require Import String.
From Verif Require Import Base CodecModel TextModel PugiModel PugiSpec PugiRound TextSpec TextProofs3 XmlProofs GuidModel GuidSpec BlobModel BlobSpec BlobProofs.
Open Scope Z_scope.

(** a platform whose conversions are those of UTF-8, for what is text *)
Definition text_b (s : str) : bool := forallb (fun c => ((1 <=? c) && (c <? 55296)) || ((57344 <=? c) && (c <? 1114112))) s.
Definition ex_codec : codec :=
  mkCodec (fun s => let w := utf8_decode s in if text_b w then Some w else None) (fun w => if text_b w then Some (utf8_encode w) else None).
Lemma text_b_ok s : text_b s = true <-> text s.
Proof.
  unfold text_b, text, scalar. rewrite forallb_forall, Forall_forall. split; intros H c I; specialize (H c I); lia.
Qed.
Lemma ex_codec_ok : codec_ok ex_codec.
Proof.
  intros s A. cbn [ex_codec to_wide to_narrow].
  assert (H : chars s) by (refine (Forall_impl _ _ A); intros c X; unfold scalar in X; lia).
  rewrite (utf8_round s H). apply text_b_ok in A. rewrite A. now split.
Qed.
Definition ex_linux : flavor := mkFlavor true true false false true false.
Definition ex_windows : flavor := mkFlavor true true true false false true.

Lemma ex_classes : class_info ex_linux 1 = Some (txt "azure_blob_inputstream") /\ classes_count ex_linux = 4 /\ ~ told_of ex_linux (txt "windows_file_inputstream") /\
  told_of ex_windows (txt "windows_file_inputstream").
Proof.
  split; [reflexivity|]. split; [reflexivity|]. split.
  - intro T. apply classes_told in T as (c & N & B). rewrite (named_unique _ _ _ N Named_windows) in B. discriminate B.
  - exists 2. reflexivity.
Qed.
Lemma ex_file : same_text ex_codec (txt "a.czi") (txt "a.czi") /\
  create_stream ex_windows ex_codec (txt "c_runtime_file_inputstream") [] (Narrow (txt "a.czi")) = Ok (Some (SFile CRuntimeFile (Wide (txt "a.czi")))).
Proof. split; [|reflexivity]. do 2 (split; [vm_compute; intuition discriminate|]). split; reflexivity. Qed.

(** what follows a NUL is lost *)
Lemma ex_nul : ~ (forall f cd n c p s s' x, class_named n c -> built_in f c -> create_stream f cd n p (Narrow s) = Ok (Some x) ->
  create_stream f cd n p (Narrow s') = Ok (Some x) -> s = s').
Proof.
  intro H. specialize (H ex_linux ex_codec (txt "pread_file_inputstream") PreadFile [] [97] [97; 0; 98] (SFile PreadFile (Narrow [97])) Named_pread eq_refl eq_refl eq_refl).
  discriminate H.
Qed.

Definition ex_pairs : list (str * str) :=
  [(txt "account", txt "mystore"); (txt "containername", txt "slides"); (txt "blobname", 252 :: txt "a=b;c.czi")].
Definition ex_props : props := [(100, PVString (txt "proxy")); (200, PVString (txt "AzureCliCredential"))].
Definition ex_target : target := mkTarget AzureCliCredential (txt "https://mystore.blob.core.windows.net") (txt "slides") (195 :: 188 :: txt "a=b;c.czi").
Ltac no_backslash := let s := fresh in let E := fresh in intros (s & E); apply (f_equal (fun l : str => last l 0)) in E; rewrite last_last in E; vm_compute in E; discriminate E.
Lemma writable_three k1 v1 k2 v2 k3 v3 : let l := [(k1, v1); (k2, v2); (k3, v3)] : list (str * str) in
  forallb (fun kv => negb (last (fst kv) BSL =? BSL) && negb (last (snd kv) 0 =? BSL) && text_b (fst kv) && text_b (snd kv)) l = true ->
  v3 <> [] -> k1 <> k2 -> k1 <> k3 -> k2 <> k3 -> writable l.
Proof.
  intros l F V A B C. assert (Q : Forall (fun kv : str * str => last (fst kv) BSL <> BSL /\ last (snd kv) 0 <> BSL /\ text (fst kv) /\ text (snd kv)) l).
  { apply Forall_forall. intros kv I. pose proof (proj1 (forallb_forall _ _) F kv I) as X. cbn beta in X. rewrite <- !text_b_ok. rewrite !andb_true_iff, !negb_true_iff, !Z.eqb_neq in X. tauto. }
  split; [discriminate|]. split; [|split; [|split; [exact V|split]]].
  - refine (Forall_impl _ _ Q). intros (k, v) (X & _). cbn [fst snd] in *. split; [intros ->; now apply X|]. intros (s & ->). rewrite last_last in X. now apply X.
  - intros kv I. assert (J : In kv l) by (cbn [l removelast] in I; destruct I as [<-|[<-|[]]]; cbn; auto).
    pose proof (proj1 (Forall_forall _ _) Q kv J) as (_ & X & _). intros (s & E). rewrite E, last_last in X. now apply X.
  - cbn [l map fst]. constructor; [intros [E|[E|[]]]; congruence|]. constructor; [intros [E|[]]; congruence|]. constructor; [intros []|constructor].
  - refine (Forall_impl _ _ Q). intros kv (_ & _ & X & Y). now split.
Qed.
Lemma ex_pairs_ok : writable ex_pairs.
Proof. apply writable_three; [reflexivity|discriminate..]. Qed.
Lemma ex_asked : fl_azure ex_linux = true /\ codec_ok ex_codec /\ writable ex_pairs /\ NoDup (map fst ex_props) /\ blob_asked ex_pairs ex_props ex_target /\
  bag_text ex_pairs = txt "account=mystore;containername=slides;blobname=" ++ 252 :: txt "a\=b\;c.czi".
Proof.
  split; [reflexivity|]. split; [exact ex_codec_ok|]. split; [exact ex_pairs_ok|].
  split; [constructor; [intros [E|[]]; discriminate E|constructor; [intros []|constructor]]|]. split; [|reflexivity].
  exists (txt "https://mystore.blob.core.windows.net"), (txt "slides"), (252 :: txt "a=b;c.czi").
  split; [left; exists (txt "AzureCliCredential"); split; [right; now left|constructor]|].
  split; [|split; [right; now left|split; [right; right; now left|repeat split; reflexivity]]]. right. split.
  - intros v [E|[E|[E|[]]]]; discriminate E.
  - exists (txt "mystore"). split; [now left|reflexivity].
Qed.
(** without a blob's name nothing is asked for *)
Lemma ex_refused : forall t, ~ blob_asked [(txt "account", txt "a"); (txt "containername", txt "c")] [] t.
Proof. intros t (u & c & b & _ & _ & _ & [E|[E|[]]] & _); discriminate E. Qed.

(** an account's name may hold the end of the host: the service asked is another one *)
Definition ex_elsewhere : list (str * str) := [(txt "account", txt "example.org/"); (txt "containername", txt "c"); (txt "blobname", txt "b")].
Lemma ex_host : ~ (forall f cd l p n t, fl_azure f = true -> codec_ok cd -> writable l -> NoDup (map fst p) -> says l "account" n -> silent l "accounturl" ->
  create_stream f cd (txt "azure_blob_inputstream") p (Narrow (utf8_encode (bag_text l))) = Ok (Some (SBlob t)) -> t_auth t <> ConnectionString ->
  exists h, host_of (t_service t) (h ++ txt ".blob.core.windows.net")).
Proof.
  intro H. set (t := mkTarget DefaultAzureCredential (txt "https://example.org/.blob.core.windows.net") (txt "c") (txt "b")).
  destruct (H ex_linux ex_codec ex_elsewhere [] (txt "example.org/") t) as (h & A); [reflexivity|exact ex_codec_ok| | | | | |discriminate|].
  - apply writable_three; [reflexivity|discriminate..].
  - constructor.
  - now left.
  - intros v [E|[E|[E|[]]]]; discriminate E.
  - reflexivity.
  - assert (B : host_of (t_service t) (txt "example.org")).
    { exists (txt "/.blob.core.windows.net"). split; [reflexivity|]. split; [vm_compute; intuition discriminate|]. split.
      - assert (D : forallb (fun c => negb ((c =? 47) || (c =? 63) || (c =? 35) || (c =? 58))) (txt "example.org") = true) by reflexivity.
        apply Forall_forall. intros c I. pose proof (proj1 (forallb_forall _ _) D c I) as X. cbn beta in X. unfold ends_host. lia.
      - right. exists 47, (txt ".blob.core.windows.net"). split; [reflexivity|]. split; [now left|discriminate]. }
    pose proof (host_unique _ _ _ A B) as E. apply (f_equal (fun l : str => List.length l)) in E. rewrite app_length in E. vm_compute (List.length (txt ".blob.core.windows.net")) in E. vm_compute (List.length (txt "example.org")) in E. lia.
Qed.
Lemma ex_account_host : Forall plain (txt "my-store2").
Proof.
  assert (D : forallb (fun c => ((97 <=? c) && (c <=? 122)) || ((48 <=? c) && (c <=? 57)) || (c =? 45)) (txt "my-store2") = true) by reflexivity.
  apply Forall_forall. intros c I. pose proof (proj1 (forallb_forall _ _) D c I) as X. cbn beta in X. unfold plain. lia.
Qed.

(** a service with a blob *)
Definition ex_service (blob : bytes) : service := fun o n =>
  if o <? Z.of_nat (List.length blob) then let d := firstn (Z.to_nat n) (skipn (Z.to_nat o) blob) in Some (mkAnswer 206 o (Some (Z.of_nat (List.length d))) d) else None.
Lemma ex_serves blob : serves (ex_service blob) blob.
Proof.
  intros o n O N. unfold ex_service. destruct (o <? Z.of_nat (List.length blob)) eqn:L; [|lia]. cbn [an_status an_offset an_length an_data]. split; [lia|]. auto.
Qed.
Lemma ex_read : serves (ex_service [1; 2; 3]) [1; 2; 3] /\ blob_read (ex_service [1; 2; 3]) 1 10 = Ok ([2; 3], 2).
Proof. split; [apply ex_serves|reflexivity]. Qed.
(** at the end of the blob there is an exception *)
Lemma ex_end : ~ (forall sv blob offset size, serves sv blob -> Z.of_nat (List.length blob) < 2 ^ 63 -> 0 <= offset < 2 ^ 63 -> 0 < size < 2 ^ 63 -> reads (blob_read sv) blob offset size).
Proof.
  intro H. specialize (H (ex_service [1]) [1] 1 1 (ex_serves [1]) ltac:(reflexivity) ltac:(lia) ltac:(lia)). discriminate H.
Qed.
