(** Proofs for PropHost, continued: the structures, directories, entries which are read. *)
From Coq Require Import String.
From Verif Require Import Base HostModel HostSpec HostProofs.
Open Scope Z_scope.

(** ** All structures *)
Fixpoint nodupb (l : list string) : bool := match l with [] => true | x :: l' => negb (inb x l') && nodupb l' end.
Definition wideb (l : layout) (nm : string) : bool :=
  existsb (fun f => String.eqb (fst f) nm && match snd f with Int n => (n =? 2)%nat || (n =? 4)%nat || (n =? 8)%nat | _ => false end) l.
Definition good (x : layout * list string) : bool := nodupb (map fst (fst x)) && nodupb (snd x) && forallb (wideb (fst x)) (snd x) && complete (fst x) (snd x).
Lemma nodupb_ok l : nodupb l = true -> NoDup l.
Proof.
  induction l as [|x l IH]; cbn [nodupb]; intros H; constructor; apply andb_prop in H as [H1 H2]; [|auto].
  intros I. apply Bool.negb_true_iff in H1. unfold inb in H1. rewrite <- Bool.not_true_iff_false in H1. apply H1, existsb_exists. exists x. split; [exact I|apply String.eqb_refl].
Qed.
Lemma good_ok l ms : good (l, ms) = true -> NoDup (map fst l) /\ NoDup ms /\ all_wide l ms /\ complete l ms = true.
Proof.
  unfold good. cbn [fst snd]. intros H. apply andb_prop in H as [H C]. apply andb_prop in H as [H W]. apply andb_prop in H as [H N].
  repeat split; auto using nodupb_ok. apply Forall_forall. intros nm I. rewrite forallb_forall in W. apply W in I. unfold wideb in I.
  apply existsb_exists in I as ([x p] & I & E). cbn [fst snd] in E. apply andb_prop in E as [E1 E2]. apply String.eqb_eq in E1 as ->.
  destruct p; try discriminate. exists n. split; [|exact I]. unfold wide. lia.
Qed.
Definition realless (l : layout) : bool := forallb (fun f => match snd f with Real => false | _ => true end) l.
Lemma all_good : forallb good structures = true. Proof. vm_compute. reflexivity. Qed.
Lemma all_realless : forallb (fun x => realless (fst x)) structures = true. Proof. vm_compute. reflexivity. Qed.
Lemma dim_good : good (dimension_entry, m_dimension) = true. Proof. vm_compute. reflexivity. Qed.
Lemma unreal_id l vs : fits l vs -> realless l = true -> map unreal vs = vs.
Proof.
  intros F. induction F as [|[x p] v l vs E F IH]; intros R; [reflexivity|]. cbn [realless forallb snd] in R. apply andb_prop in R as [R1 R2].
  cbn [map]. f_equal; [|exact (IH R2)]. destruct p, v; cbn [snd fits1 unreal] in *; try contradiction; try discriminate; reflexivity.
Qed.
Lemma structure_good l ms : In (l, ms) structures -> NoDup (map fst l) /\ NoDup ms /\ all_wide l ms /\ complete l ms = true /\ realless l = true.
Proof.
  intros I. pose proof all_good as G. pose proof all_realless as R. rewrite forallb_forall in G, R. specialize (G _ I). specialize (R _ I).
  apply good_ok in G as (A & B & C & D). auto.
Qed.
Lemma structure_convert l ms h vs (pre post : bytes) : In (l, ms) structures -> fits l vs ->
  convert Big (List.length pre) l ms (pre ++ image h l vs ++ post) = pre ++ image (other h) l vs ++ post.
Proof.
  intros I F. apply structure_good in I as (A & B & C & D & R). rewrite convert_image by auto. now rewrite (unreal_id l) by auto.
Qed.
Lemma patch_id mem off n : patch mem off n (fun x => x) = mem.
Proof.
  unfold patch, part. rewrite <- (firstn_skipn off mem) at 4. f_equal. rewrite <- (firstn_skipn n (skipn off mem)) at 2. f_equal.
  clear. revert mem. induction off as [|off IH]; intros mem; [reflexivity|]. destruct mem as [|x mem]; [now rewrite !skipn_nil|]. exact (IH mem).
Qed.
Lemma convert_little pos l ms mem : convert Little pos l ms mem = mem.
Proof.
  unfold convert. revert mem. induction ms as [|nm ms IH]; intros mem; [reflexivity|]. cbn [fold_left]. unfold convert_member at 2.
  destruct (place l nm) as [[o n]|]; [|apply IH]. rewrite <- (patch_id mem (pos + o) n) at 2. apply IH.
Qed.

(** ** Members *)
Lemma pieces l (file : bytes) : Forall is_byte file -> (size l <= List.length file)%nat -> exists cs post, laid l cs /\ file = cat cs ++ post.
Proof.
  revert file. induction l as [|[x p] l IH]; intros file B S.
  - exists [], file. split; [constructor|reflexivity].
  - cbn [size] in S. assert (B2 : Forall is_byte (skipn (psize p) file)).
    { rewrite <- (firstn_skipn (psize p) file) in B. apply Forall_app in B. apply B. }
    destruct (IH (skipn (psize p) file) B2) as (cs & post & L & E); [rewrite skipn_length; lia|].
    exists ((x, firstn (psize p) file) :: cs), post. split.
    + constructor; [|exact L]. cbn [fst snd]. repeat split; [apply firstn_length_le; lia|]. rewrite <- (firstn_skipn (psize p) file) in B. apply Forall_app in B. apply B.
    + cbn [cat flat_map snd]. rewrite <- app_assoc. fold (cat cs). rewrite <- E. now rewrite firstn_skipn.
Qed.
Lemma member_part h l (cs : list chunk) nm n (pre post : bytes) : laid l cs -> In (nm, Int n) l -> NoDup (map fst l) ->
  exists bs, In (nm, bs) cs /\ List.length bs = n /\ Forall is_byte bs /\
  (forall g : chunk -> chunk, (forall c, fst (g c) = fst c /\ List.length (snd (g c)) = List.length (snd c)) ->
    forall (pre : bytes) (post : bytes), member h (List.length pre) l (pre ++ cat (map g cs) ++ post) nm = load h (snd (g (nm, bs)))).
Proof.
  intros L I ND. destruct (laid_split l cs nm n L I ND) as (l1 & l2 & c1 & bs & c2 & -> & -> & A & B & C & D & P & N1 & N2).
  exists bs. repeat split; auto. { apply in_or_app. right. now left. }
  intros g G p q. unfold member. rewrite P. rewrite map_app. cbn [map]. rewrite cat_app. cbn [cat flat_map]. fold (cat (map g c2)).
  assert (LA : forall cs : list chunk, List.length (cat (map g cs)) = List.length (cat cs)).
  { clear -G. induction cs as [|c cs IH]; [reflexivity|]. cbn [map cat flat_map]. rewrite !app_length. f_equal; [apply G|exact IH]. }
  rewrite <- (laid_size _ _ A), <- LA, <- app_length. rewrite <- C.
  pose proof (proj2 (G (nm, bs))) as GL. cbn [snd] in GL. rewrite <- GL.
  replace (p ++ (cat (map g c1) ++ snd (g (nm, bs)) ++ cat (map g c2)) ++ q) with ((p ++ cat (map g c1)) ++ snd (g (nm, bs)) ++ (cat (map g c2) ++ q)) by (now rewrite <- !app_assoc).
  f_equal. etransitivity; [|exact (part_mid (p ++ cat (map g c1)) (snd (g (nm, bs))) (cat (map g c2) ++ q))]. now rewrite <- !app_assoc.
Qed.
Lemma chars_part l (cs : list chunk) nm n : laid l cs -> In (nm, Chars n) l -> NoDup (map fst l) ->
  exists bs, In (nm, bs) cs /\ List.length bs = n /\
  (forall g : chunk -> chunk, (forall c, fst (g c) = fst c /\ List.length (snd (g c)) = List.length (snd c)) ->
    forall (pre : bytes) (post : bytes), chars (List.length pre) l (pre ++ cat (map g cs) ++ post) nm = snd (g (nm, bs))).
Proof.
  intros L I ND. cbn [psize]; destruct (laid_splitp l cs nm (Chars n) L I ND) as (l1 & l2 & c1 & bs & c2 & -> & -> & A & B & C & D & P & N1 & N2).
  exists bs. repeat split; auto. { apply in_or_app. right. now left. }
  intros g G p q. unfold chars. rewrite P. rewrite map_app. cbn [map]. rewrite cat_app. cbn [cat flat_map]. fold (cat (map g c2)).
  assert (LA : forall cs : list chunk, List.length (cat (map g cs)) = List.length (cat cs)).
  { clear -G. induction cs as [|c cs IH]; [reflexivity|]. cbn [map cat flat_map]. rewrite !app_length. f_equal; [apply G|exact IH]. }
  rewrite <- (laid_size _ _ A), <- LA, <- app_length. rewrite <- C.
  pose proof (proj2 (G (nm, bs))) as GL. cbn [snd] in GL. rewrite <- GL.
  replace (p ++ (cat (map g c1) ++ snd (g (nm, bs)) ++ cat (map g c2)) ++ q) with ((p ++ cat (map g c1)) ++ snd (g (nm, bs)) ++ (cat (map g c2) ++ q)) by (now rewrite <- !app_assoc).
  etransitivity; [|exact (part_mid (p ++ cat (map g c1)) (snd (g (nm, bs))) (cat (map g c2) ++ q))]. now rewrite <- !app_assoc.
Qed.
(** any file: a member which is read is the number in the file *)
Lemma read_any h l ms nm n (pre file : bytes) : In (l, ms) structures -> In (nm, Int n) l -> Forall is_byte file -> (size l <= List.length file)%nat ->
  exists o, place l nm = Some (o, n) /\ member h (List.length pre) l (convert h (List.length pre) l ms (pre ++ file)) nm = unle (part file o n).
Proof.
  intros I IN B S. destruct (structure_good l ms I) as (A1 & A2 & A3 & A4 & A5).
  destruct (pieces l file B S) as (cs & post & L & ->).
  destruct (laid_split l cs nm n L IN A1) as (l1 & l2 & c1 & bs & c2 & -> & EC & LA & LB & C & D & P & N1 & N2).
  exists (size l1). split; [exact P|].
  assert (PV : part (cat cs ++ post) (size l1) n = bs).
  { rewrite EC, cat_app. cbn [cat flat_map snd]. fold (cat c2). rewrite <- (laid_size _ _ LA), <- C, <- !app_assoc. apply part_mid. }
  rewrite PV. unfold member. rewrite P. f_equal. destruct h.
  - rewrite convert_little. cbn [load]. f_equal. rewrite EC, cat_app. cbn [cat flat_map snd]. fold (cat c2).
    rewrite <- (laid_size _ _ LA), <- C, <- !app_assoc, <- app_length, app_assoc. apply part_mid.
  - rewrite convert_flip by auto. cbn [load]. f_equal. rewrite EC, map_app, cat_app. cbn [map cat flat_map]. fold (cat (map (flip ms) c2)).
    assert (FI : flip ms (nm, bs) = (nm, rev bs)).
    { unfold flip. cbn [fst snd]. unfold complete in A4. rewrite forallb_forall in A4. specialize (A4 _ IN). cbn [fst snd] in A4. now rewrite A4. }
    rewrite FI. cbn [snd]. rewrite <- (laid_size _ _ (laid_flip _ _ ms LA)), <- C, <- (rev_length bs), <- app_length.
    etransitivity; [|apply (rev_involutive bs)]. f_equal.
    etransitivity; [|exact (part_mid (pre ++ cat (map (flip ms) c1)) (rev bs) (cat (map (flip ms) c2) ++ post))]. now rewrite <- !app_assoc.
Qed.
