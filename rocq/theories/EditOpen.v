(** Opening a document, and sessions as a whole. *)
From Coq Require Import Permutation.
From Verif Require Import Base StatModel StatSpec StatProofs DirProofs CodecModel MemProofs CodecProofs WriterModel WriterProofs WriterSpec ReadProofs WriterInv WriterFin WriterOpen WriterMain WriterSession
  EditModel EditSpec EditSeg EditStore EditInv EditSteps EditRun EditMain.

Lemma header_guid_length strict f h : read_file_header strict f = Ok h -> length (fh_guid h) = 16%nat /\ 544 <= f_size f.
Proof.
  unfold read_file_header, read_exact, read_into.
  assert (G : forall b : bytes, length b = 544%nat -> length (slice b 64 16) = 16%nat).
  { intros b Hb. unfold slice. rewrite firstn_length, skipn_length. lia. }
  destruct (avail strict f 0 544) as [k|] eqn:Ea; [|discriminate].
  destruct (544 <? k) eqn:E1; [discriminate|]. destruct (Z.eqb_spec k 544) as [->|]; [|discriminate]. cbn [bind].
  assert (L : length (mread (f_mem f) 0 (Z.to_nat 544)) = 544%nat) by (rewrite mread_length; reflexivity).
  revert L. generalize (mread (f_mem f) 0 (Z.to_nat 544)). intros b Hb.
  destruct (eqbytes _ _); [|discriminate]. intros H. injection H as <-. cbn [fh_guid]. split; [now apply G|].
  unfold avail in Ea. destruct (f_size f <=? 0) eqn:E0; [destruct strict; [discriminate|]; injection Ea as Ea; lia|].
  injection Ea as Ea. lia.
Qed.

Lemma header_ok_avail strict f h : read_file_header strict f = Ok h -> avail strict f 0 544 = Some 544.
Proof.
  intros H. apply header_guid_length in H. unfold avail. replace (f_size f <=? 0) with false by lia. f_equal. lia.
Qed.

(** Forcing a GUID changes nothing else. *)
Lemma header_forced strict f h guid : read_file_header strict f = Ok h -> length guid = 16%nat ->
  read_file_header strict (fwrite f [(48, guid); (64, guid)]) = Ok (mkFh guid (fh_dir h) (fh_meta h) (fh_att h))
  /\ f_size (fwrite f [(48, guid); (64, guid)]) = f_size f.
Proof.
  intros H Hg. pose proof (header_ok_avail _ _ _ H) as Ha. apply header_guid_length in H as H'. destruct H' as [_ Hs].
  assert (Es : f_size (fwrite f [(48, guid); (64, guid)]) = f_size f).
  { unfold fwrite, file_size, end_of. cbn [f_size map fold_right fst snd]. rewrite Hg. cbn [Nat.eqb]. lia. }
  split; [|exact Es]. revert H. unfold read_file_header, read_exact, read_into.
  assert (Ha' : avail strict (fwrite f [(48, guid); (64, guid)]) 0 544 = Some 544) by (unfold avail in *; now rewrite Es).
  rewrite Ha, Ha'. change (544 <? 544) with false. change (544 =? 544) with true. cbv iota. cbn [bind].
  set (m := f_mem f). rewrite fwrite_mem. unfold apply_writes. cbn [fold_left fst snd]. fold m.
  set (m' := mwrite (mwrite m 48 guid) 64 guid).
  assert (L : forall M, length (mread M 0 (Z.to_nat 544)) = 544%nat) by (intros; now rewrite mread_length).
  assert (Sl : forall M a n, (a + n <= 544)%nat -> slice (mread M 0 (Z.to_nat 544)) a n = mread M (Z.of_nat a) n).
  { intros M a n Hn. symmetry. apply (mread_slice M 0 (mread M 0 (Z.to_nat 544)) a n); [now rewrite L|]. rewrite L. lia. }
  rewrite !Sl by lia. cbn [Z.of_nat Pos.of_succ_nat Pos.succ].
  assert (F : forall o n, (o + Z.of_nat n <= 48 \/ 80 <= o) -> mread m' o n = mread m o n).
  { intros o n Ho. unfold m'. rewrite !mread_mwrite_disj by (rewrite Hg; lia). reflexivity. }
  change (Z.of_nat 0) with 0. change (Z.of_nat 84) with 84. change (Z.of_nat 92) with 92. change (Z.of_nat 104) with 104. change (Z.of_nat 64) with 64.
  rewrite (F 0 16%nat), (F 84 8%nat), (F 92 8%nat), (F 104 8%nat) by lia.
  replace (mread m' 64 16) with guid by (unfold m'; rewrite <- Hg; symmetry; apply mread_mwrite_same).
  generalize (mread m 64 16), (mread m 84 8), (mread m 92 8), (mread m 104 8). intros b0 b1 b2 b3.
  destruct (eqbytes _ _); [|discriminate]. intros H. injection H as <-. reflexivity.
Qed.

(** ** The ghost state of a document *)
Fixpoint subs_of (f : file) (k : Z) (es : list sbe) (vs : list observed) : list subx :=
  match es, vs with e :: es', v :: vs' => (k, (e, alloc_at f (e_pos e), v)) :: subs_of f (k + 1) es' vs' | _, _ => [] end.
Fixpoint atts_of (f : file) (k : Z) (es : list attentry) (vs : list attinfo) : list attx :=
  match es, vs with e :: es', v :: vs' => (k, (e, alloc_at f (ae_pos e), v)) :: atts_of f (k + 1) es' vs' | _, _ => [] end.

Section Zip.
  Context {E V X : Type} (mk : Z -> E -> V -> X) (key : X -> Z) (ent : X -> E) (val : X -> V).
  Context (H1 : forall k e v, key (mk k e v) = k) (H2 : forall k e v, ent (mk k e v) = e) (H3 : forall k e v, val (mk k e v) = v).
  Fixpoint zip (k : Z) (es : list E) (vs : list V) : list X :=
    match es, vs with e :: es', v :: vs' => mk k e v :: zip (k + 1) es' vs' | _, _ => [] end.
  Lemma zip_ent R es vs : Forall2 R es vs -> forall k, map (fun x => (key x, ent x)) (zip k es vs) = number k es.
  Proof. induction 1; intros k; [reflexivity|]. cbn [zip map number]. now rewrite H1, H2, IHForall2. Qed.
  Lemma zip_val R es vs : Forall2 R es vs -> forall k, map (fun x => (key x, val x)) (zip k es vs) = number k vs.
  Proof. induction 1; intros k; [reflexivity|]. cbn [zip map number]. now rewrite H1, H3, IHForall2. Qed.
  Lemma zip_key es : forall k vs, Forall (fun x => k <= key x < k + Z.of_nat (length es)) (zip k es vs).
  Proof.
    induction es as [|e es IH]; intros k vs; [constructor|]. destruct vs as [|v vs]; [constructor|]. cbn [zip length]. constructor; [rewrite H1; lia|].
    eapply Forall_impl; [|apply IH]. cbn beta. intros x Hx. lia.
  Qed.
  Lemma zip_nodup es : forall k vs, NoDup (map key (zip k es vs)).
  Proof.
    induction es as [|e es IH]; intros k vs; [constructor|]. destruct vs as [|v vs]; [constructor|]. cbn [zip map]. constructor; [|apply IH].
    rewrite H1. intros Hin. apply in_map_iff in Hin. destruct Hin as (x & Ex & Hx). pose proof (zip_key es (k + 1) vs) as Hk. rewrite Forall_forall in Hk.
    specialize (Hk x Hx). cbn beta in Hk. lia.
  Qed.
  Lemma zip_all (R : E -> V -> Prop) (P : X -> Prop) es vs : (forall k e v, R e v -> P (mk k e v)) -> Forall2 R es vs -> forall k, Forall P (zip k es vs).
  Proof. intros HP. induction 1; intros k; [constructor|]. cbn [zip]. constructor; auto. Qed.
  Lemma zip_map {B} (R : E -> V -> Prop) (h : X -> B) (h' : E -> B) es vs : (forall k e v, h (mk k e v) = h' e) -> Forall2 R es vs -> forall k, map h (zip k es vs) = map h' es.
  Proof. intros HP. induction 1; intros k; [reflexivity|]. cbn [zip map]. now rewrite HP, IHForall2. Qed.
End Zip.

Definition mk_sub (f : file) (k : Z) (e : sbe) (v : observed) : subx := (k, (e, alloc_at f (e_pos e), v)).
Definition mk_att (f : file) (k : Z) (e : attentry) (v : attinfo) : attx := (k, (e, alloc_at f (ae_pos e), v)).
Lemma subs_of_zip f es : forall k vs, subs_of f k es vs = zip (mk_sub f) k es vs.
Proof. induction es as [|e es IH]; intros k [|v vs]; cbn [subs_of zip]; [reflexivity..|]. now rewrite IH. Qed.
Lemma atts_of_zip f es : forall k vs, atts_of f k es vs = zip (mk_att f) k es vs.
Proof. induction es as [|e es IH]; intros k [|v vs]; cbn [atts_of zip]; [reflexivity..|]. now rewrite IH. Qed.

(** ** The end of the document *)
Lemma fold_max l : Forall (fun x => 0 <= x) l -> (fold_right Z.max 0 l = 0 \/ In (fold_right Z.max 0 l) l) /\ Forall (fun x => x <= fold_right Z.max 0 l) l.
Proof.
  induction 1 as [|x l Hx H [IH1 IH2]]; cbn [fold_right In]; [split; [now left|constructor]|]. split.
  - destruct (Z.max_spec x (fold_right Z.max 0 l)) as [[_ ->]|[_ ->]]; [|tauto]. tauto.
  - constructor; [lia|]. eapply Forall_impl; [|exact IH2]. cbn beta. intros; lia.
Qed.

Lemma next_at_end strict f L last :
  store strict f L -> (exists x, In x L /\ s_p x = last) -> Forall (fun x => s_p x <= last) L ->
  next_ok f last None L (alloc_at f last + 32 + last).
Proof.
  intros St (x0 & Hx0 & E0) Hle. pose proof (store_In _ _ _ _ St Hx0) as I0. pose proof (intact_bounds _ _ _ I0) as B0.
  assert (A0 : alloc_at f last = s_a x0) by (rewrite <- E0; apply I0). unfold s_end in B0.
  assert (D : Forall (fun x => s_p x = last \/ s_end x <= last) L).
  { apply Forall_forall. intros x Hx. destruct St as [_ Dj]. rewrite Forall_forall in Hle. specialize (Hle x Hx).
    assert (Hxx : x0 = x \/ sdis x0 x \/ sdis x x0) by (destruct (ForallOrdPairs_In Dj x0 x Hx0 Hx) as [?|[?|?]]; auto).
    unfold sdis, s_end in *. destruct Hxx as [<-|[[H|H]|[H|H]]]; lia. }
  split; [|split; [lia|]].
  - split; [reflexivity|]. do 3 (split; [lia|]). exact D.
  - unfold below. apply Forall_forall. intros x Hx. rewrite Forall_forall in D. destruct (D x Hx) as [Ex|?]; [|lia].
    pose proof (proj1 (store_In _ _ _ _ St Hx)) as Ax. unfold s_end. rewrite Ex in *. lia.
Qed.

Lemma upd_twice {A} (l : list A) : forall i a, upd (upd l i a) i a = upd l i a.
Proof. induction l as [|x l IH]; intros [|i] a; cbn [upd]; [reflexivity..|]. now rewrite IH. Qed.

Lemma read_attdir_norm strict f p ats : read_attdir strict f p = Ok ats -> Forall (fun e => ae_norm e = e) ats.
Proof.
  unfold read_attdir. destruct (read_exact strict f p 288) as [h| | |]; cbn [bind]; try discriminate.
  destruct (negb _); [discriminate|]. destruct (0 <? _); [|intros H; injection H as <-; constructor].
  destruct (read_exact strict f (p + 288) _) as [b| | |]; cbn [bind]; try discriminate. intros H. injection H as <-.
  revert b. generalize (Z.to_nat (s32 (unle (slice h 32 4)))). induction n as [|n IH]; intros b; [constructor|]. cbn [dec_atts].
  destruct (dec_att (firstn 128 b)) as [e|] eqn:E; [|apply IH]. constructor; [|apply IH]. unfold dec_att in E.
  destruct (_ && _); [|discriminate]. injection E as <-. unfold ae_norm. cbn [ae_guid ae_type ae_name ae_pos]. now rewrite upd_twice.
Qed.

Definition ghost (f : file) (h : fheader) (es : list sbe) (ats : list attentry) (d : doc) : gh :=
  mkGh (subs_of f 0 es (map snd (d_subs d))) (atts_of f 0 ats (map snd (d_atts d)))
       (match d_meta d with Some x => Some (fh_meta h, alloc_at f (fh_meta h), x) | None => None end)
       (Some (fh_dir h, alloc_at f (fh_dir h), es))
       (if fh_att h =? 0 then None else Some (fh_att h, alloc_at f (fh_att h), ats)).

Lemma reopened_eq d : reopened d = d ->
  d_subs d = number 0 (map snd (d_subs d)) /\ d_subn d = Z.of_nat (length (d_subs d))
  /\ d_atts d = number 0 (map snd (d_atts d)) /\ d_attn d = Z.of_nat (length (d_atts d)).
Proof.
  intros E. destruct d as [sb sbn at_ atn m]. unfold reopened in E. cbn [d_subs d_atts d_meta] in E. injection E as E1 E2 E3 E4.
  cbn [d_subs d_subn d_atts d_attn]. split; [symmetry; exact E1|]. split; [symmetry; exact E2|]. split; [|symmetry; exact E4].
  rewrite <- E3 at 1. f_equal. rewrite <- E3 at 2. now rewrite number_snd.
Qed.

Lemma ghost_store strict f h es ats d : document_parts strict f h es ats d -> reopened d = d ->
  let g := ghost f h es ats d in
  store strict f (live g) /\ Forall sub_good (g_sb g) /\ Forall att_good (g_at g)
  /\ map sub_key (g_sb g) = keyed 0 es /\ map sub_val (g_sb g) = d_subs d
  /\ map att_key (g_at g) = keyed 0 ats /\ map att_val (g_at g) = d_atts d
  /\ length es = length (d_subs d) /\ length ats = length (d_atts d)
  /\ map s_p (live g) = map e_pos es ++ map ae_pos ats ++ opt_pos (fh_meta h) ++ [fh_dir h] ++ opt_pos (fh_att h).
Proof.
  intros (Hs & Hh & Hdir & Hsub & Hatt & Hats & Hmeta & Hap) Hr. destruct (reopened_eq d Hr) as (N1 & _ & N2 & _).
  assert (I1 : Forall (fun x => intact strict f (sub_seg x) /\ sub_good x) (subs_of f 0 es (map snd (d_subs d)))).
  { rewrite subs_of_zip. eapply zip_all; [|exact Hsub]. cbn beta. intros k e v [Hw Ho]. unfold mk_sub. cbn [sub_seg sub_good]. split.
    - split; [reflexivity|]. cbn [s_p s_o]. apply (owned_impl _ _ (fun g => observe strict g e = Ok v)); [|exact Ho].
      intros g H. cbn [rd]. now rewrite with_pos_id.
    - split; [assumption|]. destruct Ho as (_ & _ & _ & _ & Ho). specialize (Ho f ltac:(lia) ltac:(reflexivity)).
      unfold observe in Ho. destruct (read_subblock strict f (e_pos e)); cbn [bind] in Ho; try discriminate. injection Ho as <-. reflexivity. }
  assert (I2 : Forall (fun x => intact strict f (att_sg x) /\ att_good x) (atts_of f 0 ats (map snd (d_atts d)))).
  { rewrite atts_of_zip. eapply zip_all; [|exact Hats]. cbn beta. intros k e v (E1 & E2 & E3 & L1 & L2 & L3 & Hl & Ho). unfold mk_att. cbn [att_sg att_good]. split.
    - split; [reflexivity|]. exact Ho.
    - split; [split; [|split]; assumption|]. split; [|exact Hl]. rewrite E1, E2, E3. now destruct e. }
  assert (Epos : map s_p (live (ghost f h es ats d)) = map e_pos es ++ map ae_pos ats ++ opt_pos (fh_meta h) ++ [fh_dir h] ++ opt_pos (fh_att h)).
  { unfold live, ghost. cbn [g_sb g_at g_meta g_dir g_attdir]. rewrite !map_app. repeat f_equal.
    - rewrite map_map, subs_of_zip. eapply zip_map; [|exact Hsub]. intros. reflexivity.
    - rewrite map_map, atts_of_zip. eapply zip_map; [|exact Hats]. intros. reflexivity.
    - unfold opt_pos. destruct (Z.eqb_spec (fh_meta h) 0); [now rewrite Hmeta|]. destruct Hmeta as (x & -> & _). reflexivity.
    - unfold opt_pos. destruct (Z.eqb_spec (fh_att h) 0); reflexivity. }
  assert (Il : Forall (intact strict f) (live (ghost f h es ats d))).
  { unfold live, ghost. cbn [g_sb g_at g_meta g_dir g_attdir]. rewrite !Forall_app. split; [|split; [|split; [|split]]].
    - apply Forall_map. eapply Forall_impl; [|exact I1]. cbn beta. tauto.
    - apply Forall_map. eapply Forall_impl; [|exact I2]. cbn beta. tauto.
    - destruct (Z.eqb_spec (fh_meta h) 0); [rewrite Hmeta; constructor|]. destruct Hmeta as (x & -> & Ho). constructor; [|constructor].
      split; [reflexivity|exact Ho].
    - constructor; [|constructor]. split; [reflexivity|exact Hdir].
    - destruct (Z.eqb_spec (fh_att h) 0); [constructor|]. constructor; [|constructor]. split; [reflexivity|exact Hatt]. }
  cbv zeta. split; [split; [exact Il|]|].
  { rewrite <- Epos in Hap. clear -Hap Il. induction (live (ghost f h es ats d)) as [|x L IH]; [constructor|]. cbn [map] in Hap.
    inversion Hap as [|? ? H1 H2]; subst. inversion Il as [|? ? J1 J2]; subst. constructor; [|auto]. rewrite Forall_map in H1.
    rewrite Forall_forall in *. intros y Hy. specialize (H1 y Hy). specialize (J2 y Hy). unfold apart, seg_stop in H1. unfold sdis, s_end.
    rewrite (proj1 J1), (proj1 J2) in H1. lia. }
  split; [eapply Forall_impl; [|exact I1]; cbn beta; tauto|].
  split; [eapply Forall_impl; [|exact I2]; cbn beta; tauto|].
  unfold ghost. cbn [g_sb g_at]. rewrite subs_of_zip, atts_of_zip, !keyed_number. 
  split; [eapply (zip_ent (mk_sub f) fst (fun x => fst (fst (snd x)))); [reflexivity|reflexivity|exact Hsub]|].
  split; [rewrite N1 at 2; eapply (zip_val (mk_sub f) fst (fun x => snd (snd x))); [reflexivity|reflexivity|exact Hsub]|].
  split; [eapply (zip_ent (mk_att f) fst (fun x => fst (fst (snd x)))); [reflexivity|reflexivity|exact Hats]|].
  split; [rewrite N2 at 2; eapply (zip_val (mk_att f) fst (fun x => snd (snd x))); [reflexivity|reflexivity|exact Hats]|].
  split; [rewrite <- (map_length snd (d_subs d)); clear -Hsub; induction Hsub; cbn [length]; congruence|].
  split; [rewrite <- (map_length snd (d_atts d)); clear -Hats; induction Hats; cbn [length]; congruence|].
  rewrite <- subs_of_zip, <- atts_of_zip. exact Epos.
Qed.

Lemma create_ok strict force guid f h d : document strict f h d -> reopened d = d -> length guid = 16%nat ->
  exists s g, ed_create strict force guid f = Ok s /\ inv strict s g d
    /\ fh_guid (ed_hdr s) = (if force then guid else fh_guid h) /\ length (fh_guid (ed_hdr s)) = 16%nat
    /\ ed_smod s = false /\ ed_amod s = false /\ (exists x, g_dir g = Some x /\ snd (fst x) = alloc_at f (fh_dir h))
    /\ room g = att_room f h.
Proof.
  intros (es & ats & Dp) Hr Hg. pose proof (ghost_store strict f h es ats d Dp Hr) as G. cbv zeta in G.
  destruct G as (St & Gs & Ga & K1 & V1 & K2 & V2 & L1 & L2 & Ep). destruct (reopened_eq d Hr) as (_ & N1 & _ & N2).
  destruct Dp as (Hs & Hh & Hdir & Hsub & Hatt & Hats & Hmeta & Hap).
  pose proof (header_guid_length _ _ _ Hh) as [Hgl Hs5]. pose proof (header_ok_avail _ _ _ Hh) as Hav.
  set (g := ghost f h es ats d) in *.
  set (f' := if force then fwrite f [(48, guid); (64, guid)] else f).
  set (h' := if force then mkFh guid (fh_dir h) (fh_meta h) (fh_att h) else h).
  assert (F' : read_file_header strict f' = Ok h' /\ f_size f' = f_size f).
  { unfold f', h'. destruct force; [apply header_forced; assumption|]. split; [assumption|reflexivity]. }
  destruct F' as [Fh Fs].
  assert (St' : store strict f' (live g)).
  { unfold f'. destruct force; [|exact St]. apply store_write; [exact St|]. eapply Forall_impl; [|exact (proj1 St)].
    intros x Hx. apply intact_bounds in Hx. unfold avoid. constructor; [|constructor; [|constructor]]; left; cbn [fst snd]; rewrite Hg; lia. }
  assert (Ed : fh_dir h' = fh_dir h) by (unfold h'; destruct force; reflexivity).
  assert (Ea : fh_att h' = fh_att h) by (unfold h'; destruct force; reflexivity).
  assert (Em : fh_meta h' = fh_meta h) by (unfold h'; destruct force; reflexivity).
  assert (Rd : forall x, In x (live g) -> rd strict (s_p x) (s_o x) f' /\ read_seg_any strict f' (s_p x) = Ok (s_a x) /\ alloc_at f' (s_p x) = s_a x
                 /\ 544 <= s_p x < 2 ^ 63 /\ s_p x + 32 <= f_size f').
  { intros x Hx. pose proof (store_In _ _ _ _ St' Hx) as Ix. pose proof (intact_bounds _ _ _ Ix) as B. unfold s_end in B.
    split; [apply (intact_read _ _ _ Ix); lia|]. pose proof (proj1 Ix) as Ax.
    split; [rewrite read_seg_any_ok by lia; now rewrite Ax|]. split; [exact Ax|]. lia. }
  assert (InD : In (mkSg (fh_dir h) (alloc_at f (fh_dir h)) (ODir es)) (live g)).
  { unfold live. rewrite !in_app_iff. right; right; right; left. left. reflexivity. }
  pose proof (Rd _ InD) as (D1 & D2 & _ & D3 & _). cbn [s_p s_a s_o rd] in D1, D2, D3.
  set (last := last_segment h' es ats).
  assert (Bp : Forall (fun p => 544 <= p < 2 ^ 63) (map s_p (live g))).
  { apply Forall_map. apply Forall_forall. intros x Hx. apply (Rd x Hx). }
  assert (Hlast : (exists x, In x (live g) /\ s_p x = last) /\ Forall (fun x => s_p x <= last) (live g)).
  { set (P := map e_pos es ++ map ae_pos ats ++ [pos_or_0 (fh_dir h'); pos_or_0 (fh_att h'); pos_or_0 (fh_meta h')]).
    assert (HP : Forall (fun p => 0 <= p /\ (p = 0 \/ In p (map s_p (live g)))) P).
    { rewrite Ep in *. unfold P. rewrite !Forall_app in *. destruct Bp as (B1 & B2 & B3 & B4 & B5).
      split; [|split].
      - rewrite Forall_forall in *. intros p Hp. specialize (B1 p Hp). split; [lia|]. right. apply in_app_iff. now left.
      - rewrite Forall_forall in *. intros p Hp. specialize (B2 p Hp). split; [lia|]. right. rewrite !in_app_iff. now right; left.
      - rewrite Ed, Ea, Em. inversion B4 as [|? ? B4' _]; subst. cbn beta in B4'. repeat (apply Forall_cons; [split|]); [..|constructor].
        + unfold pos_or_0. destruct (_ =? 2 ^ 64 - 1); [apply Z.le_refl|clear -D3; lia].
        + unfold pos_or_0. destruct (_ =? 2 ^ 64 - 1); [now left|]. right. rewrite !in_app_iff. right; right; right; left. now left.
        + unfold pos_or_0. destruct (_ =? 2 ^ 64 - 1); [apply Z.le_refl|]. unfold opt_pos in B5. destruct (Z.eqb_spec (fh_att h) 0); [lia|]. inversion B5 as [|? ? B5' _]; subst; cbn beta in B5'; lia.
        + unfold pos_or_0. destruct (_ =? 2 ^ 64 - 1); [now left|]. unfold opt_pos at 2. destruct (Z.eqb_spec (fh_att h) 0); [now left|]. right. rewrite !in_app_iff. right; right; right; right. now left.
        + unfold pos_or_0. destruct (_ =? 2 ^ 64 - 1); [apply Z.le_refl|]. unfold opt_pos in B3. destruct (Z.eqb_spec (fh_meta h) 0); [lia|]. inversion B3 as [|? ? B3' _]; subst; cbn beta in B3'; lia.
        + unfold pos_or_0. destruct (_ =? 2 ^ 64 - 1); [now left|]. unfold opt_pos at 1. destruct (Z.eqb_spec (fh_meta h) 0); [now left|]. right. rewrite !in_app_iff. right; right; left. now left. }
    assert (HQ : Forall (fun x => In (s_p x) P) (live g)).
    { apply Forall_forall. intros x Hx. apply (in_map s_p) in Hx. pose proof Hx as Hx'. rewrite Ep in Hx. rewrite Forall_forall in Bp. specialize (Bp _ Hx').
      assert (Hpo : forall p, p = s_p x -> pos_or_0 p = s_p x) by (intros p ->; unfold pos_or_0; destruct (Z.eqb_spec (s_p x) (2 ^ 64 - 1)); lia).
      unfold P. rewrite Ed, Ea, Em. rewrite !in_app_iff in *. destruct Hx as [Hx|[Hx|[Hx|[Hx|Hx]]]]; [tauto|tauto|right; right..].
      - unfold opt_pos in Hx. destruct (fh_meta h =? 0); [destruct Hx|]. destruct Hx as [Hx|[]]. right; right; left. auto.
      - destruct Hx as [Hx|[]]. left. auto.
      - unfold opt_pos in Hx. destruct (fh_att h =? 0); [destruct Hx|]. destruct Hx as [Hx|[]]. right; left. auto. }
    assert (HP0 : Forall (fun p => 0 <= p) P) by (eapply Forall_impl; [|exact HP]; cbn beta; tauto).
    destruct (fold_max P HP0) as [M1 M2]. change (fold_right Z.max 0 P) with last in M1, M2. rewrite Forall_forall in M2, HQ, HP. split.
    - destruct M1 as [M1|M1].
      + exfalso. pose proof (M2 _ (HQ _ InD)). cbn beta iota in H. cbn [s_p] in H. lia.
      + apply HP in M1. destruct M1 as [_ [M1|M1]].
        * exfalso. pose proof (M2 _ (HQ _ InD)). cbn beta iota in H. cbn [s_p] in H. lia.
        * apply in_map_iff in M1. destruct M1 as (x & E & Hx). exists x. auto.
    - apply Forall_forall. intros x Hx. apply M2. now apply HQ. }
  destruct Hlast as [Hl1 Hl2]. pose proof (next_at_end strict f' (live g) last St' Hl1 Hl2) as Hnext.
  unfold ed_create. rewrite Hav. change (544 =? 544) with true. cbv iota. rewrite Hh. cbn [bind]. cbv zeta. fold f' h'.
  match goal with |- context [read_directory _ _ ?F _] => change F with f' end. rewrite Ed, Ea, Em, D1. cbn [bind]. rewrite D2. cbn [bind].
  set (attdir := if fh_att h =? 0 then None else Some (mkSeg (fh_att h) (alloc_at f (fh_att h)) false)).
  set (meta := if fh_meta h =? 0 then None else Some (mkSeg (fh_meta h) (alloc_at f (fh_meta h)) false)).
  match goal with |- exists s0 g0, (let* p := ?A in _) = _ /\ _ => assert (EA : A = Ok (ats, attdir)) end.
  { unfold attdir. destruct (Z.eqb_spec (fh_att h) 0) as [E0|E0]; [now rewrite Hatt|].
    assert (InA : In (mkSg (fh_att h) (alloc_at f (fh_att h)) (OAttDir ats)) (live g)).
    { unfold live. rewrite !in_app_iff. right; right; right; right. unfold g, ghost. cbn [g_attdir]. replace (fh_att h =? 0) with false by lia. left. reflexivity. }
    pose proof (Rd _ InA) as (T1 & T2 & _). cbn [s_p s_a s_o rd] in T1, T2. rewrite T1. cbn [bind]. rewrite T2. reflexivity. }
  rewrite EA. cbn [bind].
  match goal with |- exists s0 g0, (let* p := ?A in _) = _ /\ _ => assert (EM : A = Ok meta) end.
  { unfold meta. destruct (Z.eqb_spec (fh_meta h) 0) as [E0|E0]; [reflexivity|]. destruct Hmeta as (x & Ex & _).
    assert (InM : In (mkSg (fh_meta h) (alloc_at f (fh_meta h)) (OMeta x)) (live g)).
    { unfold live. rewrite !in_app_iff. right; right; left. unfold g, ghost. cbn [g_meta]. rewrite Ex. left. reflexivity. }
    pose proof (Rd _ InM) as (T1 & _ & T2 & T3 & T4). cbn [s_p s_a s_o rd] in T1, T2, T3, T4. rewrite (meta_magic strict f' _ x) by (assumption || lia). cbn [bind].
    now rewrite T2. }
  rewrite EM. cbn [bind]. eexists. exists g. split; [reflexivity|].
  assert (EMg : meta = option_map sp_info (g_meta g) /\ d_meta d = option_map snd (g_meta g) /\ seg_pos meta = fh_meta h).
  { unfold meta, g, ghost. cbn [g_meta]. destruct (Z.eqb_spec (fh_meta h) 0) as [E0|E0]; [rewrite Hmeta; auto|]. destruct Hmeta as (x & -> & _). auto. }
  destruct EMg as (EM1 & EM2 & EM3).
  assert (EAg : attdir = option_map sp_info (g_attdir g) /\ seg_pos attdir = fh_att h).
  { unfold attdir, g, ghost. cbn [g_attdir]. destruct (Z.eqb_spec (fh_att h) 0) as [E0|E0]; auto. }
  destruct EAg as (EA1 & EA2).
  assert (Sk : forall es0 : list sbe, map snd (keyed 0 es0) = es0) by (intros; rewrite keyed_number; apply number_snd).
  split.
  { constructor; cbn [ed_f ed_hdr ed_last ed_next ed_sb ed_sbn ed_smod ed_at ed_atn ed_amod ed_meta ed_sbdir ed_attdir].
    - exact Fh.
    - lia.
    - symmetry. exact K1.
    - symmetry. exact V1.
    - rewrite L1. exact N1.
    - unfold g, ghost. cbn [g_sb]. rewrite subs_of_zip. split; [apply (zip_nodup (mk_sub f) fst (fun x => fst (fst (snd x))) (fun x => snd (snd x))); reflexivity|].
      eapply Forall_impl; [|apply (zip_key (mk_sub f) fst (fun x => fst (fst (snd x))) (fun x => snd (snd x))); reflexivity]. cbn beta. intros; lia.
    - exact Gs.
    - symmetry. exact K2.
    - symmetry. exact V2.
    - rewrite L2. exact N2.
    - unfold g, ghost. cbn [g_at]. rewrite atts_of_zip. split; [apply (zip_nodup (mk_att f) fst (fun x => fst (fst (snd x))) (fun x => snd (snd x))); reflexivity|].
      eapply Forall_impl; [|apply (zip_key (mk_att f) fst (fun x => fst (fst (snd x))) (fun x => snd (snd x))); reflexivity]. cbn beta. intros; lia.
    - exact Ga.
    - exact EM1.
    - exact EM2.
    - reflexivity.
    - exact EA1.
    - exact St'.
    - eexists. exact Hnext.
    - intros _. split; [symmetry; exact Ed|]. unfold g, ghost. cbn [g_dir snd]. symmetry. apply Sk.
    - intros _. split; [rewrite Ea; exact EA2|]. rewrite keyed_number, number_snd. unfold g, ghost. cbn [g_attdir].
      destruct (Z.eqb_spec (fh_att h) 0) as [E0|E0].
      + rewrite Hatt. split; [reflexivity|constructor].
      + cbn [snd]. split; [reflexivity|]. destruct Hatt as (_ & _ & _ & _ & Ho). apply (read_attdir_norm strict f (fh_att h)). apply Ho; [lia|reflexivity]. }
  cbn [ed_hdr ed_smod ed_amod].
  split; [unfold h'; destruct force; reflexivity|]. split; [unfold h'; destruct force; assumption|]. do 2 (split; [reflexivity|]).
  split; [eexists; split; reflexivity|]. unfold room, g, ghost, att_room. cbn [g_attdir]. destruct (fh_att h =? 0); reflexivity.
Qed.

(** ** Sessions *)
Lemma edit_total strict force guid f s os : ed_create strict force guid f = Ok s ->
  edit strict force guid f os
  = Ok (ed_f (fst (ed_close strict (fst (erun strict s os)))), snd (erun strict s os), snd (ed_close strict (fst (erun strict s os)))).
Proof.
  intros E. unfold edit. rewrite E. cbn [bind]. destruct (erun strict s os) as [s1 rs]. cbn [fst snd]. destruct (ed_close strict s1) as [s2 r]. reflexivity.
Qed.

Lemma edit_document strict force guid f h d os :
  document strict f h d -> reopened d = d -> length guid = 16%nat -> Forall edit_ok os -> no_growth d os -> close_safe f h d os ->
  (strict = false \/ d_subs (fst (drun d os)) <> []) -> counts_fit (fst (drun d os)) ->
  exists f' rs r, edit strict force guid f os = Ok (f', rs, r)
    /\ (f_size f' < 2 ^ 63 ->
        rs = map outcome (snd (drun d os)) /\ r = Ok tt
        /\ exists h', document strict f' h' (reopened (fst (drun d os))) /\ fh_guid h' = if force then guid else fh_guid h).
Proof.
  intros D Hr Hg Hok Hgr Hcs Hst Hc.
  destruct (create_ok strict force guid f h d D Hr Hg) as (s & g & E & I & Eg & Lg & Sm & Am & (x & Ex & Ax) & Rm).
  rewrite (edit_total _ _ _ _ _ os E). eexists _, _, _. split; [reflexivity|].
  destruct (erun strict s os) as [s1 rs] eqn:E1. cbn [fst snd]. destruct (ed_close strict s1) as [s2 r] eqn:E2. cbn [fst snd]. intros Hs.
  pose proof (ed_close_size strict s1) as M2. rewrite E2 in M2. cbn [fst] in M2.
  destruct (erun_ok strict os s g d s1 rs I Hok Hgr E1 ltac:(lia)) as (g' & I' & R & D1 & A1 & H1 & F1 & F2 & F3).
  split; [exact R|].
  destruct (close_ok strict s1 g' (fst (drun d os)) s2 r I' Hst Hc) as (R2 & h' & Dh & Gh); auto.
  - now rewrite H1.
  - right. rewrite D1, Ex. discriminate.
  - assert (Er : room g' = att_room f h) by (unfold room in *; rewrite A1; exact Rm). rewrite Er.
    unfold close_safe in Hcs. cbv zeta in Hcs. destruct Hcs as [C|[C|[C C']]].
    + left. rewrite (F2 C). exact Am.
    + right; left. exact C.
    + right; right. split; [exact C|]. destruct C' as [C'|C']; [left; rewrite (F1 C'); exact Sm|right].
      exists x. split; [congruence|]. rewrite Ax. exact C'.
  - split; [exact R2|]. exists h'. split; [exact Dh|]. rewrite Gh, H1. exact Eg.
Qed.

Lemma edit_new strict force guid f os :
  f_size f < 544 -> (strict = false \/ 0 < f_size f) -> 0 <= f_size f -> length guid = 16%nat -> Forall edit_ok os ->
  forallb (fun o => negb (att_op o)) os = true -> 0 < d_subn (fst (drun no_doc os)) ->
  (strict = false \/ d_subs (fst (drun no_doc os)) <> []) -> counts_fit (fst (drun no_doc os)) ->
  exists f' rs r, edit strict force guid f os = Ok (f', rs, r)
    /\ (f_size f' < 2 ^ 63 ->
        rs = map outcome (snd (drun no_doc os)) /\ r = Ok tt
        /\ exists h', document strict f' h' (reopened (fst (drun no_doc os))) /\ fh_guid h' = guid).
Proof.
  intros Hf Hav Hf0 Hg Hok Hna Hsn Hst Hc.
  pose proof (file_header_length guid 0 0 0 Hg) as L.
  set (f0 := fwrite f [(0, file_header guid 0 0 0)]).
  assert (S0 : f_size f0 = 544).
  { unfold f0, fwrite, file_size, end_of. cbn [f_size map fold_right fst snd]. rewrite L. change (544 =? 0)%nat with false. cbv iota. lia. }
  assert (M0 : mread (f_mem f0) 0 544 = file_header guid 0 0 0).
  { unfold f0. rewrite fwrite_mem. unfold apply_writes. cbn [fold_left fst snd]. rewrite <- L. apply mread_mwrite_same. }
  assert (H0 : holds f0 0 (file_header guid 0 0 0)) by (split; [lia|]; rewrite L; split; [lia|exact M0]).
  set (s := mkEd f0 (mkFh guid 0 0 0) 0 None [] 0 false [] 0 false None None None).
  assert (E : ed_create strict force guid f = Ok s).
  { unfold ed_create. unfold avail. destruct (Z.leb_spec (f_size f) 0).
    - destruct Hav as [->|?]; [|lia]. reflexivity.
    - replace (Z.min 544 (f_size f - 0) =? 544) with false by lia. reflexivity. }
  assert (Al : alloc_at f0 0 = 512).
  { unfold alloc_at. replace (mread (f_mem f0) (0 + 16) 8) with (slice (file_header guid 0 0 0) 16 8).
    - unfold file_header. rewrite slice_app_l by (vm_compute; lia). vm_compute. reflexivity.
    - symmetry. apply (mread_slice (f_mem f0) 0 (file_header guid 0 0 0) 16 8); [now rewrite L|]. rewrite L. lia. }
  set (g := mkGh [] [] None None None).
  assert (I : inv strict s g no_doc).
  { constructor; cbn [s g ed_f ed_hdr ed_last ed_next ed_sb ed_sbn ed_smod ed_at ed_atn ed_amod ed_meta ed_sbdir ed_attdir g_sb g_at g_meta g_dir g_attdir no_doc d_subs d_subn d_atts d_attn d_meta map option_map seg_pos fh_dir fh_att]; try reflexivity; try (split; constructor); try constructor.
    - apply read_file_header_ok; auto; lia.
    - lia.
    - exists 544. unfold next_is, next_ok. cbn [s ed_next ed_f ed_last]. rewrite Al, S0. split; [|split; [lia|constructor]].
      repeat split; try lia. constructor. }
  rewrite (edit_total _ _ _ _ _ os E). eexists _, _, _. split; [reflexivity|].
  destruct (erun strict s os) as [s1 rs] eqn:E1. cbn [fst snd]. destruct (ed_close strict s1) as [s2 r] eqn:E2. cbn [fst snd]. intros Hs.
  pose proof (ed_close_size strict s1) as M2. rewrite E2 in M2. cbn [fst] in M2.
  assert (Hgr : forall d, no_growth d os).
  { clear -Hna. induction os as [|o os IH]; intros d; [exact Logic.I|]. cbn [forallb] in Hna. apply andb_true_iff in Hna. destruct Hna as [N1 N2].
    cbn [no_growth]. split; [destruct o; auto; discriminate|]. auto. }
  destruct (erun_ok strict os s g no_doc s1 rs I Hok (Hgr _) E1 ltac:(lia)) as (g' & I' & R & D1 & A1 & H1 & F1 & F2 & F3).
  split; [exact R|].
  destruct (close_ok strict s1 g' (fst (drun no_doc os)) s2 r I' Hst Hc) as (R2 & h' & Dh & Gh); auto.
  - now rewrite H1.
  - left. destruct (ed_smod s1) eqn:Es; [reflexivity|]. destruct (F3 eq_refl) as [_ Hn]. cbn [no_doc d_subn] in Hn. lia.
  - split; [exact R2|]. exists h'. split; [exact Dh|]. rewrite Gh, H1. reflexivity.
Qed.

Lemma Forall2_snd {A B C} (R : A -> C -> Prop) (l : list A) (m : list (B * C)) : Forall2 R l (map snd m) -> Forall2 (fun a x => R a (snd x)) l m.
Proof. revert m. induction l as [|a l IH]; intros [|x m] H; cbn [map] in H; inversion H; subst; constructor; auto. Qed.
Lemma Forall2_imp {A B} (R Q : A -> B -> Prop) l m : (forall a b, R a b -> Q a b) -> Forall2 R l m -> Forall2 Q l m.
Proof. intros H. induction 1; constructor; auto. Qed.

Lemma document_shows strict f h d : document strict f h d -> exists o, shows strict f d o /\ op_guid o = fh_guid h.
Proof.
  intros (es & ats & Hs & Hh & Hdir & Hsub & Hatt & Hats & Hmeta & _).
  assert (Rd : forall p P, owned f p P -> P f).
  { intros p P (_ & _ & _ & _ & H). apply H; [lia|reflexivity]. }
  exists (mkOpened (fh_guid h) es ats (fh_meta h)). split; [|reflexivity]. unfold shows. cbn [op_dir op_atts op_metapos]. split; [|split; [|split]].
  - unfold open_file. rewrite Hh. cbn [bind]. rewrite (Rd _ _ Hdir). cbn [bind]. destruct (fh_att h =? 0); [now rewrite Hatt|]. now rewrite (Rd _ _ Hatt).
  - apply (Forall2_snd (fun e v => observe strict f e = Ok v)). eapply Forall2_imp; [|exact Hsub]. cbn beta. intros e v [_ H]. exact (Rd _ _ H).
  - apply (Forall2_snd (fun e v => ae_guid e = at_guid v /\ ae_type e = at_type v /\ ae_name e = at_name v /\ read_attachment strict f (ae_pos e) = Ok (at_data v))).
    eapply Forall2_imp; [|exact Hats]. cbn beta. intros e v (E1 & E2 & E3 & _ & _ & _ & _ & H). rewrite E1, E2, E3. do 3 (split; [reflexivity|]). exact (Rd _ _ H).
  - destruct (Z.eqb_spec (fh_meta h) 0); [now rewrite Hmeta|]. destruct Hmeta as (x & -> & H). exact (Rd _ _ H).
Qed.

Lemma cut_name_twice a : cut_name (cut_name a) = cut_name a.
Proof. unfold cut_name. cbn [at_guid at_type at_name at_data]. now rewrite upd_twice. Qed.
Lemma reopened_twice d : reopened (reopened d) = reopened d.
Proof.
  unfold reopened at 1 3. unfold reopened. cbn [d_subs d_subn d_atts d_attn d_meta]. rewrite !number_snd, !number_length, !map_length. f_equal. f_equal.
  transitivity (map cut_name (map snd (number 0 (map (fun v : Z * attinfo => cut_name (snd v)) (d_atts d))))); [now rewrite map_map|].
  rewrite number_snd, map_map. apply map_ext. intros a. apply cut_name_twice.
Qed.
