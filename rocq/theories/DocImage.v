(** The pixel type of the image in the prepared metadata. *)
From Coq Require Import String Permutation.
From Verif Require Import Base TextModel TextSpec TextProofs XmlModel XmlSpec XmlProofs XmlValues XmlPaths PugiModel PugiSpec PugiProofs PugiTree PugiRound PugiBuild.
From Verif Require Import CodesModel DocModel DocSpec DocTree DocInt DocProofs DocScale DocDims.
From Verif Require Import DocChan DocZT.
Open Scope Z_scope.


Lemma first_type_first types c p : forall l r, pixel_of types c = Some p -> p <> PixInvalid -> (forall c', In c' l -> pixel_of types c' = None \/ pixel_of types c' = Some PixInvalid) -> first_type (l ++ c :: r) types = p.
Proof.
  induction l as [|a l IH]; intros r P N H; cbn [app first_type].
  - unfold pixel_of in P. destruct (find (fun e => fst e =? c) types) as [e|]; [|discriminate]. assert (E : pixel_type_from_int (snd e) = p) by congruence. rewrite E. now destruct p.
  - specialize (H a (or_introl eq_refl)) as Ha. assert (R : first_type (l ++ c :: r) types = p) by (apply IH; try assumption; intros; apply H; now right). unfold pixel_of in Ha.
    destruct (find (fun e => fst e =? a) types) as [e|]; [|exact R]. destruct Ha as [Ha|Ha]; [discriminate|]. assert (E : pixel_type_from_int (snd e) = PixInvalid) by congruence. now rewrite E.
Qed.
Lemma channels_split start size c : start <= c < start + size -> exists l r, channels_of start size = l ++ c :: r /\ forall c', In c' l -> start <= c' < c.
Proof.
  intros H. unfold channels_of. exists (map (fun k => start + Z.of_nat k) (seq 0 (Z.to_nat (c - start)))), (map (fun k => start + Z.of_nat k) (seq (S (Z.to_nat (c - start))) (Z.to_nat (size - (c - start) - 1)))). split.
  - replace (Z.to_nat size) with (Z.to_nat (c - start) + S (Z.to_nat (size - (c - start) - 1)))%nat by lia. rewrite seq_app, map_app. f_equal. cbn [seq map Nat.add]. f_equal. lia.
  - intros c' I. apply in_map_iff in I. destruct I as (k & <- & I). apply in_seq in I. lia.
Qed.
Definition image_type (d : list xml) (w : str) : Prop := exists n, get_node [txt "Metadata"; txt "Information"; txt "Image"; txt "PixelType"] d = Some n /\ text n = w.
Lemma type_saved ind p v t t' : sound t -> kind_of t = kind_of (Elem ROOT [] []) -> pixel_word p = Some v -> fill_image_pixel_type p t = Ok t' ->
  exists d, load (builder_get_xml ind [t']) = Ok d /\ image_type d v.
Proof.
  intros S K W H. destruct (fill_type_step p t t' S H) as ((S3 & Q3) & _). rewrite fill_type_put, W in H by apply S.
  destruct (put_there v PIXEL t t' S) as (c & F & El & Kc); [apply decentb_ok; vm_compute; reflexivity|exact H|].
  exists (map settle [t']). split; [apply builder_round; [discriminate|constructor; [apply S3|constructor]|constructor; [apply S3|constructor]]|].
  assert (Kd : matches ROOT [] t' = true).
  { assert (X : kind_of t' = kind_of (Elem ROOT [] [])); [congruence|now rewrite (matches_kind ROOT [] _ _ X)]. }
  exists (settle c). split.
  - unfold get_node. cbn [map find]. rewrite matches_settle, Kd, descend_follow. change (plainly [txt "Metadata"; txt "Information"; txt "Image"; txt "PixelType"]) with PIXEL. rewrite follow_settle by apply S3. now rewrite F.
  - rewrite (text_two c v El Kc); [reflexivity|now apply (pixel_word_solid p)].
Qed.
Theorem image_type_read ind w h b m types nc names t p v : prepared_metadata w h b m types nc names = Ok t -> names_pixel p v -> pixel_word p <> None ->
  match tget b 2 with
  | Some (start, size) => good_names (channels_of start size) names /\
      exists c, start <= c < start + size /\ pixel_of types c = Some p /\ forall c', start <= c' < c -> pixel_of types c' = None \/ pixel_of types c' = Some PixInvalid
  | None => exists k, nc = Some k /\ pixel_type_from_int k = p
  end ->
  exists d, load (builder_get_xml ind [t]) = Ok d /\ image_type d (txt v).
Proof.
  unfold prepared_metadata. intros H N Wn C. destruct (pixel_word p) as [v'|] eqn:Pw; [|contradiction]. clear Wn.
  assert (Ev : v' = txt v) by (destruct N; cbn [pixel_word] in Pw; congruence). subst v'. assert (Pi : p <> PixInvalid) by (intros ->; discriminate).
  destruct (write_statistics w h b m (Elem ROOT [] [])) as [t1| | |] eqn:W; cbn [bind] in H; try discriminate.
  destruct (stat_sound w h b m _ t1 root_sound W) as ((S1 & Q1) & O1). unfold fill_dimension_channel in H. destruct (tget b 2) as [[start size]|].
  - destruct C as (G & c & Hc & P & L). destruct (in_i32b (start + size)); cbn [negb] in H; [|discriminate].
    fold (channels_of start size) in H. cbv zeta in H. destruct (fill_channels (channels_of start size) names types t1) as [t2| | |] eqn:F; cbn [bind] in H; try discriminate.
    assert (K0 : kids_at CHANNELS t1 = []) by (unfold kids_at; rewrite O1 by (intros c0; apply sizes_chan); reflexivity).
    destruct (channels_step names types (channels_of start size) t1 t2 S1 (channels_nodup start size) G F) as ((S2 & Q2) & _).
    { intros n c0 I. rewrite K0 in I. destruct I. }
    destruct (channels_split start size c Hc) as (l & r & E & Hl). rewrite E, (first_type_first types c p l r P Pi) in H by (intros c' I; apply L, Hl, I).
    apply (type_saved ind p (txt v) t2 t S2); [congruence|exact Pw|exact H].
  - destruct C as (k & -> & E). rewrite E in H. now apply (type_saved ind p (txt v) t1 t S1).
Qed.
