(** A set of live, pairwise disjoint segments in a file, and what writing does
    to it. *)
From Coq Require Import Permutation.
From Verif Require Import Base CodecModel MemProofs CodecProofs WriterModel WriterProofs WriterSpec ReadProofs WriterInv WriterFin WriterOpen
  EditModel EditSpec EditSeg.

Inductive obj :=
| OSub (e : sbe) (v : observed) | OAtt (b : bytes) | OMeta (x : bytes * bytes) | ODir (es : list sbe) | OAttDir (ats : list attentry).

Definition rd (strict : bool) (p : Z) (o : obj) (g : file) : Prop :=
  match o with
  | OSub e v => observe strict g (with_pos e p) = Ok v
  | OAtt b => read_attachment strict g p = Ok b
  | OMeta x => read_metadata strict g p = Ok x
  | ODir es => read_directory strict popts_lax g p = Ok es
  | OAttDir ats => read_attdir strict g p = Ok ats
  end.

Record sg := mkSg { s_p : Z; s_a : Z; s_o : obj }.
Definition s_end (x : sg) : Z := s_p x + 32 + s_a x.
Definition sdis (x y : sg) : Prop := s_end x <= s_p y \/ s_end y <= s_p x.
Definition intact (strict : bool) (f : file) (x : sg) : Prop :=
  alloc_at f (s_p x) = s_a x /\ owned f (s_p x) (rd strict (s_p x) (s_o x)).

Lemma sdis_sym x y : sdis x y -> sdis y x.
Proof. unfold sdis. lia. Qed.

Lemma intact_bounds strict f x : intact strict f x ->
  544 <= s_p x /\ 0 < s_a x /\ s_a x mod 32 = 0 /\ s_end x <= f_size f.
Proof. intros (E & H1 & H2 & H3 & H4 & _). unfold seg_stop, s_end in *. rewrite E in *. lia. Qed.

Lemma intact_read strict f x : intact strict f x -> f_size f < 2 ^ 63 -> rd strict (s_p x) (s_o x) f.
Proof. intros (E & _ & _ & _ & _ & H) Hs. apply H; [lia|reflexivity]. Qed.

Lemma alloc_at_same f g p : (forall i, p <= i < p + 32 -> f_mem g i = f_mem f i) -> alloc_at g p = alloc_at f p.
Proof. intros H. unfold alloc_at. f_equal. f_equal. apply mread_same. intros i Hi. apply H. lia. Qed.

Lemma intact_frame strict f g x : intact strict f x -> f_size f <= f_size g ->
  (forall i, s_p x <= i < s_end x -> f_mem g i = f_mem f i) -> intact strict g x.
Proof.
  intros (E & H1 & H2 & H3 & H4 & H5) Hs Hm.
  assert (E2 : alloc_at g (s_p x) = alloc_at f (s_p x)).
  { apply alloc_at_same. intros i Hi. apply Hm. unfold s_end. rewrite <- E. lia. }
  split; [congruence|]. unfold owned, seg_stop in *. rewrite E2. repeat split; try assumption; [lia|].
  intros g' Hg' Hm'. apply H5; [lia|]. intros i Hi. rewrite Hm' by assumption. apply Hm. unfold s_end. rewrite <- E. exact Hi.
Qed.

(** ** Sets of segments *)
Definition store (strict : bool) (f : file) (L : list sg) : Prop := Forall (intact strict f) L /\ ForallOrdPairs sdis L.

Lemma fop_perm {A} (R : A -> A -> Prop) l l' : (forall x y, R x y -> R y x) -> Permutation l l' -> ForallOrdPairs R l -> ForallOrdPairs R l'.
Proof.
  intros Sy. induction 1 as [|x l l' P IH|x y l|l l' l'' P1 IH1 P2 IH2]; intros H; auto.
  - inversion H; subst. constructor; [|auto]. eapply Permutation_Forall; eauto.
  - inversion H as [|? ? Hy H']; subst. inversion H' as [|? ? Hx H'']; subst. inversion Hy as [|? ? Hyx Hyl]; subst.
    constructor; [constructor; auto|]. constructor; assumption.
Qed.

Lemma store_perm strict f L L' : Permutation L L' -> store strict f L -> store strict f L'.
Proof.
  intros P [H1 H2]. split; [eapply Permutation_Forall; eauto|]. eapply fop_perm; eauto. apply sdis_sym.
Qed.

Lemma store_tail strict f x L : store strict f (x :: L) -> store strict f L.
Proof. intros [H1 H2]. inversion H1; inversion H2; subst. split; assumption. Qed.

Lemma store_app_tail strict f A L : store strict f (A ++ L) -> store strict f L.
Proof. induction A as [|x A IH]; [auto|]. cbn [app]. intros H. apply store_tail in H. auto. Qed.

Lemma store_cons strict f x L : store strict f L -> intact strict f x -> Forall (sdis x) L -> store strict f (x :: L).
Proof. intros [H1 H2] Hx Hd. split; constructor; assumption. Qed.

Lemma store_head strict f x L : store strict f (x :: L) -> intact strict f x /\ Forall (sdis x) L.
Proof. intros [H1 H2]. inversion H1; inversion H2; subst. split; assumption. Qed.

Lemma store_In strict f L x : store strict f L -> In x L -> intact strict f x.
Proof. intros [H1 _] Hx. rewrite Forall_forall in H1. auto. Qed.

Lemma fwrite_size f ws : f_size f <= f_size (fwrite f ws).
Proof. unfold fwrite. cbn [f_size]. lia. Qed.
Lemma fwrite_mem f ws : f_mem (fwrite f ws) = apply_writes (f_mem f) ws.
Proof. reflexivity. Qed.
Lemma fwrite_app f a b : f_size (fwrite (fwrite f a) b) = f_size (fwrite f (a ++ b))
  /\ f_mem (fwrite (fwrite f a) b) = f_mem (fwrite f (a ++ b)).
Proof. unfold fwrite. cbn [f_mem f_size]. rewrite file_size_app, apply_writes_app. split; [lia|reflexivity]. Qed.

Lemma intact_write strict f x ws : intact strict f x -> avoid (s_p x) (s_end x) ws -> intact strict (fwrite f ws) x.
Proof.
  intros H Ha. apply (intact_frame strict f); [assumption|apply fwrite_size|].
  intros i Hi. rewrite fwrite_mem. apply apply_writes_out. intros w Hw. unfold avoid in Ha. rewrite Forall_forall in Ha.
  specialize (Ha w Hw). unfold in_wr. destruct w as [o b]. cbn [fst snd] in *. lia.
Qed.

Lemma store_write strict f L ws : store strict f L -> Forall (fun x => avoid (s_p x) (s_end x) ws) L -> store strict (fwrite f ws) L.
Proof.
  intros [H1 H2] Ha. split; [|assumption]. apply Forall_forall. intros x Hx. rewrite Forall_forall in H1, Ha.
  apply intact_write; auto.
Qed.

Lemma avoid_in x lo hi ws : ws_in lo hi ws -> s_end x <= lo \/ hi <= s_p x -> avoid (s_p x) (s_end x) ws.
Proof. intros H Hd. apply (avoid_of_in _ _ lo hi); [assumption|lia]. Qed.

Definition below (n : Z) (L : list sg) : Prop := Forall (fun x => s_end x <= n) L.

Lemma below_weaken n n' L : below n L -> n <= n' -> below n' L.
Proof. intros H Hn. eapply Forall_impl; [|exact H]. cbn beta. intros x Hx. lia. Qed.
Lemma below_perm n L L' : Permutation L L' -> below n L -> below n L'.
Proof. intros P H. eapply Permutation_Forall; eauto. Qed.

(** Appending a segment. *)
Lemma store_append strict f L n ws x :
  store strict f L -> below n L -> ws_in n (s_end x) ws -> s_p x = n -> intact strict (fwrite f ws) x ->
  store strict (fwrite f ws) (x :: L) /\ below (s_end x) (x :: L).
Proof.
  intros Hs Hb Hw Hp Hx. pose proof (intact_bounds _ _ _ Hx) as (_ & Ha & _).
  split.
  - apply store_cons; [|assumption|].
    + apply store_write; [assumption|]. unfold below in Hb. eapply Forall_impl; [|exact Hb]. cbn beta. intros y Hy.
      apply (avoid_in y n (s_end x)); [assumption|lia].
    + eapply Forall_impl; [|exact Hb]. cbn beta. intros y Hy. unfold sdis. lia.
  - constructor; [lia|]. apply (below_weaken n); [assumption|]. unfold s_end. lia.
Qed.

(** Overwriting a segment. *)
Lemma store_inplace strict f L n ws x y :
  store strict f (x :: L) -> below n (x :: L) -> ws_in (s_p x) (s_end x) ws -> s_p y = s_p x -> s_a y = s_a x ->
  intact strict (fwrite f ws) y ->
  store strict (fwrite f ws) (y :: L) /\ below n (y :: L).
Proof.
  intros Hs Hb Hw Ep Ea Hy. pose proof (store_head _ _ _ _ Hs) as [_ Hd]. apply store_tail in Hs.
  assert (Ee : s_end y = s_end x) by (unfold s_end; lia). inversion Hb; subst.
  split; [|constructor; [lia|assumption]].
  apply store_cons; [|assumption|].
  - apply store_write; [assumption|]. eapply Forall_impl; [|exact Hd]. cbn beta. intros z Hz.
    apply (avoid_in z (s_p x) (s_end x)); [assumption|]. unfold sdis in Hz. lia.
  - eapply Forall_impl; [|exact Hd]. intros z Hz. unfold sdis in *. lia.
Qed.

(** Giving up a segment. *)
Lemma store_drop strict f L ws x :
  store strict f (x :: L) -> ws_in (s_p x) (s_end x) ws -> store strict (fwrite f ws) L.
Proof.
  intros Hs Hw. pose proof (store_head _ _ _ _ Hs) as [_ Hd]. apply store_tail in Hs.
  apply store_write; [assumption|]. eapply Forall_impl; [|exact Hd]. cbn beta. intros z Hz.
  apply (avoid_in z (s_p x) (s_end x)); [assumption|]. unfold sdis in Hz. lia.
Qed.

Lemma mark_in strict f x : intact strict f x -> ws_in (s_p x) (s_end x) [(s_p x, MAGIC_DELETED)].
Proof.
  intros H. apply intact_bounds in H. unfold s_end. constructor; [|constructor]. cbn [fst snd].
  change (Z.of_nat (length MAGIC_DELETED)) with 16. lia.
Qed.

(** ** New segments *)
Lemma holds_same f g p bs : holds f p bs -> f_size f <= f_size g ->
  (forall i, p <= i < p + Z.of_nat (length bs) -> f_mem g i = f_mem f i) -> holds g p bs.
Proof.
  intros (H1 & H2 & H3) Hs Hm. split; [assumption|]. split; [lia|]. rewrite <- H3 at 2. apply mread_same. intros i Hi. apply Hm. lia.
Qed.

Lemma intact_holds strict f p al o bs :
  544 <= p -> 0 < al < 2 ^ 63 -> al mod 32 = 0 -> p + 32 + al <= f_size f -> holds f p bs ->
  32 <= Z.of_nat (length bs) <= 32 + al -> slice bs 16 8 = le 8 al ->
  (forall g, holds g p bs -> f_size f <= f_size g < 2 ^ 63 -> rd strict p o g) -> intact strict f (mkSg p al o).
Proof.
  intros H1 H2 H3 H4 Hh Hl Hsl Hr.
  assert (E : alloc_at f p = al).
  { unfold alloc_at. replace (p + 16) with (p + Z.of_nat 16) by lia.
    rewrite (mread_slice (f_mem f) p bs 16 8); [|apply Hh|lia]. rewrite Hsl. apply s64_unle_le8. lia. }
  split; [exact E|]. unfold owned, seg_stop. cbn [s_p s_a s_o]. rewrite E. repeat split; try assumption; try lia.
  intros g Hg Hm. apply Hr; [|assumption]. apply (holds_same f); [assumption|lia|]. intros i Hi. apply Hm. lia.
Qed.

Lemma holds_written f p bss b z : 0 <= p -> concat bss = b ++ zeros z -> (0 < length b)%nat ->
  holds (fwrite f (contig p bss)) p b /\ p + Z.of_nat (length (concat bss)) <= f_size (fwrite f (contig p bss)).
Proof.
  intros Hp Hc Hl.
  assert (Hs : p + Z.of_nat (length (concat bss)) <= f_size (fwrite f (contig p bss))).
  { unfold fwrite. cbn [f_size]. pose proof (file_size_contig bss p Hp) as H. rewrite Hc, app_length in *. lia. }
  split; [|assumption]. apply (holds_prefix _ p b (zeros z)). rewrite <- Hc. split; [assumption|]. split; [assumption|].
  rewrite fwrite_mem. apply mread_contig.
Qed.

(** The segment as written, at the end or in place. *)
Lemma intact_written strict f p al o bss b z :
  544 <= p -> 0 < al < 2 ^ 63 -> al mod 32 = 0 -> concat bss = b ++ zeros z -> 0 <= z -> 32 <= Z.of_nat (length b) ->
  Z.of_nat (length b) + z <= 32 + al -> (p + 32 + al <= f_size f \/ Z.of_nat (length b) + z = 32 + al) ->
  slice b 16 8 = le 8 al ->
  (forall g, holds g p b -> f_size g < 2 ^ 63 -> rd strict p o g) ->
  intact strict (fwrite f (contig p bss)) (mkSg p al o) /\ ws_in p (p + 32 + al) (contig p bss).
Proof.
  intros H1 H2 H3 Hc Hz Hl Hu Hs Hsl Hr.
  destruct (holds_written f p bss b z) as [Hh Hsz]; [lia|assumption|lia|].
  assert (Lc : Z.of_nat (length (concat bss)) = Z.of_nat (length b) + z) by (rewrite Hc, app_length, Nat2Z.inj_add, zeros_length by lia; lia).
  split.
  - apply (intact_holds strict _ p al o b); try assumption; try lia.
    + pose proof (fwrite_size f (contig p bss)). lia.
    + intros g Hg Hgs. apply Hr; [assumption|lia].
  - apply ws_in_contig. lia.
Qed.
