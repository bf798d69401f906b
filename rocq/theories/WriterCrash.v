(** Interrupted sessions: whatever the operations did, every write before the
    last one lies behind the file header; and limits of padding and reading. *)
From Verif Require Import Base CodecModel MemProofs CodecProofs WriterModel WriterProofs WriterSpec ReadProofs WriterInv WriterFin WriterOpen.

Definition ge (b : Z) (ws : list wr) : Prop := Forall (fun w => b <= fst w) ws.
(** All writes at or behind [b]; the result satisfies [P]. *)
Definition wge {A} (b : Z) (P : A -> Prop) (x : W A) : Prop :=
  ge b (fst x) /\ match snd x with Ok a => P a | _ => True end.

Lemma wge_bind {A B} b (P : A -> Prop) (Q : B -> Prop) x k :
  wge b P x -> (forall a, P a -> wge b Q (k a)) -> wge b Q (wbind x k).
Proof.
  intros [H1 H2] Hk. unfold wge, wbind. destruct (snd x) as [a| | |]; cbn [fst snd]; auto.
  destruct (Hk a H2) as [K1 K2]. split; [apply Forall_app; now split|assumption].
Qed.
Lemma wge_ret {A} b (P : A -> Prop) a : P a -> wge b P (wret a).
Proof. intros H. split; [apply Forall_nil|exact H]. Qed.
Lemma wge_throw {A} b (P : A -> Prop) : wge b P wthrow.
Proof. split; [apply Forall_nil|exact I]. Qed.
Lemma wge_put b pos d : b <= pos -> wge b (fun n => 0 <= n) (wput pos d).
Proof. intros H. split; [apply Forall_cons; [exact H|apply Forall_nil]|cbn; lia]. Qed.
Lemma wge_impl {A} b (P Q : A -> Prop) x : wge b P x -> (forall a, P a -> Q a) -> wge b Q x.
Proof. intros [H1 H2] H. split; [assumption|]. destruct (snd x); auto. Qed.

Lemma wge_zeroes_loop b fuel : forall pos i c, b <= pos -> 0 <= i -> wge b (fun n => 0 <= n) (write_zeroes_loop fuel pos i c).
Proof.
  induction fuel as [|fuel IH]; intros pos i c Hp Hi; cbn [write_zeroes_loop]; destruct (i <? _).
  - split; [apply Forall_nil|exact I].
  - now apply wge_ret.
  - apply (wge_bind b (fun n => 0 <= n)); [apply wge_put; lia|]. intros k Hk.
    apply (wge_bind b (fun n => 0 <= n)); [apply IH; lia|]. intros r Hr. apply wge_ret. lia.
  - now apply wge_ret.
Qed.

Lemma wge_zeroes b pos c : b <= pos -> wge b (fun n => 0 <= n) (write_zeroes pos c).
Proof. intros. apply wge_zeroes_loop; lia. Qed.

Lemma wge_generic_loop b cs : forall pos size off, b <= pos -> 0 <= off ->
  wge b (fun n => 0 <= n) (write_generic_loop pos size off cs).
Proof.
  induction cs as [|[bs|] cs IH]; intros pos size off Hp Ho; cbn [write_generic_loop].
  - destruct (off <? size); [|now apply wge_ret].
    apply (wge_bind b (fun n => 0 <= n)); [apply wge_zeroes; lia|]. intros n Hn. apply wge_ret; lia.
  - apply (wge_bind b (fun n => 0 <= n)); [apply wge_put; lia|]. intros n Hn.
    destruct (size <=? off + n); [apply wge_ret; lia|apply IH; lia].
  - apply wge_throw.
Qed.

Lemma wge_generic b pos s : b <= pos -> wge b (fun n => 0 <= n) (write_generic pos s).
Proof. intros H. unfold write_generic. destruct (0 <? src_size s); [apply wge_generic_loop; lia|now apply wge_ret]. Qed.

Lemma wge_subblock b pos a : b <= pos -> wge b (fun n => 0 <= n) (write_subblock pos a).
Proof.
  intros H. unfold write_subblock. destruct (_ || _); [apply wge_throw|].
  apply (wge_bind b (fun n => 0 <= n)); [now apply wge_put|]. intros n0 H0.
  apply (wge_bind b (fun n => 0 <= n)); [apply wge_generic; lia|]. intros n1 H1.
  apply (wge_bind b (fun n => 0 <= n)); [apply wge_generic; lia|]. intros n2 H2.
  apply (wge_bind b (fun n => 0 <= n)); [apply wge_generic; lia|]. intros n3 H3. cbv zeta.
  destruct (_ <? _); [|apply wge_ret; lia].
  apply (wge_bind b (fun n => 0 <= n)); [apply wge_zeroes; lia|]. intros z Hz. apply wge_ret; lia.
Qed.

Lemma wge_attachment b pos a : b <= pos -> wge b (fun n => 0 <= n) (write_attachment pos a).
Proof.
  intros H. unfold write_attachment.
  apply (wge_bind b (fun n => 0 <= n)); [now apply wge_put|]. intros n0 H0.
  apply (wge_bind b (fun n => 0 <= n)); [apply wge_put; lia|]. intros n1 H1. cbv zeta.
  destruct (_ <? _); [|apply wge_ret; lia].
  apply (wge_bind b (fun n => 0 <= n)); [apply wge_zeroes; lia|]. intros z Hz. apply wge_ret; lia.
Qed.

Definition opt_ge (b : Z) (o : option seginfo) : Prop := match o with Some g => b <= sg_pos g /\ 0 <= sg_alloc g | None => True end.

Lemma align32_nonneg n : 0 <= n -> 0 <= align32 n.
Proof. unfold align32. lia. Qed.

Definition good (b : Z) (x : Z * Z) : Prop := b <= fst x /\ 0 <= snd x.

Lemma wge_place b existing next need alloc0 : 0 < b -> b <= next -> 0 < need -> 0 <= alloc0 -> opt_ge b existing ->
  wge b (good b) (place existing next need alloc0).
Proof.
  intros Hb Hn Hne Ha He. unfold place. destruct existing as [g|]; cbn [opt_ge] in He.
  - destruct (need <=? sg_alloc g); [apply wge_ret; split; cbn; lia|].
    destruct (_ && _); [|apply wge_ret; split; cbn; lia].
    apply (wge_bind b (fun n => 0 <= n)); [apply wge_put; lia|]. intros _ _. apply wge_ret; split; cbn; lia.
  - replace (need <=? 0) with false by lia. cbn [Z.ltb Z.compare andb]. apply wge_ret; split; cbn; lia.
Qed.

Lemma wge_metadata b ex next xml att : 0 < b -> b <= next -> opt_ge b ex -> wge b (good b) (write_metadata ex next xml att).
Proof.
  intros Hb Hn He. unfold write_metadata. cbv zeta.
  apply (wge_bind b (good b)).
  { apply wge_place; try assumption; [|apply align32_nonneg; lia]. unfold align32. lia. }
  intros [pos al] [G1 G2]. cbn [fst snd] in *.
  apply (wge_bind b (fun n => 0 <= n)); [now apply wge_put|]. intros n0 H0.
  apply (wge_bind b (fun n => 0 <= n)); [destruct (0 <? _); [apply wge_put; lia|now apply wge_ret]|]. intros n1 H1.
  apply (wge_bind b (fun n => 0 <= n)); [destruct (0 <? _); [apply wge_put; lia|now apply wge_ret]|]. intros n2 H2.
  apply (wge_bind b (fun n => 0 <= n)); [destruct (_ <? _); [apply wge_zeroes; lia|now apply wge_ret]|]. intros n3 H3.
  apply wge_ret. split; assumption.
Qed.

Lemma wge_directory b ex next es : 0 < b -> b <= next -> opt_ge b ex -> wge b (good b) (write_directory ex next es).
Proof.
  intros Hb Hn He. unfold write_directory. cbv zeta.
  apply (wge_bind b (good b)).
  { apply wge_place; try assumption; [|apply align32_nonneg; lia]. unfold align32. lia. }
  intros [pos al] [G1 G2]. cbn [fst snd] in *.
  apply (wge_bind b (fun n => 0 <= n)); [now apply wge_put|]. intros n0 H0.
  apply (wge_bind b (fun n => 0 <= n)); [destruct (_ <? _); [apply wge_zeroes; lia|now apply wge_ret]|]. intros n3 H3.
  apply wge_ret. split; assumption.
Qed.

Lemma wge_attdir b ex next es : 0 < b -> b <= next -> opt_ge b ex -> wge b (good b) (write_attdir ex next es).
Proof.
  intros Hb Hn He. unfold write_attdir. cbv zeta.
  apply (wge_bind b (good b)).
  { apply wge_place; try assumption; [|apply align32_nonneg]; lia. }
  intros [pos al] [G1 G2]. cbn [fst snd] in *.
  apply (wge_bind b (fun n => 0 <= n)); [now apply wge_put|]. intros n0 H0.
  apply (wge_bind b (fun n => 0 <= n)); [apply wge_put; lia|]. intros n1 H1.
  apply (wge_bind b (fun n => 0 <= n)); [destruct (_ <? _); [apply wge_zeroes; lia|now apply wge_ret]|]. intros n3 H3.
  apply wge_ret. split; assumption.
Qed.

Definition st_ge (s : wstate) : Prop :=
  544 <= w_next s /\ opt_ge 544 (w_meta s) /\ opt_ge 544 (w_sbdir s) /\ opt_ge 544 (w_attdir s).

Lemma wstep_ge s o : st_ge s -> ge 544 (fst (fst (wstep s o))) /\ st_ge (snd (fst (wstep s o))).
Proof.
  intros (H1 & H2 & H3 & H4). destruct o as [a slot|a|xml att]; unfold wstep.
  - destruct (negb _); [split; [apply Forall_nil|repeat split; assumption]|].
    destruct slot as [k|]; [|split; [apply Forall_nil|repeat split; assumption]].
    destruct (wge_subblock 544 (w_next s) a H1) as [G1 G2]. cbv zeta.
    destruct (snd (write_subblock (w_next s) a)) as [n| | |]; cbn [fst snd]; (split; [assumption|]); unfold st_ge, set_next; cbn;
      repeat split; try assumption; lia.
  - destruct (existsb _ _); [split; [apply Forall_nil|repeat split; assumption]|].
    destruct (wge_attachment 544 (w_next s) a H1) as [G1 G2]. cbv zeta.
    destruct (snd (write_attachment (w_next s) a)) as [n| | |]; cbn [fst snd]; (split; [assumption|]); unfold st_ge, set_next; cbn;
      repeat split; try assumption; lia.
  - destruct (wge_metadata 544 (w_meta s) (w_next s) xml att ltac:(lia) H1 H2) as [G1 G2]. cbv zeta.
    destruct (snd (write_metadata (w_meta s) (w_next s) xml att)) as [[p al]| | |]; cbn [fst snd]; (split; [assumption|]); unfold st_ge; cbn;
      repeat split; try assumption; destruct G2 as [G2 G3]; cbn in G2, G3; try lia.
    destruct (p =? w_next s); lia.
Qed.

Lemma wrun_ge ops : forall s, st_ge s -> ge 544 (fst (fst (wrun s ops))) /\ st_ge (snd (fst (wrun s ops))).
Proof.
  induction ops as [|o ops IH]; intros s H; cbn [wrun]; [split; [apply Forall_nil|exact H]|].
  destruct (wstep_ge s o H) as [A B]. destruct (wstep s o) as [[w1 s1] r]. cbn [fst snd] in A, B.
  destruct (IH s1 B) as [C D]. destruct (wrun s1 ops) as [[w2 s2] rs]. cbn [fst snd] in *.
  split; [apply Forall_app; now split|assumption].
Qed.

Lemma create_ge i : (forall o, In o [wi_rmeta i; wi_rdir i; wi_ratt i] -> match o with Some n => 0 <= n | None => True end) ->
  exists ws, fst (create i) = (0, file_header (wi_guid i) 0 0 0) :: ws /\ ge 544 ws /\ st_ge (snd (create i)).
Proof.
  intros H. pose proof (H _ (or_introl eq_refl)) as Hm. pose proof (H _ (or_intror (or_introl eq_refl))) as Hd.
  pose proof (H _ (or_intror (or_intror (or_introl eq_refl)))) as Ha. clear H. unfold create.
  assert (A : forall n, 0 <= n -> 0 <= align32 n) by (intros; unfold align32; lia).
  assert (Em : forall n, 0 <= n -> 0 <= rmeta_bytes n) by (intros n Hn; unfold rmeta_bytes; destruct (n =? 0); lia).
  assert (Ed : forall n, 0 <= n -> 0 <= rdir_bytes n) by (intros n Hn; unfold rdir_bytes, MAXDIMENSIONS; lia).
  assert (Ea : forall n, 0 <= n -> 0 <= ratt_bytes n) by (intros n Hn; unfold ratt_bytes; destruct (n =? 0); lia).
  destruct (wi_rmeta i) as [m|]; [specialize (Em m Hm); assert (Am := A (288 - 32 + rmeta_bytes m) ltac:(lia))|];
  (destruct (wi_rdir i) as [d|]; [specialize (Ed d Hd); assert (Ad := A (160 - 32 + rdir_bytes d) ltac:(lia))|]);
  (destruct (wi_ratt i) as [t|]; [specialize (Ea t Ha); assert (At := A (288 - 32 + ratt_bytes t) ltac:(lia))|]);
  unfold reserve; cbn [w_next w_meta w_sbdir w_attdir sg_alloc app fst snd];
  (eexists; split; [reflexivity|]; split; [unfold ge; repeat (apply Forall_cons; [cbn [fst]; lia|]); apply Forall_nil|]);
  unfold st_ge; cbn [w_next w_meta w_sbdir w_attdir opt_ge sg_pos sg_alloc]; repeat split; lia.
Qed.

Lemma finish_ge guid s : st_ge s -> exists ws, ge 544 ws /\
  (fst (finish guid s) = ws \/ exists d m a, fst (finish guid s) = ws ++ [(0, file_header guid d m a)]).
Proof.
  intros (H1 & H2 & H3 & H4). unfold finish.
  destruct (wge_directory 544 (w_sbdir s) (w_next s) (w_dir s) ltac:(lia) H1 H3) as [G1 G2].
  destruct (write_directory (w_sbdir s) (w_next s) (w_dir s)) as [wd [[dp dal]| | |]]; cbn [fst snd] in G1, G2;
    try (exists wd; split; [assumption|left; reflexivity]).
  rewrite wbind_ok. destruct G2 as [G2 G3]; cbn [fst snd] in G2, G3. cbv zeta.
  set (next1 := if dp =? w_next s then w_next s + dal + 32 else w_next s).
  assert (Hn1 : 544 <= next1) by (unfold next1; destruct (dp =? w_next s); lia).
  destruct (w_atts s) as [|e es].
  - exists wd. split; [assumption|]. right. exists dp, (seg_pos_valid (w_meta s)), (seg_pos_valid (w_attdir s)). reflexivity.
  - destruct (wge_attdir 544 (w_attdir s) next1 (e :: es) ltac:(lia) Hn1 H4) as [K1 K2].
    destruct (write_attdir (w_attdir s) next1 (e :: es)) as [wa [[ap aal]| | |]]; cbn [fst snd] in K1, K2.
    + exists (wd ++ wa). split; [apply Forall_app; now split|]. right. exists dp, (seg_pos_valid (w_meta s)), ap.
      cbn [wbind wret wput fst snd]. rewrite ?app_nil_r, <- ?app_assoc. reflexivity.
    + exists (wd ++ wa). split; [apply Forall_app; now split|]. left. reflexivity.
    + exists (wd ++ wa). split; [apply Forall_app; now split|]. left. reflexivity.
    + exists (wd ++ wa). split; [apply Forall_app; now split|]. left. reflexivity.
Qed.

Lemma ge_firstn b n ws : ge b ws -> ge b (firstn n ws).
Proof. intros H. unfold ge in *. rewrite <- (firstn_skipn n ws) in H. apply Forall_app in H. apply H. Qed.

Lemma firstn_app_l {A} n (a b : list A) : (n <= length a)%nat -> firstn n (a ++ b) = firstn n a.
Proof. intros H. rewrite firstn_app. replace (n - length a)%nat with 0%nat by lia. apply app_nil_r. Qed.

(** Before the final header write the file is not a CZI document. *)
Lemma initial_header_throws strict po m0 guid ws : length guid = 16%nat -> ge 544 ws ->
  open_file strict po (file_of m0 ((0, file_header guid 0 0 0) :: ws)) = Throw.
Proof.
  intros Hg Hw. destruct (file_header_fields guid 0 0 0 Hg) as (Lh & _).
  set (h := file_header guid 0 0 0) in *.
  assert (Hh : holds (file_of m0 ((0, h) :: ws)) 0 h).
  { split; [lia|]. split.
    - pose proof (file_size_in (0, h) ((0, h) :: ws) (or_introl eq_refl)) as Q. unfold end_of in Q; cbn [fst snd] in Q.
      rewrite Lh in *. cbn [Nat.eqb] in Q. cbn [f_size file_of]. lia.
    - cbn [f_mem file_of apply_writes fold_left fst snd].
      change (fold_left (fun m w => mwrite m (fst w) (snd w)) ws (mwrite m0 0 h)) with (apply_writes (mwrite m0 0 h) ws).
      transitivity (mread (mwrite m0 0 h) 0 (length h)); [|apply mread_mwrite_same].
      apply mread_same. intros k Hk. apply apply_writes_out. intros w Hin Hin2. unfold ge in Hw. rewrite Forall_forall in Hw.
      specialize (Hw w Hin). unfold in_wr in Hin2. lia. }
  unfold open_file. rewrite (read_file_header_ok strict _ guid 0 0 0) by (assumption || (split; [lia|reflexivity])).
  cbn [bind fh_dir]. unfold read_directory.
  pose proof (read_exact_holds strict _ 0 h 0 160 Hh) as Q. change (0 + Z.of_nat 0) with 0 in Q. change (Z.of_nat 160) with 160 in Q.
  rewrite Q by lia. cbn [bind].
  change (slice h 0 160) with (firstn 160 h).
  assert (E : slice (firstn 160 h) 0 16 = MAGIC_FILE) by reflexivity. rewrite E. reflexivity.
Qed.

Lemma empty_throws strict po m0 : open_file strict po (file_of m0 []) = Throw.
Proof. destruct strict; reflexivity. Qed.

Definition reserved_nonneg (i : winfo) : Prop :=
  forall o, In o [wi_rmeta i; wi_rdir i; wi_ratt i] -> match o with Some n => 0 <= n | None => True end.

(** C05 *)
Lemma crash_throws : forall m0 strict po i ops ws rs r n,
  length (wi_guid i) = 16%nat ->
  (forall x, wi_rmeta i = Some x \/ wi_rdir i = Some x \/ wi_ratt i = Some x -> 0 <= x) ->
  session i ops = (ws, rs, r) -> (n < length ws)%nat ->
  open_file strict po (file_of m0 (firstn n ws)) = Throw.
Proof.
  intros m0 strict po i ops ws rs r n Hg Hr H Hn. unfold session in H.
  assert (Hres : reserved_nonneg i).
  { intros o Ho. destruct o as [x|]; [|exact I]. apply Hr. cbn in Ho. tauto. }
  destruct (create_ge i Hres) as (ws0 & E0 & G0 & S0).
  destruct (create i) as [wsc s0]. cbn [fst snd] in E0, S0. subst wsc.
  destruct (wrun_ge ops s0 S0) as [G1 S1]. destruct (wrun s0 ops) as [[ws1 s1] rs1]. cbn [fst snd] in G1, S1.
  injection H as <- <- <-.
  destruct (finish_ge (wi_guid i) s1 S1) as (wf & Gf & Ef).
  destruct n as [|n]; [apply empty_throws|].
  cbn [app firstn]. apply initial_header_throws; [assumption|].
  set (rest := ws0 ++ ws1 ++ wf).
  assert (Gr : ge 544 rest) by (apply Forall_app; split; [assumption|apply Forall_app; now split]).
  destruct Ef as [Ef|(d & m & a & Ef)]; rewrite Ef in *.
  - now apply ge_firstn.
  - cut (ge 544 (firstn n (rest ++ [(0, file_header (wi_guid i) d m a)]))).
    { intros Q. unfold rest in Q. rewrite <- !app_assoc in Q. exact Q. }
    assert (Ln : (n <= length rest)%nat).
    { unfold rest. rewrite !app_length. cbn [length app] in Hn. apply Nat.succ_lt_mono in Hn. rewrite !app_length in Hn. cbn [length] in Hn. unfold wr in *. lia. }
    rewrite firstn_app_l by exact Ln. now apply ge_firstn.
Qed.

(** C06 *)
Lemma write_zeroes_short pos n : 4096 < n < 2 ^ 64 - 4096 ->
  exists k, snd (write_zeroes pos n) = Ok k /\ k < n /\ Z.of_nat (length (concat (map snd (fst (write_zeroes pos n))))) < n.
Proof.
  intros H. destruct (write_zeroes_spec pos n) as (bss & E & C & B); [lia|]. rewrite E. cbn [fst snd].
  exists (zero_total 0 n). split; [reflexivity|].
  assert (K : zero_total 0 n < n).
  { unfold zero_total. replace ((0 =? 0) && (n <=? 4096)) with false by lia. unfold blocks. lia. }
  split; [assumption|].
  assert (M : forall bss p, map snd (contig p bss) = bss).
  { clear. induction bss as [|b bss IH]; intros p; cbn [contig map snd]; [reflexivity|now rewrite IH]. }
  rewrite M, C, zeros_length by lia. lia.
Qed.

Lemma write_zeroes_exact m pos n : 0 <= n <= 4096 ->
  snd (write_zeroes pos n) = Ok n
  /\ mread (apply_writes m (fst (write_zeroes pos n))) pos (Z.to_nat n) = repeat 0 (Z.to_nat n)
  /\ forall a, a < pos \/ pos + n <= a -> apply_writes m (fst (write_zeroes pos n)) a = m a.
Proof.
  intros H. destruct (Z.eq_dec n 0) as [->|Hz]; [repeat split|].
  destruct (write_zeroes_small pos n) as (bss & E & C); [lia|]. rewrite E. cbn [fst snd]. split; [reflexivity|].
  assert (L : length (concat bss) = Z.to_nat n) by (rewrite C; unfold zeros; apply repeat_length).
  split.
  - rewrite <- L at 1. rewrite mread_contig, C. reflexivity.
  - intros a Ha. rewrite apply_writes_contig. apply mwrite_out. rewrite L. lia.
Qed.

(** C09 *)
Lemma read_cast32_limit strict f off n bs : read_cast32 strict f off n = Ok bs -> n <= INT_MAX.
Proof.
  unfold read_cast32. destruct (avail strict f off n) as [k|]; [|discriminate].
  destruct (s32 k =? n) eqn:E; [|discriminate]. intros _. assert (s32 k <= INT_MAX); [|lia].
  pose proof (s32_range k) as [_ R]. exact R.
Qed.

Lemma read_cast32_length strict f off n bs : read_cast32 strict f off n = Ok bs -> Z.of_nat (length bs) <= INT_MAX.
Proof.
  intros H. pose proof (read_cast32_limit _ _ _ _ _ H). unfold read_cast32 in H.
  destruct (avail strict f off n) as [k|]; [|discriminate]. destruct (s32 k =? n); [|discriminate]. injection H as <-.
  rewrite mread_length. unfold INT_MAX in *. lia.
Qed.

Lemma bind_ok_inv {A B} (x : res A) (k : A -> res B) b : bind x k = Ok b -> exists a, x = Ok a /\ k a = Ok b.
Proof. destruct x; try discriminate. cbn. eauto. Qed.

Lemma read_subblock_limit : forall strict f p d, read_subblock strict f p = Ok d -> Z.of_nat (length (sd_data d)) <= INT_MAX.
Proof.
  intros strict f p d H. unfold read_subblock in H.
  apply bind_ok_inv in H. destruct H as (h & _ & H). destruct (negb _); [discriminate|]. cbv zeta in H.
  apply bind_ok_inv in H. destruct H as ([e len0] & _ & H).
  apply bind_ok_inv in H. destruct H as (md & _ & H).
  apply bind_ok_inv in H. destruct H as (da & Hd & H).
  apply bind_ok_inv in H. destruct H as (at_ & _ & H). injection H as <-. cbn [sd_data].
  destruct (0 <? _); [now apply read_cast32_length in Hd|]. injection Hd as <-. cbn. unfold INT_MAX. lia.
Qed.
