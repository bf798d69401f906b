(** Proofs about attachments and metadata through the C API. *)
From Verif Require Import Base CodecModel WriterModel WriterProofs WriterSpec WriterMain EditSpec AttIdProofs AddModel CapiModel CapiSpec CapiProofs HandAttModel HandAttSpec.
Open Scope Z_scope.

Lemma taken_ok n b d : taken n b = Ok d -> memory_ok n b -> Z.of_nat (length d) = n /\ forall k x, nth_error d k = Some x -> byte_given b k x.
Proof.
  unfold taken, memory_ok, byte_given. destruct b as [m|].
  - destruct (n <=? blen m) eqn:E; [|discriminate]. intros [= <-] H. split; [rewrite firstn_length; lia|]. intros k x K. exists m. split; [reflexivity|].
    assert (L : (k < Z.to_nat n)%nat).
    { assert (X : nth_error (firstn (Z.to_nat n) m) k <> None) by congruence. apply nth_error_Some in X. rewrite firstn_length in X. lia. }
    rewrite <- K. rewrite <- (firstn_skipn (Z.to_nat n) m) at 1. rewrite nth_error_app1; [reflexivity|]. rewrite firstn_length. lia.
  - destruct (0 <? n) eqn:E; [discriminate|]. intros [= <-] H. split; [cbn [length]; lia|]. intros k x K. destruct k; discriminate K.
Qed.

(** every call in the list came as it is, in order *)
Lemma handed_ops calls : forall l, handed calls = Ok l -> Forall (fun x => call_op (fst x) = Ok (snd x) /\ In (fst x) calls) l /\ (length l <= length calls)%nat.
Proof.
  induction calls as [|c calls IH]; cbn [handed]; intros l H; [injection H as <-; split; [apply Forall_nil|apply Nat.le_refl]|].
  destruct (call_op c) as [o| | |] eqn:E; try discriminate.
  - apply bind_ok in H as (r & R & H). injection H as <-. destruct (IH r R) as (F & L). split; [|cbn [length]; lia]. constructor; [split; [exact E|now left]|].
    refine (Forall_impl _ _ F). intros x (A & B). split; [exact A|now right].
  - destruct (IH l H) as (F & L). split; [|cbn [length]; lia]. refine (Forall_impl _ _ F). intros x (A & B). split; [exact A|now right].
Qed.
(** with memory as told nothing is undefined *)
Lemma handed_defined calls : Forall call_ok calls -> exists l, handed calls = Ok l.
Proof.
  induction 1 as [|c calls C _ (l & IH)]; [now exists []|]. cbn [handed].
  assert (T : forall n b, memory_ok n b -> (exists d, taken n b = Ok d) \/ taken n b = Throw).
  { intros n b. unfold memory_ok, taken, blen. destruct b as [d|]; intro M; [left|destruct (0 <? n); [now right|left; eauto]].
    assert (X : (n <=? Z.of_nat (length d)) = true) by lia. rewrite X. eauto. }
  assert (Q : (exists o, call_op c = Ok o) \/ call_op c = Throw).
  { destruct c as [a|n b|o]; cbn [call_op call_ok] in *; [| |left; eauto].
    - unfold capi_att. destruct C as (_ & _ & _ & M & _). destruct (T _ _ M) as [(d & ->)| ->]; [left; eexists; reflexivity|now right].
    - destruct C as (M & _). destruct (T _ _ M) as [(d & ->)| ->]; [left; eexists; reflexivity|now right]. }
  destruct Q as [(o & ->)| ->]; rewrite IH; [|now exists l]. cbn [bind]. now exists ((c, o) :: l).
Qed.
Lemma call_request c o : call_op c = Ok o -> call_ok c -> request_ok INT_MAX o.
Proof.
  destruct c as [a|n b|x]; cbn [call_op call_ok]; intros H C.
  - apply bind_ok in H as (x & X & H). injection H as <-. unfold capi_att in X. apply bind_ok in X as (d & D & X). injection X as <-.
    cbn [request_ok at_guid at_type at_name]. tauto.
  - apply bind_ok in H as (d & D & H). injection H as <-. destruct C as (M & L). destruct (taken_ok n b d D M) as (E & _). cbn [request_ok length]. unfold INT_MAX in *. lia.
  - injection H as <-. exact C.
Qed.

Lemma accepted_attached l : Forall (fun x => call_op (fst x) = Ok (snd x) /\ through_api (fst x)) l -> forall rs,
  Forall2 (fun a x => capi_att a = Ok x) (accepted l rs) (attached (map snd l) rs).
Proof.
  induction 1 as [|(c, o) l (E & T) _ IH]; intros rs; [constructor|]. cbn [fst snd] in *. cbn [map snd].
  destruct rs as [|r rs]; [destruct c, o; constructor|]. specialize (IH rs).
  destruct c as [a|n b|x]; cbn [call_op through_api] in *.
  - apply bind_ok in E as (x & X & E). injection E as <-. cbn [accepted attached]. destruct r; [now constructor|exact IH..].
  - apply bind_ok in E as (x & X & E). injection E as <-. cbn [accepted attached]. destruct r; exact IH.
  - injection E as <-. destruct x; try contradiction. cbn [accepted attached]. destruct r; exact IH.
Qed.
Lemma accepted_in l rs a : In a (accepted l rs) -> exists o, In (IAtt a, o) l.
Proof.
  revert rs. induction l as [|(c, o) l IH]; intros rs I; [destruct I|]. destruct rs as [|r rs]; [destruct c; destruct I|].
  assert (S : In a (accepted l rs) -> exists o, In (IAtt a, o) ((c, o) :: l) \/ In (IAtt a, o) l) by (intro J; destruct (IH rs J) as (o' & K); eauto).
  assert (S' : In a (accepted l rs) -> exists o', In (IAtt a, o') ((c, o) :: l)) by (intro J; destruct (IH rs J) as (o' & K); exists o'; now right).
  destruct c as [x|n b|x]; cbn [accepted] in I; [|exact (S' I)..]. destruct r; [|exact (S' I)..]. destruct I as [->|I]; [exists o; now left|exact (S' I)].
Qed.
Definition meta_rel (p : option (Z * buf)) (q : option (bytes * bytes)) : Prop :=
  match p, q with None, None => True | Some (n, b), Some (x, y) => taken n b = Ok x /\ memory_ok n b /\ y = [] | _, _ => False end.
Lemma last_written_meta l : Forall (fun x => call_op (fst x) = Ok (snd x) /\ through_api (fst x) /\ call_ok (fst x)) l -> forall rs m m',
  meta_rel m m' -> meta_rel (last_written m l rs) (last_meta m' (map snd l) rs).
Proof.
  induction 1 as [|(c, o) l (E & T & C) _ IH]; intros rs m m' H; [exact H|]. cbn [fst snd] in *. cbn [map snd].
  destruct rs as [|r rs]; [destruct c, o; exact H|].
  destruct c as [a|n b|x]; cbn [call_op through_api call_ok] in *.
  - apply bind_ok in E as (x & X & E). injection E as <-. cbn [last_written last_meta]. destruct r; apply IH; exact H.
  - apply bind_ok in E as (x & X & E). injection E as <-. cbn [last_written last_meta]. destruct r; apply IH; try exact H. cbn [meta_rel]. split; [exact X|]. split; [apply C|reflexivity].
  - injection E as <-. destruct x; try contradiction. cbn [last_written last_meta]. destruct r; apply IH; exact H.
Qed.

(** ** names *)
Lemma cstring_split n : In 0 n -> exists r, n = cstring n ++ 0 :: r.
Proof.
  induction n as [|b n IH]; intros I; [destruct I|]. cbn [cstring]. destruct (Z.eqb_spec b 0) as [->|N]; [now exists n|].
  destruct I as [->|I]; [congruence|]. destruct (IH I) as (r & E). exists r. cbn [app]. now f_equal.
Qed.
Lemma cstring_clean n : ~ In 0 (cstring n).
Proof. induction n as [|b n IH]; [intros []|]. cbn [cstring]. destruct (Z.eqb_spec b 0); [intros []|]. intros [E|E]; [congruence|contradiction]. Qed.
Lemma name_told0 (name junk : bytes) : length name = 80%nat -> In 0 name -> length junk = 255%nat ->
  let '(f, o, x) := name_interop (cstring name) junk in name_seen name f /\ length f = 255%nat /\ o = false /\ x = None.
Proof.
  intros L I J. destruct (cstring_split name I) as (r & E).
  assert (Q : (length (cstring name) < 80)%nat) by (assert (EL : length name = (length (cstring name) + Datatypes.S (length r))%nat) by (rewrite E at 1; apply app_length); lia).
  unfold name_interop, copy_truncate. cbn [Z.eqb]. assert (X : (Z.of_nat (length (cstring name)) <? 255 - 1) = true) by lia. rewrite X. rewrite back_off_end, firstn_all.
  assert (Y : (Z.of_nat (length (cstring name)) <? Z.of_nat (length (cstring name))) || (length (cstring name) <? length (cstring name))%nat = false) by lia. rewrite Y.
  split; [|split; [|split; reflexivity]].
  - exists (cstring name), (skipn (length (cstring name ++ [0])) junk). split; [unfold overwrite; now rewrite <- app_assoc|]. split; [apply cstring_clean|]. now exists r.
  - unfold overwrite. rewrite app_length, skipn_length, app_length. cbn [length]. lia.
Qed.
Lemma upd_cut (name : bytes) : length name = 80%nat -> upd name 79 0 = firstn 79 name ++ [0].
Proof.
  intro L. do 80 (destruct name as [|? name]; [discriminate L|]). destruct name; [|discriminate L]. reflexivity.
Qed.
Lemma name_told (name junk : bytes) : length name = 80%nat -> length junk = 255%nat ->
  let '(f, o, x) := name_interop (cstring (upd name 79 0)) junk in
  name_seen (firstn 79 name ++ [0]) f /\ (In 0 name -> name_seen name f) /\ length f = 255%nat /\ o = false /\ x = None.
Proof.
  intros L J. assert (A := name_told0 (firstn 79 name ++ [0]) junk).
  assert (B : In 0 name -> let '(f, o, x) := name_interop (cstring (upd name 79 0)) junk in name_seen name f).
  { intro I. assert (E : cstring (upd name 79 0) = cstring name) by exact (cut_cstring name L I). rewrite E. pose proof (name_told0 name junk L I J) as N. destruct (name_interop (cstring name) junk) as ((f, o), x). apply N. }
  rewrite (upd_cut name L) in *. destruct (name_interop (cstring (firstn 79 name ++ [0])) junk) as ((f, o), x).
  destruct A as (A1 & A2 & A3 & A4); [rewrite app_length, firstn_length; cbn [length]; lia|apply in_app_iff; right; now left|exact J|]. auto 10.
Qed.

(** ** data *)
Lemma raw_filled b n d size m : taken n b = Ok d -> memory_ok n b -> 0 <= size <= Z.of_nat (length m) ->
  exists m', get_raw d size (Some m) = Ok (n, Some m') /\ filled b (Z.min size n) m m'.
Proof.
  intros T M S. destruct (taken_ok n b d T M) as (L & G). unfold get_raw. rewrite L. assert (X : (Z.min size n <=? blen m) = true) by (unfold blen; lia). rewrite X.
  eexists. split; [reflexivity|]. set (k0 := Z.to_nat (Z.min size n)). assert (K0 : length (firstn k0 d) = k0) by (rewrite firstn_length; lia).
  unfold filled, overwrite. rewrite K0. split; [rewrite app_length, K0, skipn_length; lia|]. intros k K. destruct (Z.of_nat k <? Z.min size n) eqn:E.
  - apply G. rewrite app_nth1 by lia. rewrite <- (firstn_skipn k0 d) at 1. rewrite nth_error_app1 by lia. apply nth_error_nth'. lia.
  - rewrite app_nth2 by lia. rewrite K0, nth_skipn_add. f_equal. lia.
Qed.

(** ** the whole way *)
Definition reserved_ok (i : winfo) (n : Z) : Prop := match wi_ratt i with Some k => (if k =? 0 then 10 else k) <= n | None => True end.
Lemma nth_Forall2 {A B} (P : A -> B -> Prop) l m : Forall2 P l m -> forall k a, nth_error l k = Some a -> exists b, nth_error m k = Some b /\ P a b.
Proof. induction 1 as [|x y l m H _ IH]; intros [|k] a E; cbn [nth_error] in *; try discriminate; [injection E as <-; eauto|eauto]. Qed.

Theorem api_way m0 strict po i calls l ws rs r :
  Forall call_ok calls -> Forall through_api calls -> handed calls = Ok l -> session i (map snd l) = (ws, rs, r) -> creation_ok i ->
  file_size ws < 2 ^ 63 -> Z.of_nat (length calls) <= INT_MAX -> strict = false \/ added (map snd l) rs <> [] ->
  reserved_ok i (Z.of_nat (length (accepted l rs))) ->
  exists o, open_file strict po (file_of m0 ws) = Ok o /\ att_count o = Z.of_nat (length (accepted l rs)) /\
    (forall k a, nth_error (accepted l rs) k = Some a ->
      (forall junk, length junk = 255%nat -> exists x, capi_att_info junk o (Z.of_nat k) = Ok (Some x) /\ told (name_cut a) x /\ (In 0 (ia_name a) -> told a x)) /\
      (forall size, capi_att_data strict (file_of m0 ws) o (Z.of_nat k) size None = Ok (Some (ia_bytes a, None))) /\
      (forall size m, 0 <= size <= Z.of_nat (length m) -> exists m',
        capi_att_data strict (file_of m0 ws) o (Z.of_nat k) size (Some m) = Ok (Some (ia_bytes a, Some m')) /\ filled (ia_mem a) (Z.min size (ia_bytes a)) m m')) /\
    (forall k junk size dest, Z.of_nat (length (accepted l rs)) <= k ->
      capi_att_info junk o k = Ok None /\ capi_att_data strict (file_of m0 ws) o k size dest = Ok None) /\
    match last_written None l rs with
    | None => capi_metadata strict (file_of m0 ws) o = Throw
    | Some (n, b) => if 0 <? n then exists m, capi_metadata strict (file_of m0 ws) o = Ok (m, n) /\ ended b n m else capi_metadata strict (file_of m0 ws) o = Throw
    end.
Proof.
  intros C T H S CI FS LC ST RA. destruct (handed_ops calls l H) as (F & LL).
  assert (Q : Forall (fun x => call_op (fst x) = Ok (snd x) /\ through_api (fst x) /\ call_ok (fst x)) l).
  { refine (Forall_impl _ _ F). intros x (A & B). split; [exact A|]. split; [exact (proj1 (Forall_forall _ _) T _ B)|exact (proj1 (Forall_forall _ _) C _ B)]. }
  assert (RQ : Forall (request_ok INT_MAX) (map snd l)).
  { apply Forall_forall. intros o I. apply in_map_iff in I as (x & <- & I). pose proof (proj1 (Forall_forall _ _) Q x I) as (A & _ & B). exact (call_request _ _ A B). }
  assert (F2 : Forall2 (fun a x => capi_att a = Ok x) (accepted l rs) (attached (map snd l) rs)).
  { apply accepted_attached. refine (Forall_impl _ _ Q). tauto. }
  assert (OKA : forall a, In a (accepted l rs) -> call_ok (IAtt a)).
  { intros a I. apply accepted_in in I as (o & I). exact (proj2 (proj2 (proj1 (Forall_forall _ _) Q _ I))). }
  assert (F3 : Forall2 (fun a x => capi_att a = Ok x /\ call_ok (IAtt a)) (accepted l rs) (attached (map snd l) rs)).
  { clear -F2 OKA. induction F2 as [|a x la lx E _ IH]; constructor; [split; [exact E|apply OKA; now left]|]. apply IH. intros b I. apply OKA. now right. }
  assert (LA : length (attached (map snd l) rs) = length (accepted l rs)) by (clear -F2; induction F2; cbn [length]; [reflexivity|now f_equal]).
  assert (LB : (length (accepted l rs) <= length l)%nat).
  { clear. revert rs. induction l as [|(c, o) l IH]; intros rs; [cbn [accepted length]; lia|]. destruct rs as [|x rs]; [destruct c; cbn [accepted length]; lia|]. specialize (IH rs). destruct c; cbn [accepted length]; try lia. destruct x; cbn [length]; lia. }
  destruct (session_attachments m0 strict po i (map snd l) ws rs r S CI RQ FS ltac:(rewrite map_length; lia) ST) as (o & OP & MA & ME).
  { clear -F3. induction F3 as [|a x la lx (E & (_ & _ & _ & M & B)) _ IH]; constructor; [|exact IH].
    unfold capi_att in E. apply bind_ok in E as (d & D & E). injection E as <-. cbn [at_data]. destruct (taken_ok _ _ _ D M) as (L & _). lia. }
  { rewrite LA. exact RA. }
  exists o. split; [exact OP|].
  assert (LO : length (op_atts o) = length (accepted l rs)).
  { rewrite <- LA. apply (f_equal (@length _)) in MA. rewrite !map_length in MA. exact MA. }
  assert (CT : att_count o = Z.of_nat (length (accepted l rs))).
  { unfold att_count. rewrite LO. apply s32_id. unfold in_i32, INT_MIN, INT_MAX in *. lia. }
  split; [exact CT|]. split; [|split].
  - intros k a K. destruct (nth_Forall2 _ _ _ F3 k a K) as (x & X & E & (G1 & G2 & G3 & M & B)).
    assert (KL : (k < length (accepted l rs))%nat) by (apply nth_error_Some; congruence).
    destruct (nth_error (op_atts o) k) as [e|] eqn:EK; [|apply nth_error_None in EK; lia].
    assert (AT : at_index o (Z.of_nat k) = Ok (Some e)).
    { unfold at_index. rewrite CT. assert (Y1 : (Z.of_nat k <? Z.of_nat (length (accepted l rs))) = true) by lia. assert (Y2 : (Z.of_nat k <? 0) = false) by lia. now rewrite Y1, Y2, Nat2Z.id, EK. }
    apply (f_equal (fun z => nth_error z k)) in MA. rewrite !nth_error_map, EK, X in MA. cbn [option_map] in MA.
    unfold capi_att in E. apply bind_ok in E as (d & D & E). injection E as <-. cbn [at_guid at_type at_name at_data] in MA. injection MA as M1 M2 M3 M4.
    split; [|split].
    + intros junk J. unfold capi_att_info. rewrite AT. cbn [bind option_map]. eexists. split; [reflexivity|]. unfold att_info. rewrite M3.
      pose proof (name_told (ia_name a) junk G3 J) as N. destruct (name_interop (cstring (upd (ia_name a) 79 0)) junk) as ((f, ov), lg). destruct N as (N1 & N1' & N2 & N3 & N4).
      unfold told, name_cut. cbn [ii_guid ii_type ii_name ii_overflow ii_long ia_guid ia_type ia_name]. rewrite M1, M2. auto 20.
    + intros size. unfold capi_att_data. rewrite AT. cbn [bind]. rewrite M4. cbn [bind get_raw]. destruct (taken_ok _ _ _ D M) as (L & _). now rewrite L.
    + intros size m SZ. unfold capi_att_data. rewrite AT. cbn [bind]. rewrite M4. cbn [bind]. destruct (raw_filled _ _ _ size m D M SZ) as (m' & GR & FI). exists m'. rewrite GR. cbn [bind]. now split.
  - intros k junk size dest K. unfold capi_att_info, capi_att_data, at_index. rewrite CT. assert (Y : (k <? Z.of_nat (length (accepted l rs))) = false) by lia. rewrite Y. now split.
  - pose proof (last_written_meta l Q rs None None Logic.I) as R. destruct (last_written None l rs) as [(n, b)|]; destruct (last_meta None (map snd l) rs) as [(x, y)|]; cbn [meta_rel] in R; try contradiction.
    + destruct R as (TK & MO & ->). destruct ME as (NZ & RM). unfold capi_metadata. destruct (Z.eqb_spec (op_metapos o) 0); [congruence|]. rewrite RM. cbn [bind fst].
      destruct (taken_ok _ _ _ TK MO) as (L & G). destruct (Z.ltb_spec 0 n) as [N|N]; [|destruct x; [reflexivity|cbn [length] in L; lia]]. assert (X0 : x <> []) by (intros ->; cbn [length] in L; lia).
      destruct (metadata_xml_ok x X0) as (m & EM & FM & LM & LN & _). exists m. rewrite EM, L. split; [reflexivity|]. split; [|split; [exact LM|lia]].
      intros k K. assert (KX : (k < length x)%nat) by lia. exists (nth k x 0). split; [apply G; apply nth_error_nth'; lia|].
      rewrite <- FM. rewrite <- (firstn_skipn (length x) m) at 1. rewrite nth_error_app1 by (rewrite FM; lia). rewrite FM. apply nth_error_nth'. lia.
    + unfold capi_metadata. rewrite ME. reflexivity.
Qed.

(** an index below zero *)
Lemma api_negative junk strict f o k size dest : Z.of_nat (length (op_atts o)) <= INT_MAX -> k < 0 ->
  capi_att_info junk o k = Throw /\ capi_att_data strict f o k size dest = Throw.
Proof.
  intros L K. unfold capi_att_info, capi_att_data, at_index, att_count. rewrite s32_id by (unfold in_i32, INT_MIN, INT_MAX in *; lia).
  assert (A : (k <? Z.of_nat (length (op_atts o))) = true) by lia. assert (B : (k <? 0) = true) by lia. rewrite A, B. now split.
Qed.
(** what does not get as far as the writer *)
Lemma api_refused c : call_op c = Throw <-> match c with IAtt a => 0 < ia_bytes a /\ ia_mem a = None | IMeta n b => 0 < n /\ b = None | IOther _ => False end.
Proof.
  assert (T : forall n b, taken n b = Throw <-> 0 < n /\ b = None).
  { intros n b. unfold taken. destruct b as [d|]; [|destruct (Z.ltb_spec 0 n) as [Q|Q]]; try destruct (n <=? blen d); split; intro H; try discriminate; try (destruct H; discriminate); try reflexivity; [now split|lia]. }
  destruct c as [a|n b|o]; cbn [call_op]; [unfold capi_att|..].
  - rewrite <- T. destruct (taken (ia_bytes a) (ia_mem a)); cbn [bind]; split; intro H; try discriminate; reflexivity.
  - rewrite <- T. destruct (taken n b); cbn [bind]; split; intro H; try discriminate; reflexivity.
  - split; [discriminate|intros []].
Qed.
