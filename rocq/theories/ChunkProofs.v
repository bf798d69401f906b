From Verif Require Import Base CopyModel HiLoModel HiLoProofs BitonalModel BitonalProofs ChunkModel.

(** ** Specification: the bytes of a container and what should be reported *)
Definition enc_chunk (c : bytes * bytes) : bytes := fst c ++ le 4 (len (snd c)) ++ snd c.
Definition container (cs : list (bytes * bytes)) : bytes := flat_map enc_chunk cs.
Definition chunk_ok (c : bytes * bytes) : Prop :=
  length (fst c) = 16%nat /\ Forall is_byte (fst c) /\ Forall is_byte (snd c).

(** every chunk, in order, with its number and position *)
Fixpoint expected (i off : Z) (cs : list (bytes * bytes)) : list (Z * chunk) :=
  match cs with
  | [] => []
  | c :: cs' => (i, mkChunk (fst c) (off + 20) (len (snd c))) :: expected (i + 1) (off + 20 + len (snd c)) cs'
  end.

(** delivering a list until the receiver says stop *)
Fixpoint deliver (f : list (Z * chunk) -> bool) (seen l : list (Z * chunk)) : list (Z * chunk) :=
  match l with
  | [] => seen
  | c :: l' => if f (seen ++ [c]) then deliver f (seen ++ [c]) l' else seen ++ [c]
  end.

Definition without_index (l : list (Z * chunk)) : list (Z * chunk) := map (fun c => (0, snd c)) l.

(** ** Termination *)
Lemma chunks_loop_terminates d f : forall fuel seen ptr off, ptr <= len d -> len d < ptr + Z.of_nat fuel ->
  chunks_loop fuel d f seen ptr off <> OutOfFuel.
Proof.
  induction fuel as [|fuel IH]; intros seen ptr off Hp Hf; cbn [chunks_loop].
  - lia.
  - destruct (Z.leb_spec (ptr + 20) (len d)); [|discriminate]. cbv zeta.
    destruct (len d <? _); [discriminate|]. destruct (negb _); [discriminate|].
    destruct (len d <? _); [discriminate|]. apply IH; lia.
Qed.

Lemma enumerate_terminates has d f : enumerate_chunks has d f <> OutOfFuel.
Proof.
  unfold enumerate_chunks. destruct (negb has); [discriminate|]. destruct (len d <? 21); [discriminate|].
  apply chunks_loop_terminates; unfold len; lia.
Qed.

(** ** No access outside of the attachment, if no size field is huge *)
Definition sizes_small (d : bytes) : Prop :=
  forall k, 0 <= k -> k + 4 <= len d -> unle (at_ d k 4) + len d + 41 < 4294967296.

Definition inside (d : bytes) (c : Z * chunk) : Prop :=
  20 <= ck_off (snd c) /\ 0 <= ck_size (snd c) /\ ck_off (snd c) + ck_size (snd c) <= len d.

Lemma at_bytes d k n : Forall is_byte d -> Forall is_byte (at_ d k n).
Proof.
  intros H. unfold at_, slice. rewrite Forall_forall in *. intros x Hx. apply H.
  apply (In_nth _ _ 0) in Hx. destruct Hx as (i & Hi & <-).
  rewrite firstn_length, skipn_length in Hi. rewrite nth_firstn_lt by lia. rewrite nth_skipn_add. apply nth_In. unfold byte in *. lia.
Qed.

Lemma chunks_loop_safe d f : Forall is_byte d -> sizes_small d -> forall fuel seen ptr off,
  0 <= ptr <= off -> off + 21 <= len d -> Forall (inside d) seen ->
  match chunks_loop fuel d f seen ptr off with
  | UB => False
  | Ok l => Forall (inside d) l
  | _ => True
  end.
Proof.
  intros Hd Hs. induction fuel as [|fuel IH]; intros seen ptr off Hp Ho Hi; cbn [chunks_loop]; [exact Logic.I|].
  destruct (Z.leb_spec (ptr + 20) (len d)); [|lia]. cbv zeta.
  set (size := unle (at_ d (ptr + 16) 4)).
  assert (S0 : 0 <= size) by (apply unle_range, at_bytes, Hd).
  assert (S1 : size + len d + 41 < 4294967296) by (apply Hs; lia).
  unfold u32. change (2 ^ 32) with 4294967296.
  rewrite !(Z.mod_small (off + 20 + size)) by lia. rewrite (Z.mod_small (off + 20)) by lia.
  destruct (Z.ltb_spec (len d) (off + 20 + size)); [exact Logic.I|].
  set (seen' := seen ++ _).
  assert (Hi' : Forall (inside d) seen').
  { apply Forall_app. split; [exact Hi|]. constructor; [|constructor]. unfold inside. cbn [snd ck_off ck_size]. lia. }
  destruct (negb (f seen')); [exact Hi'|].
  rewrite (Z.mod_small (off + 20 + size + 21)) by lia.
  destruct (Z.ltb_spec (len d) (off + 20 + size + 21)); [exact Hi'|].
  apply IH; [lia|lia|exact Hi'].
Qed.

Lemma enumerate_safe has d f : Forall is_byte d -> sizes_small d ->
  match enumerate_chunks has d f with
  | UB => False
  | Ok l => Forall (inside d) l
  | _ => True
  end.
Proof.
  intros Hd Hs. unfold enumerate_chunks. destruct (negb has); [exact Logic.I|].
  destruct (Z.ltb_spec (len d) 21); [exact Logic.I|]. apply chunks_loop_safe; auto; lia.
Qed.

(** ** Containers in which only the last chunk has a payload *)
Lemma at_app_r a b o n : 0 <= o -> at_ (a ++ b) (len a + o) n = at_ b o n.
Proof.
  intros Ho. unfold at_, len. rewrite slice_app_r by lia. f_equal. lia.
Qed.

Lemma len_app a b : len (a ++ b) = len a + len b.
Proof. unfold len. rewrite app_length. lia. Qed.

Lemma enc_len (c : bytes * bytes) : length (fst c) = 16%nat -> len (enc_chunk c) = 20 + len (snd c).
Proof. intros H. unfold enc_chunk. rewrite !len_app. unfold len, bytes, byte in *. rewrite le_length. lia. Qed.

Lemma at_guid pre (c : bytes * bytes) rest : length (fst c) = 16%nat -> at_ (pre ++ enc_chunk c ++ rest) (len pre) 16 = fst c.
Proof.
  intros H. replace (len pre) with (len pre + 0) by lia. rewrite at_app_r by lia. unfold at_, enc_chunk.
  rewrite <- !app_assoc. cbn [Z.to_nat]. change (slice (fst c ++ le 4 (len (snd c)) ++ snd c ++ rest) 0 16)
    with (slice ([] ++ fst c ++ (le 4 (len (snd c)) ++ snd c ++ rest)) 0 16). now apply slice_app_exact.
Qed.

Lemma at_size pre (c : bytes * bytes) rest : length (fst c) = 16%nat -> in_u32 (len (snd c)) ->
  unle (at_ (pre ++ enc_chunk c ++ rest) (len pre + 16) 4) = len (snd c).
Proof.
  intros H Hl. rewrite at_app_r by lia. unfold at_, enc_chunk. rewrite <- !app_assoc.
  change (Z.to_nat 16) with 16%nat. rewrite slice_app_exact by (try apply le_length; exact H).
  now apply unle_le4_u32.
Qed.

Lemma chunks_loop_exact d f tail (last : bytes * bytes) :
  chunk_ok last -> snd last <> [] -> len tail < 21 -> len d + 41 < 4294967296 ->
  forall (empties : list (bytes * bytes)) pre fuel seen i,
  Forall chunk_ok empties -> Forall (fun c : bytes * bytes => snd c = []) empties ->
  d = pre ++ container (empties ++ [last]) ++ tail ->
  (length empties < fuel)%nat ->
  chunks_loop fuel d f seen (len pre) (len pre) =
  Ok (deliver f seen (without_index (expected i (len pre) (empties ++ [last])))).
Proof.
  intros Hl Hne Ht Hd. induction empties as [|e es IH]; intros pre fuel seen i He Hz Ed Hf.
  - destruct fuel as [|fuel]; [cbn in Hf; lia|]. cbn [app] in *. unfold container in Ed. cbn [flat_map] in Ed.
    rewrite app_nil_r in Ed. destruct Hl as (G1 & G2 & G3).
    assert (Ld : len d = len pre + (20 + len (snd last)) + len tail) by (rewrite Ed, !len_app, enc_len by exact G1; lia).
    assert (P1 : 0 < len (snd last)) by (unfold len; destruct (snd last); [contradiction|cbn [length]; lia]).
    assert (P0 : 0 <= len pre) by (unfold len; lia). assert (PT : 0 <= len tail) by (unfold len; lia).
    cbn [chunks_loop]. destruct (Z.leb_spec (len pre + 20) (len d)); [|lia]. cbv zeta.
    assert (ES : unle (at_ d (len pre + 16) 4) = len (snd last)) by (rewrite Ed; apply at_size; [exact G1|unfold in_u32, UINT_MAX; lia]).
    assert (EG : at_ d (len pre) 16 = fst last) by (rewrite Ed; apply at_guid; exact G1).
    rewrite ES, EG. unfold u32. change (2 ^ 32) with 4294967296.
    rewrite !(Z.mod_small (len pre + 20 + len (snd last))) by lia. rewrite (Z.mod_small (len pre + 20)) by lia.
    destruct (Z.ltb_spec (len d) (len pre + 20 + len (snd last))); [lia|].
    cbn [expected without_index map deliver snd].
    destruct (f (seen ++ [(0, mkChunk (fst last) (len pre + 20) (len (snd last)))])); cbn [negb]; [|reflexivity].
    rewrite (Z.mod_small (len pre + 20 + len (snd last) + 21)) by lia.
    destruct (Z.ltb_spec (len d) (len pre + 20 + len (snd last) + 21)); [reflexivity|lia].
  - destruct fuel as [|fuel]; [cbn in Hf; lia|]. cbn [app length] in *.
    apply Forall_cons_iff in He. destruct He as [(G1 & G2 & G3) He].
    apply Forall_cons_iff in Hz. destruct Hz as [Z0 Hz].
    unfold container in Ed. cbn [flat_map] in Ed. fold (container (es ++ [last])) in Ed. rewrite <- app_assoc in Ed.
    assert (L0 : len (snd e) = 0) by (rewrite Z0; reflexivity).
    assert (LC : 21 <= len (container (es ++ [last]))).
    { unfold container. rewrite flat_map_app, len_app. cbn [flat_map]. rewrite app_nil_r, enc_len by apply Hl.
      assert (0 < len (snd last)) by (unfold len; destruct (snd last); [contradiction|cbn [length]; lia]).
      assert (0 <= len (flat_map enc_chunk es)) by (unfold len; lia). lia. }
    assert (Ld : len d = len pre + 20 + len (container (es ++ [last])) + len tail)
      by (rewrite Ed, !len_app, enc_len by exact G1; lia).
    assert (P0 : 0 <= len pre) by (unfold len; lia). assert (PT : 0 <= len tail) by (unfold len; lia).
    cbn [chunks_loop]. destruct (Z.leb_spec (len pre + 20) (len d)); [|lia]. cbv zeta.
    assert (ES : unle (at_ d (len pre + 16) 4) = 0) by (rewrite Ed, at_size; [exact L0|exact G1|rewrite L0; unfold in_u32, UINT_MAX; lia]).
    assert (EG : at_ d (len pre) 16 = fst e) by (rewrite Ed; apply at_guid; exact G1).
    rewrite ES, EG. rewrite Z.add_0_r. unfold u32. change (2 ^ 32) with 4294967296.
    rewrite !(Z.mod_small (len pre + 20)) by lia.
    destruct (Z.ltb_spec (len d) (len pre + 20)); [lia|].
    cbn [expected without_index map deliver snd]. rewrite L0, Z.add_0_r.
    destruct (f (seen ++ [(0, mkChunk (fst e) (len pre + 20) 0)])); cbn [negb]; [|reflexivity].
    rewrite (Z.mod_small (len pre + 20 + 21)) by lia.
    destruct (Z.ltb_spec (len d) (len pre + 20 + 21)); [lia|].
    assert (LE : len (pre ++ enc_chunk e) = len pre + 20) by (rewrite len_app, enc_len by exact G1; lia).
    rewrite <- LE. apply (IH (pre ++ enc_chunk e) fuel); auto; try lia.
    rewrite Ed, <- !app_assoc. reflexivity.
Qed.

Lemma enumerate_exact f (empties : list (bytes * bytes)) (last : bytes * bytes) tail :
  let d := container (empties ++ [last]) ++ tail in
  Forall chunk_ok (empties ++ [last]) -> Forall (fun c : bytes * bytes => snd c = []) empties -> snd last <> [] ->
  len tail < 21 -> len d + 41 < 4294967296 ->
  enumerate_chunks true d f = Ok (deliver f [] (without_index (expected 0 0 (empties ++ [last])))).
Proof.
  intros d Hc Hz Hne Ht Hd. apply Forall_app in Hc. destruct Hc as [He Hl].
  apply Forall_cons_iff in Hl. destruct Hl as [Hl _].
  unfold enumerate_chunks. cbn [negb].
  assert (LC : 21 <= len d).
  { subst d. unfold container. rewrite !len_app, flat_map_app, len_app. cbn [flat_map]. rewrite app_nil_r, enc_len by apply Hl.
    assert (0 < len (snd last)) by (unfold len; destruct (snd last); [contradiction|cbn [length]; lia]).
    assert (0 <= len (flat_map enc_chunk empties)) by (unfold len; lia). assert (0 <= len tail) by (unfold len; lia). lia. }
  destruct (Z.ltb_spec (len d) 21); [lia|].
  change (chunks_loop (S (length d)) d f [] 0 0) with (chunks_loop (S (length d)) d f [] (len []) (len [])).
  rewrite (chunks_loop_exact d f tail last Hl Hne Ht Hd empties [] _ [] 0 He Hz); [reflexivity|reflexivity|].
  (* fuel *)
  assert (C : (length empties <= length (flat_map enc_chunk empties))%nat).
  { clear. induction empties as [|e es IH]; [cbn; lia|]. cbn [flat_map length]. rewrite app_length.
    unfold enc_chunk at 1. rewrite !app_length, le_length. lia. }
  subst d. unfold container. rewrite flat_map_app, !app_length. lia.
Qed.

(** ** The mask *)
Lemma bytes_eqb_spec a : forall b, bytes_eqb a b = true <-> a = b.
Proof.
  induction a as [|x a IH]; intros [|y b]; cbn [bytes_eqb]; split; intros H; try discriminate; auto.
  - apply andb_true_iff in H. destruct H as [H1 H2]. apply Z.eqb_eq in H1. apply IH in H2. congruence.
  - injection H as -> ->. apply andb_true_iff. split; [apply Z.eqb_refl|now apply IH].
Qed.

Definition enc_mask (w h stride : Z) (data : bytes) : bytes := le 4 w ++ le 4 h ++ le 4 0 ++ le 4 stride ++ data.

Lemma rd32_enc pre v rest : in_u32 v -> rd32 (pre ++ le 4 v ++ rest) (len pre) = Ok v.
Proof.
  intros Hv. unfold rd32. rewrite !len_app.
  assert (L4 : len (le 4 v) = 4) by (unfold len; rewrite le_length; reflexivity). rewrite L4.
  assert (0 <= len pre) by (unfold len; lia). assert (0 <= len rest) by (unfold len; lia).
  destruct ((0 <=? len pre) && (len pre + 4 <=? len pre + (4 + len rest))) eqn:E; [|lia].
  f_equal. unfold at_, len. rewrite Nat2Z.id. rewrite slice_app_exact by (try apply le_length; reflexivity).
  now apply unle_le4_u32.
Qed.

Lemma rd32_at d pre v rest o : d = pre ++ le 4 v ++ rest -> o = len pre -> in_u32 v -> rd32 d o = Ok v.
Proof. intros -> ->. apply rd32_enc. Qed.

Lemma expected_off0 (empties : list (bytes * bytes)) : Forall (fun c : bytes * bytes => snd c = []) empties -> forall i o (last : bytes * bytes),
  expected i o (empties ++ [last]) = expected i o empties ++
    [(i + Z.of_nat (length empties), mkChunk (fst last) (o + 20 * Z.of_nat (length empties) + 20) (len (snd last)))].
Proof.
  induction 1 as [|e es He H IH]; intros i o last.
  - cbn [app expected length]. do 3 f_equal; lia.
  - cbn [app expected]. rewrite IH, He. change (len []) with 0. cbn [app]. f_equal.
    rewrite !Z.add_0_r. cbn [length]. rewrite Nat2Z.inj_succ. f_equal. f_equal. f_equal; [lia|]. f_equal. lia.
Qed.

Lemma deliver_until_mask l : forall seen c, (forall x, In x l -> is_mask_chunk x = false) -> is_mask_chunk c = true ->
  deliver until_mask seen (l ++ [c]) = seen ++ l ++ [c].
Proof.
  induction l as [|x l IH]; intros seen c Hl Hc.
  - cbn [app deliver]. unfold until_mask. rewrite rev_app_distr. cbn [rev app]. rewrite Hc. reflexivity.
  - cbn [app deliver]. unfold until_mask at 1. rewrite rev_app_distr. cbn [rev app].
    rewrite Hl by (left; reflexivity). cbn [negb]. rewrite IH; [now rewrite <- app_assoc| |exact Hc].
    intros y Hy. apply Hl. right. exact Hy.
Qed.

Lemma container_empties_len (es : list (bytes * bytes)) : Forall chunk_ok es -> Forall (fun c : bytes * bytes => snd c = []) es ->
  len (container es) = 20 * Z.of_nat (length es).
Proof.
  intros H1 H2. induction es as [|e es IH]; [reflexivity|]. unfold container. cbn [flat_map length]. fold (container es).
  apply Forall_cons_iff in H1. apply Forall_cons_iff in H2. rewrite len_app, enc_len by apply H1.
  rewrite IH by (apply H1 || apply H2). destruct H2 as [-> _]. change (len []) with 0. lia.
Qed.

(** a mask stored behind empty chunks is found with exactly its pixels *)
Lemma create_mask_exact (empties : list (bytes * bytes)) w h stride data tail :
  let d := container (empties ++ [(GUID_MASK, enc_mask w h stride data)]) ++ tail in
  Forall chunk_ok empties -> Forall (fun c : bytes * bytes => snd c = [] /\ fst c <> GUID_MASK) empties ->
  Forall is_byte data -> len tail < 21 -> len d + 41 < 4294967296 ->
  0 < w <= UINT_MAX - 7 -> 0 < h <= UINT_MAX -> in_u32 stride -> (w + 7) / 8 <= stride ->
  (h - 1) * stride + (w + 7) / 8 <= len data ->
  exists b, create_mask true d = Ok b /\ mw b = w /\ mh b = h /\ mstride b = stride /\
    forall x y, 0 <= x < w -> 0 <= y < h ->
      0 <= y * stride + x / 8 < Z.min (len data) (msize b) /\
      mask_bit b x y = Z.testbit (nth (Z.to_nat (y * stride + x / 8)) data 0) (7 - x mod 8).
Proof.
  intros d He Hg Hdata Ht Hd Hw Hh Hs Hms Hmin. unfold in_u32, UINT_MAX in *.
  assert (Hz : Forall (fun c : bytes * bytes => snd c = []) empties) by (eapply Forall_impl; [|exact Hg]; intros c [H _]; exact H).
  assert (EL : len (enc_mask w h stride data) = 16 + len data) by (unfold enc_mask; rewrite !len_app; unfold len; rewrite !le_length; lia).
  assert (EN : enc_mask w h stride data <> []) by (intros E; rewrite E in EL; change (len []) with 0 in EL; unfold len in EL; lia).
  assert (EB : Forall is_byte (enc_mask w h stride data)).
  { unfold enc_mask. repeat (apply Forall_app; split); try apply le_bytes. exact Hdata. }
  assert (OK : chunk_ok (GUID_MASK, enc_mask w h stride data)).
  { split; [reflexivity|]. split; [|exact EB]. cbn [fst]. unfold GUID_MASK, is_byte. repeat constructor; lia. }
  set (n := Z.of_nat (length empties)).
  assert (PRE : len (container empties) = 20 * n) by (apply container_empties_len; assumption).
  assert (ED : d = container empties ++ enc_chunk (GUID_MASK, enc_mask w h stride data) ++ tail).
  { subst d. unfold container. rewrite flat_map_app. cbn [flat_map]. now rewrite app_nil_r, <- app_assoc. }
  assert (LD : len d = 20 * n + 20 + 16 + len data + len tail).
  { rewrite ED, !len_app, enc_len by reflexivity. cbn [snd]. rewrite EL. lia. }
  assert (Pn : 0 <= n) by (subst n; lia). assert (Pd : 0 <= len data) by (unfold len; lia). assert (Pt : 0 <= len tail) by (unfold len; lia).
  set (o := 20 * n + 20).
  (* what the enumeration delivers *)
  assert (EN1 : enumerate_chunks true d until_mask =
    Ok (without_index (expected 0 0 empties) ++ [(0, mkChunk GUID_MASK o (16 + len data))])).
  { unfold d. rewrite (enumerate_exact until_mask empties (GUID_MASK, enc_mask w h stride data) tail);
      [|apply Forall_app; split; [exact He|constructor; [exact OK|constructor]]|exact Hz|exact EN|exact Ht|exact Hd].
    rewrite expected_off0 by exact Hz. unfold without_index at 1. rewrite map_app. cbn [map snd fst].
    fold (without_index (expected 0 0 empties)). rewrite EL. fold n.
    replace (0 + 20 * n + 20) with o by (subst o; lia).
    rewrite deliver_until_mask; [reflexivity| |reflexivity].
    intros x Hx. unfold without_index in Hx. apply in_map_iff in Hx. destruct Hx as (c & <- & Hc).
    unfold is_mask_chunk. cbn [snd]. destruct (bytes_eqb (ck_guid (snd c)) GUID_MASK) eqn:E; [|reflexivity].
    exfalso. apply bytes_eqb_spec in E. revert Hc E. clear - Hg. generalize 0 at 1. generalize 0 at 1.
    induction Hg as [|e es [_ He] H IH]; intros a b Hc E; [exact Hc|]. cbn [expected In] in Hc. destruct Hc as [<-|Hc].
    - cbn [snd ck_guid] in E. now apply He.
    - eapply IH; eauto. }
  (* the header of the mask *)
  assert (BODY : d = (container empties ++ GUID_MASK ++ le 4 (16 + len data)) ++ le 4 w ++ le 4 h ++ le 4 0 ++ le 4 stride ++ data ++ tail).
  { rewrite ED. unfold enc_chunk. cbn [fst snd]. rewrite EL. unfold enc_mask. now rewrite <- !app_assoc. }
  set (hd0 := container empties ++ GUID_MASK ++ le 4 (16 + len data)) in *.
  assert (L0 : len hd0 = o).
  { subst hd0. rewrite !len_app, PRE. unfold len. rewrite le_length. cbn [GUID_MASK length]. subst o. lia. }
  assert (L4 : forall v, len (le 4 v) = 4) by (intros v; unfold len; rewrite le_length; reflexivity).
  assert (R1 : rd32 d o = Ok w) by (apply (rd32_at d hd0 w _ o BODY); [lia|unfold in_u32, UINT_MAX; lia]).
  assert (R2 : rd32 d (o + 4) = Ok h).
  { apply (rd32_at d (hd0 ++ le 4 w) h (le 4 0 ++ le 4 stride ++ data ++ tail)).
    - rewrite BODY, <- !app_assoc. reflexivity.
    - rewrite len_app, L4. lia.
    - unfold in_u32, UINT_MAX; lia. }
  assert (R3 : rd32 d (o + 8) = Ok 0).
  { apply (rd32_at d (hd0 ++ le 4 w ++ le 4 h) 0 (le 4 stride ++ data ++ tail)).
    - rewrite BODY, <- !app_assoc. reflexivity.
    - rewrite !len_app, !L4. lia.
    - unfold in_u32, UINT_MAX; lia. }
  assert (R4 : rd32 d (o + 12) = Ok stride).
  { apply (rd32_at d (hd0 ++ le 4 w ++ le 4 h ++ le 4 0) stride (data ++ tail)).
    - rewrite BODY, <- !app_assoc. reflexivity.
    - rewrite !len_app, !L4. lia.
    - unfold in_u32, UINT_MAX; lia. }
  unfold create_mask, get_mask_uncompressed, get_mask. rewrite EN1. cbn [bind].
  rewrite rev_app_distr. cbn [rev app].
  change (is_mask_chunk (0, {| ck_guid := GUID_MASK; ck_off := o; ck_size := 16 + len data |})) with true. cbn [negb snd ck_off ck_size].
  rewrite R1, R2, R3. cbn [bind]. change (negb (0 =? 0)) with false. cbv iota.
  assert (U : u64 (16 + len data - 12) = 4 + len data).
  { unfold u64. rewrite Z.mod_small by (change (2 ^ 64) with 18446744073709551616; lia). lia. }
  rewrite U. destruct (Z.ltb_spec (4 + len data) 4); [lia|]. rewrite R4. cbn [bind].
  destruct ((w =? 0) || (h =? 0)) eqn:E0; [lia|]. cbv zeta.
  assert (UM : u32 (w + 7) = w + 7) by (unfold u32; change (2 ^ 32) with 4294967296; lia). rewrite UM.
  destruct (Z.ltb_spec stride ((w + 7) / 8)); [lia|].
  assert (0 <= (h - 1) * stride) by nia.
  assert (UM2 : u64 ((h - 1) * stride + (w + 7) / 8) = (h - 1) * stride + (w + 7) / 8).
  { unfold u64. rewrite Z.mod_small by (change (2 ^ 64) with 18446744073709551616; lia). reflexivity. }
  rewrite UM2. destruct (Z.ltb_spec (4 + len data - 4) ((h - 1) * stride + (w + 7) / 8)); [lia|].
  destruct (Z.eqb_spec stride 0); [lia|].
  eexists. split; [reflexivity|]. cbn [mw mh mstride msize mdata].
  do 3 (split; [reflexivity|]). intros x y Hx Hy.
  assert (0 <= y * stride <= (h - 1) * stride) by nia.
  assert (0 <= x / 8 < (w + 7) / 8) by lia.
  split; [lia|]. unfold mask_bit. cbn [mstride mdata]. f_equal.
  assert (ED2 : d = (hd0 ++ le 4 w ++ le 4 h ++ le 4 0 ++ le 4 stride) ++ data ++ tail) by (rewrite BODY, <- !app_assoc; reflexivity).
  assert (LH : len (hd0 ++ le 4 w ++ le 4 h ++ le 4 0 ++ le 4 stride) = o + 16) by (rewrite !len_app, !L4; lia).
  set (q := y * stride + x / 8) in *. assert (Q : 0 <= q < len data) by (subst q; lia).
  set (hd1 := hd0 ++ le 4 w ++ le 4 h ++ le 4 0 ++ le 4 stride) in *. clearbody q hd1. clear - ED2 LH Q Pn.
  unfold o in *. rewrite ED2. unfold len, byte, bytes in *.
  rewrite app_nth2 by lia. rewrite app_nth1 by lia. f_equal. lia.
Qed.
