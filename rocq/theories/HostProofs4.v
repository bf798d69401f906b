(** Proofs for PropHost, continued: directories and sub-blocks which are written, what readers find, the GUID, pixels; examples. *)
From Coq Require Import String.
From Verif Require Import Base HostModel HostSpec HostProofs HostProofs2 HostProofs3.
Open Scope Z_scope.

(** ** Values of members *)
Lemma image_length h l vs : fits l vs -> List.length (image h l vs) = size l.
Proof. intros F. rewrite image_cat by exact F. apply laid_size. now apply chunks_laid. Qed.
Lemma load_store h n v : 0 <= v < 256 ^ Z.of_nat n -> load h (store h n v) = v.
Proof. intros R. destruct h; cbn [load store]; rewrite ?rev_involutive, unle_le; apply Z.mod_small; exact R. Qed.
Lemma image_place h l vs nm p v : fits l vs -> NoDup (map fst l) -> In ((nm, p), v) (combine l vs) ->
  exists o, place l nm = Some (o, psize p) /\ part (image h l vs) o (psize p) = image1 h p v /\ fits1 p v.
Proof.
  intros F. induction F as [|[x q] w l vs E F IH]; intros ND I; [contradiction|]. cbn [map fst] in ND. apply NoDup_cons_iff in ND as [NI ND].
  assert (LI : List.length (image1 h q w) = psize q).
  { destruct q, w; cbn [snd fits1 image1 psize] in *; try contradiction; [apply E|apply store_length|]. destruct h; [apply E|]. rewrite rev_length. apply E. }
  cbn [combine] in I. cbn [image place]. destruct I as [I|I].
  - injection I as -> -> ->. exists 0%nat. rewrite String.eqb_refl. split; [reflexivity|]. split; [|exact E].
    rewrite <- LI. exact (part_mid [] (image1 h p v) (image h l vs)).
  - assert (XN : x <> nm). { intros ->. apply NI, in_map_iff. exists (nm, p). split; [reflexivity|]. apply in_combine_l in I. exact I. }
    destruct (IH ND I) as (o & P & Q & R). rewrite (proj2 (String.eqb_neq _ _) XN), P. cbn [option_map]. exists (psize q + o)%nat. split; [reflexivity|]. split; [|exact R].
    rewrite <- LI, part_shift. exact Q.
Qed.
Lemma member_image h l vs nm n z (pre post : bytes) : fits l vs -> NoDup (map fst l) -> In ((nm, Int n), VInt z) (combine l vs) ->
  member h (List.length pre) l (pre ++ image h l vs ++ post) nm = z.
Proof.
  intros F ND I. rewrite member_shift by (now apply image_length). destruct (image_place h l vs nm (Int n) (VInt z) F ND I) as (o & P & Q & R).
  unfold member. rewrite P. cbn [Nat.add psize] in *. rewrite Q. cbn [image1 psize]. now apply load_store.
Qed.
Lemma chars_image h l vs nm n bs (pre post : bytes) : fits l vs -> NoDup (map fst l) -> In ((nm, Chars n), VChars bs) (combine l vs) ->
  chars (List.length pre) l (pre ++ image h l vs ++ post) nm = bs.
Proof.
  intros F ND I. rewrite chars_shift by (now apply image_length). destruct (image_place h l vs nm (Chars n) (VChars bs) F ND I) as (o & P & Q & R).
  unfold chars. rewrite P. exact Q.
Qed.
Lemma dv_names : NoDup (map fst entry_dv). Proof. apply nodupb_ok. vm_compute. reflexivity. Qed.
Lemma dim_names : NoDup (map fst dimension_entry). Proof. apply nodupb_ok. vm_compute. reflexivity. Qed.
Lemma sd_names : NoDup (map fst subblock_directory_segment). Proof. apply nodupb_ok. vm_compute. reflexivity. Qed.

(** ** Writing *)
Lemma dim_length h d : dim_ok d -> List.length (image h dimension_entry (dim_vals d)) = 20%nat.
Proof. intros K. exact (image_length h _ _ K). Qed.
Lemma dims_convert h ds : Forall dim_ok ds -> forall pre post : bytes,
  convert_dims Big (List.length pre) (List.length ds) (pre ++ dims_image h ds ++ post) = pre ++ dims_image (other h) ds ++ post.
Proof.
  induction 1 as [|d ds K F IH]; intros pre post; [reflexivity|]. cbn [List.length convert_dims dims_image flat_map]. fold (dims_image h ds). fold (dims_image (other h) ds).
  rewrite <- !app_assoc. pose proof (good_ok _ _ dim_good) as (A & B & C & D).
  rewrite (convert_image dimension_entry m_dimension h (dim_vals d)) by auto. change (map unreal (dim_vals d)) with (dim_vals d).
  replace (List.length pre + 20)%nat with (List.length (pre ++ image (other h) dimension_entry (dim_vals d))) by (rewrite app_length, dim_length by exact K; reflexivity).
  rewrite app_assoc, IH. now rewrite <- !app_assoc.
Qed.
Lemma dims_length h ds : Forall dim_ok ds -> List.length (dims_image h ds) = (List.length ds * 20)%nat.
Proof.
  induction 1 as [|d ds K F IH]; [reflexivity|]. cbn [dims_image flat_map List.length]. fold (dims_image h ds). rewrite app_length, dim_length by exact K.
  change (20 + List.length (dims_image h ds) = S (List.length ds) * 20)%nat. lia.
Qed.
Lemma dv_in : In (entry_dv, m_entry_dv) structures. Proof. unfold structures. cbn [In]. auto 10. Qed.
Lemma sb_in : In (subblock_segment, m_subblock) structures. Proof. unfold structures. cbn [In]. auto 15. Qed.
Lemma sd_in : In (subblock_directory_segment, m_subblock_directory) structures. Proof. unfold structures. cbn [In]. auto 15. Qed.
Lemma entry_convert h e (pre post : bytes) : entry_ok e ->
  convert_dims Big (List.length pre + 32) (List.length (e_dims e)) (convert Big (List.length pre) entry_dv m_entry_dv (pre ++ entry_image h e ++ post)) =
  pre ++ entry_image (other h) e ++ post.
Proof.
  intros [F D]. unfold entry_image. rewrite <- !app_assoc. rewrite (structure_convert _ _ h _ _ _ dv_in F).
  replace (List.length pre + 32)%nat with (List.length (pre ++ image (other h) entry_dv (entry_vals e))) by (rewrite app_length, (image_length _ _ _ F); reflexivity).
  rewrite (app_assoc pre (image (other h) entry_dv (entry_vals e))), dims_convert by exact D. now rewrite <- !app_assoc.
Qed.
Lemma entry_count e (pre post : bytes) : entry_ok e ->
  Z.to_nat (member Big (List.length pre) entry_dv (pre ++ entry_image Big e ++ post) "DimensionCount") = List.length (e_dims e).
Proof.
  intros [F D]. unfold entry_image. rewrite <- app_assoc. rewrite (member_image Big _ _ _ 4 (Z.of_nat (List.length (e_dims e))) _ _ F dv_names); [lia|].
  unfold entry_vals, entry_dv. cbn [combine In]. auto 12.
Qed.
Lemma entry_length h e : entry_ok e -> List.length (entry_image h e) = (32 + List.length (e_dims e) * 20)%nat.
Proof. intros [F D]. unfold entry_image. rewrite app_length, dims_length by exact D. f_equal. exact (image_length _ _ _ F). Qed.
Lemma entries_convert es : Forall entry_ok es -> forall pre post : bytes,
  convert_entries Big (List.length pre) (List.length es) (pre ++ flat_map (entry_image Big) es ++ post) = pre ++ flat_map (entry_image Little) es ++ post.
Proof.
  induction 1 as [|e es K F IH]; intros pre post; [reflexivity|]. cbn [List.length convert_entries flat_map]. rewrite <- !app_assoc.
  rewrite entry_count by exact K. rewrite entry_convert by exact K. cbn [other].
  replace (List.length pre + 32 + List.length (e_dims e) * 20)%nat with (List.length (pre ++ entry_image Little e)) by (rewrite app_length, entry_length by exact K; lia).
  rewrite app_assoc, IH. now rewrite <- !app_assoc.
Qed.
Lemma directory_written vs es : is_directory vs es -> convert_directory Big (directory_image Big vs es) = directory_image Little vs es.
Proof.
  intros (F & N & K). unfold convert_directory, directory_image.
  pose proof (member_image Big _ vs "EntryCount" 4 (Z.of_nat (List.length es)) [] (flat_map (entry_image Big) es) F sd_names) as M. cbn [List.length app] in M.
  rewrite M.
  2: { destruct vs as [|a [|b [|c [|v vs]]]]; try discriminate N. injection N as ->. unfold subblock_directory_segment, segment_header. cbn [combine app In]. auto 10. }
  pose proof (structure_convert _ _ Big vs [] (flat_map (entry_image Big) es) sd_in F) as C. cbn [List.length app other] in C. rewrite C.
  rewrite Nat2Z.id. pose proof (entries_convert es K (image Little subblock_directory_segment vs) []) as E. rewrite !app_nil_r in E.
  rewrite (image_length _ _ _ F) in E. exact E.
Qed.
Lemma subblock_written vs e (post : bytes) : fits subblock_segment vs -> entry_ok e ->
  convert_subblock Big (subblock_image Big vs e ++ post) = subblock_image Little vs e ++ post.
Proof.
  intros F K. unfold convert_subblock, subblock_image. rewrite <- !app_assoc.
  assert (L : forall h, List.length (image h subblock_segment vs) = 48%nat) by (intros h; exact (image_length h _ _ F)).
  pose proof (entry_count e (image Big subblock_segment vs) post K) as N. rewrite (L Big) in N. rewrite N.
  pose proof (structure_convert _ _ Big vs [] (entry_image Big e ++ post) sb_in F) as C. cbn [List.length app other] in C. rewrite C.
  assert (S : chars 48 entry_dv (image Little subblock_segment vs ++ entry_image Big e ++ post) "SchemaType" = [68; 86]).
  { rewrite <- (L Little). unfold entry_image. rewrite <- app_assoc. apply (chars_image Big entry_dv (entry_vals e) "SchemaType" 2 [68; 86]); [apply K|apply dv_names|]. now left. }
  rewrite S. cbn [Z.eqb Pos.eqb andb].
  pose proof (entry_convert Big e (image Little subblock_segment vs) post K) as E. rewrite L in E. exact E.
Qed.

(** ** What is found in a directory which was written *)
Lemma dims_told ds : Forall dim_ok ds -> forall pre post : bytes, dims_of Little (List.length pre) (List.length ds) (pre ++ dims_image Little ds ++ post) = map dim_told ds.
Proof.
  induction 1 as [|d ds K F IH]; intros pre post; [reflexivity|]. cbn [List.length dims_of dims_image flat_map map]. fold (dims_image Little ds). rewrite <- !app_assoc. f_equal.
  - unfold dim_of, dim_told. rewrite (chars_image Little dimension_entry (dim_vals d) "Dimension" 4 (d_name d)) by (auto using dim_names; unfold dim_vals, dimension_entry; cbn [combine In]; auto).
    rewrite (member_image Little dimension_entry (dim_vals d) "Start" 4 (d_start d)) by (auto using dim_names; unfold dim_vals, dimension_entry; cbn [combine In]; auto).
    rewrite (member_image Little dimension_entry (dim_vals d) "Size" 4 (d_size d)) by (auto using dim_names; unfold dim_vals, dimension_entry; cbn [combine In]; auto).
    rewrite (member_image Little dimension_entry (dim_vals d) "StoredSize" 4 (d_stored d)) by (auto using dim_names; unfold dim_vals, dimension_entry; cbn [combine In]; auto 8).
    reflexivity.
  - replace (List.length pre + 20)%nat with (List.length (pre ++ image Little dimension_entry (dim_vals d))) by (rewrite app_length, dim_length by exact K; reflexivity).
    rewrite app_assoc. apply IH.
Qed.
Lemma parse_told es : Forall entry_ok es -> Forall (fun e => (List.length (e_dims e) <= 40)%nat) es ->
  forall post : bytes, parse_entries Little (List.length es) (flat_map (entry_image Little) es ++ post) = Ok (map told es).
Proof.
  intros K. induction K as [|e es K KS IH]; intros D post; [reflexivity|]. inversion_clear D as [|? ? D1 D2].
  cbn [List.length parse_entries flat_map]. destruct K as [F DK].
  assert (LD := entry_length Little e (conj F DK)). assert (LH := image_length Little _ _ F).
  set (all := (entry_image Little e ++ flat_map (entry_image Little) es) ++ post).
  assert (EA : all = image Little entry_dv (entry_vals e) ++ dims_image Little (e_dims e) ++ flat_map (entry_image Little) es ++ post).
  { unfold all, entry_image. now rewrite <- !app_assoc. }
  assert (H32 : firstn 32 all = image Little entry_dv (entry_vals e)).
  { rewrite EA. change 32%nat with (size entry_dv). rewrite <- LH. rewrite firstn_app, Nat.sub_diag, firstn_all. cbn [firstn]. apply app_nil_r. }
  assert (LA : (32 + List.length (e_dims e) * 20 <= List.length all)%nat).
  { unfold all. rewrite !app_length, LD. lia. }
  assert (HD : part all 32 (List.length (e_dims e) * 20) = dims_image Little (e_dims e)).
  { rewrite EA. change 32%nat with (size entry_dv). rewrite <- LH, <- (dims_length Little) by exact DK. apply part_mid. }
  assert (HS : skipn (32 + List.length (e_dims e) * 20) all = flat_map (entry_image Little) es ++ post).
  { unfold all. rewrite <- LD, <- app_assoc. rewrite skipn_app, skipn_all, Nat.sub_diag. reflexivity. }
  assert (HH : exists r : bytes, all = 68 :: 86 :: r). { rewrite EA. unfold entry_vals, entry_dv. cbn [image image1]. cbn [app]. eauto. }
  destruct HH as (r & HR). clear EA. clearbody all. subst all. cbn [List.length] in LA.
  change ((68 =? 68) && (86 =? 86)) with true. cbv iota.
  destruct (Nat.ltb_spec (List.length r) 30) as [X|_]; [lia|].
  rewrite H32, convert_little.
  assert (MI : forall nm n z, In ((nm, Int n), VInt z) (combine entry_dv (entry_vals e)) -> member Little 0 entry_dv (image Little entry_dv (entry_vals e)) nm = z).
  { intros nm n z I. pose proof (member_image Little entry_dv (entry_vals e) nm n z [] [] F dv_names I) as M. cbn [List.length app] in M. now rewrite app_nil_r in M. }
  assert (MC : chars 0 entry_dv (image Little entry_dv (entry_vals e)) "_spare" = e_spare e).
  { pose proof (chars_image Little entry_dv (entry_vals e) "_spare" 6 (e_spare e) [] [] F dv_names) as M. cbn [List.length app] in M. rewrite app_nil_r in M. apply M.
    unfold entry_vals, entry_dv. cbn [combine In]. auto 10. }
  rewrite (MI "DimensionCount"%string 4%nat (Z.of_nat (List.length (e_dims e)))) by (unfold entry_vals, entry_dv; cbn [combine In]; auto 10).
  rewrite (MI "PixelType"%string 4%nat (e_pixel e)) by (unfold entry_vals, entry_dv; cbn [combine In]; auto 10).
  rewrite (MI "FilePosition"%string 8%nat (e_position e)) by (unfold entry_vals, entry_dv; cbn [combine In]; auto 10).
  rewrite (MI "Compression"%string 4%nat (e_compression e)) by (unfold entry_vals, entry_dv; cbn [combine In]; auto 10).
  rewrite MC. rewrite (s32_id (Z.of_nat (List.length (e_dims e)))) by (unfold in_i32, INT_MIN, INT_MAX; lia).
  destruct (Z.ltb_spec (Z.of_nat (List.length (e_dims e))) 0) as [X|_]; [lia|]. destruct (Z.ltb_spec 40 (Z.of_nat (List.length (e_dims e)))) as [X|_]; [lia|].
  cbn [orb]. rewrite Nat2Z.id. destruct (Nat.ltb_spec (List.length r - 30) (List.length (e_dims e) * 20)) as [X|_]; [lia|].
  rewrite HD, HS, dims_little, (IH D2). cbn [bind map]. do 3 f_equal.
  pose proof (dims_told (e_dims e) DK [] []) as T. cbn [List.length app] in T. rewrite app_nil_r in T. unfold told. now rewrite T.
Qed.
Lemma image_bytes h l vs : fits l vs -> Forall is_byte (image h l vs).
Proof.
  intros F. rewrite image_cat by exact F. pose proof (chunks_laid h l vs F) as L. revert L. generalize (chunks h l vs). clear. intros cs L.
  induction L as [|f c l cs (_ & _ & E3) L IH]; [constructor|]. cbn [cat flat_map]. apply Forall_app. now split.
Qed.
Lemma dims_bytes ds : Forall dim_ok ds -> Forall is_byte (dims_image Little ds).
Proof. induction 1 as [|d ds K D IH]; [constructor|]. cbn [dims_image flat_map]. apply Forall_app. split; [now apply image_bytes|exact IH]. Qed.
Lemma entries_bytes es : Forall entry_ok es -> Forall is_byte (flat_map (entry_image Little) es).
Proof.
  induction 1 as [|e es [F D] K IH]; [constructor|]. cbn [flat_map]. apply Forall_app. split; [|exact IH]. unfold entry_image. apply Forall_app.
  split; [now apply image_bytes|now apply dims_bytes].
Qed.
Lemma parse_found h es (post : bytes) : Forall entry_ok es -> Forall (fun e => (List.length (e_dims e) <= 40)%nat) es -> Forall is_byte post ->
  parse_entries h (List.length es) (flat_map (entry_image Little) es ++ post) = Ok (map told es).
Proof.
  intros K D B. destruct h; [now apply parse_told|]. rewrite parse_same; [now apply parse_told|]. apply Forall_app. split; [now apply entries_bytes|exact B].
Qed.

(** ** The GUID *)
Lemma guid_in : In (guid "FileGuid", guid_members "FileGuid") structures. Proof. unfold structures. cbn [In]. auto 20. Qed.
Lemma guid_once h vs : fits (guid "FileGuid") vs -> convert_guid h (image h (guid "FileGuid") vs) = image Little (guid "FileGuid") vs.
Proof.
  intros F. unfold convert_guid, guid_memory. destruct h; [apply convert_little|].
  pose proof (structure_convert _ _ Big vs [] [] guid_in F) as C. cbn [List.length app other] in C. rewrite !app_nil_r in C. exact C.
Qed.
Lemma guid_twice vs : fits (guid "FileGuid") vs -> rw_close Big (snd (rw_create Big (image Big (guid "FileGuid") vs))) = image Big (guid "FileGuid") vs.
Proof.
  intros F. unfold rw_create, rw_close. cbn [snd]. rewrite (guid_once Big) by exact F.
  unfold convert_guid, guid_memory. pose proof (structure_convert _ _ Little vs [] [] guid_in F) as C. cbn [List.length app other] in C. rewrite !app_nil_r in C. exact C.
Qed.

(** ** Pixels *)
Lemma pairs_ind (P : bytes -> Prop) : P [] -> (forall a, P [a]) -> (forall a b r, P r -> P (a :: b :: r)) -> forall l, P l.
Proof.
  intros P0 P1 P2 l. assert (H : P l /\ forall a, P (a :: l)); [|apply H]. induction l as [|x l [A B]]; [auto|]. split; [apply B|]. intros a. now apply P2.
Qed.
Lemma swap_pixel a b : is_byte a -> is_byte b -> store Big 2 (Z.lor (Z.shiftl (load Big [a; b]) 8 mod 65536) (Z.shiftr (load Big [a; b]) 8 mod 65536)) = [b; a].
Proof.
  unfold is_byte. intros A B. cbn [load rev app unle]. rewrite Z.shiftl_mul_pow2, Z.shiftr_div_pow2 by lia. pows.
  replace ((b + 256 * (a + 256 * 0)) * 256 mod 65536) with (Z.shiftl b 8) by (rewrite Z.shiftl_mul_pow2 by lia; pows; lia).
  replace ((b + 256 * (a + 256 * 0)) / 256 mod 65536) with a by lia.
  rewrite Z.lor_comm, lor_add by (pows; lia). rewrite Z.shiftl_mul_pow2 by lia. pows. cbn [store le rev app]. f_equal; [lia|]. f_equal. lia.
Qed.
Lemma line_samples data : whole data -> samples Big (convert_line data) = samples Little data.
Proof.
  intros [_ B]. revert B. pattern data. apply pairs_ind; clear data; [reflexivity|reflexivity|]. intros a b r IH B. inversion_clear B as [|? ? A B']. inversion_clear B' as [|? ? B1 B2].
  cbn [convert_line]. rewrite swap_pixel by assumption. cbn [app samples]. f_equal. now apply IH.
Qed.
Lemma store2 h v : exists a b, store h 2 v = [a; b]. Proof. destruct h; cbn [store le rev app]; eauto. Qed.
Lemma samples_of h vs : words_ok vs -> samples h (of_samples h vs) = vs.
Proof.
  induction 1 as [|v vs R F IH]; [reflexivity|]. cbn [of_samples flat_map]. destruct (store2 h v) as (a & b & E). rewrite E. cbn [app samples]. rewrite <- E.
  rewrite load_store by exact R. f_equal. exact IH.
Qed.
Lemma words_samples h mem : words h mem = samples h mem.
Proof. pattern mem. apply pairs_ind; clear mem; [reflexivity|reflexivity|]. intros a b r IH. cbn [words samples]. now rewrite IH. Qed.
Lemma packed_written h vs : words_ok vs -> write_packed h (of_samples h vs) = map (fun v => v mod 256) vs ++ map (fun v => v / 256) vs.
Proof.
  intros W. unfold write_packed. rewrite words_samples, samples_of by exact W. f_equal. apply map_ext_in. intros v I. unfold words_ok in W. rewrite Forall_forall in W. specialize (W v I).
  rewrite Z.shiftr_div_pow2 by lia. pows. lia.
Qed.
Lemma pack_both h vs : words_ok vs -> pack_words h (map (fun v => v mod 256) vs) (map (fun v => v / 256) vs) = of_samples h vs.
Proof.
  induction 1 as [|v vs R F IH]; [reflexivity|]. cbn [map pack_words of_samples flat_map]. fold (of_samples h vs). rewrite IH. do 2 f_equal.
  rewrite lor_add by (pows; lia). rewrite Z.shiftl_mul_pow2 by lia. pows. lia.
Qed.
Lemma packed_read h vs : words_ok vs -> samples h (read_packed h (map (fun v => v mod 256) vs ++ map (fun v => v / 256) vs)) = vs.
Proof.
  intros W. unfold read_packed. rewrite app_length, !map_length. replace ((List.length vs + List.length vs) / 2)%nat with (List.length (map (fun v => v mod 256) vs)).
  2: { rewrite map_length. replace (List.length vs + List.length vs)%nat with (List.length vs * 2)%nat by lia. now rewrite Nat.div_mul. }
  rewrite firstn_app, firstn_all, Nat.sub_diag, skipn_app, skipn_all, Nat.sub_diag. cbn [firstn skipn app]. rewrite app_nil_r, pack_both by exact W. now apply samples_of.
Qed.
Lemma line_little vs : words_ok vs -> convert_line (of_samples Big vs) = of_samples Little vs.
Proof.
  induction 1 as [|v vs R F IH]; [reflexivity|]. cbn [of_samples flat_map]. fold (of_samples Big vs). fold (of_samples Little vs).
  change (store Big 2 v) with [v / 256 mod 256; v mod 256]. change (store Little 2 v) with [v mod 256; v / 256 mod 256]. cbn [app convert_line].
  rewrite swap_pixel by (unfold is_byte; lia). cbn [app]. do 2 f_equal. exact IH.
Qed.
Lemma hashed_same h p vs : sixteen p = true -> words_ok vs -> hashed h p (of_samples h vs) = Ok (of_samples Little vs).
Proof. intros S W. destruct h; [reflexivity|]. destruct p; try discriminate S; unfold hashed; cbn [agnostic]; now rewrite line_little. Qed.
Lemma uncompressed_read h p data : sixteen p = true -> whole data -> exists mem, read_uncompressed h p data = Ok mem /\ samples h mem = samples Little data.
Proof.
  intros S W. destruct h; [now exists data|]. exists (convert_line data). destruct p; try discriminate S; (split; [reflexivity|now apply line_samples]).
Qed.

(** ** Examples *)
Definition ex_guid : list val := [VInt 0x12345678; VInt 0x9abc; VInt 0xdef0; VChars [1; 2; 3; 4; 5; 6; 7; 8]].
Definition ex_dims : list dim := [mkdim [88; 0; 0; 0] 4294967290 100 50; mkdim [89; 0; 0; 0] 7 64 32; mkdim [67; 0; 0; 0] 1 1 1].
Definition ex_entry : entry := mkentry 1 0x123456789a 0 6 [2; 0; 0; 0; 0; 0] ex_dims.
Definition ex_entry2 : entry := mkentry 3 4096 0 0 [0; 0; 0; 0; 0; 0] (firstn 2 ex_dims).
Definition ex_dir : list val := [VChars (repeat 90 16); VInt 1024; VInt 300; VInt 2; VChars (repeat 0 124)].
Definition ex_seg : list val := [VChars (repeat 90 16); VInt 4096; VInt 4000; VInt 12; VInt 0; VInt 3200].
Definition ex_de_file : bytes := image Little subblock_segment ex_seg ++ [68; 69] ++ le 4 1 ++ repeat 0 122.
Lemma ex_guid_ok : fits (guid "FileGuid") ex_guid.
Proof. unfold fits, ex_guid, guid. repeat constructor; cbn [snd fits1]; try (change (256 ^ Z.of_nat 4) with 4294967296); try (change (256 ^ Z.of_nat 2) with 65536); try lia; try reflexivity; apply Forall_forall; intros c I; cbn [In] in I; unfold is_byte; lia. Qed.

Lemma ex_dims_ok : Forall dim_ok ex_dims.
Proof.
  repeat constructor; cbn [snd fits1 d_name d_start d_size d_stored]; try (change (256 ^ Z.of_nat 4) with 4294967296); try lia; try reflexivity;
  apply Forall_forall; intros c I; cbn [In] in I; unfold is_byte; lia.
Qed.
Lemma ex_entry_ok : entry_ok ex_entry.
Proof.
  split; [|exact ex_dims_ok].
  repeat constructor; cbn [snd fits1 e_pixel e_position e_part e_compression e_spare ex_entry]; try (change (256 ^ Z.of_nat 4) with 4294967296); try (change (256 ^ Z.of_nat 8) with (2 ^ 64));
  try lia; try reflexivity; apply Forall_forall; intros c I; cbn [In] in I; unfold is_byte; lia.
Qed.
Lemma ex_entry2_ok : entry_ok ex_entry2.
Proof.
  split; [|apply Forall_forall; intros d I; pose proof ex_dims_ok as D; rewrite Forall_forall in D; apply D; cbn in *; tauto].
  repeat constructor; cbn [snd fits1 e_pixel e_position e_part e_compression e_spare ex_entry2]; try (change (256 ^ Z.of_nat 4) with 4294967296); try (change (256 ^ Z.of_nat 8) with (2 ^ 64));
  try lia; try reflexivity; apply Forall_forall; intros c I; cbn [In] in I; unfold is_byte; lia.
Qed.
Lemma ex_dir_ok : is_directory ex_dir [ex_entry; ex_entry2].
Proof.
  split; [|split; [reflexivity|constructor; [apply ex_entry_ok|constructor; [apply ex_entry2_ok|constructor]]]].
  unfold ex_dir, subblock_directory_segment, segment_header. cbn [app]. unfold fits.
  repeat (apply Forall2_cons; [cbn [snd fits1]; first [split; [apply repeat_length|apply Forall_forall; intros c I; apply repeat_spec in I; subst c; unfold is_byte; lia]|lia]|]); constructor.
Qed.
Lemma ex_seg_ok : fits subblock_segment ex_seg.
Proof.
  unfold ex_seg, subblock_segment, segment_header. cbn [app]. unfold fits.
  repeat (apply Forall2_cons; [cbn [snd fits1]; first [split; [apply repeat_length|apply Forall_forall; intros c I; apply repeat_spec in I; subst c; unfold is_byte; lia]|lia]|]); constructor.
Qed.

(** ** Together *)
Lemma structures_both l ms vs : In (l, ms) structures -> fits l vs ->
  convert Big 0 l ms (image Big l vs) = image Little l vs /\ convert Big 0 l ms (image Little l vs) = image Big l vs /\
  convert Little 0 l ms (image Little l vs) = image Little l vs.
Proof.
  intros I F. pose proof (structure_convert l ms Big vs [] [] I F) as A. pose proof (structure_convert l ms Little vs [] [] I F) as B.
  cbn [List.length app other] in A, B. rewrite !app_nil_r in A, B. split; [exact A|]. split; [exact B|]. apply convert_little.
Qed.
Lemma members_read h l ms nm n file : In (l, ms) structures -> In (nm, Int n) l -> Forall is_byte file -> (size l <= List.length file)%nat ->
  exists o, place l nm = Some (o, n) /\ read_member h l ms nm file = unle (part file o n).
Proof. intros A B C D. exact (read_any h l ms nm n [] file A B C D). Qed.
Lemma written_both h : (forall vs es, is_directory vs es -> convert_directory h (directory_image h vs es) = directory_image Little vs es) /\
  (forall vs e post, fits subblock_segment vs -> entry_ok e -> convert_subblock h (subblock_image h vs e ++ post) = subblock_image Little vs e ++ post).
Proof. destruct h; split; [reflexivity|reflexivity|exact directory_written|exact subblock_written]. Qed.
Lemma types_refuted : exists file, Forall is_byte file /\ List.length file = 176%nat /\ subblock_types Little file = Some (1, 0) /\ subblock_types Big file = Some (16777216, 0).
Proof.
  exists ex_de_file. split; [|split; [|split]]; [|vm_compute; reflexivity|vm_compute; reflexivity|vm_compute; reflexivity].
  unfold ex_de_file. apply Forall_app. split; [apply image_bytes, ex_seg_ok|]. apply Forall_app. split; [repeat constructor; lia|]. apply Forall_app. split; [apply le_bytes|].
  apply Forall_forall. intros c I. apply repeat_spec in I. subst c. unfold is_byte. lia.
Qed.
Lemma guid_partial vs : fits (guid "FileGuid") vs ->
  (forall h, fst (rw_create h (image h (guid "FileGuid") vs)) = image Little (guid "FileGuid") vs) /\
  rw_close Little (snd (rw_create Little (image Little (guid "FileGuid") vs))) = image Little (guid "FileGuid") vs /\
  (forall h, rw_close h (image h (guid "FileGuid") vs) = image Little (guid "FileGuid") vs).
Proof.
  intros F. split; [|split].
  - intros h. unfold rw_create. cbn [fst]. now apply guid_once.
  - unfold rw_create, rw_close. cbn [snd]. now rewrite !(guid_once Little).
  - intros h. unfold rw_close. now apply guid_once.
Qed.
Lemma guid_refuted : exists vs, fits (guid "FileGuid") vs /\
  let g := image Big (guid "FileGuid") vs in rw_close Big (snd (rw_create Big g)) = g /\ g <> image Little (guid "FileGuid") vs.
Proof. exists ex_guid. split; [exact ex_guid_ok|]. cbv zeta. split; [apply guid_twice, ex_guid_ok|]. vm_compute. discriminate. Qed.
Lemma pixels_partial h p :
  (sixteen p = true -> forall data, whole data -> exists mem, read_uncompressed h p data = Ok mem /\ samples h mem = samples Little data) /\
  (agnostic p = true -> forall data, read_uncompressed h p data = Ok data /\ hashed h p data = Ok data) /\
  (forall vs, words_ok vs -> let packed := map (fun v => v mod 256) vs ++ map (fun v => v / 256) vs in
    samples h (read_packed h packed) = vs /\ write_packed h (of_samples h vs) = packed) /\
  (sixteen p = true -> forall vs, words_ok vs -> hashed h p (of_samples h vs) = Ok (of_samples Little vs)).
Proof.
  split; [|split; [|split]].
  - intros S data W. now apply uncompressed_read.
  - intros A data. destruct h; [split; reflexivity|]. unfold read_uncompressed, hashed. rewrite A. split; reflexivity.
  - intros vs W. cbv zeta. split; [now apply packed_read|now apply packed_written].
  - intros S vs W. now apply hashed_same.
Qed.
Lemma pixels_refuted : exists vs, words_ok vs /\
  (exists mem, read_zstd0 Big Gray16 (of_samples Little vs) = Ok mem /\ samples Big mem <> vs) /\
  write_uncompressed Big (of_samples Big vs) <> of_samples Little vs /\
  (forall data, read_uncompressed Big Gray32Float data = Throw) /\ (forall mem, hashed Big Gray32Float mem = Throw).
Proof.
  exists [258; 3]. split; [repeat constructor; lia|]. split; [exists [2; 1; 3; 0]; split; [reflexivity|vm_compute; discriminate]|]. split; [vm_compute; discriminate|]. split; reflexivity.
Qed.
