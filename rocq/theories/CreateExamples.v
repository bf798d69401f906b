(** Mosaics: cases, and where the command CreateCZI goes wrong. *)
From Coq Require Import Floats.SpecFloat String.
From Verif Require Import Base RectModel TextModel CodecModel CodesModel WriterModel CoordModel CoordSpec StatModel PixelModel OptsModel FloatProofs CreateModel CreateSpec CreateNum CreateProofs.
Open Scope Z_scope.

(** "2x3;10%" with tiles of 100 by 50 *)
Definition ex_tiles : tile_info := mkTiles 2 3 (overlap_of (Some 10)).
Lemma ex_tiles_list : percent_ok (Some 10) /\ fits 2 3 100 50 /\
  tiles 7 ex_tiles 100 50 = Ok [(0, 0, 0); (90, 0, 1); (180, 0, 2); (0, 45, 3); (90, 45, 4); (180, 45, 5)].
Proof. split; [cbn; lia|]. split; [unfold fits, INT_MAX; lia|]. vm_compute. reflexivity. Qed.
(** 33 % of 25 pixels are 8.25 pixels, of 50 pixels 16.5 (to even), of 75 pixels 24.75 *)
Lemma ex_rounding : tiles 5 (mkTiles 1 4 (overlap_of (Some 33))) 25 25 = Ok [(0, 0, 0); (17, 0, 1); (34, 0, 2); (50, 0, 3)].
Proof. vm_compute. reflexivity. Qed.

(** times 3 and 4; there is no C in the bounds *)
Definition ex_times : bounds := tset empty_table 3 (3, 2).
Definition cz2 (t : Z) : CodecModel.coord := [None; Some 0; Some t; None; None; None; None; None; None].
Lemma ex_created : box_fits ex_times /\ create_czi 9 CompInvalid ex_times (mkTiles 1 2 (overlap_of None)) 100 50 0 =
  Ok [mkSbe (cz2 3) 0 0 0 100 50 100 50 0 0 0 0; mkSbe (cz2 3) 1 100 0 100 50 100 50 0 0 0 0;
      mkSbe (cz2 4) 0 0 0 100 50 100 50 0 0 0 0; mkSbe (cz2 4) 1 100 0 100 50 100 50 0 0 0 0].
Proof.
  split; [|vm_compute; reflexivity]. split; [split; [reflexivity|]|]; intros d st sz Hd E;
    cbn in Hd; repeat (destruct Hd as [<-|Hd]; [cbn in E; try discriminate E; injection E as <- <-; unfold in_i32, INT_MIN, INT_MAX; lia|]); destruct Hd.
Qed.
Lemma ex_single : create_czi 9 Zstd1 ex_times (mkTiles 0 0 (overlap_of None)) 100 50 0 =
  Ok [mkSbe (cz2 3) 0 0 0 100 50 100 50 0 0 6 0; mkSbe (cz2 4) 0 0 0 100 50 100 50 0 0 6 0].
Proof. vm_compute. reflexivity. Qed.

(** the counter of the tiles has 32 bits: more tiles are never counted to the end *)
Lemma tile_pos_none k size : exists x, tile_pos k size (overlap_of None) = Ok x.
Proof.
  unfold tile_pos. change (f32_mul (f32_of_Z (u32 (k * size))) (overlap_of None)) with (back None (u32 (k * size))).
  rewrite back_0 by (unfold u32; apply Z.mod_pos_bound; lia). cbn [lrint bind]. eauto.
Qed.
Lemma endless rows cols w h : 0 < rows < 2 ^ 32 -> 0 < cols < 2 ^ 32 -> 2 ^ 32 <= rows * cols ->
  forall fuel, tiles fuel (mkTiles rows cols (overlap_of None)) w h = OutOfFuel.
Proof.
  intros R C B fuel. unfold tiles. assert (G : forall k, 0 <= k < 2 ^ 32 -> tiles_from fuel (mkTiles rows cols (overlap_of None)) w h k = OutOfFuel); [|apply G; lia].
  induction fuel as [|fuel IH]; intros k K; [reflexivity|]. cbn [tiles_from]. unfold get_pos_and_m, ti_valid. cbn [ti_rows ti_cols].
  replace ((0 <? rows) && (0 <? cols)) with true by lia. unfold calc_tile_position. cbn [ti_rows ti_cols ti_overlap].
  pose proof (Z.div_mod k cols ltac:(lia)) as D. pose proof (Z.mod_pos_bound k cols ltac:(lia)) as M.
  assert (Q : 0 <= k / cols < rows) by (split; [apply Z.div_pos; lia|apply Z.div_lt_upper_bound; lia]).
  assert (0 <= k / cols * cols <= k) by nia.
  replace (u32 (k / cols * cols)) with (k / cols * cols) by (unfold u32; symmetry; apply Z.mod_small; lia).
  replace (k - k / cols * cols) with (k mod cols) by lia.
  replace (u32 (k mod cols)) with (k mod cols) by (unfold u32; symmetry; apply Z.mod_small; lia).
  replace ((rows <=? k / cols) || (cols <=? k mod cols)) with false by lia.
  destruct (tile_pos_none (k mod cols) w) as [x ->]. destruct (tile_pos_none (k / cols) h) as [y ->]. cbn [bind].
  rewrite IH by (unfold u32; apply Z.mod_pos_bound; lia). reflexivity.
Qed.

(** beyond the range of int the tiles come back *)
Lemma far_tiles : tiles 5 (mkTiles 1 4 (overlap_of None)) 1431655766 1 = Ok [(0, 0, 0); (1431655766, 0, 1); (-1431655764, 0, 2); (2, 0, 3)].
Proof. vm_compute. reflexivity. Qed.

(** the options name two modes of compression in which nothing is written *)
Lemma nothing_written : parse_options (txt "jpgxr:") = Ok (JpgXr, mkP None false) /\ parse_options (txt "jpg:") = Ok (Jpg, mkP None false) /\
  create_czi 9 JpgXr ex_times (mkTiles 1 2 (overlap_of None)) 100 50 0 = Ok [] /\ create_czi 9 Jpg ex_times (mkTiles 1 2 (overlap_of None)) 100 50 0 = Ok [].
Proof. split; [|split; [|split]]; vm_compute; reflexivity. Qed.

(** the comment in the document tells another overlap *)
Lemma other_overlap : overlap_text (overlap_of (Some 10)) = Ok 10 /\ overlap_text (overlap_of (Some 53)) = Ok 52 /\ overlap_text (overlap_of (Some 59)) = Ok 58.
Proof. vm_compute. auto. Qed.
