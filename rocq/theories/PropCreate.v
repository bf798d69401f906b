(** C111: the mosaic of the command CreateCZI *)
From Coq Require Import Permutation String.
From Verif Require Import Base RectModel TextModel CodecModel CodesModel WriterModel CoordModel CoordSpec StatModel StatSpec OptsModel CreateModel CreateSpec CreateNum CreateProofs CreateStats CreateExamples.
Open Scope Z_scope.

(** Full statement of C111: for every coordinate within the bounds CreateCZI writes rows by columns sub-blocks of the size asked for, numbered line by line by
    their M-index, each moved towards the first by the overlap; together they leave no gap; the document tells what it was made with.

    The tiles, with an overlap up to 100 percent, as far as positions fit an int.  [None]: no overlap given *)
Theorem C111_mosaic_partial : forall percent rows cols w h, percent_ok percent -> fits rows cols w h ->
  exists l px py, (forall fuel, rows * cols < Z.of_nat fuel -> tiles fuel (mkTiles rows cols (overlap_of percent)) w h = Ok l) /\
    mosaic rows cols px py l /\ px 0 = 0 /\ py 0 = 0 /\
    (forall c, 0 <= c < cols -> about (share percent) c w (px c)) /\ (forall r, 0 <= r < rows -> about (share percent) r h (py r)) /\
    (forall x y, 0 <= x < px (cols - 1) + w -> 0 <= y < py (rows - 1) + h -> exists tx ty m, In (tx, ty, m) l /\ tx <= x < tx + w /\ ty <= y < ty + h) /\
    (percent = None -> (forall c, 0 <= c < cols -> px c = c * w) /\ forall r, 0 <= r < rows -> py r = r * h).
Proof. exact tiles_mosaic. Qed.
Print Assumptions C111_mosaic_partial.
Example C111_mosaic_meets : percent_ok (Some 10) /\ fits 2 3 100 50 /\
  tiles 7 ex_tiles 100 50 = Ok [(0, 0, 0); (90, 0, 1); (180, 0, 2); (0, 45, 3); (90, 45, 4); (180, 45, 5)].
Proof. exact ex_tiles_list. Qed.
Example C111_rounding : tiles 5 (mkTiles 1 4 (overlap_of (Some 33))) 25 25 = Ok [(0, 0, 0); (17, 0, 1); (34, 0, 2); (50, 0, 3)].
Proof. exact ex_rounding. Qed.

(** Every coordinate, every tile, once; no addition is refused by the directory of the writer *)
Theorem C111_complete_partial : forall percent rows cols w h pt b mode comp, percent_ok percent -> fits rows cols w h -> box_fits b -> stored_as mode comp ->
  exists n es l b', (forall fuel, (n <= fuel)%nat -> create_czi fuel mode b (mkTiles rows cols (overlap_of percent)) w h pt = Ok es) /\
    (forall fuel, (n <= fuel)%nat -> tiles fuel (mkTiles rows cols (overlap_of percent)) w h = Ok l) /\
    and_channel b b' /\ complete b' w h l es /\ all_different (sb_less false) (map as_entry es) /\ Forall (fun e => e_pt e = pt /\ e_comp e = comp) es.
Proof. exact create_complete_as. Qed.
Print Assumptions C111_complete_partial.
Example C111_complete_meets : box_fits ex_times /\ create_czi 9 CompInvalid ex_times (mkTiles 1 2 (overlap_of None)) 100 50 0 =
  Ok [mkSbe (cz2 3) 0 0 0 100 50 100 50 0 0 0 0; mkSbe (cz2 3) 1 100 0 100 50 100 50 0 0 0 0;
      mkSbe (cz2 4) 0 0 0 100 50 100 50 0 0 0 0; mkSbe (cz2 4) 1 100 0 100 50 100 50 0 0 0 0].
Proof. exact ex_created. Qed.

(** What the statistics of the document tell, in whatever order and at whatever places of the file the sub-blocks are *)
Theorem C111_statistics_partial : forall rows cols w h pt b mode comp, fits rows cols w h -> box_fits b -> stored_as mode comp ->
  exists n es b', (forall fuel, (n <= fuel)%nat -> create_czi fuel mode b (mkTiles rows cols (overlap_of None)) w h pt = Ok es) /\ and_channel b b' /\
    forall es', Permutation es (map (fun e => with_pos e 0) es') -> exists u, open_stats es' = Ok u /\ st_count (get_stats u) = Z.of_nat (List.length es) /\
      st_box (get_stats u) = mkRect 0 0 (cols * w) (rows * h) /\ st_box0 (get_stats u) = mkRect 0 0 (cols * w) (rows * h) /\
      st_minm (get_stats u) = 0 /\ st_maxm (get_stats u) = rows * cols - 1 /\ forall d, In d dims -> tget (st_dims (get_stats u)) d = tget b' d.
Proof. exact create_statistics_as. Qed.
Print Assumptions C111_statistics_partial.

(** Without tiles asked for there is one, at the origin and with M-index 0, at every coordinate *)
Theorem C111_single_partial : forall t w h pt b mode comp, ti_rows t = 0 \/ ti_cols t = 0 -> fits 1 1 w h -> box_fits b -> stored_as mode comp ->
  exists n es b', (forall fuel, (n <= fuel)%nat -> create_czi fuel mode b t w h pt = Ok es) /\
    and_channel b b' /\ complete b' w h [(0, 0, 0)] es /\ all_different (sb_less false) (map as_entry es) /\ Forall (fun e => e_pt e = pt /\ e_comp e = comp) es.
Proof. exact create_single. Qed.
Print Assumptions C111_single_partial.
Example C111_single_meets : create_czi 9 Zstd1 ex_times (mkTiles 0 0 (overlap_of None)) 100 50 0 =
  Ok [mkSbe (cz2 3) 0 0 0 100 50 100 50 0 0 6 0; mkSbe (cz2 4) 0 0 0 100 50 100 50 0 0 6 0].
Proof. exact ex_single. Qed.

(** false: with 2^32 tiles or more the tool goes on for ever *)
Theorem C111_endless_refuted : forall rows cols w h, 0 < rows < 2 ^ 32 -> 0 < cols < 2 ^ 32 -> 2 ^ 32 <= rows * cols ->
  forall fuel, tiles fuel (mkTiles rows cols (overlap_of None)) w h = OutOfFuel.
Proof. exact endless. Qed.
Print Assumptions C111_endless_refuted.
(** false: positions beyond 2^31 come back: the fourth tile is at 2 *)
Theorem C111_far_refuted : tiles 5 (mkTiles 1 4 (overlap_of None)) 1431655766 1 = Ok [(0, 0, 0); (1431655766, 0, 1); (-1431655764, 0, 2); (2, 0, 3)].
Proof. exact far_tiles. Qed.
Print Assumptions C111_far_refuted.
(** false: with the options "jpgxr:" and "jpg:", which are accepted, no sub-block is written *)
Theorem C111_nothing_refuted : parse_options (txt "jpgxr:") = Ok (JpgXr, mkP None false) /\ parse_options (txt "jpg:") = Ok (Jpg, mkP None false) /\
  create_czi 9 JpgXr ex_times (mkTiles 1 2 (overlap_of None)) 100 50 0 = Ok [] /\ create_czi 9 Jpg ex_times (mkTiles 1 2 (overlap_of None)) 100 50 0 = Ok [].
Proof. exact nothing_written. Qed.
Print Assumptions C111_nothing_refuted.
(** false: the comment of the document tells 52 percent where 53 were asked for *)
Theorem C111_comment_refuted : overlap_text (overlap_of (Some 10)) = Ok 10 /\ overlap_text (overlap_of (Some 53)) = Ok 52 /\ overlap_text (overlap_of (Some 59)) = Ok 58.
Proof. exact other_overlap. Qed.
Print Assumptions C111_comment_refuted.
