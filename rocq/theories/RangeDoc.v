(** Lemmas: ranges and lists of numbers of channels in a document. *)
From Coq Require Import String QArith Qabs Lqa Floats.SpecFloat.
From Verif Require Import Base TextModel TextProofs XmlModel XmlSpec XmlPaths XmlNumbers FloatProofs SFloatProofs ScaleModel ScaleNum NumModel NumSpec NumProofs NumText NumRound NumNode DocModel DocSpec DocDims DispPoints RangeModel RangeSpec RangeProofs RangeDbl.
Open Scope Z_scope.

Lemma squeezed_iff s t : squeezed s t <-> t = remove_spaces s.
Proof.
  split.
  - induction 1 as [|c s t H _ IH|c s t H _ IH]; [reflexivity| |]; unfold remove_spaces in *; cbn [filter].
    + replace (negb (is_space c)) with false by (unfold is_space; lia). exact IH.
    + replace (negb (is_space c)) with true by (unfold is_space; lia). now rewrite IH.
  - intros ->. induction s as [|c s IH]; [constructor|]. unfold remove_spaces in *. cbn [filter]. destruct (is_space c) eqn:E; cbn [negb]; constructor; try exact IH; unfold is_space in E; lia.
Qed.
(** ** exposure times *)
Lemma natural_some v : ~ natural [] v.
Proof. intros (p & ds & _ & E & _ & Nd & _). symmetry in E. apply app_eq_nil in E. destruct E. congruence. Qed.
Lemma range_text_some {V} (f n : str -> V -> Prop) h : (forall v, ~ f [] v) -> ~ range_text f n [] h.
Proof.
  intros F H. remember [] as s eqn:E. destruct H as [a v H|a v H|b w H|a b v w H H2]; subst; try discriminate; [now apply F in H| |]; apply app_eq_nil in E; destruct E; discriminate.
Qed.
Definition triple {A} (r : range A) : bool * A * A := (r_single r, r_start r, r_end r).
Theorem exposure_iff n c s b x y : descend [txt "ExposureTime"] n = Some c -> squeezed (text c) s ->
  (exposure_time n = Some (mkR b x y) <-> exists h, range_text natural wrapped s h /\ (b, x, y) = reported_natural h).
Proof.
  intros D S. apply squeezed_iff in S. unfold exposure_time. rewrite D, <- S. assert (O : no_space s) by (rewrite S; apply remove_no_space).
  assert (G : range_u64 s = Some (mkR b x y) <-> exists h, range_text natural wrapped s h /\ (b, x, y) = reported_natural h).
  { rewrite (u64_range_iff s _ O). split; intros (h & H & E); exists h; (split; [exact H|]); destruct h; cbn in *; congruence. }
  destruct s as [|e s]; [|exact G]. split; [discriminate|]. intros (h & H & _). now destruct (range_text_some natural wrapped h natural_some).
Qed.
Theorem exposure_absent n : descend [txt "ExposureTime"] n = None -> exposure_time n = None.
Proof. unfold exposure_time. now intros ->. Qed.

(** ** wavelengths *)
Lemma min_value : (sfQ DBL_MIN == b2 (-1022))%Q.
Proof. vm_compute. reflexivity. Qed.
Lemma dbl_sound s r : no_space s -> range_dbl s = Some r -> exists h, range_text positive real s h /\ reported_real (r_single r) (r_start r) (r_end r) h.
Proof.
  intros O H. apply dbl_range_iff in H; [|exact O]. destruct H as (h & H & ->).
  destruct (range_text_impl _ _ positive real nearest s h plain_positive dnum_real H) as (k & T & R). exists k. split; [exact T|].
  destruct h, k; try contradiction; cbn [value_of r_single r_start r_end reported_real].
  - now split.
  - split; [reflexivity|]. split; [exact R|reflexivity].
  - split; [reflexivity|]. split; [exact min_value|exact R].
  - destruct R. auto.
Qed.
Lemma positive_first a v : positive a v -> match a with c :: _ => c <> 45 | [] => True end.
Proof.
  intros (p & t & M & K & Hp & -> & D & _). destruct (decimal_head _ _ _ D) as (c & r & -> & Hc). destruct Hp as [->| ->]; cbn [app]; [|lia]. unfold is_digit in Hc. lia.
Qed.
Lemma dbl_complete s h : no_space s -> range_text positive real s h -> each usual h -> exists r, range_dbl s = Some r /\ reported_real (r_single r) (r_start r) (r_end r) h.
Proof.
  intros O T U. assert (F : forall a v, positive a v -> usual v -> exists x, plain dnum a x /\ nearest x v).
  { intros a v P Uv. destruct (real_dnum a v (or_introl P) Uv) as (x & X & Y). exists x. split; [split; [exact X|exact (positive_first a v P)]|exact Y]. }
  assert (G : forall k, range_text (plain dnum) dnum s k -> range_dbl s = Some (value_of DBL_MIN DBL_MAX S754_nan k)) by (intros k K; apply dbl_range_iff; [exact O|]; now exists k).
  destruct T as [a v P|a v P|b w R|a b v w P R]; cbn [each] in U.
  - destruct (F a v P U) as (x & X & Y). eexists. split; [apply G; exact (only_text _ _ a x X)|]. cbn [value_of r_single r_start r_end reported_real]. auto.
  - destruct (F a v P U) as (x & X & Y). eexists. split; [apply G; exact (from_text _ _ a x X)|]. cbn [value_of r_single r_start r_end reported_real]. auto.
  - destruct (real_dnum b w R U) as (x & X & Y). eexists. split; [apply G; exact (upto_text _ _ b x X)|]. cbn [value_of r_single r_start r_end reported_real]. split; [reflexivity|]. split; [exact min_value|exact Y].
  - destruct U as (U1 & U2). destruct (F a v P U1) as (x & X & Y). destruct (real_dnum b w R U2) as (x2 & X2 & Y2). eexists. split; [apply G; exact (between_text _ _ a b x x2 X X2)|]. cbn [value_of r_single r_start r_end reported_real]. auto.
Qed.
Definition part_text (p : str) (h : shape Q) : Prop := exists s, squeezed p s /\ range_text positive real s h.
Definition nonblank (l : list str) : list str := filter (fun p => match p with [] => false | _ => true end) l.
Lemma parts_of parts t : parts <> [] -> (forall p c, In p parts -> In c p -> c <> 44) -> t = join 44 parts -> split_tokens 44 t = nonblank parts.
Proof.
  intros N H ->. unfold split_tokens. rewrite tokens_join; [reflexivity|reflexivity|exact N|]. intros p c I J. specialize (H p c I J). lia.
Qed.
Lemma nonblank_nil n : descend [txt "SinglePeak"] n = None -> forall c, descend [txt "Ranges"] n = Some c -> split_tokens 44 (text c) = [] -> get_spectrum n = None.
Proof. intros P c D E. unfold get_spectrum. now rewrite P, D, E. Qed.
Theorem bands_sound n c parts l : descend [txt "SinglePeak"] n = None -> descend [txt "Ranges"] n = Some c -> parts <> [] ->
  (forall p d, In p parts -> In d p -> d <> 44) -> text c = join 44 parts -> get_spectrum n = Some l ->
  exists rs, l = Bands rs /\ rs <> [] /\ Forall2 (fun p r => exists h, part_text p h /\ reported_real (r_single r) (r_start r) (r_end r) h) (nonblank parts) rs.
Proof.
  intros P D N H E. unfold get_spectrum. rewrite P, D, (parts_of parts (text c) N H E). set (ps := nonblank parts). clearbody ps.
  assert (G : forall rs, all_ranges (map remove_spaces ps) = Some rs -> Forall2 (fun p r => exists h, part_text p h /\ reported_real (r_single r) (r_start r) (r_end r) h) ps rs).
  { induction ps as [|p ps IH]; intros rs; cbn [map all_ranges]; [intros [= <-]; constructor|]. destruct (range_dbl (remove_spaces p)) as [r|] eqn:R; [|discriminate].
    destruct (all_ranges (map remove_spaces ps)) as [rs'|]; [|discriminate]. intros [= <-]. constructor; [|now apply IH].
    destruct (dbl_sound _ _ (remove_no_space p) R) as (h & T & A). exists h. split; [|exact A]. exists (remove_spaces p). split; [now apply squeezed_iff|exact T]. }
  destruct ps as [|p ps]; [discriminate|]. destruct (all_ranges (map remove_spaces (p :: ps))) as [rs|] eqn:A; [|discriminate]. intros [= <-]. exists rs. split; [reflexivity|]. specialize (G rs eq_refl). split; [|exact G]. intros ->. inversion G.
Qed.
Theorem bands_complete n c parts hs : descend [txt "SinglePeak"] n = None -> descend [txt "Ranges"] n = Some c -> parts <> [] ->
  (forall p d, In p parts -> In d p -> d <> 44) -> text c = join 44 parts -> nonblank parts <> [] -> Forall2 part_text (nonblank parts) hs -> Forall (each usual) hs ->
  exists rs, get_spectrum n = Some (Bands rs) /\ Forall2 (fun r h => reported_real (r_single r) (r_start r) (r_end r) h) rs hs.
Proof.
  intros P D N H E NB F U. unfold get_spectrum. rewrite P, D, (parts_of parts (text c) N H E). set (ps := nonblank parts) in *. clearbody ps.
  assert (G : exists rs, all_ranges (map remove_spaces ps) = Some rs /\ Forall2 (fun r h => reported_real (r_single r) (r_start r) (r_end r) h) rs hs).
  { clear NB. revert U. induction F as [|p h ps hs (s & Sq & T) _ IH]; intros U; [exists []; split; [reflexivity|constructor]|]. apply Forall_cons_iff in U. destruct U as (U1 & U2).
    destruct (IH U2) as (rs & A & B). apply squeezed_iff in Sq. subst s. destruct (dbl_complete _ h (remove_no_space p) T U1) as (r & R & Q). exists (r :: rs). cbn [map all_ranges]. rewrite R, A. split; [reflexivity|now constructor]. }
  destruct G as (rs & A & B). destruct ps as [|p ps]; [easy|]. rewrite A. exists rs. now split.
Qed.
Theorem peak_first n c : descend [txt "SinglePeak"] n = Some c -> exists x, get_spectrum n = Some (Peak x) /\ forall (neg : bool) t M K v, text c = (if neg then [45] else []) ++ t -> decimal t M K -> (v == if neg then - (inject_Z M * ten K) else inject_Z M * ten K)%Q -> nearest x v.
Proof.
  intros D. unfold get_spectrum. rewrite D. eexists. split; [reflexivity|]. intros neg t M K v E Dc V. unfold as_dbl. rewrite E. pose proof (read_decimal neg t M K Dc) as R. cbv zeta in R. rewrite R. cbn [fst]. now apply nearest_decimal with (t := t).
Qed.

(** ** lists *)
Section Lists.
  Context {A : Type} (num : str -> option (A * str)) (N : str -> A -> Prop).
  Context (some : forall x, ~ N [] x) (nospace : forall a x c r, N a x -> a = c :: r -> ~ (9 <= c <= 13 \/ c = 32) /\ 0 <= c <= 255).
  Context (follow : forall a x r, N a x -> (r = [] \/ exists c t, r = c :: t /\ (9 <= c <= 13 \/ c = 32)) -> num (a ++ r) = Some (x, r)).
  Lemma white_skip w s : white w -> (s = [] \/ exists c t, s = c :: t /\ ~ (9 <= c <= 13 \/ c = 32) /\ 0 <= c <= 255) -> skip_white (w ++ s) = Ok s.
  Proof.
    intros W H. induction W as [|c w Hc _ IH]; cbn [app skip_white].
    - destruct H as [->|(c & t & -> & H1 & H2)]; [reflexivity|]. cbn [skip_white]. unfold c_isspace. destruct ((c <? -1) || (255 <? c)) eqn:E; [lia|]. cbn [bind]. replace (is_space c) with false by (unfold is_space; lia). reflexivity.
    - unfold c_isspace. destruct ((c <? -1) || (255 <? c)) eqn:E; [lia|]. cbn [bind]. replace (is_space c) with true by (unfold is_space; lia). exact IH.
  Qed.
  Lemma list_first s l : list_text N s l -> exists c t, s = c :: t /\ ~ (9 <= c <= 13 \/ c = 32) /\ 0 <= c <= 255.
  Proof.
    intros H. assert (G : forall a v r, N a v -> exists c t, a ++ r = c :: t /\ ~ (9 <= c <= 13 \/ c = 32) /\ 0 <= c <= 255).
    { intros a v r Hv. destruct a as [|c a]; [now apply some in Hv|]. exists c, (a ++ r). split; [reflexivity|]. eapply nospace; [exact Hv|reflexivity]. }
    destruct H as [a v Hv|a w v Hv _ _|a w s v l Hv _ _ _]; [rewrite <- (app_nil_r a)| |]; eapply G; exact Hv.
  Qed.
  Theorem list_read s l : list_text N s l -> forall f, (length l <= f)%nat -> parse_array num f s = Ok l.
  Proof.
    assert (NE : forall a r, (exists v, N a v) -> a ++ r <> []) by (intros [|c a] r (v & H); [now apply some in H|discriminate]).
    induction 1 as [a v Hv|a w v Hv Nw W|a w s v l Hv Nw W Hs IH]; intros f L; (destruct f as [|f]; [cbn in L; lia|]); cbn [parse_array].
    - rewrite <- (app_nil_r a). destruct (a ++ []) eqn:E; [exfalso; apply (NE a []); eauto|]. rewrite <- E. rewrite (follow a v [] Hv) by now left. reflexivity.
    - destruct w as [|c w]; [easy|]. destruct (a ++ c :: w) eqn:E; [exfalso; apply (NE a (c :: w)); eauto|]. rewrite <- E. apply Forall_cons_iff in W. destruct W as (Hc & W).
      rewrite (follow a v (c :: w) Hv) by (right; now exists c, w). unfold c_isspace. destruct ((c <? -1) || (255 <? c)) eqn:B; [lia|]. cbn [bind]. replace (is_space c) with true by (unfold is_space; lia).
      rewrite <- (app_nil_r w), (white_skip w [] W) by now left. cbn [bind]. destruct f; reflexivity.
    - destruct w as [|c w]; [easy|]. destruct (a ++ (c :: w) ++ s) eqn:E; [exfalso; apply (NE a ((c :: w) ++ s)); eauto|]. rewrite <- E. apply Forall_cons_iff in W. destruct W as (Hc & W).
      rewrite (follow a v ((c :: w) ++ s) Hv) by (right; now exists c, (w ++ s)). cbn [app]. unfold c_isspace. destruct ((c <? -1) || (255 <? c)) eqn:B; [lia|]. cbn [bind]. replace (is_space c) with true by (unfold is_space; lia).
      rewrite (white_skip w s W) by (right; exact (list_first s l Hs)). cbn [bind]. rewrite (IH f) by (cbn in L; lia). reflexivity.
  Qed.
  Lemma list_length s l : list_text N s l -> (length l <= length s)%nat.
  Proof.
    induction 1 as [a v Hv|a w v Hv Nw W|a w s v l Hv Nw W Hs IH].
    - destruct a; [now apply some in Hv|]. cbn. lia.
    - rewrite app_length. destruct w; [easy|]. cbn. lia.
    - rewrite !app_length. destruct w; [easy|]. cbn [length]. lia.
  Qed.
  Lemma skip_white_bytes s : (forall c, In c s -> 0 <= c <= 255) -> exists t, skip_white s = Ok t /\ (length t <= length s)%nat /\ forall c, In c t -> In c s.
  Proof.
    induction s as [|c s IH]; intros H; cbn [skip_white]; [exists []; auto|]. unfold c_isspace. destruct ((c <? -1) || (255 <? c)) eqn:B; [specialize (H c (or_introl eq_refl)); lia|]. cbn [bind].
    destruct (is_space c); [|exists (c :: s); auto]. destruct IH as (t & E & L & I); [intros d J; apply H; now right|]. exists t. split; [exact E|]. split; [cbn; lia|]. intros d J. right. now apply I.
  Qed.
  Context (shorter : forall s x r, num s = Some (x, r) -> (length r < length s)%nat).
  Context (rest_of : forall s x r, num s = Some (x, r) -> exists a, s = a ++ r).
  Theorem list_total f : forall s, (length s <= f)%nat -> (forall c, In c s -> 0 <= c <= 255) -> exists l, parse_array num f s = Ok l.
  Proof.
    induction f as [|f IH]; intros [|c s] L B; cbn [parse_array]; [now exists []|cbn in L; lia|now exists []|]. destruct (num (c :: s)) as [[x [|d t]]|] eqn:E; [now exists [x]| |now exists []].
    pose proof (shorter _ _ _ E) as S1. destruct (rest_of _ _ _ E) as (a & R). assert (Bt : forall e, In e (d :: t) -> 0 <= e <= 255) by (intros e I; apply B; rewrite R; apply in_app_iff; now right).
    unfold c_isspace. destruct ((d <? -1) || (255 <? d)) eqn:X; [specialize (Bt d (or_introl eq_refl)); lia|]. cbn [bind]. destruct (is_space d); [|now exists []].
    destruct (skip_white_bytes t) as (t2 & E2 & L2 & I2); [intros e I; apply Bt; now right|]. rewrite E2. cbn [bind]. destruct (IH t2) as (l & El); [cbn in *; lia|intros e I; apply Bt; right; now apply I2|]. rewrite El. cbn [bind]. now exists (x :: l).
  Qed.
End Lists.
Lemma dnum_first a x c r : dnum a x -> a = c :: r -> ~ (9 <= c <= 13 \/ c = 32) /\ 0 <= c <= 255.
Proof.
  intros (sg & neg & t & M & K & Hs & -> & D & _) E. destruct (decimal_head _ _ _ D) as (d & q & -> & Hd). destruct Hs as [(-> & _)|[(-> & _)|(-> & _)]]; cbn [app] in E; injection E as <- _; unfold is_digit in Hd; lia.
Qed.
Lemma dnum_follow a x r : dnum a x -> (r = [] \/ exists c t, r = c :: t /\ (9 <= c <= 13 \/ c = 32)) -> stod_caught (a ++ r) = Some (x, r).
Proof. intros D H. apply stod_follow; [exact D|]. destruct H as [->|(c & t & -> & H)]; cbn; [exact I|]. unfold is_digit. repeat split; lia. Qed.
Lemma stod_shorter2 s x r : stod_caught s = Some (x, r) -> (length r < length s)%nat.
Proof. unfold stod_caught. destruct (stod s) as [o| | |] eqn:E; try discriminate. intros ->. now apply stod_shorter in E. Qed.
Lemma stod_rest s x r : stod_caught s = Some (x, r) -> exists a, s = a ++ r.
Proof.
  unfold stod_caught, stod. destruct (strtod s) as [y k]. destruct k as [|k]; [discriminate|]. destruct (_ || _); [discriminate|]. intros H. assert (R : r = skipn (S k) s) by congruence. exists (firstn (S k) s). rewrite R. now rewrite firstn_skipn.
Qed.
Lemma list_real s vs : list_text real s vs -> Forall usual vs -> exists xs, list_text dnum s xs /\ Forall2 nearest xs vs.
Proof.
  induction 1 as [a v Hv|a w v Hv Nw W|a w s v l Hv Nw W Hs IH]; intros U; apply Forall_cons_iff in U; destruct U as (U & U2); destruct (real_dnum a v Hv U) as (x & X & Y).
  - exists [x]. split; [now constructor|]. constructor; [exact Y|constructor].
  - exists [x]. split; [now constructor|]. constructor; [exact Y|constructor].
  - destruct (IH U2) as (xs & X2 & Y2). exists (x :: xs). split; [now constructor|now constructor].
Qed.
Theorem double_list_read s vs : list_text real s vs -> Forall usual vs -> exists xs, double_array s = Ok xs /\ Forall2 nearest xs vs.
Proof.
  intros T U. destruct (list_real s vs T U) as (xs & X & Y). exists xs. split; [|exact Y]. apply (list_read stod_caught dnum dnum_some dnum_first dnum_follow s xs X). eapply (list_length stod_caught dnum); try exact X; [exact dnum_some|exact dnum_first|exact dnum_follow].
Qed.
Theorem double_list_total s : (forall c, In c s -> 0 <= c <= 255) -> exists l, double_array s = Ok l.
Proof. intros B. eapply (list_total stod_caught dnum); eauto using dnum_some, dnum_first, dnum_follow, stod_shorter2, stod_rest. Qed.
(** integers *)
Lemma integer_some v : ~ integer [] v.
Proof. intros (p & ds & _ & E & _ & Nd & _). symmetry in E. apply app_eq_nil in E. destruct E. congruence. Qed.
Lemma integer_first a v c r : integer a v -> a = c :: r -> ~ (9 <= c <= 13 \/ c = 32) /\ 0 <= c <= 255.
Proof.
  intros (p & ds & Hp & -> & D & Nd & _) E. destruct ds as [|d ds]; [easy|]. apply Forall_cons_iff in D. destruct D as (D & _). destruct Hp as [->|[->| ->]]; cbn [app] in E; injection E as <- _; lia.
Qed.
Lemma integer_follow a v r : integer a v -> (r = [] \/ exists c t, r = c :: t /\ (9 <= c <= 13 \/ c = 32)) -> stoi (a ++ r) = Some (v, r).
Proof.
  intros (p & ds & Hp & -> & D & Nd & V & B) H. assert (St : stops is_digit r) by (destruct H as [->|(c & t & -> & H)]; [exact I|cbn; unfold is_digit; lia]).
  assert (E : number ((p ++ ds) ++ r) = Some (if list_eq_dec Z.eq_dec p [45] then true else false, dval ds, r)).
  { apply number_iff. exists (p ++ ds). split; [reflexivity|]. split; [|exact St]. exists [], p, ds. split; [reflexivity|]. split; [intros c []|].
    split; [destruct Hp as [->|[->| ->]]; cbn; auto|]. split; [exact Nd|]. split; [now apply digits_iff|reflexivity]. }
  unfold stoi, conv_signed. rewrite E. cbv zeta. assert (V2 : v = if (if list_eq_dec Z.eq_dec p [45] then true else false) then - dval ds else dval ds) by (rewrite V; destruct (list_eq_dec Z.eq_dec p [45]); reflexivity).
  rewrite <- V2. destruct ((INT_MIN <=? v) && (v <=? INT_MAX)) eqn:X; [reflexivity|]. unfold INT_MIN, INT_MAX in X. lia.
Qed.
Lemma stoi_rest s x r : stoi s = Some (x, r) -> exists a, s = a ++ r /\ a <> [].
Proof.
  unfold stoi, conv_signed. destruct (number s) as [[[neg m] r0]|] eqn:E; [|discriminate]. apply number_iff in E. destruct E as (a & -> & (w & sg & ds & -> & _ & _ & Nd & _) & _). cbv zeta. destruct (_ && _); [|discriminate]. intros [= _ <-].
  exists (w ++ sg ++ ds). split; [reflexivity|]. destruct w; [|discriminate]. destruct sg; [exact Nd|discriminate].
Qed.
Theorem int_list_read s vs : list_text integer s vs -> int_array s = Ok vs.
Proof. intros T. apply (list_read stoi integer integer_some integer_first integer_follow s vs T). eapply (list_length stoi integer); try exact T; [exact integer_some|exact integer_first|exact integer_follow]. Qed.
Theorem int_list_total s : (forall c, In c s -> 0 <= c <= 255) -> exists l, int_array s = Ok l.
Proof.
  intros B. eapply (list_total stoi integer); eauto using integer_some, integer_first, integer_follow.
  - intros t x r H. apply stoi_rest in H. destruct H as (a & -> & Na). rewrite app_length. destruct a; [easy|]. cbn. lia.
  - intros t x r H. apply stoi_rest in H. destruct H as (a & -> & _). now exists a.
Qed.
Theorem mapping_read n c vs : descend [txt "FiberMapping"] n = Some c -> list_text integer (text c) vs -> fibre_mapping n = Ok (Some vs).
Proof. intros D T. unfold fibre_mapping. rewrite D, (int_list_read _ _ T). reflexivity. Qed.
Theorem line_read name n c vs : descend [txt name] n = Some c -> list_text real (text c) vs -> Forall usual vs ->
  match vs with
  | v :: w :: _ => exists x y, line_of name n = Ok (Some (x, y)) /\ nearest x v /\ nearest y w
  | _ => line_of name n = Ok None
  end.
Proof.
  intros D T U. destruct (double_list_read _ _ T U) as (xs & R & Nr). unfold line_of. rewrite D, R. cbn [bind]. destruct Nr as [|x v xs vs N1 Nr]; [reflexivity|]. destruct Nr as [|y w xs vs N2 Nr]; [reflexivity|]. exists x, y. auto.
Qed.
