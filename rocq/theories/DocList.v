(** Lemmas: a list of positions ends at the first word which is not a number as a whole. *)
From Coq Require Import String QArith Qabs Lqa Floats.SpecFloat.
From Verif Require Import Base TextModel TextProofs XmlModel XmlSpec XmlPaths PugiModel PugiSpec FloatProofs SFloatProofs ScaleModel ScaleNum NumModel NumSpec NumProofs NumText NumRound DocModel DocSpec DocScale DocDims DispModel DispSpec DispPoints.
Open Scope Z_scope.

Lemma dbl_whole x c r : ordinary x -> ends (c :: r) -> is_space c = false -> 0 <= c <= 255 -> whole (dbl_text x ++ c :: r) = Ok None.
Proof.
  intros O E Sp C. assert (R : exists y, strtod (dbl_text x) = (y, length (dbl_text x)) /\ dbl_text x <> [] /\ (tiny (dbl_text x) y || match y with S754_infinity _ => true | _ => false end) = false).
  { destruct O as [(s & ->)|(F & M)]; [exists (S754_zero s); destruct s; (split; [vm_compute; reflexivity|split; [discriminate|vm_compute; reflexivity]])|].
    destruct (write_read x F M) as (y & W & Fy & A & _). exists y. split; [exact W|]. pose proof (near_normal x y M A) as B. pose proof (normal_mantissa y Fy B) as D.
    split; [intros N; rewrite N in W; vm_compute in W; injection W as <-; destruct D|].
    destruct y as [s|s| |s m e]; [destruct D|destruct Fy; discriminate|destruct Fy; discriminate|]. cbn [tiny orb]. destruct (Z.pos m <? 2 ^ 52) eqn:X; [lia|reflexivity]. }
  destruct R as (y & R & N & T). unfold whole, stod. rewrite (strtod_more _ (c :: r) y N R E). destruct (length (dbl_text x)) as [|k] eqn:K; [now destruct (dbl_text x)|]. rewrite <- K.
  rewrite firstn_app, Nat.sub_diag, firstn_all, skipn_app, Nat.sub_diag, skipn_all. cbn [firstn skipn app]. rewrite app_nil_r, T. cbn [bind].
  unfold c_isspace. replace ((c <? -1) || (255 <? c)) with false by lia. cbn [bind]. now rewrite Sp.
Qed.
Theorem positions_end n o l x c r rest : descend [txt "Positions"; txt "Interval"] n = None -> descend [txt "Positions"; txt "List"; txt "Offsets"] n = Some o ->
  Forall ordinary l -> ordinary x -> ends (c :: r) -> is_space c = false -> 0 <= c <= 255 -> ~ In 32 (c :: r) -> (forall s, In s rest -> ~ In 32 s) ->
  text o = join 32 (map dbl_text l ++ (dbl_text x ++ c :: r) :: rest) -> exists ys, get_positions n = Ok (PosList ys) /\ Forall2 close l ys.
Proof.
  intros H1 H2 Ol Ox E Sp C Nr Ns T.
  assert (S0 : split_tokens 32 (text o) = map dbl_text l ++ (dbl_text x ++ c :: r) :: filter nonempty rest).
  { unfold split_tokens. rewrite T, tokens_join; [|reflexivity|now destruct (map dbl_text l)|].
    - rewrite filter_app. cbn [filter]. replace (nonempty (dbl_text x ++ c :: r)) with true by (destruct (dbl_text x); reflexivity). f_equal.
      clear - Ol. induction Ol as [|y l Oy _ IH]; [reflexivity|]. cbn [map filter]. rewrite IH. destruct (whole_dbl y Oy) as (N & _). now destruct (dbl_text y).
    - intros s d I J. apply in_app_or in I. destruct I as [I|[<-|I]].
      + apply in_map_iff in I. destruct I as (y & <- & _). now apply (dbl_no_space y).
      + apply in_app_or in J. destruct J as [J|J]; [now apply (dbl_no_space x)|]. destruct (d =? 32) eqn:X; [|reflexivity]. apply Z.eqb_eq in X. subst d. contradiction.
      + destruct (d =? 32) eqn:X; [|reflexivity]. apply Z.eqb_eq in X. subst d. now destruct (Ns s I). }
  unfold get_positions. rewrite H1, H2, S0. clear - Ol Ox E Sp C.
  assert (G : exists ys, number_list (map dbl_text l ++ (dbl_text x ++ c :: r) :: filter nonempty rest) = Ok ys /\ Forall2 close l ys).
  { induction Ol as [|y l Oy _ (ys & IH1 & IH2)]; cbn [map app number_list].
    - rewrite dbl_whole by assumption. cbn [bind]. exists []. split; [reflexivity|constructor].
    - destruct (whole_dbl y Oy) as (_ & z & W & Cz). rewrite W. cbn [bind]. rewrite IH1. cbn [bind]. exists (z :: ys). split; [reflexivity|now constructor]. }
  destruct G as (ys & -> & F). exists ys. now split.
Qed.
