(** The JSON reader accepts the JSON texts, with their values (JsonModel, JsonSpec). *)
From Coq Require Import String Floats.SpecFloat.
From Verif Require Import Base CodecModel TextModel TextProofs PugiModel DateModel StatModel DocModel GuidModel JsonModel JsonSpec JsonProofs.
Open Scope Z_scope.
Local Open Scope list_scope.

Lemma value_S n s : value (S n) s =
    match s with
    | [] => None
    | c :: r =>
      if c =? 123 then
        match strip [125] (skip_ws r) with
        | Some r1 => Some (VObj [], r1)
        | None => match members n (skip_ws r) with Some (l, r1) => Some (VObj l, r1) | None => None end
        end
      else if c =? 91 then
        match strip [93] (skip_ws r) with
        | Some r1 => Some (VArr [], r1)
        | None => match elements n (skip_ws r) with Some (l, r1) => Some (VArr l, r1) | None => None end
        end
      else if c =? 34 then match jstring (S n) r with Some (t, r1) => Some (VStr t, r1) | None => None end
      else match strip (txt "null") s with
           | Some r1 => Some (VNull, r1)
           | None => match strip (txt "true") s with
                     | Some r1 => Some (VBool true, r1)
                     | None => match strip (txt "false") s with Some r1 => Some (VBool false, r1) | None => number s end
                     end
           end
    end.
Proof. reflexivity. Qed.
Lemma members_S n s : members (S n) s =
    match strip [34] s with
    | None => None
    | Some r =>
      match jstring (S n) r with
      | None => None
      | Some (k, r1) =>
        match strip [58] (skip_ws r1) with
        | None => None
        | Some r2 =>
          match value n (skip_ws r2) with
          | None => None
          | Some (v, r3) =>
            match skip_ws r3 with
            | [] => None
            | c :: r4 =>
              if c =? 125 then Some ([(k, v)], r4)
              else if c =? 44 then match members n (skip_ws r4) with Some (l, r5) => Some ((k, v) :: l, r5) | None => None end
              else None
            end
          end
        end
      end
    end.
Proof. reflexivity. Qed.
Lemma elements_S n s : elements (S n) s =
    match value n s with
    | None => None
    | Some (v, r3) =>
      match skip_ws r3 with
      | [] => None
      | c :: r4 =>
        if c =? 93 then Some ([v], r4)
        else if c =? 44 then match elements n (skip_ws r4) with Some (l, r5) => Some (v :: l, r5) | None => None end
        else None
      end
    end.
Proof. reflexivity. Qed.

(** ** Soundness *)
Lemma members_lead w l t : white w -> json_members l t -> json_members l (w ++ t).
Proof. intros W H. inversion H; subst; rewrite app_assoc; constructor; auto using white_app. Qed.
Lemma elements_lead w l t : white w -> json_elements l t -> json_elements l (w ++ t).
Proof. intros W H. inversion H; subst; rewrite app_assoc; constructor; auto using white_app. Qed.
Lemma read_sound n :
  (forall s v r, value n s = Some (v, r) -> exists t, s = t ++ r /\ json_value v t) /\
  (forall s l r, members n s = Some (l, r) -> exists t, s = t ++ 125 :: r /\ json_members l t) /\
  (forall s l r, elements n s = Some (l, r) -> exists t, s = t ++ 93 :: r /\ json_elements l t).
Proof.
  induction n as [|n (IV & IM & IE)]; [repeat split; discriminate|]. split; [|split].
  - intros s v r. rewrite value_S. destruct s as [|c s]; [discriminate|]. destruct (Z.eqb_spec c 123) as [->|N1].
    { destruct (skip_spec s) as (w & E & W & _). remember (skip_ws s) as s' eqn:D. clear D. subst s.
      destruct (strip [125] s') as [r1|] eqn:S.
      - intros [= <- <-]. apply strip_iff in S. subst s'. exists (123 :: w ++ [125]). split; [cbn [app]; now rewrite <- app_assoc|]. now constructor.
      - destruct (members n s') as [[l r1]|] eqn:M; [|discriminate]. intros [= <- <-]. apply IM in M. destruct M as (t & -> & M).
        exists (123 :: (w ++ t) ++ [125]). split; [cbn [app]; now rewrite <- !app_assoc|]. constructor. now apply members_lead. }
    destruct (Z.eqb_spec c 91) as [->|N2].
    { destruct (skip_spec s) as (w & E & W & _). remember (skip_ws s) as s' eqn:D. clear D. subst s.
      destruct (strip [93] s') as [r1|] eqn:S.
      - intros [= <- <-]. apply strip_iff in S. subst s'. exists (91 :: w ++ [93]). split; [cbn [app]; now rewrite <- app_assoc|]. now constructor.
      - destruct (elements n s') as [[l r1]|] eqn:M; [|discriminate]. intros [= <- <-]. apply IE in M. destruct M as (t & -> & M).
        exists (91 :: (w ++ t) ++ [93]). split; [cbn [app]; now rewrite <- !app_assoc|]. constructor. now apply elements_lead. }
    destruct (Z.eqb_spec c 34) as [->|N3].
    { destruct (jstring (S n) s) as [[t r1]|] eqn:J; [|discriminate]. intros [= <- <-]. apply jstring_sound in J. destruct J as (k & -> & J).
      exists (34 :: k ++ [34]). split; [cbn [app]; now rewrite <- app_assoc|]. now constructor. }
    destruct (strip (txt "null") (c :: s)) as [r1|] eqn:A; [intros [= <- <-]; apply strip_iff in A; eexists; split; [exact A|constructor]|].
    destruct (strip (txt "true") (c :: s)) as [r1|] eqn:B; [intros [= <- <-]; apply strip_iff in B; eexists; split; [exact B|constructor]|].
    destruct (strip (txt "false") (c :: s)) as [r1|] eqn:F; [intros [= <- <-]; apply strip_iff in F; eexists; split; [exact F|constructor]|].
    apply number_sound.
  - intros s l r. rewrite members_S. destruct (strip [34] s) as [s1|] eqn:S; [|discriminate]. apply strip_iff in S. subst s.
    destruct (jstring (S n) s1) as [[k r1]|] eqn:J; [|discriminate]. apply jstring_sound in J. destruct J as (kt & -> & J).
    destruct (skip_spec r1) as (w1 & E1 & W1 & _). remember (skip_ws r1) as r1' eqn:D. clear D. subst r1.
    destruct (strip [58] r1') as [r2|] eqn:S; [|discriminate]. apply strip_iff in S. subst r1'.
    destruct (skip_spec r2) as (w2 & E2 & W2 & _). remember (skip_ws r2) as r2' eqn:D. clear D. subst r2.
    destruct (value n r2') as [[v r3]|] eqn:V; [|discriminate]. apply IV in V. destruct V as (t & -> & V).
    destruct (skip_spec r3) as (w3 & E3 & W3 & _). remember (skip_ws r3) as r3' eqn:D. clear D. subst r3.
    destruct r3' as [|c r4]; [discriminate|]. destruct (Z.eqb_spec c 125) as [->|N1].
    { intros [= <- <-]. exists ([] ++ 34 :: kt ++ 34 :: w1 ++ 58 :: w2 ++ t ++ w3).
      split; [cbn [app]; repeat (rewrite <- app_assoc; cbn [app]); reflexivity|]. constructor; auto. constructor. }
    destruct (Z.eqb_spec c 44) as [->|N2]; [|discriminate].
    destruct (skip_spec r4) as (w4 & E4 & W4 & _). remember (skip_ws r4) as r4' eqn:D. clear D. subst r4.
    destruct (members n r4') as [[l' r5]|] eqn:M; [|discriminate]. apply IM in M. destruct M as (u & -> & M). intros [= <- <-].
    exists ([] ++ 34 :: kt ++ 34 :: w1 ++ 58 :: w2 ++ t ++ w3 ++ 44 :: w4 ++ u).
    split; [cbn [app]; repeat (rewrite <- app_assoc; cbn [app]); reflexivity|]. constructor; auto; [constructor|]. now apply members_lead.
  - intros s l r. rewrite elements_S. destruct (value n s) as [[v r3]|] eqn:V; [|discriminate]. apply IV in V. destruct V as (t & -> & V).
    destruct (skip_spec r3) as (w3 & E3 & W3 & _). remember (skip_ws r3) as r3' eqn:D. clear D. subst r3.
    destruct r3' as [|c r4]; [discriminate|]. destruct (Z.eqb_spec c 93) as [->|N1].
    { intros [= <- <-]. exists ([] ++ t ++ w3). split; [cbn [app]; now rewrite <- app_assoc|]. constructor; auto. constructor. }
    destruct (Z.eqb_spec c 44) as [->|N2]; [|discriminate].
    destruct (skip_spec r4) as (w4 & E4 & W4 & _). remember (skip_ws r4) as r4' eqn:D. clear D. subst r4.
    destruct (elements n r4') as [[l' r5]|] eqn:M; [|discriminate]. apply IE in M. destruct M as (u & -> & M). intros [= <- <-].
    exists ([] ++ t ++ w3 ++ 44 :: w4 ++ u).
    split; [cbn [app]; repeat (rewrite <- app_assoc; cbn [app]); reflexivity|]. constructor; auto; [constructor|]. now apply elements_lead.
Qed.

(** ** Completeness *)
Scheme jv_ind3 := Induction for json_value Sort Prop
  with je_ind3 := Induction for json_elements Sort Prop
  with jm_ind3 := Induction for json_members Sort Prop.
Combined Scheme json_mutual from jv_ind3, je_ind3, jm_ind3.
(** a value begins with a character which is neither white space nor the end of an array *)
Lemma value_head v t : json_value v t -> exists c t', t = c :: t' /\ is_ws c = false /\ c <> 93.
Proof.
  destruct 1 as [| | |neg t W|neg t f e W F E N|t s T|w W|l t L|w W|l t L]; try (eexists; eexists; (split; [reflexivity|]); split; [reflexivity|lia]).
  - exists 110, (txt "ull"). split; [reflexivity|]. split; [reflexivity|lia].
  - exists 116, (txt "rue"). split; [reflexivity|]. split; [reflexivity|lia].
  - exists 102, (txt "alse"). split; [reflexivity|]. split; [reflexivity|lia].
  - destruct (whole_digit _ W) as (c & t' & -> & C). destruct neg; cbn [sign_text app]; eexists; eexists; (split; [reflexivity|]); (split; [unfold is_ws; lia|lia]).
  - destruct (whole_digit _ W) as (c & t' & -> & C). destruct neg; cbn [sign_text app]; eexists; eexists; (split; [reflexivity|]); (split; [unfold is_ws; lia|lia]).
Qed.
Lemma value_stops v t r : json_value v t -> stops is_ws (t ++ r).
Proof. intro H. destruct (value_head _ _ H) as (c & t' & -> & W & _). exact W. Qed.
Lemma num_at sg ip fp ep t r n : t = sign_text sg ++ ip ++ fp ++ ep -> whole_text ip -> fraction_text fp -> exponent_text ep -> num_stop r -> (1 <= n)%nat ->
  value n (t ++ r) = Some (number_value (sign_text sg) ip fp ep, r).
Proof.
  intros -> W F E R L. destruct n as [|n]; [lia|]. rewrite value_S.
  assert (exists c t', (sign_text sg ++ ip ++ fp ++ ep) ++ r = c :: t' /\ (c = 45 \/ 48 <= c <= 57)) as (c & t' & Q & C).
  { destruct (whole_digit _ W) as (c & t' & -> & C). destruct sg; cbn [sign_text app]; eexists; eexists; (split; [reflexivity|]); lia. }
  rewrite Q. destruct (Z.eqb_spec c 123); [lia|]. destruct (Z.eqb_spec c 91); [lia|]. destruct (Z.eqb_spec c 34); [lia|].
  change (txt "null") with (110 :: txt "ull"). rewrite strip_not by lia.
  change (txt "true") with (116 :: txt "rue"). rewrite strip_not by lia.
  change (txt "false") with (102 :: txt "alse"). rewrite strip_not by lia.
  rewrite <- Q. now apply number_complete.
Qed.
(** what follows a value: white space, a comma, a closing bracket or nothing *)
Lemma num_stop_ws w r : white w -> num_stop r -> num_stop (w ++ r).
Proof. intros W R. destruct w as [|c w]; [exact R|]. inversion W as [|? ? C _]. cbn [app num_stop]. unfold is_digit. lia. Qed.
Ltac flat := repeat (rewrite <- app_assoc; cbn [app]).
Lemma read_complete :
  (forall v t, json_value v t -> forall n r, (2 * length t <= n)%nat -> num_stop r -> value n (t ++ r) = Some (v, r)) /\
  (forall l t, json_elements l t -> forall n r, (2 * length t + 1 <= n)%nat ->
     elements n (skip_ws (t ++ 93 :: r)) = Some (l, r) /\ strip [93] (skip_ws (t ++ 93 :: r)) = None) /\
  (forall l t, json_members l t -> forall n r, (2 * length t <= n)%nat ->
     members n (skip_ws (t ++ 125 :: r)) = Some (l, r) /\ strip [125] (skip_ws (t ++ 125 :: r)) = None).
Proof.
  apply json_mutual.
  - intros n r L _. cbn [length] in L. destruct n as [|n]; [cbn in L; lia|]. reflexivity.
  - intros n r L _. destruct n as [|n]; [cbn in L; lia|]. reflexivity.
  - intros n r L _. destruct n as [|n]; [cbn in L; lia|]. reflexivity.
  - intros neg t W n r L R. rewrite (num_at neg t [] [] _ r n); auto.
    + destruct neg; reflexivity.
    + now rewrite !app_nil_r.
    + now left.
    + now left.
    + destruct (whole_digit _ W) as (c & t' & -> & _). rewrite app_length in L. cbn [length] in L. lia.
  - intros neg t f e W F E N n r L R. rewrite (num_at neg t f e _ r n); auto.
    + unfold number_value. destruct (f ++ e) as [|x y] eqn:Q; [contradiction|]. reflexivity.
    + destruct (whole_digit _ W) as (c & t' & -> & _). rewrite !app_length in L. cbn [length] in L. lia.
  - intros t s T n r L _. cbn [length] in L. rewrite app_length in L. cbn [length] in L. destruct n as [|n]; [lia|].
    rewrite value_S. cbn [app Z.eqb Pos.eqb]. flat. rewrite (jstring_complete _ _ T) by lia. reflexivity.
  - intros w W n r L _. destruct n as [|n]; [cbn [length] in L; lia|]. rewrite value_S. cbn [app Z.eqb Pos.eqb]. flat.
    rewrite skip_app; [|exact W|reflexivity]. reflexivity.
  - intros l t E IH n r L _. cbn [length] in L. rewrite app_length in L. cbn [length] in L. destruct n as [|n]; [lia|]. rewrite value_S. cbn [app Z.eqb Pos.eqb]. flat.
    destruct (IH n r) as (A & B); [lia|]. now rewrite B, A.
  - intros w W n r L _. destruct n as [|n]; [cbn [length] in L; lia|]. rewrite value_S. cbn [app Z.eqb Pos.eqb]. flat.
    rewrite skip_app; [|exact W|reflexivity]. reflexivity.
  - intros l t E IH n r L _. cbn [length] in L. rewrite app_length in L. cbn [length] in L. destruct n as [|n]; [lia|]. rewrite value_S. cbn [app Z.eqb Pos.eqb]. flat.
    destruct (IH n r) as (A & B); [lia|]. now rewrite B, A.
  - intros w v t w' W V IV W' n r L. rewrite !app_length in L. flat. rewrite skip_app; [|exact W|now apply value_stops with v]. split.
    + destruct n as [|n]; [lia|]. rewrite elements_S, IV; [|lia|apply num_stop_ws; [exact W'|repeat split; lia]].
      rewrite skip_app; [|exact W'|reflexivity]. reflexivity.
    + destruct (value_head _ _ V) as (c & t' & -> & _ & C). cbn [app]. rewrite strip_not by lia. reflexivity.
  - intros w v t w' l u W V IV W' E IE n r L. rewrite !app_length in L. cbn [length] in L. flat. rewrite skip_app; [|exact W|now apply value_stops with v]. split.
    + destruct n as [|n]; [lia|]. rewrite elements_S, IV; [|lia|apply num_stop_ws; [exact W'|repeat split; lia]].
      rewrite skip_app; [|exact W'|reflexivity]. cbn [Z.eqb Pos.eqb]. destruct (IE n r) as (A & _); [lia|]. now rewrite A.
    + destruct (value_head _ _ V) as (c & t' & -> & _ & C). cbn [app]. rewrite strip_not by lia. reflexivity.
  - intros w k s w1 w2 v t w3 W K W1 W2 V IV W3 n r L. repeat (rewrite app_length in L; cbn [length] in L). flat.
    rewrite skip_app; [|exact W|reflexivity]. split; [|reflexivity].
    destruct n as [|n]; [lia|]. rewrite members_S. cbn [strip Z.eqb Pos.eqb]. rewrite (jstring_complete _ _ K) by lia.
    rewrite (skip_app w1); [|exact W1|reflexivity]. cbn [strip Z.eqb Pos.eqb]. rewrite skip_app; [|exact W2|now apply value_stops with v].
    rewrite IV; [|lia|apply num_stop_ws; [exact W3|repeat split; lia]]. rewrite skip_app; [|exact W3|reflexivity]. reflexivity.
  - intros w k s w1 w2 v t w3 l u W K W1 W2 V IV W3 M IM n r L. repeat (rewrite app_length in L; cbn [length] in L). flat.
    rewrite skip_app; [|exact W|reflexivity]. split; [|reflexivity].
    destruct n as [|n]; [lia|]. rewrite members_S. cbn [strip Z.eqb Pos.eqb]. rewrite (jstring_complete _ _ K) by lia.
    rewrite (skip_app w1); [|exact W1|reflexivity]. cbn [strip Z.eqb Pos.eqb]. rewrite skip_app; [|exact W2|now apply value_stops with v].
    rewrite IV; [|lia|apply num_stop_ws; [exact W3|repeat split; lia]]. rewrite skip_app; [|exact W3|reflexivity]. cbn [Z.eqb Pos.eqb].
    destruct (IM n r) as (A & _); [lia|]. now rewrite A.
Qed.

Lemma c_text_id s : ~ In 0 s -> c_text s = s.
Proof. induction s as [|c s IH]; intro N; [reflexivity|]. cbn [c_text]. destruct (Z.eqb_spec c 0) as [->|_]; [exfalso; apply N; now left|]. rewrite IH; [reflexivity|]. intro H. apply N. now right. Qed.
Lemma skip_all w : white w -> skip_ws w = [].
Proof. intro W. rewrite <- (app_nil_r w) at 1. now apply skip_app. Qed.
Theorem read_iff s v : ~ In 0 s -> json_read s = Some v <-> json_text s v.
Proof.
  intro N. unfold json_read. rewrite (c_text_id s N). split.
  - destruct (skip_spec s) as (w & E & W & _). remember (skip_ws s) as s' eqn:D. clear D. destruct (value _ s') as [[x r]|] eqn:V; [|discriminate].
    destruct (skip_spec r) as (w' & E' & W' & _). destruct (skip_ws r) as [|c r'] eqn:R; [|discriminate]. intros [= <-].
    apply (proj1 (read_sound _)) in V. destruct V as (t & -> & V). exists w, t, w'. rewrite app_nil_r in E'. now subst r.
  - intros (w & t & w' & -> & W & V & W'). rewrite skip_app; [|exact W|now apply value_stops with v].
    rewrite (proj1 read_complete _ _ V); [|rewrite !app_length; lia|rewrite <- (app_nil_r w'); now apply num_stop_ws]. now rewrite skip_all.
Qed.
