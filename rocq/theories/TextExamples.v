(** Concrete cases and counterexamples for the text formats. *)
From Coq Require Import String.
From Verif Require Import Base TextModel TextSpec TextProofs TextProofs2 TextProofs3.
Open Scope Z_scope.
Open Scope list_scope.

(** ** Coordinates *)
Definition ex_coord : coord := tset (tset (tset empty_table 1 (-5)) 2 2147483647) 5 0.

Lemma ex_coord_ok : coord_ok ex_coord /\
  coord_to_string ex_coord = txt "Z-5C2147483647S0"%string.
Proof.
  split; [|vm_compute; reflexivity]. split; [reflexivity|].
  intros d v I. unfold dims in I.
  repeat (destruct I as [<-|I]; [intros E; cbn in E; (discriminate E || (injection E as <-; unfold in_i32, INT_MIN, INT_MAX; lia))|]); destruct I.
Qed.

Lemma ex_parse : parse_coordinate (txt " C 12 ,T- 3;z+0"%string) =
    Ok (inl (tset (tset (tset empty_table 2 12) 3 (-3)) 1 0)) /\
  parse_coordinate (txt "C1T2C1"%string) = Ok (inr (DuplicateDimension 4)) /\
  parse_coordinate (txt "C1X2"%string) = Ok (inr (SyntaxError 2)).
Proof. vm_compute. repeat split. Qed.

(** a character with a negative code (any non-ASCII character where char is signed) *)
Lemma parse_negative_char : parse_coordinate (txt "C"%string ++ [-28; -1]) = UB.
Proof. vm_compute. reflexivity. Qed.

(** a number too long for the parser is a syntax error *)
Lemma ex_total_hyp : Forall (fun c => -1 <= c) (txt "C99999999999999999999"%string) /\
  exists p, parse_coordinate (txt "C99999999999999999999"%string) = Ok (inr (SyntaxError p)).
Proof. split; [vm_compute; repeat constructor; discriminate|]. vm_compute. eauto. Qed.

(** ** Bounds *)
Definition ex_bounds : bounds := tset (tset empty_table 2 (-7, 3)) 8 (0, -1).
Lemma ex_bounds_ok : bounds_ok ex_bounds /\ bounds_to_string ex_bounds = txt "C-7:3V0:-1"%string.
Proof.
  split; [|vm_compute; reflexivity]. split; [reflexivity|]. split.
  - exists 2. split; [vm_compute; tauto|vm_compute; discriminate].
  - intros d st sz I. unfold dims in I.
    repeat (destruct I as [<-|I];
      [intros E; cbn in E; (discriminate E || (injection E as <- <-; unfold in_i32, INT_MIN, INT_MAX; lia))|]); destruct I.
Qed.
Lemma ex_bounds_spelled : exists l b, spells_bounds (txt "T+1:2 c0:5"%string) l b.
Proof.
  exists [BItem 84 (Some 43) [49] None [50] [32]; BItem 99 None [48] None [53] []],
    (tset (tset empty_table 3 (1, 2)) 2 (0, 5)).
  split; [vm_compute; reflexivity|]. split; [discriminate|]. split; [|split; [|split]].
  - constructor; [|constructor; [|constructor]]; constructor; cbn [b_letter b_sign1 b_sign2 b_digits1 b_digits2 b_space sign_ok];
      try (vm_compute; repeat split; (discriminate || (intros [=]) || auto));
      try (split; [discriminate|repeat constructor]); repeat constructor; auto.
  - vm_compute. constructor; [intros [H|[]]; discriminate H|]. constructor; [intros []|constructor].
  - reflexivity.
  - intros d v I. unfold dims in I.
    assert (X : forall P : bitem -> Prop, (exists it, In it [BItem 84 (Some 43) [49] None [50] [32]; BItem 99 None [48] None [53] []] /\ P it)
       <-> P (BItem 84 (Some 43) [49] None [50] [32]) \/ P (BItem 99 None [48] None [53] [])).
    { intros P. split; [intros (it & [<-|[<-|[]]] & H); auto|intros [H|H]; eexists; (split; [|exact H]); cbn; auto]. }
    rewrite X. clear X.
    repeat (destruct I as [<-|I];
      [vm_compute; split; [intros H; try discriminate H; try (injection H as <-; auto)
                          |intros [[A B]|[A B]]; try discriminate A; now rewrite <- B]|]); destruct I.
Qed.

(** a question mark in front, a bar as a sign *)
Lemma bounds_accepts_junk :
  parse_bounds (txt "?C0:3"%string) = Ok (tset empty_table 2 (0, 3)) /\
  parse_bounds (txt "C|5:3"%string) = Ok (tset empty_table 2 (0, 3)).
Proof. vm_compute. split; reflexivity. Qed.

(** ** Index sets *)
Definition ex_listing : list (str * entry * str) :=
  [([], Range MinusInf (Num (-3)), []); ([32], Single (Num 4), [32]); ([], Range (Num 7) Inf, [])].
Lemma ex_listing_ok : listing_ok ex_listing /\ listing ex_listing = txt "-inf--3, 4 ,7-inf"%string.
Proof.
  split; [|vm_compute; reflexivity].
  repeat constructor; cbn; unfold in_i32, INT_MIN, INT_MAX; lia.
Qed.

(** ** Property bags *)
Definition ex_bag : list (str * str) := [(txt "a;b"%string, txt "x=y"%string); (txt "k"%string, txt "\"%string)].
Lemma no_bsl_end s : last s 0 <> BSL -> ~ ends_in_backslash s.
Proof. intros H (s' & ->). apply H. now rewrite last_last. Qed.
Lemma ex_bag_ok : ex_bag <> [] /\ Forall pair_ok ex_bag /\
  (forall kv, In kv (removelast ex_bag) -> ~ ends_in_backslash (snd kv)) /\
  snd (last ex_bag ([], [])) <> [] /\
  bag_text ex_bag = txt "a\;b=x\=y;k=\"%string.
Proof.
  split; [discriminate|]. split; [|split; [|split; [discriminate|vm_compute; reflexivity]]].
  - constructor; [|constructor; [|constructor]]; (split; [discriminate|]); apply no_bsl_end; vm_compute; discriminate.
  - intros kv [<-|[]]. apply no_bsl_end. vm_compute. discriminate.
Qed.
(** no text at all is split into a map with a key ending in a backslash *)
Lemma bag_no_backslash_aux n : forall s key value inv m r, (length s <= n)%nat ->
  Forall (fun kv : str * str => ~ ends_in_backslash (fst kv)) m ->
  (inv = true -> ~ ends_in_backslash key) ->
  (inv = false -> ends_in_backslash key -> match s with c :: _ => c <> EQU | [] => True end) ->
  tokenize_loop s key value inv inv m = Ok r -> Forall (fun kv : str * str => ~ ends_in_backslash (fst kv)) r.
Proof.
  assert (Snoc : forall k c, ends_in_backslash (k ++ [c]) -> c = BSL).
  { intros k c (k' & E). now apply app_inj_tail in E. }
  assert (Nil : ~ ends_in_backslash []).
  { intros (k' & E). now destruct k'. }
  induction n as [|n IH]; intros s key value inv m r L Hm Hi Hk; (destruct s as [|c s']; [|cbn [length] in L]).
  - cbn [tokenize_loop]. destruct inv; cbn [negb]; [|discriminate]. specialize (Hi eq_refl).
    destruct key as [|k0 key]; cbn [bind]; [destruct m; [discriminate|intros [= <-]; assumption]|].
    destruct (_ && true); cbn [bind]; [discriminate|].
    assert (Forall (fun kv : str * str => ~ ends_in_backslash (fst kv)) (m ++ [(k0 :: key, value)])).
    { apply Forall_app. split; [assumption|]. constructor; [assumption|constructor]. }
    intros E. assert (Er : m ++ [(k0 :: key, value)] = r) by (destruct m; inversion E; reflexivity).
    now rewrite <- Er.
  - lia.
  - cbn [tokenize_loop]. destruct inv; cbn [negb]; [|discriminate]. specialize (Hi eq_refl).
    destruct key as [|k0 key]; cbn [bind]; [destruct m; [discriminate|intros [= <-]; assumption]|].
    destruct (_ && true); cbn [bind]; [discriminate|].
    assert (Forall (fun kv : str * str => ~ ends_in_backslash (fst kv)) (m ++ [(k0 :: key, value)])).
    { apply Forall_app. split; [assumption|]. constructor; [assumption|constructor]. }
    intros E. assert (Er : m ++ [(k0 :: key, value)] = r) by (destruct m; inversion E; reflexivity).
    now rewrite <- Er.
  - assert (Rest : forall s', (length s' <= n)%nat ->
      (c = BSL -> match s' with x :: _ => x <> EQU | [] => True end) ->
      (if (c =? EQU) && negb inv then tokenize_loop s' key value true true m
      else if (c =? SEMI) && inv then
        match key with
        | [] => Throw
        | _ => tokenize_loop s' [] [] false false (m ++ [(key, value)])
        end
      else if inv then tokenize_loop s' key (value ++ [c]) inv inv m
      else tokenize_loop s' (key ++ [c]) value inv inv m) = Ok r ->
      Forall (fun kv : str * str => ~ ends_in_backslash (fst kv)) r).
    { clear s' L. intros s' L Hc. destruct (Z.eqb_spec c EQU) as [->|Ne].
      - destruct inv; cbn [andb negb].
        + change (EQU =? SEMI) with false. cbn [andb]. apply IH; auto. discriminate.
        + apply IH; auto; [|discriminate]. intros _ H. exact (Hk eq_refl H eq_refl).
      - cbn [andb]. destruct inv; cbn [andb].
        + rewrite andb_true_r. destruct (c =? SEMI).
          * destruct key as [|k0 key]; [discriminate|]. apply IH; auto; [|intros _ H; now elim Nil].
            apply Forall_app. split; [assumption|]. constructor; [auto|constructor].
          * apply IH; auto. discriminate.
        + rewrite andb_false_r. apply IH; [assumption|assumption|discriminate|].
          intros _ H. apply Snoc in H. exact (Hc H). }
    destruct s' as [|nx s''].
    + intros E. apply (Rest []); [apply Nat.le_0_l|trivial|exact E].
    + cbn [length] in L.
      assert (U : tokenize_loop (c :: nx :: s'') key value inv inv m =
        if c =? BSL then
        if nx =? SEMI then
          if inv then tokenize_loop s'' key (value ++ [SEMI]) inv inv m
          else tokenize_loop s'' (key ++ [SEMI]) value inv inv m
        else if nx =? EQU then
          if inv then tokenize_loop s'' key (value ++ [EQU]) inv inv m
          else tokenize_loop s'' (key ++ [EQU]) value inv inv m
        else
          if inv then tokenize_loop (nx :: s'') key (value ++ [c]) inv inv m
          else tokenize_loop (nx :: s'') (key ++ [c]) value inv inv m
        else if (c =? EQU) && negb inv then tokenize_loop (nx :: s'') key value true true m
      else if (c =? SEMI) && inv then
        match key with
        | [] => Throw
        | _ => tokenize_loop (nx :: s'') [] [] false false (m ++ [(key, value)])
        end
      else if inv then tokenize_loop (nx :: s'') key (value ++ [c]) inv inv m
      else tokenize_loop (nx :: s'') (key ++ [c]) value inv inv m) by reflexivity.
      rewrite U. clear U. destruct (Z.eqb_spec c BSL) as [->|Nb].
      * destruct (Z.eqb_spec nx SEMI) as [->|Ns].
        { destruct inv; apply IH; auto; try lia; try discriminate. intros _ H. apply Snoc in H. discriminate H. }
        destruct (Z.eqb_spec nx EQU) as [->|Nq].
        { destruct inv; apply IH; auto; try lia; try discriminate. intros _ H. apply Snoc in H. discriminate H. }
        destruct inv; apply IH; auto; cbn [length]; try lia; discriminate.
      * apply Rest; [cbn [length]; lia|]. intros ->. now elim Nb.
Qed.
Theorem bag_no_backslash_key s r : tokenize s = Ok r -> Forall (fun kv : str * str => ~ ends_in_backslash (fst kv)) r.
Proof.
  unfold tokenize. apply (bag_no_backslash_aux (length s)); auto; [discriminate|].
  intros _ (k' & E). now destruct k'.
Qed.

Lemma bag_drops_value : tokenize (txt "a=b;=v"%string) = Ok [(txt "a"%string, txt "b"%string)].
Proof. vm_compute. reflexivity. Qed.
Lemma bag_backslash_key : tokenize (bag_text [(txt "a\"%string, txt "v"%string)]) <> Ok [(txt "a\"%string, txt "v"%string)].
Proof. vm_compute. discriminate. Qed.

(** ** Colours *)
Lemma color_wide_char : parse_color (35 :: [8364]) = UB.
Proof. vm_compute. reflexivity. Qed.
Lemma color_overlong : parse_color (txt "#FF11223344"%string) = Ok (Some (17, 34, 51)).
Proof. vm_compute. reflexivity. Qed.
Lemma color_rejects : parse_color (txt "FF112233"%string) = Ok None /\ parse_color (txt "#FF11223"%string) = Ok None /\
  parse_color (txt "#FF11223G"%string) = Ok None.
Proof. vm_compute. repeat split. Qed.
