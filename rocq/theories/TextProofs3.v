(** Proofs about colours and property bags. *)
From Coq Require Import String.
From Verif Require Import Base TextModel TextSpec TextProofs.

(** ** Colours *)
Lemma xdigit_narrow c : is_xdigit c = true -> c_isxdigit c = Ok true.
Proof. intros H. unfold c_isxdigit. rewrite H. unfold is_xdigit in H. destruct ((c <? -1) || (255 <? c)) eqn:E; [lia|reflexivity]. Qed.

Lemma hex_range c : is_xdigit c = true -> 0 <= hex_value c < 16.
Proof.
  unfold is_xdigit, hex_value. intros H.
  destruct ((48 <=? c) && (c <=? 57)) eqn:E1; [lia|].
  destruct ((65 <=? c) && (c <=? 70)) eqn:E2; [lia|].
  destruct ((97 <=? c) && (c <=? 102)) eqn:E3; lia.
Qed.

Lemma xdigit_not_blank c : is_xdigit c = true -> is_blank c = false.
Proof. unfold is_xdigit, is_blank. lia. Qed.

Lemma lor_nibbles a b : 0 <= a < 16 -> 0 <= b < 16 -> Z.lor (u8 (Z.shiftl a 4)) b = 16 * a + b.
Proof.
  intros Ha Hb.
  assert (T : forallb (fun a => forallb (fun b => Z.lor (u8 (Z.shiftl a 4)) b =? 16 * a + b)
                [0;1;2;3;4;5;6;7;8;9;10;11;12;13;14;15]) [0;1;2;3;4;5;6;7;8;9;10;11;12;13;14;15] = true)
    by (vm_compute; reflexivity).
  rewrite forallb_forall in T. assert (Ia : In a [0;1;2;3;4;5;6;7;8;9;10;11;12;13;14;15]) by (cbn; lia).
  specialize (T a Ia). rewrite forallb_forall in T.
  assert (Ib : In b [0;1;2;3;4;5;6;7;8;9;10;11;12;13;14;15]) by (cbn; lia).
  specialize (T b Ib). lia.
Qed.

Lemma color_loop_ok n : forall s i acc, (i + n <= length s)%nat ->
  (forall j, (i <= j < i + n)%nat -> is_xdigit (nth j s 0) = true) ->
  color_loop n s i acc = Ok (Some (acc ++ map hex_value (firstn (9 - i) (firstn n (skipn i s))))).
Proof.
  induction n as [|n IH]; intros s i acc Hl Hx.
  - cbn [color_loop firstn]. rewrite firstn_nil. cbn [map]. now rewrite app_nil_r.
  - cbn [color_loop]. destruct (Nat.ltb_spec (length s) i); [lia|].
    assert (X : is_xdigit (nth i s 0) = true) by (apply Hx; lia).
    rewrite (xdigit_narrow _ X). cbn [bind].
    rewrite IH; [|lia|intros j Hj; apply Hx; lia].
    assert (Es : skipn i s = nth i s 0 :: skipn (S i) s).
    { clear -Hl. revert i Hl. induction s as [|c s IHs]; intros i Hl; [cbn in Hl; lia|].
      destruct i; [reflexivity|]. cbn [skipn nth]. apply IHs. cbn in Hl. lia. }
    rewrite Es. cbn [firstn].
    destruct (Nat.leb_spec i 8) as [L|L].
    + replace (9 - i)%nat with (S (9 - S i)) by lia. cbn [firstn map].
      rewrite <- app_assoc. reflexivity.
    + replace (9 - i)%nat with 0%nat by lia. replace (9 - S i)%nat with 0%nat by lia. reflexivity.
Qed.

Lemma color_loop_bad n : forall s i acc j, narrow s -> (i <= j < i + n)%nat -> (j <= length s)%nat ->
  is_xdigit (nth j s 0) = false -> color_loop n s i acc = Ok None.
Proof.
  induction n as [|n IH]; intros s i acc j Hn Hj Hl Hx; [lia|].
  cbn [color_loop]. destruct (Nat.ltb_spec (length s) i); [lia|].
  assert (Hc : 0 <= nth i s 0 <= 255).
  { destruct (nth_in_or_default i s 0) as [I|E]; [|rewrite E; lia].
    unfold narrow in Hn. rewrite Forall_forall in Hn. now apply Hn. }
  assert (Hd : c_isxdigit (nth i s 0) = Ok (is_xdigit (nth i s 0))).
  { unfold c_isxdigit. destruct ((nth i s 0 <? -1) || (255 <? nth i s 0)) eqn:E; [lia|reflexivity]. }
  rewrite Hd. cbn [bind]. destruct (is_xdigit (nth i s 0)) eqn:E; [|reflexivity].
  apply (IH s (S i) _ j); auto. destruct (Nat.eq_dec i j) as [->|]; [congruence|lia].
Qed.

Lemma trim_spec w t w' : all is_blank w -> all is_blank w' -> no_outer_blank t -> trim (w ++ t ++ w') = t.
Proof.
  intros H1 H2 H3. unfold trim. destruct t as [|c r].
  - cbn [app]. assert (E : span is_blank (w ++ w') = (w ++ w', [])).
    { rewrite <- (app_nil_r (w ++ w')) at 1. apply span_app; [now apply Forall_app|exact I]. }
    rewrite E. reflexivity.
  - destruct H3 as [H3 H4]. set (t := c :: r) in *.
    assert (E1 : snd (span is_blank (w ++ t ++ w')) = t ++ w') by (rewrite span_app; [reflexivity|assumption|exact H3]).
    rewrite E1, rev_app_distr.
    assert (Sb : stops is_blank (rev t)).
    { assert (Et : t = removelast t ++ [last t 0]) by (apply app_removelast_last; discriminate).
      rewrite Et, rev_app_distr. exact H4. }
    rewrite span_app by (assumption || now apply Forall_rev). cbn [snd]. apply rev_involutive.
Qed.

Lemma not_forallb {A} (p : A -> bool) (l : list A) (x0 : A) : forallb p l = false ->
  exists j, (j < length l)%nat /\ p (nth j l x0) = false.
Proof.
  induction l as [|a l IH]; cbn [forallb]; [discriminate|]. destruct (p a) eqn:E; cbn [andb].
  - intros H. destruct (IH H) as (j & L & Hj). exists (S j). cbn [length nth]. split; [lia|assumption].
  - intros _. exists 0%nat. cbn [length nth]. split; [lia|assumption].
Qed.

Lemma forallb_nth {A} (p : A -> bool) (l : list A) x0 : forallb p l = true -> forall j, (j < length l)%nat -> p (nth j l x0) = true.
Proof. intros H j L. rewrite forallb_forall in H. apply H. now apply nth_In. Qed.

Theorem parse_color_spec w t w' :
  narrow t -> all is_blank w -> all is_blank w' -> no_outer_blank t ->
  parse_color (w ++ t ++ w') = Ok (color_of t).
Proof.
  intros Hn Hw Hw' Hb. unfold parse_color. rewrite trim_spec by assumption.
  destruct t as [|c ds]; [reflexivity|].
  destruct (Z.eq_dec c 35) as [->|Nc].
  2:{ cbn [nth]. destruct (Z.eqb_spec c 35); [contradiction|]. rewrite andb_false_r.
      assert (E : color_of (c :: ds) = None).
      { unfold color_of. destruct c as [|p|p]; try reflexivity.
        do 6 (try destruct p as [p|p|]; try reflexivity). lia. }
      now rewrite E. }
  cbn [nth]. change (35 =? 35) with true. rewrite andb_true_r.
  destruct (Nat.ltb_spec 1 (length (35 :: ds))) as [L|L].
  2:{ destruct ds; [reflexivity|cbn [length] in L; lia]. }
  destruct (Nat.leb_spec 9 (length (35 :: ds))) as [L9|L9].
  - assert (Em : Nat.max 9 (length (35 :: ds)) = length (35 :: ds)) by lia. rewrite Em.
    do 8 (destruct ds as [|? ds]; [cbn [length] in L9; lia|]).
    cbn [color_of]. set (all8 := [z; z0; z1; z2; z3; z4; z5; z6] ++ ds) in *.
    assert (El : length all8 = (length ds + 8)%nat) by (unfold all8; rewrite app_length; cbn [length]; lia).
    change (35 :: z :: z0 :: z1 :: z2 :: z3 :: z4 :: z5 :: z6 :: ds) with (35 :: all8) in *.
    destruct (forallb is_xdigit all8) eqn:F.
    + rewrite color_loop_ok.
      * cbn [bind app]. cbn [length]. rewrite Nat.sub_succ, Nat.sub_0_r.
        change (skipn 1 (35 :: all8)) with all8. rewrite (firstn_all2 all8) by lia.
        unfold all8. cbn [app firstn map nth].
        unfold all8 in F. cbn [app forallb] in F.
        assert (R : forall x y, is_xdigit x = true -> is_xdigit y = true ->
           Z.lor (u8 (Z.shiftl (hex_value x) 4)) (hex_value y) = hexpair x y).
        { intros x y Hx Hy. unfold hexpair. apply lor_nibbles; now apply hex_range. }
        do 8 (apply andb_true_iff in F; let X := fresh "X" in destruct F as [X F]).
        rewrite !R by assumption. reflexivity.
      * cbn [length]. lia.
      * intros j Hj. destruct j as [|j]; [lia|]. cbn [nth]. apply forallb_nth; [assumption|].
        cbn [length] in Hj. lia.
    + destruct (not_forallb _ _ 0 F) as (j & Lj & Fj).
      rewrite (color_loop_bad _ (35 :: all8) 1 [] (S j)); [reflexivity|assumption|cbn [length]; lia|cbn [length]; lia|exact Fj].
  - rewrite (color_loop_bad _ (35 :: ds) 1 [] (length (35 :: ds))); [|assumption|lia|lia|].
    + cbn [bind].
      assert (E : color_of (35 :: ds) = None).
      { do 8 (destruct ds as [|? ds]; [reflexivity|]). cbn [length] in L9. lia. }
      now rewrite E.
    + rewrite nth_overflow by lia. reflexivity.
Qed.

Lemma nibble_ok n : is_xdigit (nibble_char n) = true /\ hex_value (nibble_char n) = Z.land n 15.
Proof.
  unfold nibble_char. set (m := Z.land n 15).
  assert (Hm : 0 <= m < 16).
  { unfold m. change 15 with (Z.ones 4). rewrite Z.land_ones by lia. change (2 ^ 4) with 16. lia. }
  clearbody m. destruct m as [|p|p]; [split; reflexivity| |lia].
  do 4 (try destruct p as [p|p|]; try (split; reflexivity)); lia.
Qed.

Lemma hexpair_nibbles v : 0 <= v < 256 -> hexpair (nibble_char (Z.shiftr v 4)) (nibble_char v) = v.
Proof.
  intros H. unfold hexpair. rewrite !(proj2 (nibble_ok _)).
  change 15 with (Z.ones 4). rewrite !Z.land_ones by lia. rewrite Z.shiftr_div_pow2 by lia.
  change (2 ^ 4) with 16. lia.
Qed.

Theorem color_round_trip r g b : is_byte r -> is_byte g -> is_byte b ->
  parse_color (color_to_string (r, g, b)) = Ok (Some (r, g, b)).
Proof.
  unfold is_byte. intros Hr Hg Hb.
  rewrite <- (app_nil_l (color_to_string (r, g, b))), <- (app_nil_r (color_to_string (r, g, b))).
  assert (X : forall n, 0 <= nibble_char n <= 255).
  { intros n. pose proof (proj1 (nibble_ok n)) as X. unfold is_xdigit in X. lia. }
  rewrite parse_color_spec; try constructor.
  - unfold color_to_string. cbn [color_of forallb app].
    rewrite !(proj1 (nibble_ok _)). cbn [andb]. change (is_xdigit 70) with true. cbn [andb].
    now rewrite !hexpair_nibbles.
  - lia.
  - unfold color_to_string. repeat (constructor; [first [apply X|lia]|]). constructor.
  - reflexivity.
  - unfold color_to_string. cbn [last]. apply xdigit_not_blank, nibble_ok.
Qed.

(** ** Property bags *)
Lemma tok_plain c s key value (inv feq : bool) m : c <> BSL -> (c <> EQU \/ inv = true) -> (c <> SEMI \/ inv = false) ->
  tokenize_loop (c :: s) key value inv feq m =
    if inv then tokenize_loop s key (value ++ [c]) inv feq m else tokenize_loop s (key ++ [c]) value inv feq m.
Proof.
  intros H1 H2 H3. cbn [tokenize_loop].
  destruct (Z.eqb_spec c BSL); [contradiction|].
  assert (E1 : (c =? EQU) && negb inv = false) by (destruct (Z.eqb_spec c EQU), inv; cbn; intuition congruence).
  assert (E2 : (c =? SEMI) && inv = false) by (destruct (Z.eqb_spec c SEMI), inv; cbn; intuition congruence).
  rewrite E1, E2. destruct s; reflexivity.
Qed.

Lemma tok_bsl_end key value (inv feq : bool) m :
  tokenize_loop [BSL] key value inv feq m =
    if inv then tokenize_loop [] key (value ++ [BSL]) inv feq m else tokenize_loop [] (key ++ [BSL]) value inv feq m.
Proof. destruct inv; reflexivity. Qed.

Lemma tok_bsl_plain nx s key value (inv feq : bool) m : nx <> SEMI -> nx <> EQU ->
  tokenize_loop (BSL :: nx :: s) key value inv feq m =
    if inv then tokenize_loop (nx :: s) key (value ++ [BSL]) inv feq m
    else tokenize_loop (nx :: s) (key ++ [BSL]) value inv feq m.
Proof.
  intros H1 H2.
  change (tokenize_loop (BSL :: nx :: s) key value inv feq m) with
    (if nx =? SEMI then
          if inv then tokenize_loop s key (value ++ [SEMI]) inv feq m
          else tokenize_loop s (key ++ [SEMI]) value inv feq m
        else if nx =? EQU then
          if inv then tokenize_loop s key (value ++ [EQU]) inv feq m
          else tokenize_loop s (key ++ [EQU]) value inv feq m
        else
          if inv then tokenize_loop (nx :: s) key (value ++ [BSL]) inv feq m
          else tokenize_loop (nx :: s) (key ++ [BSL]) value inv feq m).
  destruct (Z.eqb_spec nx SEMI); [contradiction|]. destruct (Z.eqb_spec nx EQU); [contradiction|]. reflexivity.
Qed.

Lemma tok_esc c s key value (inv feq : bool) m : c = SEMI \/ c = EQU ->
  tokenize_loop (BSL :: c :: s) key value inv feq m =
    if inv then tokenize_loop s key (value ++ [c]) inv feq m else tokenize_loop s (key ++ [c]) value inv feq m.
Proof. intros [->| ->]; destruct inv; reflexivity. Qed.

(** Reading an escaped text appends the text. *)
Lemma tok_text (inv feq : bool) m v : forall rest key value,
  (rest = [] \/ ~ ends_in_backslash v) ->
  tokenize_loop (esc v ++ rest) key value inv feq m =
    if inv then tokenize_loop rest key (value ++ v) inv feq m else tokenize_loop rest (key ++ v) value inv feq m.
Proof.
  induction v as [|c v IH]; intros rest key value Hr.
  - cbn [esc flat_map app]. rewrite !app_nil_r. now destruct inv.
  - assert (Hr' : rest = [] \/ ~ ends_in_backslash v).
    { destruct Hr as [Hr|Hr]; [now left|right]. intros (v' & ->). apply Hr. now exists (c :: v'). }
    assert (Step : (if inv then tokenize_loop (esc v ++ rest) key (value ++ [c]) inv feq m
                    else tokenize_loop (esc v ++ rest) (key ++ [c]) value inv feq m) =
                   (if inv then tokenize_loop rest key (value ++ c :: v) inv feq m
                    else tokenize_loop rest (key ++ c :: v) value inv feq m)).
    { rewrite !IH by assumption. rewrite <- !app_assoc. cbn [app]. now destruct inv. }
    unfold esc. cbn [flat_map]. fold (esc v).
    destruct ((c =? SEMI) || (c =? EQU)) eqn:E.
    + cbn [app]. rewrite tok_esc by lia. exact Step.
    + cbn [app]. destruct (Z.eq_dec c BSL) as [->|Nb].
      * destruct v as [|c' v].
        -- destruct Hr as [->|Hr]; [|exfalso; apply Hr; now exists []].
           cbn [esc flat_map app]. rewrite tok_bsl_end. reflexivity.
        -- assert (exists nx s', esc (c' :: v) ++ rest = nx :: s' /\ nx <> SEMI /\ nx <> EQU) as (nx & s' & En & N1 & N2).
           { unfold esc. cbn [flat_map]. destruct ((c' =? SEMI) || (c' =? EQU)) eqn:E'.
             - eexists _, _. split; [reflexivity|]. split; discriminate.
             - eexists _, _. split; [reflexivity|]. lia. }
           rewrite En in Step |- *. rewrite tok_bsl_plain by assumption. exact Step.
      * rewrite tok_plain; [exact Step|assumption| |]; left; lia.
Qed.

Definition pair_ok (kv : str * str) : Prop := fst kv <> [] /\ ~ ends_in_backslash (fst kv).

Lemma tok_equ s key value feq m : tokenize_loop (EQU :: s) key value false feq m = tokenize_loop s key value true true m.
Proof. destruct s; reflexivity. Qed.

Lemma tok_semi s k key value feq m :
  tokenize_loop (SEMI :: s) (k :: key) value true feq m = tokenize_loop s [] [] false false (m ++ [(k :: key, value)]).
Proof. destruct s; reflexivity. Qed.

Lemma bag_loop l : forall m,
  l <> [] -> Forall pair_ok l ->
  (forall kv, In kv (removelast l) -> ~ ends_in_backslash (snd kv)) ->
  snd (last l ([], [])) <> [] ->
  forall feq, tokenize_loop (bag_text l) [] [] false feq m = Ok (m ++ l).
Proof.
  induction l as [|[k v] l IH]; intros m Hn Hp Hv Hl feq; [contradiction|].
  inversion Hp as [|? ? [K1 K2] Hp']; subst. cbn [fst] in K1, K2.
  destruct l as [|y l].
  - cbn [bag_text]. rewrite tok_text by now right. cbn [app]. rewrite tok_equ.
    rewrite <- (app_nil_r (esc v)). rewrite tok_text by now left. cbn [app].
    cbn [last snd] in Hl. cbn [tokenize_loop negb].
    destruct k as [|k0 k]; [contradiction|]. destruct v as [|v0 v]; [contradiction|]. cbn [andb bind].
    destruct m; reflexivity.
  - change (bag_text ((k, v) :: y :: l)) with (esc k ++ EQU :: esc v ++ SEMI :: bag_text (y :: l)).
    rewrite tok_text by now right. cbn [app]. rewrite tok_equ.
    rewrite tok_text; [|right; apply (Hv (k, v)); now left].
    destruct k as [|k0 k]; [contradiction|]. rewrite tok_semi.
    rewrite IH; [|discriminate|assumption| |].
    + rewrite <- app_assoc. reflexivity.
    + intros kv I. apply Hv. right. exact I.
    + exact Hl.
Qed.

Theorem bag_round_trip l : l <> [] -> Forall pair_ok l ->
  (forall kv, In kv (removelast l) -> ~ ends_in_backslash (snd kv)) ->
  snd (last l ([], [])) <> [] ->
  tokenize (bag_text l) = Ok l.
Proof. intros. unfold tokenize. now rewrite bag_loop. Qed.

Lemma str_eqb_spec a b : str_eqb a b = true <-> a = b.
Proof. unfold str_eqb. destruct (list_eq_dec Z.eq_dec a b); intuition congruence. Qed.

Lemma lookup_in l k : forall v, lookup l k = Some v -> In (k, v) l.
Proof.
  induction l as [|[k' v'] l IH]; intros v; cbn [lookup]; [discriminate|].
  destruct (lookup l k) as [w|]; [intros [= ->]; right; now apply IH|].
  destruct (str_eqb k' k) eqn:E; [|discriminate]. apply str_eqb_spec in E. intros [= ->]. left. now subst.
Qed.

Lemma lookup_nodup l k v : NoDup (map fst l) -> (lookup l k = Some v <-> In (k, v) l).
Proof.
  intros N. split; [apply lookup_in|]. induction l as [|[k' v'] l IH]; [intros []|].
  inversion N as [|? ? N1 N2]; subst. cbn [map fst] in N1. intros [E|I]; cbn [lookup].
  - injection E as -> ->. destruct (lookup l k) as [w|] eqn:E.
    + apply lookup_in in E. exfalso. apply N1. apply in_map_iff. now exists (k, w).
    + assert (str_eqb k k = true) as -> by now apply str_eqb_spec. reflexivity.
  - now rewrite (IH N2 I).
Qed.

(** Whatever is accepted, a pair is only ever stored with a non-empty key. *)
Lemma tok_keys n : forall s key value inv feq m r, (length s <= n)%nat ->
  Forall (fun kv : str * str => fst kv <> []) m ->
  tokenize_loop s key value inv feq m = Ok r -> Forall (fun kv : str * str => fst kv <> []) r /\ r <> [].
Proof.
  assert (Add : forall k v (m : list (str * str)), k <> [] -> Forall (fun kv : str * str => fst kv <> []) m ->
            Forall (fun kv : str * str => fst kv <> []) (m ++ [(k, v)])).
  { intros. apply Forall_app. split; [assumption|]. now repeat constructor. }
  induction n as [|n IH]; intros s key value inv feq m r L Hm.
  - destruct s; [|cbn [length] in L; lia]. cbn [tokenize_loop]. destruct feq; [|discriminate]. cbn [negb].
    destruct key as [|k key]; cbn [bind].
    + destruct m; [discriminate|]. intros [= <-]. split; [assumption|discriminate].
    + destruct (_ && inv); [discriminate|]. cbn [bind].
      intros H. assert (E : r = m ++ [(k :: key, value)]) by (destruct m; cbn in H |- *; inversion H; reflexivity).
      subst r. split; [now apply Add|]. intros E. apply app_eq_nil in E. destruct E as [_ E]. discriminate E.
  - destruct s as [|c s']; [apply (IH [] key value inv feq m r); [cbn; lia|assumption]|].
    cbn [length] in L. cbn [tokenize_loop].
    assert (Semi : (match key with
                    | [] => Throw
                    | _ => tokenize_loop s' [] [] false false (m ++ [(key, value)])
                    end) = Ok r -> Forall (fun kv : str * str => fst kv <> []) r /\ r <> []).
    { destruct key as [|k key]; [discriminate|]. apply IH; [lia|now apply Add]. }
    destruct s' as [|nx s''].
    + destruct ((c =? EQU) && negb inv); [now apply IH; [lia|]|].
      destruct ((c =? SEMI) && inv); [exact Semi|].
      destruct inv; apply IH; auto; lia.
    + cbn [length] in L. destruct (c =? BSL).
      * destruct (nx =? SEMI); [destruct inv; apply IH; auto; lia|].
        destruct (nx =? EQU); [destruct inv; apply IH; auto; lia|].
        destruct inv; apply IH; auto; cbn [length]; lia.
      * destruct ((c =? EQU) && negb inv); [apply IH; auto; cbn [length]; lia|].
        destruct ((c =? SEMI) && inv); [exact Semi|].
        destruct inv; apply IH; auto; cbn [length]; lia.
Qed.

Theorem tokenize_keys s r : tokenize s = Ok r -> Forall (fun kv : str * str => fst kv <> []) r /\ r <> [].
Proof. intros H. apply (tok_keys (length s) s [] [] false false [] r); auto. Qed.

Lemma tokenize_total_aux n : forall s key value inv feq m, (length s <= n)%nat ->
  (exists r, tokenize_loop s key value inv feq m = Ok r) \/ tokenize_loop s key value inv feq m = Throw.
Proof.
  induction n as [|n IH]; intros s key value inv feq m L.
  - destruct s; [|cbn [length] in L; lia]. cbn [tokenize_loop]. destruct feq; cbn [negb]; [|auto].
    destruct key; cbn [bind]; [destruct m; eauto|]. destruct (_ && inv); cbn [bind]; [auto|].
    destruct (m ++ _); eauto.
  - destruct s as [|c s']; [apply (IH [] key value inv feq m); cbn; lia|].
    cbn [length] in L. cbn [tokenize_loop]. destruct s' as [|nx s''].
    + destruct ((c =? EQU) && negb inv); [apply IH; lia|].
      destruct ((c =? SEMI) && inv); [destruct key; [auto|apply IH; lia]|].
      destruct inv; apply IH; lia.
    + cbn [length] in L. destruct (c =? BSL).
      * destruct (nx =? SEMI); [destruct inv; apply IH; lia|].
        destruct (nx =? EQU); [destruct inv; apply IH; lia|].
        destruct inv; apply IH; cbn [length]; lia.
      * destruct ((c =? EQU) && negb inv); [apply IH; cbn [length]; lia|].
        destruct ((c =? SEMI) && inv); [destruct key; [auto|apply IH; cbn [length]; lia]|].
        destruct inv; apply IH; cbn [length]; lia.
Qed.

(** The dimension letters, upper or lower case. *)
Lemma letters_exact c d : char_dim c = Some d <-> In d dims /\ (c = nth (Z.to_nat (d - 1)) (txt "ZCTRSIHVB"%string) 0 \/ c = nth (Z.to_nat (d - 1)) (txt "zctrsihvb"%string) 0).
Proof.
  split.
  - intros H. unfold char_dim in H.
    repeat match type of H with (match ?x with _ => _ end) = _ => destruct x; try discriminate H end; injection H as <-; vm_compute; tauto.
  - intros [Hd H]. unfold dims in Hd. cbn [In] in Hd. repeat (destruct Hd as [<-|Hd]; [vm_compute in H; destruct H as [->| ->]; reflexivity|]). destruct Hd.
Qed.
