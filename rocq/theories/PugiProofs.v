(** Lemmas: the XML parser consumes what it reads; texts, attributes, tags and CDATA sections as printed are read back. *)
From Coq Require Import String.
From Verif Require Import Base TextModel TextSpec TextProofs XmlModel XmlSpec XmlProofs PugiModel PugiSpec.
Open Scope Z_scope.

(** ** every turn consumes something *)
Lemma starts_len p : forall s r, starts p s = Some r -> length s = (length p + length r)%nat.
Proof.
  induction p as [|a p IH]; intros s r H; cbn in H; [injection H as ->; reflexivity|].
  destruct s as [|b s]; [discriminate|]. destruct (a =? b); [|discriminate]. cbn. now rewrite (IH s r H).
Qed.
Lemma starts_app p r : starts p (p ++ r) = Some r.
Proof. induction p as [|a p IH]; cbn; [reflexivity|]. now rewrite Z.eqb_refl. Qed.
Lemma starts_no a p c r : c <> a -> starts (a :: p) (c :: r) = None.
Proof. intros H. cbn. destruct (Z.eqb_spec a c); congruence. Qed.
Lemma scan_len p : forall s r, scan_for p s = Some r -> (length r <= length s)%nat.
Proof.
  intros s. induction s as [|c s IH]; intros r H; cbn [scan_for] in H.
  - destruct (starts p []) as [r0|] eqn:E; [|discriminate]. injection H as <-. apply starts_len in E. cbn in E. cbn. lia.
  - destruct (starts p (c :: s)) as [r0|] eqn:E.
    + injection H as <-. apply starts_len in E. lia.
    + apply IH in H. cbn. lia.
Qed.
Lemma pcdata_len : forall s k t r, pcdata k s = (t, r) -> (length r <= length s)%nat.
Proof.
  induction s as [|c s IH]; intros k t r H; cbn [pcdata] in H; [injection H as <- <-; lia|].
  destruct k as [|k].
  - destruct (c =? 60); [injection H as <- <-; lia|]. destruct (c =? 13).
    + destruct (pcdata _ s) as [t0 r0] eqn:E. injection H as <- <-. apply IH in E. cbn. lia.
    + destruct (c =? 38).
      * destruct (escape s) as [d k]. destruct (pcdata k s) as [t0 r0] eqn:E. injection H as <- <-. apply IH in E. cbn. lia.
      * destruct (pcdata 0 s) as [t0 r0] eqn:E. injection H as <- <-. apply IH in E. cbn. lia.
  - apply IH in H. cbn. lia.
Qed.
Lemma pcdata_shorter c s t r : c <> 60 -> pcdata O (c :: s) = (t, r) -> (length r < length (c :: s))%nat.
Proof.
  intros N H. cbn [pcdata] in H. rewrite (proj2 (Z.eqb_neq c 60) N) in H. destruct (c =? 13).
  - destruct (pcdata _ s) as [t0 r0] eqn:E. injection H as <- <-. apply pcdata_len in E. cbn. lia.
  - destruct (c =? 38).
    + destruct (escape s) as [d k]. destruct (pcdata k s) as [t0 r0] eqn:E. injection H as <- <-. apply pcdata_len in E. cbn. lia.
    + destruct (pcdata 0 s) as [t0 r0] eqn:E. injection H as <- <-. apply pcdata_len in E. cbn. lia.
Qed.
Lemma attr_value_len q : forall s k t r, attr_value q k s = Some (t, r) -> (length r < length s)%nat.
Proof.
  induction s as [|c s IH]; intros k t r H; cbn [attr_value] in H; [discriminate|]. destruct k as [|k].
  - destruct (c =? q); [injection H as <- <-; cbn; lia|].
    destruct (ct_space c); [|destruct (c =? 38); [destruct (escape s) as [d k]|]].
    all: match type of H with option_map _ ?x = _ => destruct x as [[t0 r0]|] eqn:E; [|discriminate] end.
    all: injection H as <- <-; apply IH in E; cbn; lia.
  - apply IH in H. cbn. lia.
Qed.
Lemma cdata_value_len : forall s k t r, cdata_value k s = Some (t, r) -> (length r <= length s)%nat.
Proof.
  induction s as [|c s IH]; intros k t r H; cbn [cdata_value] in H; [discriminate|]. destruct k as [|k].
  - destruct (c =? 13).
    + destruct (cdata_value _ s) as [[t0 r0]|] eqn:E; [|discriminate]. injection H as <- <-. apply IH in E. cbn. lia.
    + destruct (starts cdata_close (c :: s)) as [r0|] eqn:E.
      * injection H as <- <-. apply starts_len in E. lia.
      * destruct (cdata_value 0 s) as [[t0 r0]|] eqn:E'; [|discriminate]. injection H as <- <-. apply IH in E'. cbn. lia.
  - apply IH in H. cbn. lia.
Qed.
Lemma parse_attrs_len : forall f s ats b r, parse_attrs f s = Ok (ats, b, r) -> (length r <= length s)%nat.
Proof.
  induction f as [|f IH]; intros s ats b r H; cbn [parse_attrs] in H; [discriminate|].
  pose proof (span_len ct_space s) as L1. destruct (snd (span ct_space s)) as [|c s1]; [discriminate|].
  destruct (ct_start c).
  - destruct (span ct_symbol (c :: s1)) as [nm s2] eqn:E2. pose proof (span_len ct_symbol (c :: s1)) as L2. rewrite E2 in L2. cbn [snd] in L2.
    pose proof (span_len ct_space s2) as L3. destruct (starts [61] (snd (span ct_space s2))) as [s3|] eqn:E3; [|discriminate].
    apply starts_len in E3. pose proof (span_len ct_space s3) as L4. destruct (snd (span ct_space s3)) as [|q s4]; [discriminate|].
    destruct ((q =? 34) || (q =? 39)); [|discriminate]. destruct (attr_value q 0 s4) as [[v s5]|] eqn:E5; [|discriminate].
    apply attr_value_len in E5. destruct (match s5 with d :: _ => ct_start d | [] => false end); [discriminate|].
    destruct (parse_attrs f s5) as [[[a0 b0] r0]| | |] eqn:E6; cbn [bind] in H; try discriminate. injection H as <- <- <-.
    apply IH in E6. cbn [length] in *. lia.
  - destruct (c =? 47).
    + destruct (starts [62] s1) as [r'|] eqn:E; [|discriminate]. injection H as <- <- <-. apply starts_len in E. cbn [length] in *. lia.
    + destruct (c =? 62); [|discriminate]. injection H as <- <- <-. cbn [length] in *. lia.
Qed.
Lemma turn_shorter s cur stk s' cur' stk' : s <> [] -> turn s cur stk = Ok (s', cur', stk') -> (length s' < length s)%nat.
Proof.
  intros N H. unfold turn in H. destruct (starts [60] s) as [r|] eqn:E.
  - apply starts_len in E. destruct r as [|c r]; [discriminate|]. destruct (ct_start c).
    + unfold start_tag in H. destruct (span ct_symbol (c :: r)) as [nm s1] eqn:E1. pose proof (span_len ct_symbol (c :: r)) as L1.
      rewrite E1 in L1. cbn [snd] in L1. destruct s1 as [|ch r1]; [discriminate|]. destruct (ch =? 62).
      * injection H as <- <- <-. cbn [length] in *. lia.
      * destruct (ct_space ch).
        -- destruct (parse_attrs _ r1) as [[[a0 b0] r0]| | |] eqn:E2; cbn [bind] in H; try discriminate. apply parse_attrs_len in E2.
           destruct b0; injection H as <- <- <-; cbn [length] in *; lia.
        -- destruct (ch =? 47); [|discriminate]. destruct (starts [62] r1) as [r'|] eqn:E2; [|discriminate].
           injection H as <- <- <-. apply starts_len in E2. cbn [length] in *. lia.
    + destruct (c =? 47).
      * unfold end_tag in H. destruct stk as [|[[nm ats] par] stk]; [discriminate|]. destruct (span ct_symbol r) as [n0 s1] eqn:E1.
        pose proof (span_len ct_symbol r) as L1. rewrite E1 in L1. cbn [snd] in L1. destruct (str_eqb n0 nm); [|discriminate].
        pose proof (span_len ct_space s1) as L2. destruct (starts [62] _) as [r'|] eqn:E2; [|discriminate].
        injection H as <- <- <-. apply starts_len in E2. cbn [length] in *. lia.
      * destruct (c =? 63).
        -- destruct (question r) as [r'|] eqn:E1; [|discriminate]. injection H as <- <- <-. unfold question in E1.
           destruct r as [|d r]; [discriminate|]. destruct (ct_start d); [|discriminate]. apply scan_len in E1.
           pose proof (span_len ct_symbol (d :: r)). cbn [length] in *. lia.
        -- destruct (c =? 33); [|discriminate]. unfold exclamation in H. destruct (starts [45; 45] r) as [r1|] eqn:E1.
           ++ apply starts_len in E1. destruct (scan_for _ r1) as [r2|] eqn:E2; [|discriminate]. injection H as <- <- <-.
              apply scan_len in E2. cbn [length] in *. lia.
           ++ destruct (starts (txt "[CDATA[") r) as [r1|] eqn:E2; [|discriminate]. apply starts_len in E2.
              destruct (cdata_value 0 r1) as [[t r2]|] eqn:E3; [|discriminate]. injection H as <- <- <-. apply cdata_value_len in E3.
              cbn [length] in *. lia.
  - destruct s as [|c s]; [easy|]. assert (C : c <> 60) by (intros ->; cbn in E; discriminate).
    destruct (span ct_space (c :: s)) as [w s1] eqn:W. cbn [snd] in H. destruct (span_spec _ _ _ _ W) as (W1 & _ & _).
    destruct s1 as [|d s1]; [injection H as <- <- <-; cbn; lia|]. destruct (Z.eqb_spec d 60) as [->|D].
    + injection H as <- <- <-. destruct w as [|x w]; [cbn in W1; congruence|]. rewrite W1, app_length. cbn. lia.
    + destruct stk as [|f stk].
      * injection H as <- <- <-. cbn [span]. destruct (Z.eqb_spec c 60); [congruence|]. cbn [negb].
        pose proof (span_len (fun c => negb (c =? 60)) s) as L. destruct (span (fun c => negb (c =? 60)) s). cbn [snd length] in *. lia.
      * destruct (pcdata 0 (c :: s)) as [t r] eqn:P. injection H as <- <- <-. exact (pcdata_shorter c s t r C P).
Qed.

Lemma parse_tree_fuel : forall f g s cur stk, (length s < f)%nat -> (length s < g)%nat ->
  parse_tree f s cur stk = parse_tree g s cur stk.
Proof.
  induction f as [|f IH]; intros g s cur stk Hf Hg; [lia|]. destruct g as [|g]; [lia|]. cbn [parse_tree].
  destruct s as [|c s]; [reflexivity|]. destruct (turn (c :: s) cur stk) as [[[s' cur'] stk']| | |] eqn:E; cbn [bind]; try reflexivity.
  apply turn_shorter in E; [|discriminate]. apply IH; lia.
Qed.
Definition run (s : str) cur stk := parse_tree (S (length s)) s cur stk.
Lemma run_turn s cur stk : s <> [] ->
  run s cur stk = let* p := turn s cur stk in let '(s', cur', stk') := p in run s' cur' stk'.
Proof.
  intros N. unfold run. destruct s as [|c s]; [easy|].
  change (parse_tree (S (length (c :: s))) (c :: s) cur stk) with
    (let* p := turn (c :: s) cur stk in let '(s', cur', stk') := p in parse_tree (length (c :: s)) s' cur' stk').
  destruct (turn (c :: s) cur stk) as [[[s' cur'] stk']| | |] eqn:E; cbn [bind]; try reflexivity.
  apply turn_shorter in E; [|discriminate]. apply parse_tree_fuel; lia.
Qed.
Lemma parse_attrs_fuel : forall f g s, (length s < f)%nat -> (length s < g)%nat -> parse_attrs f s = parse_attrs g s.
Proof.
  induction f as [|f IH]; intros g s Hf Hg; [lia|]. destruct g as [|g]; [lia|]. cbn [parse_attrs].
  pose proof (span_len ct_space s) as L1. destruct (snd (span ct_space s)) as [|c s1]; [reflexivity|].
  destruct (ct_start c); [|reflexivity].
  destruct (span ct_symbol (c :: s1)) as [nm s2] eqn:E2. pose proof (span_len ct_symbol (c :: s1)) as L2. rewrite E2 in L2. cbn [snd] in L2.
  pose proof (span_len ct_space s2) as L3. destruct (starts [61] (snd (span ct_space s2))) as [s3|] eqn:E3; [|reflexivity].
  apply starts_len in E3. pose proof (span_len ct_space s3) as L4. destruct (snd (span ct_space s3)) as [|q s4]; [reflexivity|].
  destruct ((q =? 34) || (q =? 39)); [|reflexivity]. destruct (attr_value q 0 s4) as [[v s5]|] eqn:E5; [|reflexivity].
  apply attr_value_len in E5. destruct (match s5 with d :: _ => ct_start d | [] => false end); [reflexivity|].
  cbn [length] in *. now rewrite (IH g s5) by lia.
Qed.

(** ** characters *)
Lemma ws_space c : ws c = ct_space c.
Proof. unfold ws, ct_space. cbn [existsb]. rewrite orb_false_r. now rewrite !orb_assoc. Qed.
Lemma letter_start c : letter c -> ct_start c = true.
Proof. unfold letter, ct_start. lia. Qed.
Lemma name_symbol c : name_char c -> ct_symbol c = true.
Proof. unfold name_char, letter, ct_symbol, ct_start, is_digit. lia. Qed.
Lemma name_all s : Forall name_char s -> all ct_symbol s.
Proof. apply Forall_impl, name_symbol. Qed.
Lemma start_not_special c : ct_start c = true -> c <> 47 /\ c <> 63 /\ c <> 33 /\ c <> 62 /\ ct_space c = false.
Proof. unfold ct_start, ct_space. lia. Qed.
Lemma c_str_id s : Forall (fun c => c <> 0) s -> c_str s = s.
Proof. induction 1 as [|c s H _ IH]; cbn; [reflexivity|]. destruct (Z.eqb_spec c 0); [easy|]. now rewrite IH. Qed.
Lemma chars_nz s : chars s -> Forall (fun c => c <> 0) s.
Proof. apply Forall_impl. lia. Qed.
Lemma chars_app a b : chars (a ++ b) <-> chars a /\ chars b.
Proof. apply Forall_app. Qed.

(** a character printed is what is read *)
Lemma two_digits c : 0 <= c < 32 -> forall r, escape ([35; c / 10 + 48; c mod 10 + 48; 59] ++ r) = (c, 4%nat).
Proof.
  intros H r. unfold escape. cbn [app starts]. change (35 =? 35) with true. cbn iota.
  destruct (Z.eqb_spec 120 (c / 10 + 48)) as [E|_]; [lia|].
  assert (D1 : is_digit (c / 10 + 48) = true) by (unfold is_digit; lia).
  assert (D2 : is_digit (c mod 10 + 48) = true) by (unfold is_digit; lia).
  cbn [span]. rewrite D1, D2. change (is_digit 59) with false. cbn iota.
  unfold next_is. change (59 =? 59) with true. cbn iota. unfold dval. cbn [fold_left length].
  f_equal. rewrite Z.mod_small; lia.
Qed.
Lemma skip_pcdata k : forall s r, length s = k -> pcdata k (s ++ r) = pcdata O r.
Proof.
  induction k as [|k IH]; intros [|c s] r H; cbn in H; try lia; [reflexivity|]. cbn [app pcdata]. apply IH. lia.
Qed.
Lemma skip_attr q k : forall s r, length s = k -> attr_value q k (s ++ r) = attr_value q O r.
Proof.
  induction k as [|k IH]; intros [|c s] r H; cbn in H; try lia; [reflexivity|]. cbn [app attr_value]. apply IH. lia.
Qed.

(** a reference: an ampersand, and something escape turns into a character *)
Lemma esc_cases special c : (special = special_pcdata \/ special = special_attr) -> 0 <= c ->
  (esc special c = [c] /\ (special c = false \/ c = 39)) \/
  (special c = true /\ exists r, esc special c = 38 :: r /\ forall rest, escape (r ++ rest) = (c, length r)).
Proof.
  intros S H. unfold esc. destruct (special c) eqn:E; [|left; now split; [|left]].
  destruct (Z.eqb_spec c 38) as [->|]; [right; split; [reflexivity|]; now exists (txt "amp;")|].
  destruct (Z.eqb_spec c 60) as [->|]; [right; split; [reflexivity|]; now exists (txt "lt;")|].
  destruct (Z.eqb_spec c 62) as [->|]; [right; split; [reflexivity|]; now exists (txt "gt;")|].
  destruct (Z.eqb_spec c 34) as [->|]; [right; split; [reflexivity|]; now exists (txt "quot;")|].
  destruct (Z.eqb_spec c 39) as [->|]; [left; split; [reflexivity|]; now right|].
  right; split; [reflexivity|]. eexists; split; [reflexivity|]. intros rest. apply two_digits.
  destruct S as [->| ->]; [unfold special_pcdata in E|unfold special_attr in E]; lia.
Qed.

Lemma next_esc special s r : (special = special_pcdata \/ special = special_attr) -> Forall (fun c => 0 <= c) s -> next_is 10 r = false ->
  next_is 10 (escaped special_pcdata s ++ r) = match s with d :: _ => d =? 10 | [] => false end.
Proof.
  intros _ H R. destruct s as [|c s]; [exact R|]. unfold escaped. cbn [flat_map]. inversion H; subst.
  destruct (esc_cases special_pcdata c) as [(E & _)|(S & r0 & E & _)]; [now left|assumption| |].
  - rewrite E. reflexivity.
  - rewrite E. cbn [app next_is]. unfold special_pcdata in S. lia.
Qed.

Lemma pcdata_esc : forall n s r, (length s <= n)%nat -> Forall (fun c => 0 <= c) s ->
  pcdata O (escaped special_pcdata s ++ 60 :: r) = (line_ends s, 60 :: r).
Proof.
  induction n as [|n IH]; intros s r L H.
  { destruct s; [reflexivity|cbn in L; lia]. }
  destruct s as [|c s]; [reflexivity|]. inversion H as [|? ? Hc Hs]; subst. cbn [length] in L.
  unfold escaped. cbn [flat_map]. fold (escaped special_pcdata s). rewrite <- app_assoc.
  destruct (esc_cases special_pcdata c) as [(E & S)|(S & r0 & E & Er)]; [now left|assumption| |].
  - rewrite E. cbn [app pcdata line_ends]. destruct (Z.eqb_spec c 60) as [->|N60].
    { destruct S as [S|S]; discriminate. }
    destruct (Z.eqb_spec c 13) as [->|N13].
    + rewrite (next_esc special_pcdata) by (auto; reflexivity). destruct s as [|d s]; [reflexivity|].
      destruct (Z.eqb_spec d 10) as [->|].
      * unfold escaped. cbn [flat_map]. fold (escaped special_pcdata s). change (esc special_pcdata 10) with [10].
        cbn [app pcdata]. inversion Hs; subst. rewrite IH by (cbn [length] in L; auto; lia). reflexivity.
      * rewrite IH by (auto; lia). reflexivity.
    + destruct (Z.eqb_spec c 38) as [->|N38].
      { destruct S as [S|S]; discriminate. }
      rewrite IH by (auto; lia). reflexivity.
  - rewrite E. cbn [app pcdata line_ends]. change (38 =? 60) with false. change (38 =? 13) with false. change (38 =? 38) with true. cbn iota.
    rewrite Er. rewrite (skip_pcdata (length r0)) by reflexivity. rewrite IH by (auto; lia).
    destruct (Z.eqb_spec c 13) as [->|]; [discriminate|reflexivity].
Qed.
Lemma attr_esc r : forall s, Forall (fun c => 0 <= c) s ->
  attr_value 34 O (escaped special_attr s ++ 34 :: r) = Some (s, r).
Proof.
  induction 1 as [|c s Hc Hs IH]; [reflexivity|]. unfold escaped. cbn [flat_map]. fold (escaped special_attr s). rewrite <- app_assoc.
  destruct (esc_cases special_attr c) as [(E & S)|(S & r0 & E & Er)]; [now right|assumption| |].
  - rewrite E. cbn [app attr_value].
    destruct (Z.eqb_spec c 34) as [->|N34]; [destruct S; discriminate|].
    destruct (ct_space c) eqn:W.
    + destruct (Z.eqb_spec c 32) as [->|N32].
      * change ((32 =? 13) && _) with false. cbn iota. now rewrite IH.
      * exfalso. destruct S as [S| ->]; [|discriminate]. unfold special_attr in S. unfold ct_space in W. lia.
    + destruct (Z.eqb_spec c 38) as [->|N38]; [destruct S; discriminate|]. now rewrite IH.
  - rewrite E. cbn [app attr_value]. change (38 =? 34) with false. change (ct_space 38) with false. change (38 =? 38) with true. cbn iota.
    rewrite Er. rewrite (skip_attr 34 (length r0)) by reflexivity. now rewrite IH.
Qed.

(** ** CDATA sections *)
Lemma close_at p r c : starts cdata_close (c :: p ++ cdata_close ++ r) <> None -> has_close (c :: p).
Proof.
  intros H. unfold cdata_close in H. cbn [starts] in H. destruct (Z.eqb_spec 93 c) as [E|]; [subst c|easy].
  destruct p as [|d p]; cbn [app starts] in H; [easy|]. destruct (Z.eqb_spec 93 d) as [E|]; [subst d|easy].
  destruct p as [|e p]; cbn [app starts] in H; [easy|]. destruct (Z.eqb_spec 62 e) as [E|]; [subst e|easy].
  now exists [], p.
Qed.
Lemma has_close_cons c p : has_close p -> has_close (c :: p).
Proof. intros (a & b & ->). now exists (c :: a), b. Qed.
Lemma cdata_read : forall n p r, (length p <= n)%nat -> ~ has_close p ->
  cdata_value O (p ++ cdata_close ++ r) = Some (line_ends p, r).
Proof.
  induction n as [|n IH]; intros p r L H; (destruct p as [|c p]; [reflexivity|cbn in L; try lia]).
  assert (H' : ~ has_close p) by (intros X; apply H; now apply has_close_cons).
  cbn [app cdata_value line_ends]. destruct (Z.eqb_spec c 13) as [->|N].
  - destruct p as [|d p]; [reflexivity|]. unfold next_is. cbn [app]. destruct (Z.eqb_spec d 10) as [->|].
    + cbn [cdata_value]. rewrite IH; [reflexivity|cbn in L; lia|]. intros X. apply H'. now apply has_close_cons.
    + change (d :: p ++ cdata_close ++ r) with ((d :: p) ++ cdata_close ++ r). rewrite IH by (cbn in *; auto; lia). reflexivity.
  - destruct (starts cdata_close (c :: p ++ cdata_close ++ r)) as [x|] eqn:E.
    + exfalso. apply H, (close_at p r c). congruence.
    + rewrite IH by (auto; lia). reflexivity.
Qed.

Lemma pieces_cons s : exists p ps, pieces s = p :: ps.
Proof.
  destruct s as [|a [|b [|c s]]]; cbn [pieces]; eauto.
  destruct (_ && _); eauto. destruct (match s with [] => _ | _ => _ end); eauto.
Qed.
(** the printed sections, and that the pieces are what they should be *)
Lemma body_pieces : forall n s, (length s <= n)%nat -> exists p ps, pieces s = p :: ps /\
  cdata_body s ++ cdata_close = p ++ cdata_close ++ flat_map (fun p => cdata_open ++ p ++ cdata_close) ps.
Proof.
  induction n as [|n IH]; intros s L; (destruct s as [|a s]; [now exists [], []|]); [cbn in L; lia|]. cbn [length] in L.
  assert (G : exists p ps, match pieces s with p :: ps => (a :: p) :: ps | [] => [[a]] end = p :: ps /\
    (a :: cdata_body s) ++ cdata_close = p ++ cdata_close ++ flat_map (fun p => cdata_open ++ p ++ cdata_close) ps).
  { destruct (IH s) as (p & ps & E & B); [lia|]. exists (a :: p), ps. rewrite E. split; [reflexivity|]. cbn [app]. now rewrite B. }
  cbn [pieces cdata_body]. destruct s as [|b [|c s]]; [exact G|exact G|].
  destruct ((a =? 93) && (b =? 93) && (c =? 62)) eqn:T; [|exact G]. clear G.
  destruct (IH (c :: s)) as (p & ps & E & B); [cbn [length] in *; lia|].
  exists [93; 93], (pieces (c :: s)). split; [reflexivity|]. rewrite E. cbn [flat_map]. rewrite <- !app_assoc, B. reflexivity.
Qed.
Lemma cdata_pieces s : cdata_out s = flat_map (fun p => cdata_open ++ p ++ cdata_close) (pieces s).
Proof.
  destruct (body_pieces (length s) s (le_n _)) as (p & ps & E & B). unfold cdata_out. rewrite E, B. cbn [flat_map]. now rewrite <- !app_assoc.
Qed.
Lemma pieces_spec : forall n s, (length s <= n)%nat -> concat (pieces s) = s /\ Forall (fun p => ~ has_close p) (pieces s).
Proof.
  induction n as [|n IH]; intros s L; (destruct s as [|a s]; [split; [reflexivity|]; constructor; [|constructor]; intros ([|? [|]] & ? & ?); discriminate|]);
    [cbn in L; lia|]. cbn [length] in L.
  destruct (IH s) as (C & F); [lia|]. destruct (pieces_cons s) as (p & ps & E).
  assert (G : (forall b c r, s = b :: c :: r -> ((a =? 93) && (b =? 93) && (c =? 62)) = false) ->
    concat (match pieces s with p :: ps => (a :: p) :: ps | [] => [[a]] end) = a :: s /\
    Forall (fun p => ~ has_close p) (match pieces s with p :: ps => (a :: p) :: ps | [] => [[a]] end)).
  { intros N. rewrite E in *. cbn [concat app] in *. split; [now rewrite C|]. inversion_clear F as [|? ? F1 F2]. constructor; [|exact F2].
    intros (x & y & X). destruct x as [|x0 x]; cbn in X.
    - injection X as -> ->. specialize (N 93 62 (y ++ concat ps) (eq_sym C)). discriminate.
    - injection X as -> ->. apply F1. now exists x, y. }
  cbn [pieces]. destruct s as [|b [|c s]]; [apply G; discriminate|apply G; discriminate|].
  destruct ((a =? 93) && (b =? 93) && (c =? 62)) eqn:T.
  - destruct (IH (c :: s)) as (C' & F'); [cbn [length] in *; lia|]. assert (T' : a = 93 /\ b = 93 /\ c = 62) by lia. destruct T' as (-> & -> & ->).
    split; [cbn [concat]; now rewrite C'|]. constructor; [|exact F']. intros ([|? [|? [|]]] & ? & ?); discriminate.
  - apply G. intros b0 c0 r X. injection X as <- <- <-. exact T.
Qed.
