(** The texts made by the JSON writer (JsonModel, JsonSpec). *)
From Coq Require Import String Floats.SpecFloat.
From Verif Require Import Base CodecModel TextModel TextProofs PugiModel DateModel StatModel DocModel GuidModel JsonModel JsonSpec JsonProofs JsonRead.
Open Scope Z_scope.
Local Open Scope list_scope.

Section JdInd.
  Variable P : jd -> Prop.
  Hypothesis HI : forall z, P (DInt z).
  Hypothesis HD : forall x, P (DDbl x).
  Hypothesis HS : forall s, P (DStr s).
  Hypothesis HA : forall l, Forall P l -> P (DArr l).
  Hypothesis HO : forall l, Forall (fun e : str * jd => P (snd e)) l -> P (DObj l).
  Fixpoint jd_nested (d : jd) : P d :=
    match d with
    | DInt z => HI z
    | DDbl x => HD x
    | DStr s => HS s
    | DArr l => HA l ((fix go (l : list jd) : Forall P l := match l with [] => Forall_nil _ | d :: l' => Forall_cons _ (jd_nested d) (go l') end) l)
    | DObj l => HO l ((fix go (l : list (str * jd)) : Forall (fun e : str * jd => P (snd e)) l :=
                         match l with [] => Forall_nil _ | e :: l' => Forall_cons _ (jd_nested (snd e)) (go l') end) l)
    end.
End JdInd.

Definition no_nul (t : str) : Prop := Forall (fun c => 0 < c) t.
Lemma no_nul_in t : no_nul t -> ~ In 0 t.
Proof. intros H I. unfold no_nul in H. rewrite Forall_forall in H. specialize (H 0 I). lia. Qed.

(** ** Integers and strings *)
Lemma dec_value z : Z.abs z < 10 ^ 19 -> json_value (VInt z) (dec z) /\ no_nul (dec z).
Proof.
  intro B. destruct (dec_digits_spec 19 (Z.abs z)) as (A & D & V & N); [change (10 ^ Z.of_nat 20) with (10 ^ 20); lia|].
  rewrite dec_mag. unfold mag. set (t := dec_digits 20 (Z.abs z)) in *.
  assert (W : whole_text t).
  { destruct (Z.eq_dec (Z.abs z) 0) as [E|E]; [left; unfold t; rewrite E; reflexivity|]. right. specialize (N E).
    destruct t as [|c r]; [contradiction|]. exists c, r. inversion D as [|? ? C R]. split; [reflexivity|]. cbn [stops] in N. unfold is_digit in C.
    split; [lia|now apply figures_all]. }
  assert (NN : no_nul t) by (eapply Forall_impl; [|exact D]; intros c; unfold is_digit; lia).
  destruct (Z.ltb_spec z 0).
  - split; [|constructor; [lia|exact NN]]. pose proof (JVInt true t W) as J. cbn [signed sign_text app] in J. rewrite V in J. replace (- Z.abs z) with z in J by lia. exact J.
  - split; [|exact NN]. pose proof (JVInt false t W) as J. cbn [signed sign_text app] in J. rewrite V in J. replace (Z.abs z) with z in J by lia. exact J.
Qed.
Lemma hex_upper_fig x : 0 <= x < 16 -> hexfig (hex_upper x) x.
Proof. intro H. unfold hex_upper. destruct (Z.ltb_spec x 10); constructor; lia. Qed.
Lemma char_piece c : 0 < c < 256 -> piece (write_char c) [c] /\ no_nul (write_char c).
Proof.
  intro B. unfold write_char. destruct (Z.eqb_spec c 34) as [->|N1]; [split; [apply PEscape; cbn; tauto|repeat constructor]|].
  destruct (Z.eqb_spec c 92) as [->|N2]; [split; [apply PEscape; cbn; tauto|repeat constructor]|].
  destruct (Z.ltb_spec c 32) as [L|L]; [|split; [constructor; lia|constructor; [lia|constructor]]].
  destruct (Z.eqb_spec c 8) as [->|N3]; [split; [apply PEscape; cbn; tauto|repeat constructor]|].
  destruct (Z.eqb_spec c 12) as [->|N4]; [split; [apply PEscape; cbn; tauto|repeat constructor]|].
  destruct (Z.eqb_spec c 10) as [->|N5]; [split; [apply PEscape; cbn; tauto|repeat constructor]|].
  destruct (Z.eqb_spec c 13) as [->|N6]; [split; [apply PEscape; cbn; tauto|repeat constructor]|].
  destruct (Z.eqb_spec c 9) as [->|N7]; [split; [apply PEscape; cbn; tauto|repeat constructor]|].
  assert (U : unit_text [92; 117; 48; 48; hex_upper (c / 16); hex_upper (c mod 16)] c).
  { pose proof (UnitText 48 48 _ _ 0 0 _ _ (HexDigit 0 ltac:(lia)) (HexDigit 0 ltac:(lia)) (hex_upper_fig (c / 16) ltac:(lia)) (hex_upper_fig (c mod 16) ltac:(lia))) as U.
    replace (4096 * 0 + 256 * 0 + 16 * (c / 16) + c mod 16) with c in U by lia. exact U. }
  split.
  - pose proof (PUnit _ _ U ltac:(lia)) as P. unfold utf8_char in P. destruct (Z.ltb_spec c 128); [exact P|lia].
  - assert (HP : forall x, 0 <= x -> 0 < hex_upper x) by (intros x X; unfold hex_upper; destruct (x <? 10); lia).
    unfold no_nul. constructor; [lia|]. constructor; [lia|]. constructor; [lia|]. constructor; [lia|]. constructor; [apply HP; lia|]. constructor; [apply HP; lia|constructor].
Qed.
Lemma string_value s : bytes_text s -> string_text (flat_map write_char s) s /\ no_nul (flat_map write_char s).
Proof.
  induction 1 as [|c s C S (IH & NN)]; [split; constructor|]. destruct (char_piece c C) as (P & N). cbn [flat_map]. split.
  - exact (STPiece _ [c] _ s P IH).
  - apply Forall_app. auto.
Qed.

(** ** Values *)
Definition start_ok (t : str) : Prop := match t with [] => True | c :: _ => is_ws c = false /\ c <> 93 end.
Lemma start_stops t : start_ok t -> stops is_ws t.
Proof. destruct t as [|c t]; [intros; exact Logic.I|intros (A & _); exact A]. Qed.

Ltac flt := cbn [app]; repeat (rewrite <- app_assoc; cbn [app]).
Section Texts.
  Variable dtoa : spec_float -> str.
  Notation w := (jwrite dtoa).
  Notation m := (meant dtoa).

  Definition whole_ok (d : jd) : Prop := exists t, w d = (t, true) /\ ~ has_hole d /\ json_value (m d) t /\ no_nul t.
  Definition broken (d : jd) : Prop := exists t, w d = (t, false) /\ has_hole d /\ start_ok t /\ no_nul t /\
    forall n, (2 * length t <= n)%nat -> value n t = None.

  Lemma elems_false d l : write_elems w false (d :: l) = let '(t, ok) := write_elems w true (d :: l) in (44 :: t, ok).
  Proof. cbn [write_elems]. destruct (w d) as [t ok]. destruct ok; [|reflexivity]. destruct (write_elems w false l). reflexivity. Qed.
  Lemma membs_false e l : write_membs w false (e :: l) = let '(t, ok) := write_membs w true (e :: l) in (44 :: t, ok).
  Proof. destruct e as [k d]. cbn [write_membs]. destruct (w d) as [t ok]. destruct ok; [|reflexivity]. destruct (write_membs w false l). reflexivity. Qed.
  Lemma elems_true d l : write_elems w true (d :: l) =
    let '(t, ok) := w d in if ok then let '(u, ok') := write_elems w false l in (t ++ u, ok') else (t, false).
  Proof. reflexivity. Qed.
  Lemma membs_true k d l : write_membs w true ((k, d) :: l) =
    let '(t, ok) := w d in let p := write_string k ++ [58] ++ t in if ok then let '(u, ok') := write_membs w false l in (p ++ u, ok') else (p, false).
  Proof. reflexivity. Qed.

  Lemma elems_spec : forall l, Forall (fun d => whole_ok d \/ broken d) l -> l <> [] ->
    (exists t, write_elems w true l = (t ++ [93], true) /\ (forall d, In d l -> ~ has_hole d) /\ json_elements (map m l) t /\ no_nul t) \/
    (exists t, write_elems w true l = (t, false) /\ (exists d, In d l /\ has_hole d) /\ start_ok t /\ no_nul t /\
       forall n, (2 * length t + 1 <= n)%nat -> elements n t = None).
  Proof.
    induction l as [|d l IH]; intros F N; [contradiction|]. inversion F as [|? ? [(t & W & H & V & NN)|(t & W & H & S & NN & B)] F']; subst.
    - destruct l as [|d2 l].
      + left. exists t. rewrite elems_true, W. cbn [write_elems]. split; [reflexivity|]. split; [intros x [<-|[]]; exact H|]. split; [|exact NN].
        pose proof (JELast [] (m d) t [] (Forall_nil _) V (Forall_nil _)) as J. cbn [app] in J. rewrite app_nil_r in J. exact J.
      + specialize (IH F' ltac:(discriminate)). rewrite elems_true, W, elems_false. destruct IH as [(u & E & H' & J & NU)|(u & E & H' & S & NU & B)]; rewrite E.
        * left. exists (t ++ 44 :: u). split; [now rewrite <- app_assoc|]. split; [intros x [<-|I]; [exact H|now apply H']|].
          split; [exact (JEMore [] (m d) t [] _ u (Forall_nil _) V (Forall_nil _) J)|]. apply Forall_app. split; [exact NN|]. constructor; [lia|exact NU].
        * right. exists (t ++ 44 :: u). split; [reflexivity|]. split; [destruct H' as (x & I & X); exists x; split; [now right|exact X]|].
          destruct (value_head _ _ V) as (c & t' & -> & C & C'). split; [split; assumption|].
          split; [apply Forall_app; split; [exact NN|constructor; [lia|exact NU]]|]. intros n L. rewrite app_length in L. cbn [length] in L.
          destruct n as [|n]; [lia|]. rewrite elements_S, (proj1 read_complete _ _ V); [|cbn [length]; lia|repeat split; lia].
          rewrite skip_none by reflexivity. cbn [Z.eqb Pos.eqb]. rewrite (skip_none u) by now apply start_stops. rewrite B by lia. reflexivity.
    - right. exists t. rewrite elems_true, W. split; [reflexivity|]. split; [exists d; split; [now left|exact H]|]. split; [exact S|]. split; [exact NN|].
      intros n L. destruct n as [|n]; [lia|]. rewrite elements_S, B by lia. reflexivity.
  Qed.

  Lemma membs_spec : forall l, Forall (fun e : str * jd => bytes_text (fst e) /\ (whole_ok (snd e) \/ broken (snd e))) l -> l <> [] ->
    (exists t, write_membs w true l = (t ++ [125], true) /\ (forall k d, In (k, d) l -> ~ has_hole d) /\
       json_members (map (fun e => (fst e, m (snd e))) l) t /\ no_nul t) \/
    (exists t, write_membs w true l = (34 :: t, false) /\ (exists k d, In (k, d) l /\ has_hole d) /\ no_nul t /\
       forall n, (2 * length t <= n)%nat -> members n (34 :: t) = None).
  Proof.
    induction l as [|[k d] l IH]; intros F N; [contradiction|]. inversion F as [|? ? (K & [(t & W & H & V & NN)|(t & W & H & S & NN & B)]) F']; subst; cbn [fst snd] in *.
    - destruct (string_value k K) as (SK & NK). assert (NT : no_nul ((34 :: flat_map write_char k ++ [34]) ++ [58] ++ t)).
      { apply Forall_app. split; [constructor; [lia|]; apply Forall_app; split; [exact NK|repeat constructor]|]. constructor; [lia|exact NN]. }
      destruct l as [|[k2 d2] l].
      + left. exists (34 :: flat_map write_char k ++ 34 :: 58 :: t). rewrite membs_true, W. cbn [write_membs]. unfold write_string. flt.
        split; [reflexivity|]. split; [intros k' x [[= <- <-]|[]]; exact H|]. split.
        * pose proof (JMLast [] _ k [] [] (m d) t [] (Forall_nil _) SK (Forall_nil _) (Forall_nil _) V (Forall_nil _)) as J. cbn [app] in J. rewrite app_nil_r in J. exact J.
        * revert NT. flt. intro Q. exact Q.
      + specialize (IH F' ltac:(discriminate)). rewrite membs_true, W, membs_false. destruct IH as [(u & E & H' & J & NU)|(u & E & H' & NU & B)]; rewrite E.
        * left. exists (34 :: flat_map write_char k ++ 34 :: 58 :: t ++ 44 :: u). unfold write_string. flt.
          split; [reflexivity|]. split; [intros k' x [[= <- <-]|I]; [exact H|now apply (H' k')]|]. split.
          { exact (JMMore [] _ k [] [] (m d) t [] _ u (Forall_nil _) SK (Forall_nil _) (Forall_nil _) V (Forall_nil _) J). }
          replace (34 :: flat_map write_char k ++ 34 :: 58 :: t ++ 44 :: u) with (((34 :: flat_map write_char k ++ [34]) ++ [58] ++ t) ++ 44 :: u) by (flt; reflexivity).
          apply Forall_app. split; [exact NT|]. constructor; [lia|exact NU].
        * right. exists (flat_map write_char k ++ 34 :: 58 :: t ++ 44 :: 34 :: u). unfold write_string. flt.
          split; [reflexivity|]. split; [destruct H' as (k' & x & I & X); exists k', x; split; [now right|exact X]|]. split.
          { assert (no_nul (((34 :: flat_map write_char k ++ [34]) ++ [58] ++ t) ++ 44 :: 34 :: u)) as Q
              by (apply Forall_app; split; [exact NT|constructor; [lia|constructor; [lia|exact NU]]]).
            revert Q. flt. intro Q. inversion Q. assumption. }
          intros n L. repeat (rewrite app_length in L; cbn [length] in L). destruct n as [|n]; [lia|]. rewrite members_S. cbn [strip Z.eqb Pos.eqb].
          rewrite (jstring_complete _ _ SK) by lia. rewrite skip_none by reflexivity. cbn [strip Z.eqb Pos.eqb].
          rewrite skip_none by now apply value_stops with (m d).
          rewrite (proj1 read_complete _ _ V); [|lia|repeat split; lia]. rewrite skip_none by reflexivity. cbn [Z.eqb Pos.eqb].
          rewrite skip_none by reflexivity. rewrite B by lia. reflexivity.
    - destruct (string_value k K) as (SK & NK). right. exists (flat_map write_char k ++ 34 :: 58 :: t). rewrite membs_true, W. unfold write_string. flt.
      split; [reflexivity|]. split; [exists k, d; split; [now left|exact H]|].
      split; [apply Forall_app; split; [exact NK|constructor; [lia|constructor; [lia|exact NN]]]|].
      intros n L. repeat (rewrite app_length in L; cbn [length] in L). destruct n as [|n]; [lia|]. rewrite members_S. cbn [strip Z.eqb Pos.eqb].
      rewrite (jstring_complete _ _ SK) by lia. rewrite skip_none by reflexivity. cbn [strip Z.eqb Pos.eqb].
      rewrite skip_none by now apply start_stops. rewrite B by lia. reflexivity.
  Qed.

  Lemma number_no_nul t : number_text t -> no_nul t.
  Proof.
    intros (neg & i & f & e & -> & W & F & E & _).
    assert (FG : forall d, figures d -> no_nul d) by (intros d D; eapply Forall_impl; [|exact D]; cbn beta; intros; lia).
    apply Forall_app. split; [destruct neg; repeat constructor|]. apply Forall_app. split.
    { destruct W as [->|(c & r & -> & C & R)]; [repeat constructor|]. constructor; [lia|now apply FG]. }
    apply Forall_app. split.
    { destruct F as [->|(d & -> & _ & D)]; [constructor|]. constructor; [lia|now apply FG]. }
    destruct E as [->|(x & sg & d & -> & X & S & _ & D)]; [constructor|]. constructor; [lia|]. apply Forall_app. split; [|now apply FG].
    destruct S as [->|[->| ->]]; repeat constructor.
  Qed.
  Lemma all_texts : forall d, plain dtoa d -> whole_ok d \/ broken d.
  Proof.
    induction d as [z|x|s|l IH|l IH] using jd_nested; intro P.
    - left. inversion P as [? B| | | |]. destruct (dec_value z B) as (V & N). exists (dec z). split; [reflexivity|]. split; [intro H9; inversion H9|]. auto.
    - inversion P as [|? dtoa_ok| | |]; subst. unfold whole_ok, broken. cbn [jwrite meant]. destruct (finite x) eqn:E.
      + left. exists (dtoa x). split; [reflexivity|]. split; [intro H9; inversion H9; subst; discriminate|]. pose proof (dtoa_ok eq_refl) as T. split; [|now apply number_no_nul].
        destruct T as (neg & i & f & e & -> & W & F & X & N). now constructor.
      + right. exists []. split; [reflexivity|]. split; [destruct x; try discriminate; constructor|]. split; [exact Logic.I|]. split; [constructor|].
        intros n _. destruct n; reflexivity.
    - left. inversion P as [| |? B| |]. destruct (string_value s B) as (V & N). exists (write_string s). split; [reflexivity|]. split; [intro H9; inversion H9|].
      split; [now constructor|]. constructor; [lia|]. apply Forall_app. split; [exact N|repeat constructor].
    - inversion P as [| | |? B|]; subst. destruct l as [|d l].
      { left. exists [91; 93]. split; [reflexivity|]. split; [intro H9; inversion H9; contradiction|]. split; [exact (JVArr0 [] (Forall_nil _))|repeat constructor]. }
      assert (F : Forall (fun d => whole_ok d \/ broken d) (d :: l)).
      { rewrite Forall_forall in *. intros x I. apply IH; [exact I|now apply B]. }
      unfold whole_ok, broken. cbn [jwrite]. destruct (elems_spec _ F ltac:(discriminate)) as [(t & E & H & J & N)|(t & E & (x & I & X) & S & N & Q)]; rewrite E.
      + left. exists (91 :: t ++ [93]). split; [reflexivity|]. split; [intro Y; inversion Y; subst; eapply H; eassumption|].
        split; [cbn [meant]; now constructor|]. constructor; [lia|]. apply Forall_app. split; [exact N|repeat constructor].
      + right. exists (91 :: t). split; [reflexivity|]. split; [econstructor; eassumption|]. split; [split; [reflexivity|lia]|].
        split; [constructor; [lia|exact N]|]. intros n L. cbn [length] in L. destruct n as [|n]; [lia|]. rewrite value_S. cbn [Z.eqb Pos.eqb].
        rewrite skip_none by now apply start_stops. rewrite Q by lia. destruct t as [|c t]; [reflexivity|]. destruct S as (_ & S). now rewrite strip_not by lia.
    - inversion P as [| | | |? B]; subst. destruct l as [|e l].
      { left. exists [123; 125]. split; [reflexivity|]. split; [intro H9; inversion H9; contradiction|]. split; [exact (JVObj0 [] (Forall_nil _))|repeat constructor]. }
      assert (F : Forall (fun e : str * jd => bytes_text (fst e) /\ (whole_ok (snd e) \/ broken (snd e))) (e :: l)).
      { rewrite Forall_forall in *. intros x I. destruct (B x I) as (B1 & B2). split; [exact B1|]. now apply IH. }
      unfold whole_ok, broken. cbn [jwrite]. destruct (membs_spec _ F ltac:(discriminate)) as [(t & E & H & J & N)|(t & E & (k & x & I & X) & N & Q)]; rewrite E.
      + left. exists (123 :: t ++ [125]). split; [reflexivity|]. split; [intro Y; inversion Y; subst; eapply H; eassumption|].
        split; [cbn [meant]; now constructor|]. constructor; [lia|]. apply Forall_app. split; [exact N|repeat constructor].
      + right. exists (123 :: 34 :: t). split; [reflexivity|]. split; [econstructor; eassumption|]. split; [split; [reflexivity|lia]|].
        split; [constructor; [lia|constructor; [lia|exact N]]|]. intros n L. cbn [length] in L. destruct n as [|n]; [lia|]. rewrite value_S. cbn [Z.eqb Pos.eqb].
        rewrite skip_none by reflexivity. rewrite Q by lia. reflexivity.
  Qed.
  (** without a hole: the text is JSON, with the value meant; with one: it is none *)
  Lemma written d : plain dtoa d -> ~ has_hole d -> json_text (json_string dtoa d) (m d) /\ ~ In 0 (json_string dtoa d).
  Proof.
    intros P H. destruct (all_texts d P) as [(t & W & _ & V & N)|(t & _ & B & _)]; [|contradiction]. unfold json_string. rewrite W. cbn [fst].
    split; [|now apply no_nul_in]. exists [], t, []. rewrite app_nil_r. repeat split; auto; constructor.
  Qed.
  Lemma torn d v : plain dtoa d -> has_hole d -> ~ json_text (json_string dtoa d) v.
  Proof.
    intros P H J. destruct (all_texts d P) as [(t & _ & B & _)|(t & W & _ & S & N & Q)]; [contradiction|]. unfold json_string in J. rewrite W in J. cbn [fst] in J.
    apply read_iff in J; [|now apply no_nul_in]. unfold json_read in J. rewrite (c_text_id t) in J by now apply no_nul_in.
    rewrite skip_none in J by now apply start_stops. rewrite Q in J by lia. discriminate.
  Qed.
End Texts.
