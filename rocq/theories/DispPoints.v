(** Lemmas: lists of points as text. *)
From Coq Require Import String QArith Qabs Lqa Floats.SpecFloat.
From Verif Require Import Base TextModel TextProofs XmlModel FloatProofs SFloatProofs ScaleModel ScaleNum NumModel NumSpec NumProofs NumText NumRound DocModel DocSpec DocScale DocDims DispModel DispSpec.
Open Scope Z_scope.

(** ** a number followed by something else *)
Definition ends (r : str) : Prop := match r with [] => True | c :: _ => is_digit c = false /\ c <> 46 /\ c <> 101 /\ c <> 69 end.
Lemma span_more p s r : match r with [] => True | c :: _ => p c = false end -> span p (s ++ r) = (fst (span p s), snd (span p s) ++ r).
Proof.
  intros H. induction s as [|c s IH]; cbn [app span fst snd].
  - destruct r as [|c r]; [reflexivity|]. cbn [span]. now rewrite H.
  - destruct (p c); [|reflexivity]. rewrite IH. destruct (span p s). reflexivity.
Qed.
Lemma span_more2 p s r : snd (span p s) <> [] -> span p (s ++ r) = (fst (span p s), snd (span p s) ++ r).
Proof.
  induction s as [|c s IH]; cbn [app span fst snd]; [easy|]. destruct (p c); [|reflexivity]. destruct (span p s) as [a b]. cbn [fst snd] in *. intros H. now rewrite IH.
Qed.
Lemma take_sign_more s r : s <> [] -> take_sign (s ++ r) = (fst (take_sign s), snd (take_sign s) ++ r).
Proof. destruct s as [|c s]; [easy|]. intros _. cbn [app take_sign]. destruct (c =? 45); [reflexivity|]. destruct (c =? 43); reflexivity. Qed.
Lemma ends_digit r : ends r -> match r with [] => True | c :: _ => is_digit c = false end.
Proof. destruct r; [easy|]. now intros (H & _). Qed.
Lemma fraction_more s r : ends r -> take_fraction (s ++ r) = (fst (take_fraction s), snd (take_fraction s) ++ r).
Proof.
  intros H. destruct s as [|c s]; cbn [app take_fraction fst snd].
  - destruct r as [|c r]; [reflexivity|]. destruct H as (_ & H & _). cbn [take_fraction]. destruct (c =? 46) eqn:E; [lia|reflexivity].
  - destruct (c =? 46); [|reflexivity]. apply span_more. now apply ends_digit.
Qed.
Lemma exponent_more s r : ends r -> snd (take_exponent s) = [] -> take_exponent (s ++ r) = (fst (take_exponent s), r).
Proof.
  intros H E. destruct s as [|c s]; cbn [app take_exponent fst snd] in *.
  - destruct r as [|c r]; [reflexivity|]. destruct H as (_ & _ & H1 & H2). cbn [take_exponent]. destruct ((c =? 101) || (c =? 69)) eqn:X; [lia|reflexivity].
  - destruct ((c =? 101) || (c =? 69)); [|discriminate E]. destruct s as [|d s]; [discriminate E|]. change (c :: (d :: s) ++ r) with (c :: ((d :: s) ++ r)).
    rewrite take_sign_more by discriminate. destruct (take_sign (d :: s)) as [neg s1]. cbn [fst snd] in *. rewrite span_more by now apply ends_digit. destruct (span is_digit s1) as [ds s2]. cbn [fst snd] in *.
    destruct ds as [|e ds]; [discriminate E|]. cbn [snd fst] in *. subst s2. reflexivity.
Qed.
Lemma strtod_more s r x : s <> [] -> strtod s = (x, length s) -> ends r -> strtod (s ++ r) = (x, length s).
Proof.
  intros N H E. unfold strtod in *. assert (L : length s <> O) by now destruct s.
  assert (SP : snd (span is_space s) <> []).
  { intros X. rewrite X in H. cbn [take_sign span take_fraction app] in H. injection H as _ H. congruence. }
  rewrite span_more2 by exact SP. cbn [snd]. set (s1 := snd (span is_space s)) in *. rewrite take_sign_more by exact SP. destruct (take_sign s1) as [neg s2]. cbn [fst snd].
  rewrite span_more by now apply ends_digit. destruct (span is_digit s2) as [ip s3]. cbn [fst snd]. rewrite fraction_more by exact E. destruct (take_fraction s3) as [fp s4]. cbn [fst snd].
  destruct (ip ++ fp) as [|c ds]; [injection H as _ H; congruence|]. destruct (take_exponent s4) as [ex s5] eqn:TE. injection H as H1 H2.
  assert (s5 = []) by (destruct s5; [reflexivity|cbn [length] in H2; lia]). subst s5. rewrite exponent_more by (try exact E; now rewrite TE). rewrite TE. cbn [fst]. rewrite H1. f_equal.
  rewrite app_length. lia.
Qed.

(** ** points *)
Lemma ordinary_e x : ordinary x -> strtod (print_e 20 x) = (x, length (print_e 20 x)) /\ print_e 20 x <> [] /\ forall r, ends r -> stod (print_e 20 x ++ r) = Ok (Some (x, r)).
Proof.
  intros O. assert (R : strtod (print_e 20 x) = (x, length (print_e 20 x))).
  { destruct O as [(s & ->)|(F & M)]; [destruct s; vm_compute; reflexivity|]. apply exact_write_read; [exact F|now right]. }
  assert (N : print_e 20 x <> []).
  { intros N. rewrite N in R. vm_compute in R. injection R as <-. vm_compute in N. discriminate. }
  split; [exact R|]. split; [exact N|]. intros r Er. unfold stod. rewrite (strtod_more _ r x N R Er). destruct (length (print_e 20 x)) as [|k] eqn:K; [now destruct (print_e 20 x)|]. rewrite <- K.
  rewrite firstn_app, Nat.sub_diag, firstn_all, skipn_app, Nat.sub_diag, skipn_all. cbn [firstn skipn app]. rewrite app_nil_r.
  destruct O as [(s & ->)|(F & M)]; [destruct s; reflexivity|].
  assert (B : (b2 (-1022) < Qabs (sfQ x))%Q) by (destruct M as [M _]; eapply Qlt_le_trans; [|exact M]; vm_compute; reflexivity). pose proof (normal_mantissa x F B) as C.
  destruct x as [s|s| |s m e]; [destruct C|destruct F; discriminate|destruct F; discriminate|]. cbn [tiny orb]. destruct (Z.pos m <? 2 ^ 52) eqn:X; [lia|]. reflexivity.
Qed.
(** characters of numbers *)
Lemma print_e_solid P x : solid (print_e P x).
Proof.
  unfold print_e. destruct x as [s|s| |s m e].
  - apply solid_app. split; [destruct s; repeat constructor; lia|]. apply solid_app. split; [|apply solid_exp]. apply solid_point; [repeat constructor; lia|apply solid_repeat].
  - apply solid_app. split; [destruct s; repeat constructor; lia|]. apply Forall_forall; intros c I; cbn in I; lia.
  - apply Forall_forall; intros c I; cbn in I; lia.
  - destruct (frac _) as [[n d]|]; [|constructor]. destruct (sig_digits P n d) as [D X]. apply solid_app. split; [destruct s; repeat constructor; lia|]. apply solid_app. split; [|apply solid_exp].
    apply solid_point; apply solid_cut, dec_solid.
Qed.
Definition nopts (s : str) : Prop := Forall (fun c => 32 <= c <= 122) s.
Lemma solid_nopts s : solid s -> nopts s.
Proof. apply Forall_impl. intros. cbv beta in *. lia. Qed.
Lemma points_chars l : nopts (points_text l).
Proof.
  induction l as [|[x y] l IH]; [constructor|]. cbn [points_text]. assert (G : forall t, nopts t -> nopts (print_e 20 x ++ [44] ++ print_e 20 y ++ t)).
  { intros t T. apply Forall_app. split; [apply solid_nopts, print_e_solid|]. constructor; [lia|]. apply Forall_app. split; [apply solid_nopts, print_e_solid|exact T]. }
  destruct l as [|p l]; [rewrite <- (app_nil_r (print_e 20 y)); apply G; constructor|]. apply G. constructor; [lia|exact IH].
Qed.
Lemma point_first x c t : ordinary x -> print_e 20 x = c :: t -> is_space c = false.
Proof.
  intros O E. pose proof (print_e_solid 20 x) as H. rewrite E in H. unfold solid in H. apply Forall_cons_iff in H. destruct H as (H & _). unfold is_space. cbn in H. lia.
Qed.
Lemma points_nonempty x y l : ordinary x -> exists c t, points_text ((x, y) :: l) = c :: t /\ is_space c = false /\ 43 <= c <= 122.
Proof.
  intros O. destruct (ordinary_e x O) as (_ & N & _). destruct (print_e 20 x) as [|c t] eqn:E; [easy|]. exists c. pose proof (point_first x c t O E).
  pose proof (print_e_solid 20 x) as H0. rewrite E in H0. unfold solid in H0. apply Forall_cons_iff in H0. destruct H0 as (H0 & _).
  cbn [points_text]. rewrite E. destruct l; eexists; (split; [reflexivity|]); auto.
Qed.
Theorem points_read l : (forall x y, In (x, y) l -> ordinary x /\ ordinary y) -> forall f, (length l <= f)%nat -> parse_points f (points_text l) = Ok (Some l).
Proof.
  induction l as [|[x y] l IH]; intros O f L; [destruct f; reflexivity|]. destruct f as [|f]; [cbn in L; lia|].
  destruct (O x y (or_introl eq_refl)) as (Ox & Oy). destruct (points_nonempty x y l Ox) as (c0 & t0 & E0 & _).
  destruct (ordinary_e x Ox) as (_ & Nx & Rx). destruct (ordinary_e y Oy) as (_ & Ny & Ry).
  assert (E : exists r, points_text ((x, y) :: l) = print_e 20 x ++ 44 :: print_e 20 y ++ r /\ ends r /\ skip_spaces r = Ok (points_text l)).
  { destruct l as [|[x2 y2] l]; [exists []; cbn [points_text app]; rewrite app_nil_r; repeat split|]. exists (32 :: points_text ((x2, y2) :: l)).
    split; [reflexivity|]. split; [cbn; repeat split; lia|]. destruct (points_nonempty x2 y2 l (proj1 (O x2 y2 (or_intror (or_introl eq_refl))))) as (c & t & -> & S0 & R0).
    cbn [skip_spaces]. unfold c_isspace. destruct ((c <? -1) || (255 <? c)) eqn:X; [lia|]. rewrite S0. reflexivity. }
  destruct E as (r & E & Er & Sk). cbn [parse_points]. rewrite E0. rewrite <- E0, E. rewrite Rx by (cbn; repeat split; lia). cbn [bind skip_spaces]. change (c_isspace 44) with (Ok false). cbn [bind]. cbn iota.
  cbn [bind]. change (44 =? 44) with true. cbn iota. rewrite Ry by exact Er. cbn [bind]. rewrite Sk. cbn [bind]. rewrite IH; [reflexivity| |cbn in L; lia]. intros a b I. apply O. now right.
Qed.
Lemma points_length l : (forall x y, In (x, y) l -> ordinary x /\ ordinary y) -> (length l <= length (points_text l))%nat.
Proof.
  induction l as [|[x y] l IH]; intros O; [cbn; lia|]. assert (G : forall a b, In (a, b) l -> ordinary a /\ ordinary b) by (intros a b I; apply O; now right). specialize (IH G).
  destruct l as [|p l]; [cbn [points_text]; rewrite !app_length; cbn [length]; lia|].
  change (points_text ((x, y) :: p :: l)) with (print_e 20 x ++ [44] ++ print_e 20 y ++ [32] ++ points_text (p :: l)). rewrite !app_length. cbn [length] in *. lia.
Qed.
(** the loop always ends *)
Lemma stod_shorter s x r : stod s = Ok (Some (x, r)) -> (length r < length s)%nat.
Proof.
  unfold stod. destruct (strtod s) as [y k] eqn:E. destruct k as [|k]; [discriminate|]. destruct (_ || _); [discriminate|]. intros H. assert (R : r = skipn (S k) s) by congruence. rewrite R, skipn_length.
  destruct s; [vm_compute in E; congruence|]. cbn [length]. lia.
Qed.
Lemma skip_shorter s r : skip_spaces s = Ok r -> (length r <= length s)%nat.
Proof.
  revert r. induction s as [|c s IH]; intros r; cbn [skip_spaces]; [intros [= <-]; lia|]. destruct (c_isspace c) as [b| | |]; cbn [bind]; try discriminate.
  destruct b; [intros H; apply IH in H; cbn [length]; lia|intros [= <-]; lia].
Qed.
Lemma skip_ends s : skip_spaces s <> OutOfFuel.
Proof. induction s as [|c s IH]; cbn [skip_spaces]; [easy|]. unfold c_isspace. destruct (_ || _); cbn [bind]; [easy|]. now destruct (is_space c). Qed.
Lemma stod_ends s : stod s <> OutOfFuel.
Proof. unfold stod. destruct (strtod s) as [x [|k]]; [easy|]. now destruct (_ || _). Qed.
Theorem points_end f : forall s, (length s <= f)%nat -> parse_points f s <> OutOfFuel.
Proof.
  induction f as [|f IH]; intros [|a s] L; cbn [parse_points]; [easy|cbn in L; lia|easy|]. pose proof (stod_ends (a :: s)) as N1. destruct (stod (a :: s)) as [[[x s1]|]| | |] eqn:E1; cbn [bind]; try easy.
  apply stod_shorter in E1. pose proof (skip_ends s1) as N2. destruct (skip_spaces s1) as [s2| | |] eqn:E2; cbn [bind]; try easy. apply skip_shorter in E2. destruct s2 as [|c s3]; [easy|].
  destruct (c =? 44); [|easy]. pose proof (stod_ends s3) as N3. destruct (stod s3) as [[[y s4]|]| | |] eqn:E3; cbn [bind]; try easy. apply stod_shorter in E3.
  pose proof (skip_ends s4) as N4. destruct (skip_spaces s4) as [s5| | |] eqn:E4; cbn [bind]; try easy. apply skip_shorter in E4. cbn [length] in *.
  specialize (IH s5 ltac:(lia)). destruct (parse_points f s5); cbn [bind]; easy.
Qed.
