(** Lemmas: the display settings of one channel, written and read. *)
From Coq Require Import String QArith Qabs Floats.SpecFloat.
From Verif Require Import Base TextModel TextSpec TextProofs TextProofs3 XmlModel XmlSpec XmlProofs XmlValues XmlPaths PugiModel PugiSpec PugiProofs PugiTree PugiRound PugiBuild.
From Verif Require Import CodesModel FloatProofs SFloatProofs ScaleNum NumModel NumSpec NumRound DocModel DocSpec DocTree DocInt DocProofs DocScale DocDims DocChan DispModel DispSpec DispNum DispPoints.
Open Scope Z_scope.

(** ** what is written *)
Definition field (a : string * str) : xml := Elem (txt (fst a)) [] [Text (snd a)].
Definition fields (s : setting) (pixel : str) : list (string * str) :=
  [("IsSelected"%string, if s_enabled s then txt "true" else txt "false")] ++
  match s_tint s with
  | Some c => [("Color"%string, color_to_string c); ("ColorMode"%string, txt "Color")]
  | None => ("ColorMode"%string, txt "None") :: match pixel with [] => [] | _ => [("PixelType"%string, pixel)] end
  end ++
  [("Low"%string, flt_text (s_black s)); ("High"%string, flt_text (s_white s))] ++
  match s_curve s with
  | Linear => []
  | Gamma g => [("Gamma"%string, flt_text g)]
  | Spline pts => [("Points"%string, points_text pts); ("Mode"%string, txt "spline")]
  end.
Lemma write_new nm ats fs (k : string) v : path_of (txt k) = Some [(txt k, [])] -> forallb (fun a => negb (str_eqb (txt (fst a)) (txt k))) fs = true ->
  write (txt k) v (Elem nm ats (map field fs)) = Ok (Elem nm ats (map field (fs ++ [(k, v)]))).
Proof.
  intros P N. rewrite write_edit, (edit_path _ _ _ _ P) by exact I.
  change (put (set_value v) [(txt k, [])] (Elem nm ats (map field fs))) with (let* ks := on_first (matches (txt k) []) (Elem (txt k) [] []) (set_value v) (map field fs) in Ok (Elem nm ats ks)).
  assert (E : on_first (matches (txt k) []) (Elem (txt k) [] []) (set_value v) (map field fs) = Ok (map field (fs ++ [(k, v)]))); [|now rewrite E].
  induction fs as [|[k0 v0] fs IH]; [reflexivity|]. cbn [forallb fst] in N. apply andb_true_iff in N. destruct N as (N1 & N2). specialize (IH N2).
  cbn [map app on_first]. assert (M : matches (txt k) [] (field (k0, v0)) = false) by (unfold field; cbn [matches fst]; apply negb_true_iff in N1; now rewrite N1). rewrite M, IH. reflexivity.
Qed.
Lemma write_channel_ok s pixel nm ats : write_channel s pixel (Elem nm ats []) = Ok (Elem nm ats (map field (fields s pixel))).
Proof.
  unfold write_channel, fields. change (@nil xml) with (map field []). rewrite write_new by reflexivity. cbn [bind app].
  destruct (s_tint s) as [c|].
  - rewrite write_new by reflexivity. cbn [bind app]. rewrite write_new by reflexivity. cbn [bind app]. rewrite write_new by reflexivity. cbn [bind app]. rewrite write_new by reflexivity. cbn [bind app].
    destruct (s_curve s) as [|g|pts]; [reflexivity| |]; rewrite write_new by reflexivity; [reflexivity|]. cbn [bind app]. now rewrite write_new by reflexivity.
  - rewrite write_new by reflexivity. cbn [bind app].
    destruct pixel as [|p0 p]; [|rewrite write_new by reflexivity]; cbn [bind app]; rewrite write_new by reflexivity; cbn [bind app]; rewrite write_new by reflexivity; cbn [bind app];
      (destruct (s_curve s) as [|g|pts]; [reflexivity| |]; rewrite write_new by reflexivity; [reflexivity|]; cbn [bind app]; now rewrite write_new by reflexivity).
Qed.
Fixpoint assoc (k : string) (fs : list (string * str)) : option str :=
  match fs with [] => None | (k0, v) :: fs' => if str_eqb (txt k0) (txt k) then Some v else assoc k fs' end.
Lemma child_field nm ats fs k : option_map text (child (txt k) (settle (Elem nm ats (map field fs)))) = option_map stored (assoc k fs).
Proof.
  unfold child. rewrite kids_settle by exact I. cbn [kids_of]. rewrite find_settles. induction fs as [|[k0 v] fs IH]; [reflexivity|]. cbn [map find assoc].
  assert (M : matches (txt k) [] (field (k0, v)) = str_eqb (txt k0) (txt k)) by (unfold field; cbn [matches fst]; apply andb_true_r). rewrite M. destruct (str_eqb (txt k0) (txt k)); [|exact IH].
  cbn [option_map]. f_equal. apply text_settle; [exact I|reflexivity].
Qed.
(** ** what is read depends on the texts *)
Definition get_via (look : string -> option str) : res setting :=
  let num s := to_f32 (fst (strtod s)) in
  let value (k : string) (d : spec_float) := match look k with Some s => num s | None => d end in
  let tinting := match look "ColorMode"%string with Some s => negb (icase (trim s) (txt "none")) | None => true end in
  let* color := match look "Color"%string with
                | Some s => let* o := parse_color s in Ok (match o with Some rgb => rgb | None => (255, 255, 255) end)
                | None => Ok (255, 255, 255)
                end in
  let gamma := match look "Gamma"%string with Some s => Gamma (num s) | None => Linear end in
  let* crv := match look "Mode"%string with
              | Some s =>
                if icase (trim s) (txt "spline") then
                  match look "Points"%string with
                  | Some p => let* o := parse_points (length p) p in Ok (match o with Some (q :: l) => Spline (q :: l) | _ => gamma end)
                  | None => Ok gamma
                  end
                else Ok gamma
              | None => Ok gamma
              end in
  Ok (mkS (match look "IsSelected"%string with Some (c :: _) => (c =? 49) || (c =? 116) || (c =? 84) || (c =? 121) || (c =? 89) | Some [] => false | None => true end)
          (value "Weight"%string one32) (if tinting then Some color else None) (value "Low"%string zero32) (value "High"%string one32) crv).
Lemma get_setting_via n : get_setting n = get_via (fun k => option_map text (child (txt k) n)).
Proof.
  unfold get_setting, get_via, as_float, as_truth. cbv zeta.
  destruct (child (txt "ColorMode") n); destruct (child (txt "Color") n); destruct (child (txt "Gamma") n); destruct (child (txt "Mode") n); destruct (child (txt "Points") n);
    destruct (child (txt "IsSelected") n) as [i|]; destruct (child (txt "Weight") n); destruct (child (txt "Low") n); destruct (child (txt "High") n); cbn [option_map]; try reflexivity; destruct (text i); reflexivity.
Qed.
Lemma get_via_ext f g : (forall k, f k = g k) -> get_via f = get_via g.
Proof. intros H. unfold get_via. now rewrite !H. Qed.
(** ** the texts *)
Lemma nopts_stored s : nopts s -> match s with [] => True | c :: _ => 33 <= c end -> stored s = s.
Proof.
  intros H F. apply stored_plain. split.
  - destruct s as [|c s]; [now left|]. right. cbn [blank forallb]. unfold blank. cbn [forallb]. replace (ws c) with false; [reflexivity|]. symmetry. unfold ws. cbn [existsb]. lia.
  - intros I. unfold nopts in H. rewrite Forall_forall in H. specialize (H 13 I). cbn in H. lia.
Qed.
Lemma nibble_range n : 48 <= nibble_char n <= 70.
Proof.
  unfold nibble_char. pose proof (Z.land_ones n 4 ltac:(lia)) as L. change (Z.ones 4) with 15 in L. pose proof (Z.mod_pos_bound n (2 ^ 4) ltac:(lia)) as B. rewrite L.
  change (2 ^ 4) with 16 in *. assert (H : (Z.to_nat (n mod 16) < 16)%nat) by lia. revert H. generalize (Z.to_nat (n mod 16)). clear. intros k H. do 16 (destruct k as [|k]; [cbn; lia|]). lia.
Qed.
Lemma color_nopts c : nopts (color_to_string c) /\ exists t, color_to_string c = 35 :: t.
Proof.
  destruct c as [[r g] b]. unfold color_to_string. split; [|eexists; reflexivity].
  repeat (apply Forall_cons; [first [lia|match goal with |- context [nibble_char ?x] => pose proof (nibble_range x); lia end]|]). apply Forall_nil.
Qed.
Lemma color_stored c : stored (color_to_string c) = color_to_string c.
Proof. destruct (color_nopts c) as (H & t & E). apply nopts_stored; [exact H|]. rewrite E. lia. Qed.
Lemma flt_stored x : stored (flt_text x) = flt_text x.
Proof. apply stored_solid, print_g_solid. Qed.
Lemma points_stored pts : proper_curve (Spline pts) -> stored (points_text pts) = points_text pts.
Proof.
  intros O. apply nopts_stored; [apply points_chars|]. destruct pts as [|[x y] l]; [exact I|]. destruct (points_nonempty x y l) as (c & t & -> & _ & R); [|lia]. apply (O x y). now left.
Qed.
(** ** the settings read *)
Definition rd (x : spec_float) : spec_float := to_f32 (fst (strtod (flt_text x))).
Definition reread (s : setting) : setting :=
  mkS (s_enabled s) one32 (s_tint s) (rd (s_black s)) (rd (s_white s))
    (match s_curve s with Linear => Linear | Gamma g => Gamma (rd g) | Spline [] => Linear | Spline (p :: l) => Spline (p :: l) end).
(** what is needed for that *)
Definition readable (s : setting) : Prop :=
  (forall r g b, s_tint s = Some (r, g, b) -> byte r /\ byte g /\ byte b) /\ match s_curve s with Spline pts => proper_curve (Spline pts) | _ => True end.
Lemma proper_readable s : proper_setting s -> readable s.
Proof. intros (H1 & _ & _ & H2). split; [exact H1|]. destruct (s_curve s); [exact I..|exact H2]. Qed.
Lemma looked s pixel :
  assoc "IsSelected" (fields s pixel) = Some (if s_enabled s then txt "true" else txt "false") /\
  assoc "Color" (fields s pixel) = option_map color_to_string (s_tint s) /\
  assoc "ColorMode" (fields s pixel) = Some (match s_tint s with Some _ => txt "Color" | None => txt "None" end) /\
  assoc "Low" (fields s pixel) = Some (flt_text (s_black s)) /\
  assoc "High" (fields s pixel) = Some (flt_text (s_white s)) /\
  assoc "Gamma" (fields s pixel) = match s_curve s with Gamma g => Some (flt_text g) | _ => None end /\
  assoc "Points" (fields s pixel) = match s_curve s with Spline pts => Some (points_text pts) | _ => None end /\
  assoc "Mode" (fields s pixel) = match s_curve s with Spline _ => Some (txt "spline") | _ => None end /\
  assoc "Weight" (fields s pixel) = None.
Proof. unfold fields. destruct (s_tint s) as [c|]; [|destruct pixel]; destruct (s_curve s); repeat split. Qed.
Theorem channel_reread s pixel nm ats : readable s -> get_setting (settle (Elem nm ats (map field (fields s pixel)))) = Ok (reread s).
Proof.
  intros (Hc & Hp). rewrite get_setting_via, (get_via_ext _ (fun k => option_map stored (assoc k (fields s pixel)))) by (intros k; apply child_field).
  unfold get_via. destruct (looked s pixel) as (-> & -> & -> & -> & -> & -> & -> & -> & ->).
  cbn [option_map].
  rewrite !flt_stored. unfold reread. fold (rd (s_black s)). fold (rd (s_white s)).
  assert (CL : match option_map stored (option_map color_to_string (s_tint s)) with
               | Some s0 => let* o := parse_color s0 in Ok (match o with Some rgb => rgb | None => (255, 255, 255) end)
               | None => Ok (255, 255, 255) end = Ok (match s_tint s with Some c => c | None => (255, 255, 255) end)).
  { destruct (s_tint s) as [[[r g] b]|]; [|reflexivity]. cbn [option_map]. rewrite color_stored. destruct (Hc r g b eq_refl) as (Br & Bg & Bb). now rewrite color_round_trip. }
  rewrite CL. cbn [bind].
  assert (CM : (if negb (icase (trim (stored (match s_tint s with Some _ => txt "Color" | None => txt "None" end))) (txt "none")) then Some (match s_tint s with Some c => c | None => (255, 255, 255) end) else None) = s_tint s) by (destruct (s_tint s); reflexivity).
  rewrite CM.
  assert (EN : match stored (if s_enabled s then txt "true" else txt "false") with c :: _ => (c =? 49) || (c =? 116) || (c =? 84) || (c =? 121) || (c =? 89) | [] => false end = s_enabled s) by (destruct (s_enabled s); reflexivity).
  rewrite EN.
  destruct (s_curve s) as [|g|pts]; cbn [option_map].
  - reflexivity.
  - rewrite flt_stored. reflexivity.
  - change (icase (trim (stored (txt "spline"))) (txt "spline")) with true. cbv iota. rewrite points_stored by exact Hp. rewrite points_read; [|exact Hp|now apply points_length]. cbn [bind]. destruct pts; reflexivity.
Qed.
Lemma empty_reread : get_setting (settle (Elem (txt "Channel") [] [])) = Ok plain_setting.
Proof. reflexivity. Qed.
Lemma reread_kept s : proper_setting s -> kept (Some s) (reread s).
Proof.
  intros (_ & Ob & Ow & Oc). unfold kept, reread. cbn [s_enabled s_weight s_tint s_black s_white s_curve].
  destruct (flt_write_read _ Ob) as (b & Eb & Cb & _). destruct (flt_write_read _ Ow) as (w & Ew & Cw & _). unfold rd. rewrite Eb, Ew. repeat split; try assumption.
  destruct (s_curve s) as [|g|[|p l]]; try reflexivity. cbn [kept_curve proper_curve] in *. destruct (flt_write_read _ Oc) as (g' & Eg & Cg & _). rewrite Eg. eauto.
Qed.
Lemma rd_rd x : ordinary32 x -> rd (rd x) = rd x.
Proof. intros O. destruct (flt_write_read _ O) as (y & E & _ & T). unfold rd. rewrite E, T. exact E. Qed.
Lemma reread_again s : proper_setting s -> reread (reread s) = reread s /\ readable (reread s).
Proof.
  intros P. pose proof (proper_readable s P) as (R1 & R2). destruct P as (_ & Ob & Ow & Oc). split.
  - unfold reread at 1. cbn [s_enabled s_weight s_tint s_black s_white s_curve reread]. rewrite !rd_rd by assumption. unfold reread. f_equal.
    destruct (s_curve s) as [|g|[|p l]]; try reflexivity. cbn [proper_curve] in Oc. now rewrite rd_rd.
  - split; [exact R1|]. unfold reread. cbn [s_curve]. destruct (s_curve s) as [|g|[|p l]]; try exact I. exact R2.
Qed.
Lemma plain_reread : reread plain_setting = plain_setting /\ readable plain_setting.
Proof.
  split; [vm_compute; reflexivity|]. split; [|exact I]. intros r g b [= <- <- <-]. unfold byte. lia.
Qed.
