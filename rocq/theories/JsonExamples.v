(** Cases for JsonInfo. *)
From Coq Require Import String Floats.SpecFloat.
From Verif Require Import Base CodecModel TextModel PugiModel PugiSpec XmlModel DateModel CoordModel StatModel StatSpec StatExamples NumModel DocModel GuidModel GuidSpec JsonModel JsonSpec JsonRead JsonWrite JsonInfo.
Open Scope Z_scope.

Definition quote (s : string) : str := flat_map (fun c => if c =? 39 then [34] else [c]) (txt s).
(** ** Reading *)
Definition ex_text : str := quote "{ 'aA\n' : [1, -2.50e+3, true, null] , 'b':{} }".
Definition ex_value : jv := VObj [(txt "aA" ++ [10], VArr [VInt 1; VNum (txt "-2.50e+3"); VBool true; VNull]); (txt "b", VObj [])].
Lemma ex_read : ~ In 0 ex_text /\ json_text ex_text ex_value /\
  forall s, In s ["{'a':1,}"; "[01]"; "{'a' 1}"; "'\x'"; "[1] 2"; "{a:1}"; "1."]%string -> json_read (quote s) = None.
Proof.
  assert (N : ~ In 0 ex_text) by (intro H; vm_compute in H; repeat (destruct H as [H|H]; [discriminate|]); destruct H).
  split; [exact N|]. split; [apply JsonRead.read_iff; [exact N|vm_compute; reflexivity]|].
  intros s I. repeat (destruct I as [<-|I]; [vm_compute; reflexivity|]). destruct I.
Qed.
Definition ex_options : str := quote "{'mask_aware':true, 'mask_aware':false, 'file_guid':'{0123abcd-4567-89ab-fedc-ba9876543210}', 'reserved_size_subblock_directory': 7 }".
Lemma ex_options_read : ~ In 0 ex_options /\ mask_aware (json_doc ex_options) = true /\ duplicates_allowed (json_doc ex_options) = false /\
  pr_rdir (in_force (repeat 1 16) (json_doc ex_options)) = Some 7 /\
  pr_guid (in_force (repeat 1 16) (json_doc ex_options)) = [205; 171; 35; 1; 103; 69; 171; 137; 254; 220; 186; 152; 118; 84; 50; 16].
Proof.
  split; [intro H; vm_compute in H; repeat (destruct H as [H|H]; [discriminate|]); destruct H|].
  split; [vm_compute; reflexivity|]. split; [vm_compute; reflexivity|]. split; vm_compute; reflexivity.
Qed.

(** ** Texts of some numbers *)
Definition two64 : spec_float := S754_finite false 4503599627370496 (-51).
Definition half64 : spec_float := S754_finite false 4503599627370496 (-53).
Definition ex_dtoa (x : spec_float) : str :=
  match x with
  | S754_zero false => txt "0.0"
  | S754_zero true => txt "-0.0"
  | S754_finite false m e => if e =? -51 then txt "2.0" else txt "0.5"
  | _ => txt "1.0"
  end.
Lemma number_by t i f : t = i ++ f -> whole_text i -> fraction_text f -> f <> [] -> number_text t.
Proof. intros -> W F N. exists false, i, f, []. cbn [sign_text app]. rewrite !app_nil_r. repeat split; auto. now left. Qed.
Lemma ex_writes x : In x [two64; half64; zero64] -> finite x = true /\ writes ex_dtoa x.
Proof.
  intro I. assert (T : forall c : Z, 48 <= c <= 57 -> forall h, whole_text [h] -> number_text [h; 46; c]).
  { intros c C h H. apply (number_by _ [h] [46; c]); [reflexivity|exact H| |discriminate]. right. exists [c]. split; [reflexivity|]. split; [discriminate|]. constructor; [exact C|constructor]. }
  assert (D : forall h, 49 <= h <= 57 -> whole_text [h]) by (intros h H; right; exists h, []; repeat split; [lia|lia|constructor]).
  repeat (destruct I as [<-|I]; [split; [reflexivity|]; intros _; eexists; split; [reflexivity|]; split; [|vm_compute; reflexivity]|]); [| | |destruct I].
  - change (number_text [50; 46; 48]). apply T; [lia|]. apply D. lia.
  - change (number_text [48; 46; 53]). apply T; [lia|]. now left.
  - change (number_text [48; 46; 48]). apply T; [lia|]. now left.
Qed.

(** ** Information about documents *)
Definition elem (n : string) (kids : list xml) : xml := Elem (txt n) [] kids.
Definition leaf (n v : string) : xml := Elem (txt n) [] [Text (txt v)].
Definition image_doc (kids : list xml) : list xml := [elem "ImageDocument" [elem "Metadata" [elem "Information" kids]]].
Definition about_doc : list xml := image_doc [elem "Document" [Elem (txt "Name") [] [Text [97; 34; 228; 10]]; leaf "Rating" "-3"]].
Lemma ex_general : g_name (get_general about_doc) = Some [97; 34; 228; 10] /\ chars [97; 34; 228; 10] /\
  api_general ex_dtoa about_doc = (COk, Some ([123; 34] ++ txt "name" ++ [34; 58; 34; 97; 92; 34; 195; 164; 92; 110; 34] ++ quote ",'rating':-3}")).
Proof. split; [reflexivity|]. split; [|vm_compute; reflexivity]. apply Forall_forall. intros c I. cbn [In] in I. lia. Qed.
Definition z_doc (start : string) : list xml :=
  image_doc [elem "Image" [elem "Dimensions" [elem "Z" [leaf "StartPosition" start; leaf "XYZHandedness" " RightHanded ";
    elem "Positions" [elem "Interval" [leaf "Start" "0"; leaf "Increment" "2"]]; leaf "ZDriveSpeed" "0.5"]]]].
Lemma ex_z : exists z, get_zinfo (z_doc "0.5") = Ok (Some z) /\ z_numbers z = [half64; zero64; two64; half64] /\
  api_dimension ex_dtoa 1 (z_doc "0.5") = Ok (COk, Some (quote
    "{'reference_position':0.5,'interval_definition':[0.0,2.0],'xyz_handedness':'right_handed','z_drive_speed':0.5}")).
Proof.
  exists (mkZ (Some half64) (Some 1) None None (Some half64) (PosInterval zero64 two64)). split; [vm_compute; reflexivity|]. split; [reflexivity|vm_compute; reflexivity].
Qed.
Lemma ex_z_torn dtoa : (forall x, In x [zero64; two64; half64] -> writes dtoa x) -> exists z t, get_zinfo (z_doc "1e999") = Ok (Some z) /\
  In (S754_infinity false) (z_numbers z) /\ api_dimension dtoa 1 (z_doc "1e999") = Ok (COk, Some t) /\ forall v, ~ json_text t v.
Proof.
  intro W. set (z := mkZ (Some (S754_infinity false)) (Some 1) None None (Some half64) (PosInterval zero64 two64)).
  assert (G : get_zinfo (z_doc "1e999") = Ok (Some z)) by (vm_compute; reflexivity).
  destruct (z_torn dtoa (z_doc "1e999") z (S754_infinity false) G) as (t & T & N).
  - intros x I. unfold z, z_numbers in I. cbn [z_start z_pos z_speed opt_list position_numbers app In] in I.
    destruct I as [<-|[<-|[<-|[<-|[]]]]]; [intro F; discriminate F|apply W; cbn [In]; auto|apply W; cbn [In]; auto|apply W; cbn [In]; auto].
  - now left.
  - reflexivity.
  - exists z, t. split; [exact G|]. split; [now left|]. split; [exact T|exact N].
Qed.
Lemma ex_z_text : api_dimension ex_dtoa 1 (z_doc "1e999") = Ok (COk, Some (quote "{'reference_position':")).
Proof. vm_compute. reflexivity. Qed.
Definition t_doc : list xml :=
  image_doc [elem "Image" [elem "Dimensions" [elem "T" [leaf "StartTime" "2020-02-29T12:00:00Z"; elem "Positions" [elem "List" [leaf "Offsets" "0 0.5 2"]]]]]].
Lemma ex_t : exists t, get_tinfo t_doc = Ok (Some t) /\ position_numbers (t_pos t) = [zero64; half64; two64] /\
  api_dimension ex_dtoa 3 t_doc = Ok (COk, Some (quote "{'start_time':'2020-02-29T12:00:00Z','offset_list':[0.0,0.5,2.0]}")).
Proof.
  exists (mkT (Some (mkDate 0 0 12 29 2 2020 true INT_MIN INT_MIN)) (PosList [zero64; half64; two64])). split; [vm_compute; reflexivity|]. split; [reflexivity|vm_compute; reflexivity].
Qed.
Lemma ex_pyramid : Forall entry_ok doc /\ bounds_fit doc /\ exists u, open_stats doc = Ok u /\ api_pyramid ex_dtoa u = (COk, Some (quote
  "{'scenePyramidStatistics':{'0':[{'layerInfo':{'minificationFactor':0,'pyramidLayerNo':0},'count':2},{'layerInfo':{'minificationFactor':2,'pyramidLayerNo':1},'count':1}],'2':[{'layerInfo':{'minificationFactor':0,'pyramidLayerNo':0},'count':1},{'layerInfo':{'minificationFactor':3,'pyramidLayerNo':2},'count':1}]}}")).
Proof.
  split; [exact doc_ok|]. split; [exact doc_fits|]. destruct doc_result as (u & U & _ & _ & _ & _ & _ & _ & P). exists u. split; [exact U|].
  unfold api_pyramid. rewrite P. vm_compute. reflexivity.
Qed.
