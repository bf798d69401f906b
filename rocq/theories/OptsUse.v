(** Compression options as text: written options are read back, and no option changes the pixels. *)
From Coq Require Import String.
From Verif Require Import Base CopyModel HiLoModel HiLoProofs CodesModel TextModel TextProofs XmlModel XmlProofs ZstdModel ZstdProofs PropZstd OptsModel OptsSpec OptsProofs.
Open Scope Z_scope.

Lemma dec_int n : - 2 ^ 31 <= n < 2 ^ 31 -> int_text (dec n) n.
Proof.
  intros R. destruct (mag_spec n) as (A & B & C & _); [unfold in_i32, INT_MIN, INT_MAX; lia|]. rewrite dec_mag.
  assert (D : Forall (fun c => 48 <= c <= 57) (mag n)) by (eapply Forall_impl; [|exact B]; intros c X; cbv beta in X; unfold is_digit in X; lia).
  destruct (Z.ltb_spec n 0).
  - exists [45], (mag n). split; [reflexivity|]. split; [exact A|]. split; [exact D|]. split; [|exact R]. left. split; [reflexivity|lia].
  - exists [], (mag n). split; [reflexivity|]. split; [exact A|]. split; [exact D|]. split; [|exact R]. right. split; [now left|lia].
Qed.
Lemma int_value v n : int_text v n -> value v.
Proof.
  intros (sg & ds & -> & _ & D & S & _). apply Forall_app. split.
  - destruct S as [[-> _]|[[->| ->] _]]; [constructor; [cbv beta; lia|constructor]|constructor|constructor; [cbv beta; lia|constructor]].
  - eapply Forall_impl; [|exact D]. intros c X. cbv beta in *. left. left. exact X.
Qed.
Lemma name_txt s : forallb is_alnum s = true -> name s.
Proof. apply name_spec. Qed.
Lemma plain_pair k v : name k -> value v -> spelled (k, v) (k ++ [61] ++ v).
Proof. intros K V. split; [exact K|]. split; [exact V|]. exists [], [], [], []. cbn [fst snd]. rewrite app_nil_r. repeat split; constructor. Qed.
Lemma same_refl s : same_word s s.
Proof. induction s; constructor; [now left|assumption]. Qed.
Lemma line_text m l pack : m <> CompInvalid -> (match l with Some n => - 2 ^ 31 <= n < 2 ^ 31 | None => True end) ->
  options_text (option_line m l pack) (mode_word m) (option_items l pack).
Proof.
  intros M R. split; [apply name_txt; destruct m; reflexivity|]. split; [destruct m; try discriminate; contradiction|].
  assert (K1 : name (txt "ExplicitLevel")) by (apply name_txt; reflexivity). assert (K2 : name (txt "PreProcess")) by (apply name_txt; reflexivity).
  assert (V2 : value (txt "HiLoByteUnpack")) by (apply value_spec; reflexivity).
  unfold option_line, option_items. destruct l as [n|], pack; cbn [app join].
  - assert (V1 : value (dec n)) by (apply (int_value _ n), dec_int, R). exists [], [], [txt "ExplicitLevel" ++ [61] ++ dec n], (txt "PreProcess" ++ [61] ++ txt "HiLoByteUnpack"), [(txt "ExplicitLevel", dec n)].
    split; [constructor|]. split; [constructor|]. split; [constructor; [now apply plain_pair|constructor]|]. split.
    + cbn [map concat app]. now rewrite app_nil_r, <- !app_assoc.
    + right. exists (txt "PreProcess", txt "HiLoByteUnpack"). split; [now apply plain_pair|reflexivity].
  - assert (V1 : value (dec n)) by (apply (int_value _ n), dec_int, R). exists [], [], [], (txt "ExplicitLevel" ++ [61] ++ dec n), [].
    split; [constructor|]. split; [constructor|]. split; [constructor|]. split; [reflexivity|]. right. exists (txt "ExplicitLevel", dec n). split; [now apply plain_pair|reflexivity].
  - exists [], [], [], (txt "PreProcess" ++ [61] ++ txt "HiLoByteUnpack"), [].
    split; [constructor|]. split; [constructor|]. split; [constructor|]. split; [reflexivity|]. right. exists (txt "PreProcess", txt "HiLoByteUnpack"). split; [now apply plain_pair|reflexivity].
  - exists [], [], [], [], []. split; [constructor|]. split; [constructor|]. split; [constructor|]. split; [reflexivity|]. left. split; [constructor|reflexivity].
Qed.
Lemma pre_no_level : ~ level_key (txt "PreProcess").
Proof. intros H. apply icase_spec in H. discriminate. Qed.
Lemma lvl_no_pack v : ~ pack_item (txt "ExplicitLevel", v).
Proof. intros [H _]. apply icase_spec in H. discriminate. Qed.
Theorem written_options m l pack : m <> CompInvalid -> (match l with Some n => - 2 ^ 31 <= n < 2 ^ 31 | None => True end) ->
  parse_options (option_line m l pack) = Ok (m, mkP l pack).
Proof.
  intros M R. apply parse_iff. cbn [p_level p_pack]. exists (mode_word m), (option_items l pack). split; [now apply line_text|]. split; [exact M|]. split; [apply same_refl|].
  unfold option_items. split; [|split].
  - intros kv I K. apply in_app_iff in I as [I|I].
    + destruct l as [n|]; [|destruct I]. destruct I as [<-|[]]. exists n. now apply dec_int.
    + destruct pack; [|destruct I]. destruct I as [<-|[]]. exfalso. exact (pre_no_level K).
  - destruct l as [n|].
    + exists [], (txt "ExplicitLevel", dec n), (if pack then [(txt "PreProcess", txt "HiLoByteUnpack")] else []). split; [reflexivity|]. split; [apply same_refl|]. split; [now apply dec_int|].
      intros kv I. destruct pack; [|destruct I]. destruct I as [<-|[]]. exact pre_no_level.
    + intros kv I. destruct pack; [|destruct I]. destruct I as [<-|[]]. exact pre_no_level.
  - destruct pack.
    + split; [intros _|reflexivity]. exists (txt "PreProcess", txt "HiLoByteUnpack"). split; [apply in_or_app; right; now left|]. split; apply same_refl.
    + split; [discriminate|]. intros (kv & I & P). exfalso. apply in_app_iff in I as [I|[]]. destruct l as [n|]; [|destruct I]. destruct I as [<-|[]]. exact (lvl_no_pack _ P).
Qed.

(** ** the pixels *)
Lemma used_range lo hi p : lo <= 0 <= hi -> lo <= used_level lo hi p <= hi.
Proof. unfold used_level. intros H. destruct (p_level p) as [v|]; [|lia]. destruct (Z.ltb_spec v lo); [lia|]. destruct (Z.ltb_spec hi v); lia. Qed.
(** one zstd with compression levels; frames are read without knowing the level *)
Definition at_level (comp : Z -> bytes -> option bytes) (sz : bytes -> option Z) (dc : bytes -> Z -> option bytes) (l : Z) : zstd := mkZstd (comp l) sz dc.
Theorem options_pixels s c p comp sz dc lo hi any : parse_options s = Ok (c, p) -> lo <= 0 <= hi -> (forall l, lo <= l <= hi -> zstd_ok (at_level comp sz dc l)) ->
  forall k k' pt bpp src ssz w h stride junk d lax j1 j2 j3, impl_ok k -> impl_ok k' ->
  bytes_per_pel pt = Ok bpp -> source_ok src ssz w h stride (w * bpp) -> byte_mem src -> byte_mem j2 ->
  (c = Zstd0 -> compress0 (at_level comp sz dc (used_level lo hi p)) pt src ssz w h stride junk = Ok (Some d) ->
     exists b, decode0 (at_level comp sz dc any) lax d pt w h j1 j2 = Ok b /\ shows b (w * bpp) h (source_byte src stride (w * bpp))) /\
  (c = Zstd1 -> ~ (p_pack p = true /\ pt = Bgr48 /\ lax = true) ->
     compress1 (at_level comp sz dc (used_level lo hi p)) k (p_pack p) pt src ssz w h stride junk = Ok (Some d) ->
     exists b, decode1 (at_level comp sz dc any) k' lax d pt w h j1 j2 j3 = Ok b /\ shows b (w * bpp) h (source_byte src stride (w * bpp))).
Proof.
  intros _ L Z k k' pt bpp src ssz w h stride junk d lax j1 j2 j3 K K' B S M M'. pose proof (used_range lo hi p L) as U. split.
  - intros _ E. destruct (zstd0_round_trip _ _ _ _ _ _ _ _ _ _ lax j1 j2 (Z _ U) B S E) as (b & D & H). exists b. split; [exact D|exact H].
  - intros _ N E. destruct (zstd1_round_trip _ _ k' _ _ _ _ _ _ _ _ _ _ lax j1 j2 j3 (Z _ U) K K' B S M M' N E) as (b & D & H). exists b. split; [exact D|exact H].
Qed.
