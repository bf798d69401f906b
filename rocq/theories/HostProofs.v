(** Proofs for PropHost: swapping reverses the bytes; converting all integers of a structure. *)
From Coq Require Import String.
From Verif Require Import Base HostModel HostSpec.
Open Scope Z_scope.

(** ** Masks and shifts *)
Lemma mask_k v k : 0 <= k -> Z.land v (Z.shiftl 255 k) = Z.shiftl (Z.shiftr v k mod 256) k.
Proof.
  intros K. change 256 with (2 ^ 8). rewrite <- Z.land_ones by lia. change (Z.ones 8) with 255.
  apply Z.bits_inj'. intros i I. rewrite Z.land_spec, !Z.shiftl_spec by lia.
  destruct (Z.ltb_spec i k).
  - rewrite !(Z.testbit_neg_r _ (i - k)) by lia. now rewrite Bool.andb_false_r.
  - rewrite Z.land_spec, Z.shiftr_spec by lia. replace (i - k + k) with i by lia. reflexivity.
Qed.
Lemma shift_shift a k j : 0 <= j <= k -> Z.shiftr (Z.shiftl a k) j = Z.shiftl a (k - j).
Proof. intros H. rewrite Z.shiftr_shiftl_l by lia. f_equal; lia. Qed.
Lemma lor_add a b k : 0 <= k -> 0 <= a < 2 ^ k -> Z.lor a (Z.shiftl b k) = a + Z.shiftl b k.
Proof.
  intros K A.
  assert (E : Z.land a (Z.shiftl b k) = 0).
  { apply Z.bits_inj'. intros i I. rewrite Z.land_spec, Z.bits_0, Z.shiftl_spec by lia.
    destruct (Z.ltb_spec i k).
    - rewrite (Z.testbit_neg_r _ (i - k)) by lia. apply Bool.andb_false_r.
    - destruct (Z.eqb_spec a 0) as [-> |Z0]; [now rewrite Z.bits_0|].
      rewrite Z.bits_above_log2; [reflexivity|lia|]. apply Z.log2_lt_pow2; [lia|].
      apply Z.lt_le_trans with (2 ^ k); [lia|]. apply Z.pow_le_mono_r; lia. }
  rewrite <- Z.lxor_lor by exact E. symmetry. now apply Z.add_nocarry_lxor.
Qed.

Lemma byte_at v k x p q : 0 <= k -> v = p + 2 ^ k * (x + 256 * q) -> 0 <= p < 2 ^ k -> 0 <= x < 256 -> Z.shiftr v k mod 256 = x.
Proof.
  intros K -> P X. rewrite Z.shiftr_div_pow2 by lia.
  replace (p + 2 ^ k * (x + 256 * q)) with (p + (x + 256 * q) * 2 ^ k) by ring. rewrite Z.div_add by lia. rewrite (Z.div_small p) by lia. lia.
Qed.
Ltac pows := change (2 ^ 8) with 256 in *; change (2 ^ 16) with 65536 in *; change (2 ^ 24) with 16777216 in *; change (2 ^ 32) with 4294967296 in *;
  change (2 ^ 40) with 1099511627776 in *; change (2 ^ 48) with 281474976710656 in *; change (2 ^ 56) with 72057594037927936 in *.
Lemma rev_le_unle (bs : bytes) : Forall is_byte bs -> rev (le (List.length bs) (unle bs)) = rev bs.
Proof.
  intros B. f_equal. induction B as [|b bs Hb B IH]; cbn [unle le List.length]; [reflexivity|].
  unfold is_byte in Hb. f_equal; [lia|]. etransitivity; [|exact IH]. f_equal. lia.
Qed.
Lemma swap16_ok a b : is_byte a -> is_byte b -> swap16 (unle (rev [a; b])) = unle [a; b].
Proof.
  unfold is_byte. intros A B. cbn [rev app unle]. unfold swap16. set (v := b + 256 * (a + 256 * 0)).
  change 0xff00 with (Z.shiftl 255 8). replace (Z.land v 0xff) with (Z.land v (Z.shiftl 255 0)) by reflexivity.
  rewrite !mask_k by lia. rewrite (byte_at v 8 a b 0) by (subst v; pows; lia).
  rewrite (byte_at v 0 b 0 a) by (subst v; change (2 ^ 0) with 1; lia).
  rewrite shift_shift by lia. cbn [Z.sub Z.add Z.opp Z.pos_sub]. rewrite !Z.shiftl_0_r. rewrite Z.lor_comm, lor_add by (pows; lia).
  rewrite Z.shiftl_mul_pow2 by lia. pows. lia.
Qed.
Lemma swap32_ok a b c d : is_byte a -> is_byte b -> is_byte c -> is_byte d -> swap32 (unle (rev [a; b; c; d])) = unle [a; b; c; d].
Proof.
  unfold is_byte. intros A B C D. cbn [rev app unle]. unfold swap32. set (v := d + 256 * (c + 256 * (b + 256 * (a + 256 * 0)))).
  change 0xff000000 with (Z.shiftl 255 24). change 0xff0000 with (Z.shiftl 255 16). change 0xff00 with (Z.shiftl 255 8).
  replace (Z.land v 0xff) with (Z.land v (Z.shiftl 255 0)) by reflexivity.
  rewrite !mask_k by lia.
  rewrite (byte_at v 24 a (d + 256 * c + 65536 * b) 0) by (subst v; pows; lia).
  rewrite (byte_at v 16 b (d + 256 * c) a) by (subst v; pows; lia).
  rewrite (byte_at v 8 c d (b + 256 * a)) by (subst v; pows; lia).
  rewrite (byte_at v 0 d 0 (c + 256 * (b + 256 * a))) by (subst v; change (2 ^ 0) with 1; lia).
  rewrite !shift_shift by lia. rewrite !Z.shiftl_shiftl by lia.
  change (24 - 24) with 0. change (16 - 8) with 8. change (8 + 8) with 16. change (0 + 24) with 24. rewrite Z.shiftl_0_r.
  rewrite (lor_add a) by (pows; lia). rewrite Z.shiftl_mul_pow2 by lia.
  rewrite (lor_add (a + b * 2 ^ 8)) by (pows; lia). rewrite (Z.shiftl_mul_pow2 c) by lia.
  rewrite (lor_add (a + b * 2 ^ 8 + c * 2 ^ 16)) by (pows; lia). rewrite Z.shiftl_mul_pow2 by lia.
  pows. lia.
Qed.
Lemma swap64_ok a b c d e f g i :
  is_byte a -> is_byte b -> is_byte c -> is_byte d -> is_byte e -> is_byte f -> is_byte g -> is_byte i ->
  swap64 (unle (rev [a; b; c; d; e; f; g; i])) = unle [a; b; c; d; e; f; g; i].
Proof.
  unfold is_byte. intros A B C D E F G I. cbn [rev app unle]. unfold swap64.
  set (v := i + 256 * (g + 256 * (f + 256 * (e + 256 * (d + 256 * (c + 256 * (b + 256 * (a + 256 * 0)))))))).
  change 0xff00000000000000 with (Z.shiftl 255 56). change 0xff000000000000 with (Z.shiftl 255 48). change 0xff0000000000 with (Z.shiftl 255 40).
  change 0xff00000000 with (Z.shiftl 255 32).
  change 0xff000000 with (Z.shiftl 255 24). change 0xff0000 with (Z.shiftl 255 16). change 0xff00 with (Z.shiftl 255 8).
  replace (Z.land v 0xff) with (Z.land v (Z.shiftl 255 0)) by reflexivity.
  rewrite !mask_k by lia.
  rewrite (byte_at v 56 a (i + 256 * (g + 256 * (f + 256 * (e + 256 * (d + 256 * (c + 256 * b)))))) 0) by (subst v; pows; lia).
  rewrite (byte_at v 48 b (i + 256 * (g + 256 * (f + 256 * (e + 256 * (d + 256 * c))))) a) by (subst v; pows; lia).
  rewrite (byte_at v 40 c (i + 256 * (g + 256 * (f + 256 * (e + 256 * d)))) (b + 256 * a)) by (subst v; pows; lia).
  rewrite (byte_at v 32 d (i + 256 * (g + 256 * (f + 256 * e))) (c + 256 * (b + 256 * a))) by (subst v; pows; lia).
  rewrite (byte_at v 24 e (i + 256 * (g + 256 * f)) (d + 256 * (c + 256 * (b + 256 * a)))) by (subst v; pows; lia).
  rewrite (byte_at v 16 f (i + 256 * g) (e + 256 * (d + 256 * (c + 256 * (b + 256 * a))))) by (subst v; pows; lia).
  rewrite (byte_at v 8 g i (f + 256 * (e + 256 * (d + 256 * (c + 256 * (b + 256 * a)))))) by (subst v; pows; lia).
  rewrite (byte_at v 0 i 0 (g + 256 * (f + 256 * (e + 256 * (d + 256 * (c + 256 * (b + 256 * a))))))) by (subst v; change (2 ^ 0) with 1; lia).
  rewrite !shift_shift by lia. rewrite !Z.shiftl_shiftl by lia.
  change (56 - 56) with 0. change (48 - 40) with 8. change (40 - 24) with 16. change (32 - 8) with 24. change (24 + 8) with 32.
  change (16 + 24) with 40. change (8 + 40) with 48. change (0 + 56) with 56. rewrite Z.shiftl_0_r.
  rewrite (lor_add a) by (pows; lia). rewrite (Z.shiftl_mul_pow2 b) by lia.
  rewrite (lor_add (a + b * 2 ^ 8)) by (pows; lia). rewrite (Z.shiftl_mul_pow2 c) by lia.
  rewrite (lor_add (a + b * 2 ^ 8 + c * 2 ^ 16)) by (pows; lia). rewrite (Z.shiftl_mul_pow2 d) by lia.
  rewrite (lor_add (a + b * 2 ^ 8 + c * 2 ^ 16 + d * 2 ^ 24)) by (pows; lia). rewrite (Z.shiftl_mul_pow2 e) by lia.
  rewrite (lor_add (a + b * 2 ^ 8 + c * 2 ^ 16 + d * 2 ^ 24 + e * 2 ^ 32)) by (pows; lia). rewrite (Z.shiftl_mul_pow2 f) by lia.
  rewrite (lor_add (a + b * 2 ^ 8 + c * 2 ^ 16 + d * 2 ^ 24 + e * 2 ^ 32 + f * 2 ^ 40)) by (pows; lia). rewrite (Z.shiftl_mul_pow2 g) by lia.
  rewrite (lor_add (a + b * 2 ^ 8 + c * 2 ^ 16 + d * 2 ^ 24 + e * 2 ^ 32 + f * 2 ^ 40 + g * 2 ^ 48)) by (pows; lia). rewrite Z.shiftl_mul_pow2 by lia.
  pows. lia.
Qed.

Definition wide (n : nat) : Prop := n = 2%nat \/ n = 4%nat \/ n = 8%nat.
Lemma convert_rev n (bs : bytes) : wide n -> List.length bs = n -> Forall is_byte bs -> convert_int Big bs = rev bs.
Proof.
  intros W L B. unfold convert_int, store, load. rewrite L. etransitivity; [|apply (rev_le_unle bs B)]. rewrite L. f_equal. f_equal.
  destruct W as [->|[->| ->]]; unfold swap.
  - do 2 (destruct bs as [|? bs]; [discriminate L|]). destruct bs; [|discriminate L].
    repeat match goal with H : Forall _ (_ :: _) |- _ => inversion_clear H end. now apply swap16_ok.
  - do 4 (destruct bs as [|? bs]; [discriminate L|]). destruct bs; [|discriminate L].
    repeat match goal with H : Forall _ (_ :: _) |- _ => inversion_clear H end. now apply swap32_ok.
  - do 8 (destruct bs as [|? bs]; [discriminate L|]). destruct bs; [|discriminate L].
    repeat match goal with H : Forall _ (_ :: _) |- _ => inversion_clear H end. now apply swap64_ok.
Qed.

(** ** Members of a structure *)
Definition chunk : Type := (string * bytes)%type.
Definition laid (l : layout) (cs : list chunk) : Prop :=
  Forall2 (fun f c => fst f = fst c /\ List.length (snd c) = psize (snd f) /\ Forall is_byte (snd c)) l cs.
Definition inb (nm : string) (ms : list string) : bool := existsb (String.eqb nm) ms.
Definition flip (ms : list string) (c : chunk) : chunk := (fst c, if inb (fst c) ms then rev (snd c) else snd c).
Definition cat (cs : list chunk) : bytes := flat_map snd cs.

Lemma laid_splitp l (cs : list chunk) nm n : laid l cs -> In (nm, n) l -> NoDup (map fst l) ->
  exists l1 l2 (c1 : list chunk) (bs : bytes) (c2 : list chunk), l = l1 ++ (nm, n) :: l2 /\ cs = c1 ++ (nm, bs) :: c2 /\ laid l1 c1 /\ laid l2 c2 /\ List.length bs = psize n /\ Forall is_byte bs /\
    place l nm = Some (size l1, psize n) /\ ~ In nm (map fst c1) /\ ~ In nm (map fst c2).
Proof.
  intros L. induction L as [|[x p] [y b] l cs (E1 & E2 & E3) L IH]; intros I ND; [contradiction|].
  cbn [fst snd] in E1, E2, E3. subst y. cbn [map fst] in ND. apply NoDup_cons_iff in ND as [NI ND].
  assert (EM : map fst l = map fst cs) by (clear -L; induction L as [|? ? ? ? (E & _) L IH]; [reflexivity|cbn [map]; now rewrite E, IH]).
  destruct I as [I|I].
  - injection I as -> ->. exists [], l, [], b, cs. cbn [app size place map In]. rewrite String.eqb_refl.
    rewrite EM in NI. repeat match goal with |- _ /\ _ => split end; auto. constructor.
  - assert (XN : x <> nm) by (intros ->; apply NI, in_map_iff; now exists (nm, n)).
    destruct (IH I ND) as (l1 & l2 & c1 & bs & c2 & -> & -> & A & B & C & D & P & N1 & N2).
    exists ((x, p) :: l1), l2, ((x, b) :: c1), bs, c2. cbn [app size place map In fst].
    rewrite (proj2 (String.eqb_neq _ _) XN), P. cbn [option_map].
    repeat match goal with |- _ /\ _ => split end; auto. + constructor; [now repeat split|assumption]. + intros [->|?]; [now apply XN|now apply N1].
Qed.
Lemma laid_split l (cs : list chunk) nm n : laid l cs -> In (nm, Int n) l -> NoDup (map fst l) ->
  exists l1 l2 (c1 : list chunk) (bs : bytes) (c2 : list chunk), l = l1 ++ (nm, Int n) :: l2 /\ cs = c1 ++ (nm, bs) :: c2 /\ laid l1 c1 /\ laid l2 c2 /\ List.length bs = n /\ Forall is_byte bs /\
    place l nm = Some (size l1, n) /\ ~ In nm (map fst c1) /\ ~ In nm (map fst c2).
Proof. exact (laid_splitp l cs nm (Int n)). Qed.
Lemma laid_size l cs : laid l cs -> List.length (cat cs) = size l.
Proof. intros L. induction L as [|[x p] [y b] l cs (E1 & E2 & E3) L IH]; [reflexivity|]. cbn [cat flat_map size snd] in *. rewrite app_length. exact (f_equal2 Nat.add E2 IH). Qed.
Lemma laid_flip l cs ms : laid l cs -> laid l (map (flip ms) cs).
Proof.
  intros L. induction L as [|[x p] [y b] l cs (E1 & E2 & E3) L IH]; constructor; [|exact IH].
  unfold flip. cbn [fst snd] in *. destruct (inb y ms); repeat split; auto; [now rewrite rev_length|]. now apply Forall_rev.
Qed.
Lemma cat_app a b : cat (a ++ b) = cat a ++ cat b.
Proof. apply flat_map_app. Qed.
Lemma flip_other nm (cs : list chunk) : ~ In nm (map fst cs) -> map (flip [nm]) cs = cs.
Proof.
  intros N. rewrite <- (map_id cs) at 2. apply map_ext_in. intros [x b] I. unfold flip, inb. cbn [fst snd existsb].
  destruct (String.eqb_spec x nm) as [->|]; [exfalso; apply N, in_map_iff; now exists (nm, b)|reflexivity].
Qed.
Lemma part_mid (a b c : bytes) : part (a ++ b ++ c) (List.length a) (List.length b) = b.
Proof. unfold part. rewrite skipn_app, Nat.sub_diag, skipn_all. cbn [app skipn]. rewrite firstn_app, Nat.sub_diag, firstn_all. cbn [firstn]. now rewrite app_nil_r. Qed.
Lemma patch_mid (a b c : bytes) f : patch (a ++ b ++ c) (List.length a) (List.length b) f = a ++ f b ++ c.
Proof.
  unfold patch. rewrite part_mid. rewrite firstn_app, Nat.sub_diag, firstn_all. cbn [firstn]. rewrite app_nil_r. f_equal. f_equal.
  rewrite app_assoc, skipn_app. rewrite (skipn_all2 (a ++ b)) by (rewrite app_length; lia). rewrite app_length, Nat.sub_diag. reflexivity.
Qed.

Definition all_wide (l : layout) (ms : list string) : Prop := Forall (fun nm => exists n, wide n /\ In (nm, Int n) l) ms.
Lemma one_member l (cs : list chunk) nm n (pre post : bytes) : laid l cs -> NoDup (map fst l) -> wide n -> In (nm, Int n) l ->
  convert_member Big (List.length pre) l (pre ++ cat cs ++ post) nm = pre ++ cat (map (flip [nm]) cs) ++ post.
Proof.
  intros L ND W I. destruct (laid_split l cs nm n L I ND) as (l1 & l2 & c1 & bs & c2 & -> & -> & A & B & C & D & P & N1 & N2).
  unfold convert_member. rewrite P. rewrite map_app. cbn [map]. rewrite (flip_other _ _ N1), (flip_other _ _ N2).
  rewrite !cat_app. unfold flip, inb. cbn [cat flat_map fst snd existsb]. rewrite String.eqb_refl. cbn [orb].
  rewrite <- (laid_size _ _ A), <- C, <- app_length. fold (cat c2).
  replace (pre ++ (cat c1 ++ bs ++ cat c2) ++ post) with ((pre ++ cat c1) ++ bs ++ (cat c2 ++ post)) by (now rewrite <- !app_assoc).
  rewrite patch_mid, (convert_rev n) by auto. now rewrite <- !app_assoc.
Qed.
Lemma convert_flip l ms (pre post : bytes) : NoDup (map fst l) -> NoDup ms -> all_wide l ms ->
  forall cs, laid l cs -> convert Big (List.length pre) l ms (pre ++ cat cs ++ post) = pre ++ cat (map (flip ms) cs) ++ post.
Proof.
  intros ND. induction ms as [|nm ms IH]; intros NM AW cs L.
  - cbn [convert fold_left]. do 2 f_equal. f_equal. rewrite <- (map_id cs) at 1. apply map_ext. now intros [x b].
  - inversion_clear AW as [|? ? (n & W & I) AW']. apply NoDup_cons_iff in NM as [NI NM].
    unfold convert. cbn [fold_left]. rewrite (one_member l cs nm n) by auto.
    etransitivity; [exact (IH NM AW' (map (flip [nm]) cs) (laid_flip l cs [nm] L))|]. do 2 f_equal. f_equal. rewrite map_map. apply map_ext. intros [w b].
    unfold flip, inb. cbn [fst snd existsb]. destruct (String.eqb_spec w nm) as [->|]; cbn [orb]; [|reflexivity].
    destruct (existsb (String.eqb nm) ms) eqn:E; [|reflexivity]. apply existsb_exists in E as (y & Y & E). apply String.eqb_eq in E as <-. contradiction.
Qed.

(** ** Images *)
Definition chunks (h : host) (l : layout) (vs : list val) : list chunk := map (fun '(f, v) => (fst f, image1 h (snd f) v)) (combine l vs).
Lemma image_cat h l vs : fits l vs -> image h l vs = cat (chunks h l vs).
Proof. intros F. induction F as [|[x p] v l vs E F IH]; [reflexivity|]. cbn [image chunks combine map cat flat_map fst snd]. now rewrite IH. Qed.
Lemma store_length h n v : List.length (store h n v) = n.
Proof. destruct h; cbn [store]; rewrite ?rev_length; apply le_length. Qed.
Lemma store_bytes h n v : Forall is_byte (store h n v).
Proof. destruct h; cbn [store]; try apply Forall_rev; apply le_bytes. Qed.
Lemma chunks_laid h l vs : fits l vs -> laid l (chunks h l vs).
Proof.
  intros F. induction F as [|[x p] v l vs E F IH]; [constructor|]. cbn [chunks combine map fst snd]. constructor; [|exact IH].
  cbn [fst snd]. split; [reflexivity|]. destruct p, v; cbn [snd fits1 image1 psize] in *; try contradiction.
  - exact E. - split; [apply store_length|apply store_bytes].
  - destruct h; [exact E|]. rewrite rev_length. split; [apply E|]. apply Forall_rev, E.
Qed.
(** all integers, nothing else *)
Definition complete (l : layout) (ms : list string) : bool :=
  forallb (fun f => match snd f with Int _ => inb (fst f) ms | Chars _ => negb (inb (fst f) ms) | Real => negb (inb (fst f) ms) end) l.
Definition other (h : host) : host := match h with Little => Big | Big => Little end.
(** what the host has for a float which was not converted *)
Definition unreal (v : val) : val := match v with VReal bs => VReal (rev bs) | v => v end.
Lemma flip_chunks h l vs ms : fits l vs -> complete l ms = true -> map (flip ms) (chunks h l vs) = chunks (other h) l (map unreal vs).
Proof.
  intros F. induction F as [|[x p] v l vs E F IH]; intros C; [reflexivity|].
  cbn [complete forallb] in C. apply andb_prop in C as [C1 C2]. cbn [chunks combine map fst snd] in *. f_equal; [|exact (IH C2)].
  unfold flip. cbn [fst snd]. f_equal. destruct p, v; cbn [snd fst fits1 image1 unreal] in *; try contradiction.
  - apply Bool.negb_true_iff in C1. now rewrite C1.
  - rewrite C1. destruct h; cbn [store other]; [reflexivity|now rewrite rev_involutive].
  - apply Bool.negb_true_iff in C1. rewrite C1. destruct h; cbn [other]; [now rewrite rev_involutive|reflexivity].
Qed.
Lemma convert_image l ms h vs (pre post : bytes) :
  NoDup (map fst l) -> NoDup ms -> all_wide l ms -> complete l ms = true -> fits l vs ->
  convert Big (List.length pre) l ms (pre ++ image h l vs ++ post) = pre ++ image (other h) l (map unreal vs) ++ post.
Proof.
  intros ND NM AW C F. rewrite image_cat by exact F. rewrite convert_flip by (auto using chunks_laid). rewrite flip_chunks by auto.
  rewrite image_cat; [reflexivity|]. clear -F. induction F as [|[x p] v l vs E F IH]; [constructor|]. cbn [map]. constructor; [|exact IH].
  destruct p, v; cbn [snd fits1 unreal] in *; auto. rewrite rev_length. split; [apply E|]. apply Forall_rev, E.
Qed.
