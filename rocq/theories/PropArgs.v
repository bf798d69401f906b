(** C103: what the functions of the C API do with null pointers and with handles of something else. *)
From Verif Require Import Base ArgModel ArgSpec ArgProofs.
Open Scope Z_scope.

(** C103: all functions but eight never crash, whatever is null and whatever the handles belong to; they refuse a null pointer as an invalid argument;
    if they succeed, all handles were good, every output is set and handles given out can be used; if they fail nothing is set (a handle may be set to null).
    (Partial: the eight functions are below; memory handed over by the caller is as large as announced; a released handle is not given.) *)
Theorem C103_arguments_partial : forall f, In f sound_functions -> well_behaved f.
Proof. exact (proj1 (Forall_forall _ _) sound_functions_behave). Qed.
Print Assumptions C103_arguments_partial.
Example C103_arguments_meets : In f_ReaderReadSubBlock sound_functions /\ typed f_ReaderReadSubBlock [Good; Good] /\
  call f_ReaderReadSubBlock [Good; Good] (Returned OK [(1%nat, SHandle)]) /\ call f_ReaderReadSubBlock [Good; Null] (Returned InvArg []) /\
  call f_ReaderReadSubBlock [Foreign; Good] (Returned InvHandle []).
Proof.
  split; [|split; [|split; [|split]]].
  - unfold sound_functions. cbn [In]. tauto.
  - split; [reflexivity|]. intros [|[|[|i]]] [H|H]; discriminate H.
  - apply r_not_null; [reflexivity|]. apply r_valid; [now right|]. apply r_use; [reflexivity|]. eapply r_choose; [right; now left|].
    apply r_write; [discriminate|]. apply r_ret.
  - apply r_null; [reflexivity|]. apply r_ret.
  - apply r_not_null; [reflexivity|]. apply r_invalid; [reflexivity|]. apply r_ret.
Qed.

(** C103: five of the others behave in the same way if no required argument is null, in particular they do not crash, whatever handles are given *)
Theorem C103_given_partial : forall n f, In f [f_ReaderGetMetadataSegment; f_ReaderReadAttachment; f_CreateInputStream; f_MetadataSegmentGetMetadataAsXml; f_CompositorDoMultiChannelComposition n] ->
  forall a o, ~ In Hollow a -> (forall i, In i (f_required f) -> arg a i <> Null) -> call f a o ->
  exists e w, o = Returned e w /\
    (e = OK -> (forall i, In i (f_handles f) -> arg a i = Good) /\ (forall i, In i (f_outputs f) -> exists k, In (i, k) w) /\ (forall i, ~ In (i, SHollow) w)) /\
    (e <> OK -> forall i k, In (i, k) w -> k = SNullHandle).
Proof.
  exact others_given.
Qed.
Print Assumptions C103_given_partial.
Example C103_given_meets : call (f_CompositorDoMultiChannelComposition 2) [Good; Good; Good; Good; Foreign] (Returned InvHandle []) /\
  f_required (f_CompositorDoMultiChannelComposition 2) = [0; 1; 2; 3; 4]%nat.
Proof.
  split; [|reflexivity]. eapply r_choose; [right; now left|]. apply r_not_null; [reflexivity|]. apply r_read; [discriminate|]. apply r_read; [discriminate|].
  apply r_valid; [now right|]. apply r_invalid; [reflexivity|]. apply r_ret.
Qed.

(** C103: REFUTED for six functions: a null pointer or handle crashes them, or a channel which is not in the settings does *)
Theorem C103_crash_refuted :
  call f_ReaderGetMetadataSegment [Good; Null] Crash /\ call f_ReaderReadAttachment [Null; Good] Crash /\ call f_ReaderReadAttachment [Good; Null] Crash /\
  call f_CreateInputStream [Good; Null; Null; Good] Crash /\ call f_MetadataSegmentGetMetadataAsXml [Good; Null] Crash /\
  call (f_CompositorDoMultiChannelComposition 1) [Good; Good; Good; Null] Crash /\ call f_CompositorFillOutCompositionChannelInfoInterop [Good; Good] Crash.
Proof. exact crashes. Qed.
Print Assumptions C103_crash_refuted.
(** C103: REFUTED for two: success without a result; success with a handle whose first use crashes whatever happens *)
Theorem C103_empty_handed_refuted :
  call f_CziDocumentInfoGetDimensionInfo [Good; Good] (Returned OK []) /\
  call f_CziDocumentInfoGetDisplaySettings [Good; Good] (Returned OK [(1%nat, SHollow)]) /\
  (forall o, call f_DisplaySettingsGetChannelDisplaySettings [Hollow; Good] o -> o = Crash).
Proof. exact empty_handed. Qed.
Print Assumptions C103_empty_handed_refuted.
