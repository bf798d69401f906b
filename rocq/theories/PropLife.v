(** C115: how long a stream of the caller is used *)
From Verif Require Import Base LifeModel LifeSpec LifeProofs4.
Open Scope nat_scope.

(** the streams are called and closed as the handles say: nothing is called after the end, everything is closed once, as soon as - and not
    before - no handle keeps it any longer *)
Theorem C115_life_partial : forall os hs ev cs, spec_run [] os = Some (hs, ev, cs) ->
  exists w, run empty os = Ok (w, cs) /\ trace w = ev /\ proper ev /\ (forall s, keeps hs s -> opened ev s) /\
    forall s, opened ev s -> (closed ev s <-> ~ keeps hs s).
Proof. exact life_tidy. Qed.
Print Assumptions C115_life_partial.
(** a stream and a reader are released, an accessor goes on reading; with the accessor the stream ends, what was read stays *)
Example C115_life_meets : exists hs w, spec_run [] ex_read = Some (hs, [EOpen 0; ECall 0; ECall 0; ECall 0; EClose 0], repeat COk 11) /\
  Forall (fun e => e = None) hs /\ run empty ex_read = Ok (w, repeat COk 11) /\ trace w = [EOpen 0; ECall 0; ECall 0; ECall 0; EClose 0].
Proof. eexists. eexists. split; [vm_compute; reflexivity|]. split; [repeat constructor|]. split; vm_compute; reflexivity. Qed.
(** two writers, one stream; a document may be written after another with the same writer *)
Example C115_life_meets2 : exists hs, spec_run [] ex_write = Some (hs, [EOpen 0; ECall 0; ECall 0; ECall 0; EOpen 3; ECall 3; ECall 0; EClose 0; ECall 3; EClose 3],
    [COk; COk; COk; COk; COk; COk; COk; CUnspecified; COk; COk; COk; CUnspecified; COk; COk]) /\ live hs 2 = Some (KWriter, None).
Proof. eexists. split; vm_compute; reflexivity. Qed.
(** if all handles are released all streams are closed *)
Theorem C115_end : forall os hs ev cs, spec_run [] os = Some (hs, ev, cs) -> Forall (fun e => e = None) hs ->
  exists w, run empty os = Ok (w, cs) /\ forall s, opened (trace w) s -> closed (trace w) s.
Proof. exact life_end. Qed.
Print Assumptions C115_end.
(** a call which fails changes nothing, with one exception *)
Theorem C115_fail_partial : forall w o w' c, step w o = Ok (w', c) -> c <> COk -> (forall x s n ok, o <> Create x s n ok) -> heap w' = heap w /\ hands w' = hands w.
Proof. exact fail_same. Qed.
Print Assumptions C115_fail_partial.
Example C115_fail_meets : exists w w', run empty [NewIn; NewReader] = Ok (w, [COk; COk]) /\ step w (Open 1 0 3 false) = Ok (w', CUnspecified) /\ trace w' = [EOpen 0; ECall 0; ECall 0; ECall 0].
Proof. eexists. eexists. split; [vm_compute; reflexivity|]. split; vm_compute; reflexivity. Qed.
(** the exception: a writer which could not be set up keeps the stream: it refuses another one, is written to the first one although its
    handle was released, and keeps it from being closed *)
Theorem C115_create_refuted : exists w, run empty [NewOut; NewWriter; Create 1 0 1 false; NewOut; Create 1 2 1 true; Release 0; Write 1 1 true; Release 1; Release 2] =
    Ok (w, [COk; COk; CUnspecified; COk; CUnspecified; COk; COk; COk; COk]) /\
  trace w = [EOpen 0; ECall 0; EOpen 2; ECall 0; EClose 0; EClose 2].
Proof. eexists. split; vm_compute; reflexivity. Qed.
Print Assumptions C115_create_refuted.
(** a handle which was released is not recognised: memory which is gone is looked at *)
Theorem C115_released : forall os, spec_run [] os = None -> run empty os = UB.
Proof. exact after_release. Qed.
Print Assumptions C115_released.
Example C115_released_meets : spec_run [] [NewIn; Release 0; Release 0] = None /\ run empty [NewIn; Release 0; Release 0] = UB.
Proof. split; vm_compute; reflexivity. Qed.
