(** * Properties_Frame: C131, looking things up does not change the tables.

    [history strict cs h]: the calls [cs] one after another, starting with the DataFrames of
    [h] (FrameM.v), and their answers; [alone]: the answer of one call by itself
    (FrameSpec.v).  For every number type. *)
From Coq Require Import String ZArith QArith Reals List Bool Lia.
From Verif Require Import PyBase Pint UnitsM Csv Tables TubeM FlangeM HeapM FrameM FrameSpec FrameP.
Import ListNotations.
Local Open Scope string_scope.
Local Opaque MATERIAL_LIMITS FLANGE_LIMITS TUBE_MATERIALS.

(** No DataFrame that existed before is changed by any history of calls, whatever the frames
    hold, whether or not the calls raise. *)
Theorem C131_frames_kept :
  forall {A} {NA : Num A} strict (cs : list (call A)) (h : heap (df A)) r,
    (r < next h)%nat -> obj (fst (history strict cs h)) r = obj h r.
Proof. intros. apply history_keeps. assumption. Qed.
Print Assumptions C131_frames_kept.

(** Starting from the imported tables, every call of every history gets the answer it gets
    alone: no call depends on those before it. *)
Theorem C131_history :
  forall {A} {NA : Num A} strict (cs : list (call A)) (h : heap (df A)),
    tables_loaded h ->
    snd (history strict cs h) = map (alone strict) cs /\ tables_loaded (fst (history strict cs h)).
Proof.
  intros A NA strict cs. induction cs as [|c cs IH]; intros h Hh; [split; [reflexivity|exact Hh]|].
  assert (Ha : snd (perform strict c h) = alone strict c).
  { destruct c; cbn [perform snd alone].
    - rewrite max_stress_value by exact Hh. reflexivity.
    - rewrite class_value by exact Hh. reflexivity.
    - rewrite pressure_value by exact Hh. reflexivity.
    - rewrite temperature_value by exact Hh. reflexivity. }
  assert (Hl : tables_loaded (fst (perform strict c h))).
  { destruct (perform_keeps strict c h) as (P1 & P2). destruct Hh as (H1 & H2 & H3).
    split; [lia|]. split.
    - intros w. rewrite P2; [apply H2|]. destruct w; cbn; lia.
    - intros g r t Hr Ht. rewrite P2; [exact (H3 g r t Hr Ht)|].
      pose proof (group_table g) as G. rewrite Hr in G. destruct G as (G & _). lia. }
  cbn [history map]. destruct (perform strict c h) as [h1 a]. cbn [fst snd] in *. subst a.
  destruct (IH h1 Hl) as (I1 & I2). destruct (history strict cs h1) as [h2 l]. cbn [fst snd] in *. subst l.
  split; [reflexivity|exact I2].
Qed.
Print Assumptions C131_history.

(** The heap after import. *)
Definition imported_heap : heap (df R) :=
  mkHeap (fun r => match r with
                   | 0 => numbers_frame (MATERIAL_LIMITS true)
                   | 1 => numbers_frame (MATERIAL_LIMITS false)
                   | _ => match FLANGE_LIMITS (match r with 2 => "2.1" | 3 => "2.2" | _ => "2.3" end) with
                          | Ok t => units_frame t
                          | Err _ => mkDf [] []
                          end
                   end)%nat 5.
Lemma imported_loaded : tables_loaded imported_heap.
Proof.
  split; [apply le_n|]. split; [intros []; reflexivity|].
  intros g r t Hr Ht. unfold flange_ref in Hr.
  destruct (String.eqb_spec g "2.1") as [ -> |_]; [injection Hr as <-; cbn [imported_heap obj]; rewrite Ht; reflexivity|].
  destruct (String.eqb_spec g "2.2") as [ -> |_]; [injection Hr as <-; cbn [imported_heap obj]; rewrite Ht; reflexivity|].
  destruct (String.eqb_spec g "2.3") as [ -> |_]; [injection Hr as <-; cbn [imported_heap obj]; rewrite Ht; reflexivity|].
  discriminate Hr.
Qed.
(** The same question before and after another one. *)
Example C131_case :
  let q := CMaxStress (PSeq [ENum 70%R; EStr "degF"]) "304" true 0%nat in
  let other := CMaxTemperature "300" (PSeq [ENum 30%R; EStr "bar"]) (NStr "304") in
  snd (history false [q; other; q] imported_heap)
  = [alone false q; alone false other; alone false q].
Proof. intros q other. exact (proj1 (C131_history false [q; other; q] _ imported_loaded)). Qed.

(** What would go wrong otherwise: had line 1322 renamed the columns of the module's table
    itself, the next look-up would fail. *)
Example C131_renamed_table :
  let h := mkHeap (fun _ => match rename ["temperature"; "stress"] (mkDf [] [("Temp", []); ("304", [])]) with
                            | Ok d => d | Err _ => mkDf [] [] end) 5 in
  o_value (f_get_pipe_stress_limits (A:=R) "304" true h) = Err (KeyError "Temp").
Proof. reflexivity. Qed.
