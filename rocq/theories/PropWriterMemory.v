(** Properties of the objects the writers allocate and of the intermediate file of FaststartWriter: C64. *)
From Verif Require Import Base BitIO Boxes Box BoxSpec PrintSpec BoxTree AnnexBSpec H264 Track Writers MovieSpec CallSpec PropCalls Memory MemoryProofs
  WriterMemory WriterMemoryProofs WriterLife PropFile.
From Coq Require Import List Lia Arith.
Import ListNotations.
Open Scope Z_scope.
Open Scope list_scope.

(** * Specification *)

(** The constructor, with pointers. *)
Definition constructed (cls : wclass) (timescale duration time : Z) (ft : ftyp) (os : ostream) : outcome mwstate :=
  match cls with
  | Simple => SimpleWriter_new_m timescale duration time ft os
  | Faststart => Ok (FaststartWriter_new_m timescale duration time ft os)
  end.
(** How many of the calls of writeFtypBox and writeFreeBoxAndMdatHeader raised an exception. *)
Fixpoint local_boxes_raised (cs : list call) (rs : list (outcome unit)) : nat :=
  match cs, rs with
  | Call O_WriteFtyp _ :: cs, Throw _ :: rs | Call O_WriteFreeAndMdatHeader _ :: cs, Throw _ :: rs => S (local_boxes_raised cs rs)
  | _ :: cs, _ :: rs => local_boxes_raised cs rs
  | _, _ => 0%nat
  end.
(** The call returned, or it is the constructor of a track or addData and raised an exception (then the track is not there, or what was
    before the NAL unit that is refused is stored: Writers.v). *)
Definition goes_on (o : op) (r : outcome unit) : Prop :=
  r = Ok tt \/ (r <> UB /\ match o with O_NewTrack _ _ _ _ _ _ | O_AddData _ _ _ _ => True | _ => False end).

Lemma lost_count cs : forall rs, lost_objects cs rs = (3 * local_boxes_raised cs rs)%nat.
Proof.
  induction cs as [|[o x|ok] cs IH]; intros rs; [reflexivity| |].
  - destruct rs as [|r rs]; [destruct o; reflexivity|]. cbn [lost_objects call_leaks]. rewrite IH. destruct o; destruct r; cbn [leaks local_boxes_raised]; lia.
  - destruct rs as [|r rs]; [reflexivity|]. cbn [lost_objects call_leaks local_boxes_raised]. rewrite IH. lia.
Qed.
Lemma constructed_ok cls timescale duration time ft os : exists m, constructed cls timescale duration time ft os = Ok m /\ open_there m /\ (ms_file m = true <-> cls = Faststart) /\
  holds m (mk_session (match cls with Simple => SimpleWriter_new timescale duration time ft os | Faststart => FaststartWriter_new timescale duration time ft os end) []) [].
Proof.
  destruct cls; unfold constructed.
  - destruct (simple_start timescale duration time ft os) as (m & E & Hs & O & F & _). exists m. split; [exact E|]. split; [intros Z; congruence|]. split; [|exact Hs]. rewrite F. split; discriminate.
  - exists (FaststartWriter_new_m timescale duration time ft os). split; [reflexivity|]. split; [intros _; reflexivity|]. split; [|apply faststart_start]. split; reflexivity.
Qed.

(** * C64.  The destructor *)

(** Any calls in any order, any of them refused by a stream at any point (or by fclose or by the file system): unless a call is undefined
    behaviour, the destructor deletes objects that are there, each once, and all there are but those of the ftyp and free boxes whose
    write() raised: at most three each. *)
Theorem C64_destructor : forall cls timescale duration time ft os m0 cs m rs,
  constructed cls timescale duration time ft os = Ok m0 -> mrun m0 cs = (m, rs) -> ~ In UB rs ->
  exists H left, Writer_destroy m = Ok H /\ (length left <= 3 * local_boxes_raised cs rs)%nat /\ forall a, at_ H a <> None -> In a left.
Proof.
  intros cls timescale duration time ft os m0 cs m rs E0 E U. destruct (constructed_ok cls timescale duration time ft os) as (m1 & E1 & _ & _ & Hs). rewrite E0 in E1. injection E1 as <-.
  destruct (any_run cs _ _ _ _ _ Hs E U) as (s' & lost & H1 & L). destruct (destroy_ok _ _ _ H1) as (H & D & K). exists H, lost. split; [exact D|]. split; [|exact K].
  rewrite lost_count in L. cbn [length] in L. lia.
Qed.
Print Assumptions C64_destructor.
(** In particular: no such exception, nothing left. *)
Theorem C64_nothing_left : forall cls timescale duration time ft os m0 cs m rs,
  constructed cls timescale duration time ft os = Ok m0 -> mrun m0 cs = (m, rs) -> ~ In UB rs -> local_boxes_raised cs rs = 0%nat ->
  exists H, Writer_destroy m = Ok H /\ forall a, at_ H a = None.
Proof.
  intros cls timescale duration time ft os m0 cs m rs E0 E U Z. destruct (C64_destructor _ _ _ _ _ _ _ _ _ _ E0 E U) as (H & l & D & L & K). exists H. split; [exact D|]. intros a.
  rewrite Z in L. destruct l as [|? ?]; [|cbn in L; lia]. destruct (at_ H a) eqn:Ea; [|reflexivity]. destruct (K a). congruence.
Qed.
Print Assumptions C64_nothing_left.

(** * C64.  The pointers *)

(** Calls that go on end, and leave the members and the tree of moov boxes, as the model without pointers has it (so C23-C34, C45-C47, C50, C61-C63
    are true of the code with pointers): no pointer is followed that does not point to an object. *)
Theorem C64_pointers : forall cls timescale duration time ft os m0 ops s rs,
  constructed cls timescale duration time ft os = Ok m0 ->
  run (mk_session (match cls with Simple => SimpleWriter_new timescale duration time ft os | Faststart => FaststartWriter_new timescale duration time ft os end) []) ops = (s, rs) ->
  Forall2 goes_on ops rs ->
  exists m, mrun m0 (map (fun o => Call o None) ops) = (m, rs) /\ ms_session m = no_moov s /\
    match ms_moov m with Some a => load_tree (S (next (ms_heap m))) (ms_heap m) a = mw_moov (s_writer s) | None => mw_moov (s_writer s) = None end /\
    exists H, Writer_destroy m = Ok H /\ forall a, at_ H a = None.
Proof.
  intros cls timescale duration time ft os m0 ops s rs E0 E G. destruct (constructed_ok cls timescale duration time ft os) as (m1 & E1 & O & _ & Hs). rewrite E0 in E1. injection E1 as <-.
  destruct (refine_run ops m0 _ s rs E G Hs O) as (m & Em & H1). exists m. split; [exact Em|].
  destruct (holds_load _ _ _ H1) as (A & B). split; [exact A|]. split; [exact B|]. destruct (destroy_ok _ _ _ H1) as (H & D & K). exists H. split; [exact D|]. exact (all_gone _ _ _ H1 D).
Qed.
Print Assumptions C64_pointers.

(** * C64.  The intermediate file *)

(** It is there from the constructor of FaststartWriter on until copyMdatData or deleteIntermediateFile returns, whichever calls are made and fail; at most
    one of these calls returns (a later one raises); and from the fclose of copyMdatData on it is closed, whether copyMdatData returns or
    fclose (fault 1) or the removal of the file (faults from 2 on) fails. *)
Theorem C64_intermediate_file : forall timescale duration time ft os cs m rs,
  mrun (FaststartWriter_new_m timescale duration time ft os) cs = (m, rs) -> ~ In UB rs ->
  let removal i := exists c, nth_error cs i = Some c /\ match c with DeleteIntermediateFile _ | Call O_CopyMdatData _ => True | _ => False end /\ nth_error rs i = Some (Ok tt) in
  (ms_file m = false <-> exists i, removal i) /\ (forall i j, removal i -> removal j -> i = j) /\
  (forall i x r, nth_error cs i = Some (Call O_CopyMdatData x) -> nth_error rs i = Some r -> r = Ok tt \/ (exists k s, x = Some (S k, s)) ->
     mw_tmp_open (s_writer (ms_session m)) = false).
Proof.
  intros timescale duration time ft os cs m rs E U. cbv zeta. destruct (file_run cs _ _ _ E U) as (_ & F & _ & Q & O). split; [|split; [exact Q|exact O]].
  rewrite F. split; [intros [Z|Z]; [discriminate Z|exact Z]|intros Z; right; exact Z].
Qed.
Print Assumptions C64_intermediate_file.

(** * C64.  Whole sessions *)
Lemma ends_goes_on before ops : forall rs, calls_end before ops rs -> Forall2 goes_on ops rs.
Proof.
  revert before. induction ops as [|o ops IH]; intros before rs K; destruct rs as [|r rs]; try contradiction K; [constructor|]. destruct K as (K & L). constructor; [|exact (IH _ _ L)].
  unfold goes_on. destruct o; cbn [call_ends] in K; try (left; exact K).
  - right. split; [|exact I]. rewrite K. destruct (id =? 0); discriminate.
  - right. split; [|exact I]. destruct (codec_of before i) as [[]|]; try (rewrite K; discriminate). destruct K as ([->| ->] & _); discriminate.
Qed.
Lemma f2_of_ok ops : forall rs, Forall2 (fun (_ : op) r => r = Ok tt) ops rs -> Forall2 goes_on ops rs.
Proof. induction ops; intros rs K; inversion K; subst; constructor; [left; reflexivity|auto]. Qed.
(** The sessions of C28: the calls end as the model without pointers has it, the output is the same, and after the destructor no object is left. *)
Theorem C64_simple_session : forall timescale duration time ft ops sel,
  time_printable time -> box_typed (B_ftyp ft) -> recording ops -> chosen ops sel -> movie_fits ft ops sel ->
  exists m0 m H, SimpleWriter_new_m timescale duration time ft (mkOS [] 0) = Ok m0 /\
    mrun m0 (map (fun o => Call o None) (simple_program ops sel)) = (m, snd (run (start Simple timescale duration time ft) (simple_program ops sel))) /\
    os_data (mw_os (s_writer (ms_session m))) = output (fst (run (start Simple timescale duration time ft) (simple_program ops sel))) /\
    Writer_destroy m = Ok H /\ forall a, at_ H a = None.
Proof.
  intros timescale duration time ft ops sel A B C D E. destruct (C62_simple timescale duration time ft ops sel A B C D E) as (results & R & K).
  destruct (constructed_ok Simple timescale duration time ft (mkOS [] 0)) as (m0 & E0 & _). destruct (run (start Simple timescale duration time ft) (simple_program ops sel)) as [s rs] eqn:Er. cbn [fst snd] in *.
  destruct (C64_pointers Simple timescale duration time ft (mkOS [] 0) m0 (simple_program ops sel) s rs E0 Er) as (m & Em & Es & _ & H & Dd & N).
  { rewrite R. unfold simple_program. constructor; [left; reflexivity|]. apply Forall2_app; [exact (ends_goes_on _ _ _ K)|]. apply f2_of_ok. repeat constructor. }
  exists m0, m, H. split; [exact E0|]. split; [exact Em|]. split; [rewrite Es; reflexivity|]. split; [exact Dd|exact N].
Qed.
Print Assumptions C64_simple_session.
(** The sessions of C29: also, the intermediate file is closed and removed. *)
Theorem C64_faststart_session : forall timescale duration time ft ops sel,
  time_printable time -> box_typed (B_ftyp ft) -> recording ops -> chosen ops sel -> movie_fits ft ops sel ->
  exists m H, mrun (FaststartWriter_new_m timescale duration time ft (mkOS [] 0)) (map (fun o => Call o None) (faststart_program ops sel)) =
      (m, snd (run (start Faststart timescale duration time ft) (faststart_program ops sel))) /\
    os_data (mw_os (s_writer (ms_session m))) = output (fst (run (start Faststart timescale duration time ft) (faststart_program ops sel))) /\
    ms_file m = false /\ mw_tmp_open (s_writer (ms_session m)) = false /\
    Writer_destroy m = Ok H /\ forall a, at_ H a = None.
Proof.
  intros timescale duration time ft ops sel A B C D E. destruct (C62_faststart timescale duration time ft ops sel A B C D E) as (results & R & K).
  destruct (run (start Faststart timescale duration time ft) (faststart_program ops sel)) as [s rs] eqn:Er. cbn [fst snd] in *.
  assert (G : Forall2 goes_on (faststart_program ops sel) rs).
  { rewrite R. unfold faststart_program. constructor; [left; reflexivity|]. apply Forall2_app; [exact (ends_goes_on _ _ _ K)|]. apply f2_of_ok. repeat constructor. }
  destruct (C64_pointers Faststart timescale duration time ft (mkOS [] 0) _ (faststart_program ops sel) s rs eq_refl Er G) as (m & Em & Es & _ & H & Dd & N).
  assert (U : ~ In UB rs).
  { intros Z. clear - G Z. induction G as [|o r os1 rs1 G1 G2 IH]; [exact Z|]. destruct Z as [->|Z]; [destruct G1 as [G1|(G1 & _)]; [discriminate G1|exact (G1 eq_refl)]|exact (IH Z)]. }
  destruct (C64_intermediate_file timescale duration time ft (mkOS [] 0) _ m rs Em U) as (F & _ & O). cbv zeta in F.
  assert (Last : nth_error (map (fun o => Call o None) (faststart_program ops sel)) (List.length ops + 4) = Some (Call O_CopyMdatData None) /\ nth_error rs (List.length ops + 4) = Some (Ok tt)).
  { assert (Lr : List.length results = List.length ops).
    { clear - K. revert K. generalize (@nil op). revert results. induction ops as [|o ops IH]; intros [|r rs] b K; try contradiction K; [reflexivity|]. cbn [List.length]. f_equal. exact (IH _ _ (proj2 K)). }
    unfold faststart_program. rewrite R. cbn [map app]. replace (List.length ops + 4)%nat with (S (List.length ops + 3)) by lia. cbn [nth_error]. split.
    - rewrite map_app, nth_error_app2 by (rewrite map_length; lia). rewrite map_length. replace (List.length ops + 3 - List.length ops)%nat with 3%nat by lia. reflexivity.
    - rewrite nth_error_app2 by lia. replace (List.length ops + 3 - List.length results)%nat with 3%nat by lia. reflexivity. }
  destruct Last as (La & Lb). exists m, H. split; [exact Em|]. split; [rewrite Es; reflexivity|]. split; [apply F; eexists; eexists; split; [exact La|split; [exact I|exact Lb]]|].
  split; [exact (O _ _ _ La Lb (or_introl eq_refl))|]. split; [exact Dd|exact N].
Qed.
Print Assumptions C64_faststart_session.

(** * Cases *)
(** the addresses in use *)
Definition live (H : heap) : list addr := filter (fun a => match at_ H a with Some _ => true | None => false end) (seq 0 (next H)).
Definition all_calls (ops : list op) : list call := map (fun o => Call o None) ops.
(** The session of PropFile.v meets the hypotheses (session_time, session_ftyp_ok, session_recording, session_chosen, session_fits).  Objects there when it ends. *)
Example C64_session : let '(m, rs) := mrun (FaststartWriter_new_m 1000 64 0 session_ftyp (mkOS [] 0)) (all_calls (faststart_program session_ops [1%nat; 0%nat])) in
  rs = repeat (Ok tt) 18 /\ ms_file m = false /\ (exists a, ms_moov m = Some a) /\ List.length (live (ms_heap m)) = 156%nat.
Proof. vm_compute. repeat split. eexists. reflexivity. Qed.
(** A SimpleWriter session; in writeMoovBox the stream refuses the fourth use; then the destructor: nothing is left of the 162 objects allocated. *)
Example C64_refused : match SimpleWriter_new_m 1000 64 0 session_ftyp (mkOS [] 0) with
  | Ok m0 =>
      let '(m, rs) := mrun m0 (all_calls (O_WriteFtyp :: session_ops ++ [O_AppendTrakAndUdta [1%nat; 0%nat]; O_WriteFreeAndMdatHeader]) ++
                               [Call O_WriteMoov (Some (3%nat, mk_session (FaststartWriter_new 1 1 1 session_ftyp (mkOS [] 0)) []))]) in
      rs = repeat (Ok tt) 16 ++ [Throw RuntimeError] /\
      match Writer_destroy m with Ok H => next H = 162%nat /\ live H = [] | _ => False end
  | _ => False
  end.
Proof. vm_compute. repeat split. Qed.
