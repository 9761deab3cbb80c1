(** How the calls of a session end: C62. *)
From Verif Require Import Base Boxes Box BoxSpec PrintSpec BoxTree AnnexBSpec Track Writers MovieSpec SessionProofs MovieShape Completion SimpleFile FaststartFile FileLemmas CallSpec CallProofs RoundTrip PropFile.
From Coq Require Import List.
Import ListNotations.
Open Scope Z_scope.
Open Scope list_scope.

(** C62.  In a recording session every call ends as CallSpec.v says, and the calls that finish the file return. *)
Theorem C62_simple : forall timescale duration time ft ops sel,
  time_printable time -> box_typed (B_ftyp ft) -> recording ops -> chosen ops sel -> movie_fits ft ops sel ->
  exists results, snd (run (start Simple timescale duration time ft) (simple_program ops sel)) = [Ok tt] ++ results ++ [Ok tt; Ok tt; Ok tt] /\ calls_end [] ops results.
Proof.
  intros timescale duration time ft ops sel A B C D E. destruct (simple_session timescale duration time ft ops sel A B C D E) as (_ & F & _). cbv zeta in F.
  exact (session_ends Simple timescale duration time ft ops sel _ B C E _ F).
Qed.
Print Assumptions C62_simple.
Theorem C62_faststart : forall timescale duration time ft ops sel,
  time_printable time -> box_typed (B_ftyp ft) -> recording ops -> chosen ops sel -> movie_fits ft ops sel ->
  exists results, snd (run (start Faststart timescale duration time ft) (faststart_program ops sel)) = [Ok tt] ++ results ++ [Ok tt; Ok tt; Ok tt; Ok tt] /\ calls_end [] ops results.
Proof.
  intros timescale duration time ft ops sel A B C D E. destruct (faststart_session timescale duration time ft ops sel A B C D E) as (_ & F & _). cbv zeta in F.
  exact (session_ends Faststart timescale duration time ft ops sel _ B C E _ F).
Qed.
Print Assumptions C62_faststart.

(** The session of PropFile.v meets the hypotheses; some calls that raise. *)
Example C62_session : recording session_ops /\ snd (run (start Simple 1000 64 0 session_ftyp) (simple_program session_ops [1%nat; 0%nat])) = repeat (Ok tt) 17.
Proof. split; [exact session_recording|vm_compute; reflexivity]. Qed.
(** An access unit delimiter (type 9) in front: the call raises; a track with identifier 0 cannot be constructed. *)
Example C62_raises :
  let before := [O_NextTrackID; O_NewTrack (H264 640 480 1 66 0 30 [] []) 1000 64 64 0 1] in
  let delimited := annexb [mk_unit true [9; 240]; mk_unit false [101; 136; 132]] in
  (forall r, call_ends before (O_AddData 0 0 delimited true) r -> r = Throw RuntimeError) /\
  snd (run (start Simple 1000 64 0 session_ftyp) (O_WriteFtyp :: before ++ [O_AddData 0 0 delimited true; O_NewTrack (AAC 0 128000 128000) 48000 3072 64 0 0; O_AddData 0 0 [0; 0; 0; 1; 101; 136; 132] true])) =
    [Ok tt; Ok tt; Ok tt; Throw RuntimeError; Throw RuntimeError; Ok tt].
Proof.
  split; [|vm_compute; reflexivity]. cbv zeta. intros r H. cbn [call_ends] in H. change (codec_of _ 0) with (Some (H264 640 480 1 66 0 30 [] [])) in H. cbv iota in H. destruct H as ([->|H] & G); [exfalso|exact H].
  specialize (G _ eq_refl). destruct G as (G & _).
  - split; [|exists [mk_unit true [9; 240]], (mk_unit false [101; 136; 132]); split; [reflexivity|vm_compute; discriminate]].
    constructor; [|constructor; [|constructor]]; unfold unit_ok; cbn [u_octets]; (split; [apply bytes_check; reflexivity|split; [eexists; eexists; split; [reflexivity|lia]|split; [cbn; lia|]]]);
      intros a b E; do 4 (destruct a as [|? a]; try discriminate E; injection E as _ E).
  - reflexivity.
  - specialize (G eq_refl). inversion G as [|? ? X]. unfold handled in X. cbn in X. lia.
Qed.
