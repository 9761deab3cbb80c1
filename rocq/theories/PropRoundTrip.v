(** Property C47: a finished file, read back with the library's reader. *)
From Verif Require Import Base BitIO Boxes WireFormat DescriptorSpec Box BoxSpec BoxTree TreeSpec AnnexBSpec H264 Track Writers MovieSpec FaststartFile RoundTrip PropFile.
From Coq Require Import String List.
Import ListNotations.
Open Scope Z_scope.
Open Scope list_scope.

(** C47: SimpleReader finds in the finished file the boxes the writer has written, at the offsets and with the sizes their
    headers announce and nothing else; a player that resolves the tables of the boxes read finds every sample; and the boxes
    describe the tracks.  [tree_as_read] only changes how the nesting of descriptors in 'esds' is represented. *)
Theorem C47_simple_reads_back : forall seekable timescale duration time ft ops sel,
  box_wf 0 (B_ftyp ft) -> recording ops -> chosen ops sel -> movie_fits ft ops sel -> bytes (media ops) ->
  fits_u 32 timescale -> fits_u 32 duration -> fits_u 32 time -> Forall (track_fits ops) sel ->
  let file := output (fst (run (start Simple timescale duration time ft) (simple_program ops sel))) in
  exists ns text traks,
    SimpleReader_read seekable file = Some (Ok (ns, text)) /\
    map tree_of ns = map tree_as_read (simple_boxes timescale duration time ft ops traks) /\
    laid_out_all ns 0 /\ total_announced ns = Zlen file /\
    (exists infos, read_movie (map tree_of ns) = Some (map Some infos) /\ Forall2 (describes file ops) sel infos) /\
    Forall2 (configured time ops) sel traks.
Proof.
  intros seekable timescale duration time ft ops sel A B C D E P1 P2 P3 P4. destruct (simple_back timescale duration time ft ops sel A B C D E P1 P2 P3 P4 seekable) as (ns & text & traks & H1 & H2 & H3 & H4 & H5 & H6 & H7 & _). cbv zeta in *.
  exists ns, text, traks. split; [exact H3|]. split; [exact H4|]. split; [exact H5|]. split; [exact H6|]. split; [exact H7|]. eapply f2_impl; [|exact H2]. intros i tr (_ & _ & X). exact X.
Qed.
Theorem C47_faststart_reads_back : forall seekable timescale duration time ft ops sel,
  box_wf 0 (B_ftyp ft) -> recording ops -> chosen ops sel -> movie_fits ft ops sel -> bytes (media ops) ->
  fits_u 32 timescale -> fits_u 32 duration -> fits_u 32 time -> Forall (track_fits ops) sel ->
  let file := output (fst (run (start Faststart timescale duration time ft) (faststart_program ops sel))) in
  exists ns text traks,
    SimpleReader_read seekable file = Some (Ok (ns, text)) /\
    map tree_of ns = map tree_as_read (faststart_boxes timescale duration time ft ops traks) /\
    laid_out_all ns 0 /\ total_announced ns = Zlen file /\
    (exists infos, read_movie (map tree_of ns) = Some (map Some infos) /\ Forall2 (describes file ops) sel infos) /\
    Forall2 (configured time ops) sel traks.
Proof.
  intros seekable timescale duration time ft ops sel A B C D E P1 P2 P3 P4. destruct (faststart_back timescale duration time ft ops sel A B C D E P1 P2 P3 P4 seekable) as (ns & text & traks & H1 & H2 & H3 & H4 & H5 & H6 & H7 & _). cbv zeta in *.
  exists ns, text, traks. split; [exact H3|]. split; [exact H4|]. split; [exact H5|]. split; [exact H6|]. split; [exact H7|]. eapply f2_impl; [|exact H2]. intros i tr (_ & _ & X). exact X.
Qed.

(** The session of PropFile.v meets the hypotheses. *)
Example session_ftyp_wf : box_wf 0 (B_ftyp session_ftyp).
Proof. apply ftyp_wf_check. reflexivity. Qed.
Example session_track_fits : Forall (track_fits session_ops) [1%nat; 0%nat].
Proof.
  constructor; [|constructor; [|constructor]].
  - exists (H264 640 480 1 66 0 30 [] []), 1000, 64, 64, 0, 2. split; [reflexivity|]. do 4 (split; [apply fits_u_check; reflexivity|]). split; [apply fits_s_check; reflexivity|].
    replace (expected_codec (H264 640 480 1 66 0 30 [] []) (sps_of 1 session_ops) (pps_of 1 session_ops)) with (H264 640 480 1 66 0 30 [[103; 66; 0; 30; 171]] [[104; 206]]) by (vm_compute; reflexivity).
    cbn [codec_fits]. do 4 (split; [apply fits_u_check; reflexivity|]). split; [reflexivity|]. split; [reflexivity|]. cbn [app].
    constructor; [split; [apply bytes_check; reflexivity|reflexivity]|]. constructor; [split; [apply bytes_check; reflexivity|reflexivity]|constructor].
  - exists (AAC 0 128000 128000), 48000, 3072, 64, 0, 1. split; [reflexivity|]. do 4 (split; [apply fits_u_check; reflexivity|]). split; [apply fits_s_check; reflexivity|].
    cbn [expected_codec codec_fits]. split; [apply fits_u_check; reflexivity|]. split; apply fits_u_check; reflexivity.
Qed.
(** What it says of it: the reader finds four boxes, and the tables lead to the two samples of the H.264 track. *)
Example session_read_back :
  match SimpleReader_read true (output (fst (run (start Simple 1000 64 0 session_ftyp) (simple_program session_ops [1%nat; 0%nat])))) with
  | Some (Ok (ns, _)) => map (fun n => tree_type (tree_of n)) ns = [str "ftyp"; str "free"; str "mdat"; str "moov"] /\
      option_map (fun l => map (option_map (fun x => (i_locations x, i_durations x))) l) (read_movie (map tree_of ns)) =
        Some [Some ([(43, 7); (55, 7)], [33; 31]); Some ([(40, 3); (50, 2); (52, 1)], [1024; 1024; 1024])]
  | _ => False
  end.
Proof. vm_compute. split; reflexivity. Qed.

Print Assumptions C47_simple_reads_back.
Print Assumptions C47_faststart_reads_back.
