(** Complete contents of finished files: C81. *)
From Verif Require Import Base BitIO Boxes WireFormat DescriptorSpec Box BoxSpec BoxTree TreeSpec AnnexBSpec H264 Track Writers MovieSpec FaststartFile RoundTrip PropFile PropRoundTrip ChunkSpec ExactSpec ExactProofs.
From Coq Require Import String List.
Import ListNotations.
Open Scope Z_scope.
Open Scope list_scope.

(** C81.  Every octet of a finished file is what ExactSpec.v says of the calls made: the boxes of the layout of each class, with every
    field and table entry given by the constructor calls, the samples, their timestamps and key flags, the chunks, the parameter sets
    and the media times; [serialize] is the wire format of the standards (WireFormat.v).  Nothing else of the session has an influence. *)
Theorem C81_simple : forall timescale duration time ft ops sel,
  box_wf 0 (B_ftyp ft) -> recording ops -> chosen ops sel -> movie_fits ft ops sel -> bytes (media ops) ->
  fits_u 32 timescale -> fits_u 32 duration -> fits_u 32 time -> Forall (track_fits ops) sel ->
  output (fst (run (start Simple timescale duration time ft) (simple_program ops sel))) = simple_file timescale duration time ft ops sel.
Proof. exact simple_exact. Qed.
(** FaststartWriter: the media data start where the moov box says they do.  The size of that box depends on where they start (64-bit
    offsets); of the files for which both agree, it writes the shortest. *)
Theorem C81_faststart : forall timescale duration time ft ops sel,
  box_wf 0 (B_ftyp ft) -> recording ops -> chosen ops sel -> movie_fits ft ops sel -> bytes (media ops) ->
  fits_u 32 timescale -> fits_u 32 duration -> fits_u 32 time -> Forall (track_fits ops) sel ->
  let file := output (fst (run (start Faststart timescale duration time ft) (faststart_program ops sel))) in
  let base := Zlen file - Zlen (media ops) in
  file = faststart_file timescale duration time ft ops sel base /\
  forall base', base' = Zlen (faststart_file timescale duration time ft ops sel base') - Zlen (media ops) -> base <= base'.
Proof. exact faststart_exact. Qed.
Print Assumptions C81_simple.
Print Assumptions C81_faststart.

(** The session of PropFile.v meets the hypotheses; both sides evaluated. *)
Example C81_hypotheses : box_wf 0 (B_ftyp session_ftyp) /\ recording session_ops /\ chosen session_ops [1%nat; 0%nat] /\ movie_fits session_ftyp session_ops [1%nat; 0%nat] /\
  bytes (media session_ops) /\ Forall (track_fits session_ops) [1%nat; 0%nat].
Proof. exact (conj session_ftyp_wf (conj session_recording (conj session_chosen (conj session_fits (conj session_bytes session_track_fits))))). Qed.
Example C81_simple_case : Zlen (simple_file 1000 64 0 session_ftyp session_ops [1%nat; 0%nat]) = 1420 /\
  output (fst (run (start Simple 1000 64 0 session_ftyp) (simple_program session_ops [1%nat; 0%nat]))) = simple_file 1000 64 0 session_ftyp session_ops [1%nat; 0%nat].
Proof. vm_compute. split; reflexivity. Qed.
Example C81_faststart_case :
  output (fst (run (start Faststart 1000 64 0 session_ftyp) (faststart_program session_ops [1%nat; 0%nat]))) = faststart_file 1000 64 0 session_ftyp session_ops [1%nat; 0%nat] 1390.
Proof. vm_compute. reflexivity. Qed.
(** Tables: runs, their numbers, where chunks start; 64-bit offsets. *)
Example C81_tables :
  run_lengths [1024; 1024; 33; 1024] = [(2, 1024); (1, 33); (1, 1024)] /\
  stts_of [33; 33; 34] = [mk_stts_entry 2 33; mk_stts_entry 1 34] /\
  (let s := mk_sample 0 [7] false in stsc_of [[s]; [s]; [s; s]; [s]] = [mk_stsc_entry 1 1 1; mk_stsc_entry 3 2 1; mk_stsc_entry 4 1 1]) /\
  chunk_starts 0 40 session_ops = [40; 50] /\ chunk_starts 1 40 session_ops = [43; 55] /\
  offset_tree [40; 4294967295] = T (str "stco") (B_stco (mk_stco (fb 0 0) [40; 4294967295])) [] /\
  offset_tree [40; 4294967296] = T (str "co64") (B_co64 (mk_co64 (fb 0 0) [40; 4294967296])) [].
Proof. vm_compute. repeat split; reflexivity. Qed.
