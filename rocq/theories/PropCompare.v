(** The two writers make the same movie: C67. *)
From Verif Require Import Base Boxes Box BoxSpec PrintSpec BoxTree TreeSpec WireFormat AnnexBSpec Track Writers MovieSpec SessionProofs MovieShape Completion SimpleFile FaststartFile FileLemmas CompareSpec Compare PropFile.
From Coq Require Import List.
Import ListNotations.
Open Scope Z_scope.
Open Scope list_scope.

(** C67.  The same calls on a SimpleWriter and on a FaststartWriter: every call of the recording ends in the same way; the
    files consist of the boxes [simple_boxes] and [faststart_boxes] with the same ftyp box, the same media data and
    moov boxes that are equal box for box and member for member, except that where a chunk starts at o in the
    SimpleWriter file it starts at o + d in the FaststartWriter file, d being the distance between the places
    where the media data start. *)
Theorem C67_same_movie : forall timescale duration time ft ops sel,
  time_printable time -> box_typed (B_ftyp ft) -> recording ops -> chosen ops sel -> movie_fits ft ops sel -> bytes (media ops) ->
  let simple := run (start Simple timescale duration time ft) (simple_program ops sel) in
  let faststart := run (start Faststart timescale duration time ft) (faststart_program ops sel) in
  firstn (1 + length ops) (snd simple) = firstn (1 + length ops) (snd faststart) /\
  exists before traks traks',
    output (fst simple) = flat_map (serialize_with written) (simple_boxes timescale duration time ft ops traks) /\
    output (fst faststart) = flat_map (serialize_with written) (faststart_boxes timescale duration time ft ops traks') /\
    output (fst faststart) = before ++ media ops /\
    Forall2 (same_movie (Zlen before - (Zlen (serialize_with written (ftyp_tree ft)) + 16))) traks traks'.
Proof.
  intros timescale duration time ft ops sel A B C D E F. destruct (same_session timescale duration time ft ops sel A B C D E F) as (H1 & traks & traks' & st & H2 & H3 & H4 & H5). cbv zeta in *.
  split; [exact H1|]. destruct (mdat_at_end timescale duration time ft ops traks' F) as (before & H6). exists before, traks, traks'.
  assert (X : output (fst (run (start Faststart timescale duration time ft) (faststart_program ops sel))) = before ++ media ops) by (rewrite H3; exact H6).
  split; [exact H2|]. split; [exact H3|]. split; [exact X|].
  replace (Zlen before) with st; [exact H5|]. rewrite H4, X, BitIOProofs.Zlen_app. ring.
Qed.
Print Assumptions C67_same_movie.

(** The session of PropFile.v meets the hypotheses.  Where the samples of its tracks are in the two files: *)
Example C67_session :
  let where_ boxes := option_map (map (option_map (fun i => map fst (i_locations i)))) (read_movie boxes) in
  let traks g s := map (fun t => tree_of (make_trak (g t))) (s_tracks s) in
  let rs := fst (run (start Simple 1000 64 0 session_ftyp) (simple_program session_ops [1%nat; 0%nat])) in
  let rf := fst (run (start Faststart 1000 64 0 session_ftyp) (faststart_program session_ops [1%nat; 0%nat])) in
  match where_ (simple_boxes 1000 64 0 session_ftyp session_ops (traks (fun t => t) rs)), where_ (faststart_boxes 1000 64 0 session_ftyp session_ops (traks (fun t => t) rf)) with
  | Some [Some a; Some b], Some [Some a'; Some b'] =>
      (a, b) = ([40; 50; 52], [43; 55]) /\ (a', b') = (map (fun o => o + 1350) a, map (fun o => o + 1350) b)
  | _, _ => False
  end.
Proof. vm_compute. split; reflexivity. Qed.
Example C67_hypotheses : recording session_ops /\ chosen session_ops [1%nat; 0%nat] /\ movie_fits session_ftyp session_ops [1%nat; 0%nat] /\ bytes (media session_ops) /\ box_typed (B_ftyp session_ftyp).
Proof. exact (conj session_recording (conj session_chosen (conj session_fits (conj session_bytes session_ftyp_ok)))). Qed.
(** The relation tells movies apart: another duration, an offset that is not moved, another sample size. *)
Example C67_discriminates :
  let stts d := T t_stts (B_stts (mk_stts (fbox 0 0) [mk_stts_entry 3 d])) [] in
  let stco l := T t_stco (B_stco (mk_stco (fbox 0 0) l)) [] in
  let co64 l := T t_co64 (B_co64 (mk_co64 (fbox 0 0) l)) [] in
  ~ same_movie 8 (stts 10) (stts 11) /\ ~ same_movie 8 (stco [40; 50]) (stco [48; 50]) /\ ~ same_movie 8 (stco [40]) (stco [40]) /\ same_movie 8 (stco [40; 50]) (co64 [48; 58]).
Proof.
  cbv zeta. repeat split.
  - intros H. inversion H as [? ? ? X|]; inversion X.
  - intros H. inversion H as [? ? l X Y|]; inversion X; subst; inversion Y.
  - intros H. inversion H as [? ? l X Y|? ? ? ? X]; [inversion X; subst; inversion Y|apply (X [40]); constructor].
  - apply same_offsets with (l := [40; 50]); constructor.
Qed.
