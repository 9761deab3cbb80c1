(** C73: a writer given a stream that is not empty. *)
From Verif Require Import Base BitIO BitIOProofs Boxes Box BoxSpec PrintSpec BoxTree AnnexBSpec Track Writers MovieSpec SessionProofs MovieShape Completion SimpleFile FaststartFile FileLemmas RoundTrip PropFile OverwriteSpec Overwrite.
From Coq Require Import List.
Import ListNotations.
Open Scope Z_scope.
Open Scope list_scope.

(** C73.  The stream held [old] and stood anywhere.  Every call returns what it returns on an empty stream, the tracks end up with the
    same tables, and the output is the complete file with, after it, whatever [old] had beyond that length: nothing of [old] is left
    inside the file, but nothing is cut off either. *)
Theorem C73_simple : forall old p timescale duration time ft ops sel,
  time_printable time -> box_typed (B_ftyp ft) -> recording ops -> chosen ops sel -> movie_fits ft ops sel ->
  let fresh := run (start Simple timescale duration time ft) (simple_program ops sel) in
  let r := run (start_on old p Simple timescale duration time ft) (simple_program ops sel) in
  snd r = snd fresh /\ s_tracks (fst r) = s_tracks (fst fresh) /\ output (fst r) = over (output (fst fresh)) old.
Proof.
  intros old p timescale duration time ft ops sel A B C D E. cbv zeta. destruct (simple_over timescale duration time ft ops sel B C D E A old p) as (s' & Er & Et & Eo). rewrite Er. auto.
Qed.
Theorem C73_faststart : forall old p timescale duration time ft ops sel,
  time_printable time -> box_typed (B_ftyp ft) -> recording ops -> chosen ops sel -> movie_fits ft ops sel ->
  let fresh := run (start Faststart timescale duration time ft) (faststart_program ops sel) in
  let r := run (start_on old p Faststart timescale duration time ft) (faststart_program ops sel) in
  snd r = snd fresh /\ s_tracks (fst r) = s_tracks (fst fresh) /\ output (fst r) = over (output (fst fresh)) old.
Proof.
  intros old p timescale duration time ft ops sel A B C D E. cbv zeta. destruct (faststart_over timescale duration time ft ops sel B C D E A old p) as (s' & Er & Et & Eo). rewrite Er. auto.
Qed.
(** In particular, when [old] was not longer than the file, the output is exactly the file. *)
Theorem C73_exact : forall old p cls timescale duration time ft ops sel,
  time_printable time -> box_typed (B_ftyp ft) -> recording ops -> chosen ops sel -> movie_fits ft ops sel ->
  let program := match cls with Simple => simple_program ops sel | Faststart => faststart_program ops sel end in
  let file := output (fst (run (start cls timescale duration time ft) program)) in
  output (fst (run (start_on old p cls timescale duration time ft) program)) = file <-> (length old <= length file)%nat.
Proof.
  intros old p cls timescale duration time ft ops sel A B C D E. cbv zeta.
  assert (K : forall new : list Z, over new old = new <-> (length old <= length new)%nat).
  { intros new. unfold over. split; intros H; [apply (f_equal (@length Z)) in H; rewrite app_length, skipn_length in H; lia|]. rewrite skipn_all2, app_nil_r by exact H. reflexivity. }
  destruct cls; [destruct (C73_simple old p timescale duration time ft ops sel A B C D E) as (_ & _ & ->)|destruct (C73_faststart old p timescale duration time ft ops sel A B C D E) as (_ & _ & ->)]; apply K.
Qed.
(** Any calls whatever in any order, once writeFtypBox was called: the results and the tables of the tracks are still those of the
    empty stream; every octet of the output is the one of the output of the empty stream at that place, or the one of [old], and the output has the
    greater of the two lengths. *)
Theorem C73_any : forall old p cls timescale duration time ft ops,
  box_typed (B_ftyp ft) -> 4 * Zlen (ftyp_compatible_brands ft) < 2 ^ 63 ->
  let fresh := run (start cls timescale duration time ft) (O_WriteFtyp :: ops) in
  let r := run (start_on old p cls timescale duration time ft) (O_WriteFtyp :: ops) in
  snd r = snd fresh /\ s_tracks (fst r) = s_tracks (fst fresh) /\
  length (output (fst r)) = Nat.max (length (output (fst fresh))) (length old) /\
  forall i, nth_error (output (fst r)) i = nth_error (output (fst fresh)) i \/ nth_error (output (fst r)) i = nth_error old i.
Proof.
  intros old p cls timescale duration time ft ops A B. destruct (any_over old p cls timescale duration time ft ops A) as (E1 & E2 & E3 & E4).
  - unfold movie_fits. change (Zlen (media [])) with 0. change (moov_bound [] []) with 4096. lia.
  - auto.
Qed.
Print Assumptions C73_simple.
Print Assumptions C73_faststart.
Print Assumptions C73_exact.
Print Assumptions C73_any.
(** A stream that held 5000 times the octet 7, and stood at its end: the 24 octets of the ftyp box, ..., the file, then sevens; a
    stream that held 20 octets and stood at 3. *)
Example C73_session :
  (time_printable 0 /\ box_typed (B_ftyp session_ftyp) /\ recording session_ops /\ chosen session_ops [1%nat; 0%nat] /\ movie_fits session_ftyp session_ops [1%nat; 0%nat]) /\
  let file := output (fst (run (start Simple 1000 64 0 session_ftyp) (simple_program session_ops [1%nat; 0%nat]))) in
  let ffile := output (fst (run (start Faststart 1000 64 0 session_ftyp) (faststart_program session_ops [1%nat; 0%nat]))) in
  Nat.ltb 500 (length file) && Nat.ltb (length file) 5000 = true /\
  output (fst (run (start_on (repeat 7 5000) 5000 Simple 1000 64 0 session_ftyp) (simple_program session_ops [1%nat; 0%nat]))) = file ++ repeat 7 (5000 - length file) /\
  output (fst (run (start_on (repeat 7 20) 3 Simple 1000 64 0 session_ftyp) (simple_program session_ops [1%nat; 0%nat]))) = file /\
  output (fst (run (start_on (repeat 7 5000) 5000 Faststart 1000 64 0 session_ftyp) (faststart_program session_ops [1%nat; 0%nat]))) = ffile ++ repeat 7 (5000 - length ffile) /\
  firstn 20 (skipn 24 (output (fst (run (start_on (repeat 7 50) 3 Simple 1000 64 0 session_ftyp) [O_WriteFtyp; O_AddRaw [1; 2]])))) = repeat 7 16 ++ [1; 2; 7; 7].
Proof. split; [split; [left; lia|split; [exact session_ftyp_ok|split; [exact session_recording|split; [exact session_chosen|exact session_fits]]]]|]. cbv zeta. split; [vm_compute; reflexivity|]. split; [vm_compute; reflexivity|]. split; [vm_compute; reflexivity|]. split; vm_compute; reflexivity. Qed.
