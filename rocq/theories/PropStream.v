(** Output to streams that do not allow every seekp: C61. *)
From Verif Require Import Base Boxes Box BoxSpec PrintSpec BoxTree AnnexBSpec Track Writers MovieSpec SessionProofs Completion Device StringStream Appending PropFile.
From Coq Require Import String List.
Import ListNotations.
Open Scope Z_scope.
Open Scope list_scope.

(** C61.  FaststartWriter only ever seeks to the end of what it has written: on every stream on which that succeeds, every call of a
    session has the same result and the output is the same octets as on a file. *)
Theorem C61_faststart : forall allowed timescale duration time ft ops sel,
  time_printable time -> box_typed (B_ftyp ft) -> recording ops -> chosen ops sel -> movie_fits ft ops sel -> (forall n, allowed n n = true) ->
  run_str allowed (start Faststart timescale duration time ft) (faststart_program ops sel) =
  (let '(s, rs) := run (start Faststart timescale duration time ft) (faststart_program ops sel) in (Running, s, rs)).
Proof. intros allowed timescale duration time ft ops sel A B C D E G. exact (faststart_stream allowed G timescale duration time ft ops sel B C D E A). Qed.
Print Assumptions C61_faststart.
(** SimpleWriter leaves a gap for the header of mdat: on a stream that refuses to seek beyond its end, the first call,
    writeFtypBox, raises std::runtime_error, with the ftyp box in the output. *)
Theorem C61_simple : forall allowed timescale duration time ft ops sel rest,
  box_typed (B_ftyp ft) -> movie_fits ft ops sel -> (forall n, allowed n n = true) -> (forall n, allowed (n + 16) n = false) ->
  exists s, run_str allowed (start Simple timescale duration time ft) (O_WriteFtyp :: rest) = (Raised, s, []) /\ output s = ftyp_octets ft.
Proof. intros allowed timescale duration time ft ops sel rest B E G P. exact (simple_stream allowed G timescale duration time ft ops sel B E rest P). Qed.
Print Assumptions C61_simple.
(** std::stringstream, and streams that can only append, are such streams; the session of PropFile.v on them. *)
Example C61_stringstream : (forall n, on_stringstream n n = true) /\ (forall n, on_stringstream (n + 16) n = false).
Proof. unfold on_stringstream. split; intros n; [apply Z.leb_le|apply Z.leb_gt]; lia. Qed.
Example C61_append_only : (forall n, append_only n n = true) /\ (forall n, append_only (n + 16) n = false).
Proof. unfold append_only. split; intros n; [apply Z.eqb_eq|apply Z.eqb_neq]; lia. Qed.
Example C61_session : (exists s rs, run_str append_only (start Faststart 1000 64 0 session_ftyp) (faststart_program session_ops [1%nat; 0%nat]) = (Running, s, rs) /\ Nat.leb 500 (length (output s)) = true) /\
  exists s, run_str on_stringstream (start Simple 1000 64 0 session_ftyp) (simple_program session_ops [1%nat; 0%nat]) = (Raised, s, []) /\ length (output s) = 24%nat.
Proof. split; [eexists; eexists; split; [vm_compute; reflexivity|vm_compute; reflexivity]|eexists; split; [vm_compute; reflexivity|reflexivity]]. Qed.
