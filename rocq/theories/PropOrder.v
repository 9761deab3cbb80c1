(** The finishing calls in other orders: C66. *)
From Verif Require Import Base Boxes Box BoxSpec PrintSpec BoxTree AnnexBSpec Track Writers MovieSpec SessionProofs MovieShape Completion SimpleFile FaststartFile FileLemmas RoundTrip PropFile FinishOrder.
From Coq Require Import List.
Import ListNotations.
Open Scope Z_scope.
Open Scope list_scope.

(** C66.  The result of a session does not depend on the order of the calls that finish the file, nor on how often they are
    made.  SimpleWriter: writeFreeBoxAndMdatHeader at least once, before or after appendTrakAndUdtaBoxInfo, and writeMoovBox
    at least once after it. *)
Theorem C66_simple : forall timescale duration time ft ops sel before after,
  time_printable time -> box_typed (B_ftyp ft) -> recording ops -> chosen ops sel -> movie_fits ft ops sel ->
  (forall o, In o before -> o = O_WriteFreeAndMdatHeader) ->
  (forall o, In o after -> o = O_WriteFreeAndMdatHeader \/ o = O_WriteMoov) ->
  In O_WriteFreeAndMdatHeader (before ++ after) -> In O_WriteMoov after ->
  let r := run (start Simple timescale duration time ft) (O_WriteFtyp :: ops ++ before ++ [O_AppendTrakAndUdta sel] ++ after) in
  (forall x, In x (skipn (1 + length ops) (snd r)) -> x = Ok tt) /\
  output (fst r) = output (fst (run (start Simple timescale duration time ft) (simple_program ops sel))).
Proof.
  intros timescale duration time ft ops sel before after A B C D E Hb Ha I1 I2. destruct (simple_orders timescale duration time ft ops sel A B C D E) as (file & F).
  destruct (F before after) as (F1 & F2); try assumption; try (apply Forall_forall; assumption). cbv zeta in *. split; [apply Forall_forall; exact F1|]. rewrite F2. symmetry.
  destruct (F [] [O_WriteFreeAndMdatHeader; O_WriteMoov]) as (_ & G); [constructor|constructor; [left; reflexivity|constructor; [right; reflexivity|constructor]]|left; reflexivity|right; left; reflexivity|]. exact G.
Qed.
Print Assumptions C66_simple.
(** FaststartWriter: after appendTrakAndUdtaBoxInfo, writeMoovBox at least once and writeMdatHeader immediately before copyMdatData. *)
Theorem C66_faststart : forall timescale duration time ft ops sel before after,
  time_printable time -> box_typed (B_ftyp ft) -> recording ops -> chosen ops sel -> movie_fits ft ops sel ->
  (forall o, In o (before ++ after) -> o = O_WriteMdatHeader \/ o = O_WriteMoov) -> In O_WriteMoov (before ++ after) ->
  let r := run (start Faststart timescale duration time ft) (O_WriteFtyp :: ops ++ [O_AppendTrakAndUdta sel] ++ before ++ [O_WriteMdatHeader; O_CopyMdatData] ++ after) in
  (forall x, In x (skipn (1 + length ops) (snd r)) -> x = Ok tt) /\
  output (fst r) = output (fst (run (start Faststart timescale duration time ft) (faststart_program ops sel))).
Proof.
  intros timescale duration time ft ops sel before after A B C D E H I. destruct (faststart_orders timescale duration time ft ops sel A B C D E) as (file & F).
  destruct (F before after) as (F1 & F2); try assumption; try (apply Forall_forall; intros; apply H, in_or_app; auto). cbv zeta in *. split; [apply Forall_forall; exact F1|]. rewrite F2. symmetry.
  destruct (F [O_WriteMoov] []) as (_ & G); [constructor; [right; reflexivity|constructor]|constructor|left; reflexivity|]. exact G.
Qed.
Print Assumptions C66_faststart.

(** The session of PropFile.v, finished in other orders; and two orders outside the claim: copyMdatData not directly after
    writeMdatHeader writes the media data somewhere else (here over the mdat header), a second appendTrakAndUdtaBoxInfo of SimpleWriter gives
    a file with every track twice, and after writeFreeBoxAndMdatHeader in the middle of a recording the next sample is
    written over the first. *)
Example C66_session :
  recording session_ops /\
  output (fst (run (start Simple 1000 64 0 session_ftyp) (O_WriteFtyp :: session_ops ++ [O_WriteFreeAndMdatHeader] ++ [O_AppendTrakAndUdta [1%nat; 0%nat]] ++ [O_WriteMoov; O_WriteFreeAndMdatHeader; O_WriteMoov]))) =
    output (fst (run (start Simple 1000 64 0 session_ftyp) (simple_program session_ops [1%nat; 0%nat]))) /\
  output (fst (run (start Faststart 1000 64 0 session_ftyp) (O_WriteFtyp :: session_ops ++ [O_AppendTrakAndUdta [1%nat; 0%nat]] ++ [O_WriteMdatHeader] ++ [O_WriteMdatHeader; O_CopyMdatData] ++ [O_WriteMoov]))) =
    output (fst (run (start Faststart 1000 64 0 session_ftyp) (faststart_program session_ops [1%nat; 0%nat]))).
Proof. split; [exact session_recording|split; vm_compute; reflexivity]. Qed.
Example C66_needs_order :
  output (fst (run (start Faststart 1000 64 0 session_ftyp) (O_WriteFtyp :: session_ops ++ [O_AppendTrakAndUdta [1%nat; 0%nat]; O_WriteMdatHeader; O_WriteMoov; O_CopyMdatData]))) <>
    output (fst (run (start Faststart 1000 64 0 session_ftyp) (faststart_program session_ops [1%nat; 0%nat]))) /\
  output (fst (run (start Simple 1000 64 0 session_ftyp) (O_WriteFtyp :: session_ops ++ [O_AppendTrakAndUdta [1%nat; 0%nat]; O_AppendTrakAndUdta [1%nat; 0%nat]; O_WriteFreeAndMdatHeader; O_WriteMoov]))) <>
    output (fst (run (start Simple 1000 64 0 session_ftyp) (simple_program session_ops [1%nat; 0%nat]))) /\
  skipn (length (ftyp_octets session_ftyp) + 16) (output (fst (run (start Simple 1000 64 0 session_ftyp) [O_WriteFtyp; O_AddRaw [1; 2; 3; 4]; O_WriteFreeAndMdatHeader; O_AddRaw [5; 6]]))) = [5; 6; 3; 4].
Proof. split; [vm_compute; discriminate|split; [vm_compute; discriminate|vm_compute; reflexivity]]. Qed.
