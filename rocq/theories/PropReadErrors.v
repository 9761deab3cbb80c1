(** Theorem about files that cannot be read (C77). *)
From Verif Require Import Base BitIO BitFacts BitIOProofs Boxes WireFormat Box BoxSpec BoxTree TreeSpec TreeProofs PropTree ReaderPrint RoundTrip ReadErrors ReadErrorsProofs.
From Coq Require Import List.
Import ListNotations.
Open Scope Z_scope.

(** C77.  If some octet of the file cannot be read, wherever it is and whatever the file contains, read() does not report boxes: it
    raises std::runtime_error, unless it ends in the way (an exception or undefined behaviour) in which it ends when all octets can be
    read. *)
Theorem C77_read_error : forall file data bad, bytes data -> Zlen data < 2 ^ 63 -> (exists i, 0 <= i < Zlen data /\ bad i = true) ->
  SimpleReader_read_e file (Opened data bad) = Some (Throw RuntimeError) \/
  (SimpleReader_read_e file (Opened data bad) = SimpleReader_read file data /\ forall x, SimpleReader_read file data <> Some (Ok x)).
Proof. intros file data bad A B E. destruct (read_e_cases bad file data A B) as [C|[C D]]; [left; exact C|right]. split; [exact C|exact (D E)]. Qed.
Print Assumptions C77_read_error.
(** In particular a file that would be read with boxes is answered with std::runtime_error; *)
Theorem C77_good_file : forall file data bad x, bytes data -> Zlen data < 2 ^ 63 -> SimpleReader_read file data = Some (Ok x) ->
  (exists i, 0 <= i < Zlen data /\ bad i = true) -> SimpleReader_read_e file (Opened data bad) = Some (Throw RuntimeError).
Proof. intros file data bad x A B R E. destruct (C77_read_error file data bad A B E) as [C|[_ C]]; [exact C|]. elim (C x R). Qed.
(** and if all octets can be read, it is the reader of the other theorems. *)
Theorem C77_readable : forall file data bad, bytes data -> Zlen data < 2 ^ 63 -> (forall i, 0 <= i < Zlen data -> bad i = false) ->
  SimpleReader_read_e file (Opened data bad) = SimpleReader_read file data.
Proof. intros file data bad A B. exact (read_clean bad file data A B). Qed.
(** mp4-tool dump: with a file that cannot be opened, or not be read completely, it prints nothing and does not end normally (it may end
    in the undefined behaviour of the file); otherwise it prints the boxes and returns 0 exactly when the reader reports them. *)
Theorem C77_tool :
  mp4_tool_dump Unopened = Some (Ok Terminated) /\
  (forall data bad, bytes data -> Zlen data < 2 ^ 63 -> (exists i, 0 <= i < Zlen data /\ bad i = true) ->
     mp4_tool_dump (Opened data bad) = Some (Ok Terminated) \/ (mp4_tool_dump (Opened data bad) = Some UB /\ SimpleReader_read true data = Some UB)) /\
  (forall data bad, bytes data -> Zlen data < 2 ^ 63 -> (forall i, 0 <= i < Zlen data -> bad i = false) -> forall text,
     mp4_tool_dump (Opened data bad) = Some (Ok (Exit 0 text)) <-> exists ns, SimpleReader_read true data = Some (Ok (ns, text))).
Proof.
  split; [reflexivity|]. split.
  - intros data bad A B E. unfold mp4_tool_dump. destruct (C77_read_error true data bad A B E) as [->|[-> C]]; [left; reflexivity|].
    pose proof (C19_reader_total true data A B) as [T _]. destruct (SimpleReader_read true data) as [[x|e|]|]; [elim (C x eq_refl)|left; reflexivity|right; split; reflexivity|contradiction].
  - intros data bad A B C text. unfold mp4_tool_dump. rewrite (C77_readable true data bad A B C). split.
    + destruct (SimpleReader_read true data) as [[[ns t]|e|]|]; intros Q; inversion Q; subst. exists ns. reflexivity.
    + intros [ns ->]. reflexivity.
Qed.
Print Assumptions C77_tool.
(** The sample file of PropTree.v, of which octet 20 cannot be read; one with a header that says too much, read up to it. *)
Example C77_satisfiable : exists x, bytes (serialize sample_tree) /\ SimpleReader_read true (serialize sample_tree) = Some (Ok x) /\
  SimpleReader_read_e true (Opened (serialize sample_tree) (Z.eqb 20)) = Some (Throw RuntimeError) /\
  SimpleReader_read_e true (Opened (serialize sample_tree) (Z.eqb 51)) = Some (Ok x) /\
  SimpleReader_read_e true (Opened [0; 0; 0; 8; 102; 114; 101; 101; 0; 0; 0; 1; 102; 114; 101] (Z.eqb 14)) = Some (Throw InvalidArgument).
Proof. eexists. split; [apply bytes_check; vm_compute; reflexivity|]. split; [vm_compute; reflexivity|]. split; [vm_compute; reflexivity|]. split; vm_compute; reflexivity. Qed.
