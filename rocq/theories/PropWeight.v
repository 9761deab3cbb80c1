(** C70: what was parsed is no larger than the file. *)
From Verif Require Import Base BitIO BitFacts BitIOProofs Boxes WireFormat BoxTac BoxWrite BoxRead Box BoxSpec BoxIO BoxTree TreeSpec TreeProofs TreeLayout TreeLemmas TreePrint Track WeightSpec Weight PropTree.
From Coq Require Import Ascii String List.
Import ListNotations.
Open Scope Z_scope.
Open Scope list_scope.

(** C70 (payloads).  A box parsed from any payload holds, in all its members of variable length together, no more elements
    than the payload has octets; the entries of a 'trun' box without per-sample fields are the one exception. *)
Theorem C70_payload : forall k type under_wave data r n b, bytes data -> Box_readData k type under_wave (reader_init data) = Ok (r, n, b) ->
  (blank_run b = false -> 0 <= holds b <= Zlen data) /\ (blank_run b = true -> 0 <= holds b < 2 ^ 32).
Proof.
  intros k type uw data r n b B E. split; intros F.
  - pose proof (box_spends _ _ _ _ _ _ _ B E F) as L. pose proof (holds_nonneg b). pose proof (Zlen_nonneg (rbits r)). lia.
  - exact (blank_bound _ _ _ _ _ _ _ B E F).
Qed.
Print Assumptions C70_payload.
(** Reached exactly: five octets of 'mdat' payload are five elements. *)
Example C70_payload_satisfiable : exists r n b, Box_readData K_mdat (str "mdat") false (reader_init [1; 2; 3; 4; 5]) = Ok (r, n, b) /\ blank_run b = false /\ holds b = 5.
Proof. do 3 eexists. split; [vm_compute; reflexivity|]. split; reflexivity. Qed.

(** C70 (files).  Whatever the file, the boxes found in it and what they hold are together no larger than the file: eight
    octets for each box and one for each element held (leaving out the entries of 'trun' boxes without per-sample fields). *)
Theorem C70_file : forall file data ns text, bytes data -> Zlen data < 2 ^ 63 -> SimpleReader_read file data = Some (Ok (ns, text)) ->
  8 * fold_right (fun n s => boxes n + s) 0 ns + fold_right (fun n s => held_in n + s) 0 ns <= Zlen data.
Proof. intros file data ns text B L E. exact (file_holds file data ns B L (proj1 (read_inv _ _ _ _ E))). Qed.
Print Assumptions C70_file.
(** Reached exactly by a file of two boxes holding nine octets. *)
Example C70_file_satisfiable : exists ns text, SimpleReader_read true (be_octets 4 12 ++ str "mdat" ++ [1; 2; 3; 4] ++ be_octets 4 13 ++ str "free" ++ [5; 6; 7; 8; 9]) = Some (Ok (ns, text)) /\
  fold_right (fun n s => boxes n + s) 0 ns = 2 /\ fold_right (fun n s => held_in n + s) 0 ns = 9.
Proof. do 2 eexists. split; [vm_compute; reflexivity|]. split; vm_compute; reflexivity. Qed.

