(** Property of the objects allocated by SimpleReader: C60. *)
From Verif Require Import Base BitIO Boxes Box BoxTree TreeSpec Memory MemoryProofs PropTree.
From Coq Require Import List.
Import ListNotations.
Open Scope Z_scope.
Open Scope list_scope.

(** C60.  Whatever the file, read() does what C18-C21, C44, C48 say about it (the pointers it follows all point to objects), and the
    destructor deletes every BoxInfo, Box and BoxHeader exactly once ([Ok]: it never deletes anything that is not there), also
    when read() raised an exception half-way, except that the header of the box that made it raise std::runtime_error can be left. *)
Theorem C60_reader_memory : forall file data, bytes data -> Zlen data < 2 ^ 63 ->
  exists m r H, SimpleReader_read_m file data = Some (m, r) /\
    match SimpleReader_read file data with Some (Ok (_, text)) => r = Ok text | Some (Throw e) => r = Throw e | Some UB => r = UB | None => False end /\
    SimpleReader_destroy m = Ok H /\
    ((forall a, at_ H a = None) \/
     ((r = Throw RuntimeError \/ r = UB) /\ exists a h, at_ H a = Some (A_header h) /\ forall x, x <> a -> at_ H x = None)).
Proof. exact reader_life. Qed.
Print Assumptions C60_reader_memory.
(** In particular a file that can be read leaves nothing. *)
Theorem C60_read_leaves_nothing : forall file data ns text, bytes data -> Zlen data < 2 ^ 63 -> SimpleReader_read file data = Some (Ok (ns, text)) ->
  exists m H, SimpleReader_read_m file data = Some (m, Ok text) /\ load_all (S (next (m_heap m))) (m_heap m) (m_boxes m) = Some ns /\ SimpleReader_destroy m = Ok H /\ forall a, at_ H a = None.
Proof.
  intros file data ns text B L E. destruct (reader_life file data B L) as (m & r & H & R & X & D & K). rewrite E in X. subst r. exists m, H. split; [exact R|]. split; [|split; [exact D|]].
  - exact (reader_loads file data ns text m E R).
  - destruct K as [K|([K|K] & _)]; [exact K|discriminate K..].
Qed.
Print Assumptions C60_read_leaves_nothing.
(** The objects of [sample_tree] (four boxes, so twelve objects); the same file with a wrong size of its last box: ten objects when the
    exception is raised, of which nine are deleted. *)
Example C60_case : exists m text, SimpleReader_read_m true (serialize sample_tree) = Some (m, Ok text) /\ next (m_heap m) = 12%nat /\ m_boxes m = [2%nat] /\
  at_ (m_heap m) 2%nat = Some (A_info 1%nat [5%nat; 11%nat]).
Proof. do 2 eexists. split; [vm_compute; reflexivity|]. repeat split. Qed.
Example C60_corrupt : exists m H, SimpleReader_read_m true (firstn 27 (serialize sample_tree) ++ [0; 0; 0; 99] ++ skipn 31 (serialize sample_tree)) = Some (m, Throw RuntimeError) /\ next (m_heap m) = 10%nat /\
  SimpleReader_destroy m = Ok H /\ at_ H 9%nat <> None /\ (forall a, (a < 9)%nat -> at_ H a = None).
Proof.
  do 2 eexists. split; [vm_compute; reflexivity|]. split; [reflexivity|]. split; [vm_compute; reflexivity|]. split; [discriminate|].
  intros a L. do 9 (destruct a as [|a]; [reflexivity|]). exfalso. do 9 apply le_S_n in L. inversion L.
Qed.
