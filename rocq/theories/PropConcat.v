(** C71: files can be concatenated. *)
From Verif Require Import Base BitIO Boxes WireFormat Box BoxSpec Print BoxTree TreeSpec ConcatSpec Concat.
From Coq Require Import String List.
Import ListNotations.
Open Scope Z_scope.
Open Scope list_scope.

(** C71.  Let [f] be any file that is read successfully and has no "until the end of the file" box.  Then whatever is appended,
    [g], reading the whole gives the boxes of [f], unchanged, followed by the boxes found in [g] alone, each moved by the length
    of [f], and prints the text of [f] first; and when [g] alone is refused, the whole is refused with the same exception.  (With
    the file-stream reader the files [f] with a box that misreports how much was read are excluded, as in C48.) *)
Theorem C71_concatenation : forall file f g ns text, bytes f -> bytes g -> Zlen (f ++ g) < 2 ^ 63 ->
  (file = true -> ~ has_overreporting f /\ ~ has_unversioned_alst f) ->
  SimpleReader_read file f = Some (Ok (ns, text)) -> Forall closed ns ->
  match SimpleReader_read file g with
  | Some (Ok (ms, _)) => exists text', SimpleReader_read file (f ++ g) = Some (Ok (ns ++ map (moved (Zlen f)) ms, text ++ text')) /\
      print_boxes (map (moved (Zlen f)) ms) = Ok text'
  | r => SimpleReader_read file (f ++ g) = r
  end.
Proof. exact read_concat. Qed.
Print Assumptions C71_concatenation.
(** A 'moov' with a 'free' box in it, then a 'free' box with a 64-bit size; followed by an open-ended 'mdat', or by junk. *)
Definition first_file : list Z := [0; 0; 0; 20; 109; 111; 111; 118; 0; 0; 0; 12; 102; 114; 101; 101; 1; 2; 3; 4;
  0; 0; 0; 1; 102; 114; 101; 101; 0; 0; 0; 0; 0; 0; 0; 17; 9].
Definition second_file : list Z := [0; 0; 0; 0; 109; 100; 97; 116; 7; 7; 7].
Example C71_satisfiable : exists ns text, SimpleReader_read false first_file = Some (Ok (ns, text)) /\ length ns = 2%nat /\ Forall closed ns /\
  (exists text2, SimpleReader_read false second_file = Some (Ok ([Node [109; 100; 97; 116] (Some (mk_header 0 11 8 [109; 100; 97; 116] true)) (B_mdat [7; 7; 7]) []], text2))) /\
  SimpleReader_read false (first_file ++ second_file) =
    Some (Ok (ns ++ [Node [109; 100; 97; 116] (Some (mk_header 37 11 8 [109; 100; 97; 116] true)) (B_mdat [7; 7; 7]) []],
              text ++ lit "[mdat] Offset=37 Size=11 Data=[0x7, 0x7, 0x7]" ++ [10])) /\
  SimpleReader_read false (first_file ++ [0; 0; 0; 9]) = Some (Throw InvalidArgument).
Proof.
  do 2 eexists. split; [vm_compute; reflexivity|]. split; [reflexivity|]. split; [|split; [|split]].
  - repeat first [apply Forall_cons|apply Forall_nil]; cbn [closed h_extend_to_eof]; repeat split.
  - eexists. vm_compute. reflexivity.
  - vm_compute. reflexivity.
  - vm_compute. reflexivity.
Qed.
