(** Properties of printing: C51, C52, C53. *)
From Verif Require Import Base BitIO BitFacts BitIOProofs Boxes WireFormat Box BoxSpec TimeSpec Time TimeProofs Print PrintSpec PrintProofs PrintInj BoxTree TreeSpec TreeProofs TreeLayout TreeRead TreePrint TreeLemmas
  DumpSpec ReaderPrint DumpProofs PropTree.
From Coq Require Import Ascii String List.
Import ListNotations.
Open Scope Z_scope.
Open Scope list_scope.

(** C51.  A box can be printed exactly when the times in it have dates; otherwise printing is undefined behaviour (a null
    pointer of gmtime_r is dereferenced).  The same for writing a tree of boxes, which prints to the trace log, and for
    reading a file, which prints what it has read. *)
Theorem C51_print : forall h b, box_times b ->
  ((exists s, Box_toString h b = Ok s) <-> box_printable b) /\ (~ box_printable b -> Box_toString h b = UB).
Proof.
  intros h b T. destruct (box_total h b T) as [(P & s & E)|(P & E)]; rewrite E.
  - split; [split; [intros _; exact P|intros _; eauto]|contradiction].
  - split; [split; [intros (s & X); discriminate X|contradiction]|reflexivity].
Qed.
Theorem C51_write : forall n o, all_boxes writable (tree_of n) -> all_boxes box_times (tree_of n) -> (forall k, occurs k n -> n_header k <> None) ->
  ((exists r, BoxInfo_write n o = Ok r) <-> forall k, occurs k n -> box_printable (n_box k)) /\
  ((exists k, occurs k n /\ ~ box_printable (n_box k)) -> BoxInfo_write n o = UB).
Proof.
  intros n o W T H. rewrite <- (occurs_all box_printable n). destruct (write_total n o W T H) as [(P & r & E)|(P & E)]; rewrite E.
  - split; [split; [intros _; exact P|intros _; eauto]|]. intros (k & O & N). exfalso. exact (N (proj1 (occurs_all _ _) P k O)).
  - split; [split; [intros (s & X); discriminate X|contradiction]|reflexivity].
Qed.
Theorem C51_read : forall file data ns, bytes data -> Zlen data < 2 ^ 63 -> SimpleReader_parse file data = Some (Ok ns) ->
  ((exists text, SimpleReader_read file data = Some (Ok (ns, text))) <-> forall m k, In m ns -> occurs k m -> box_printable (n_box k)) /\
  ((exists m k, In m ns /\ occurs k m /\ ~ box_printable (n_box k)) -> SimpleReader_read file data = Some UB).
Proof.
  intros file data ns B L E. destruct (read_total file data ns B L E) as [(P & text & R & _)|((m & k & I & O & N) & _ & R)]; rewrite R.
  - rewrite Forall_forall in P. assert (Q : forall m k, In m ns -> occurs k m -> box_printable (n_box k)) by (intros m k I; apply occurs_all, P, I).
    split; [split; [intros _; exact Q|intros _; eauto]|]. intros (m & k & I & O & N). exfalso. exact (N (Q m k I O)).
  - split; [split; [intros (t & X); discriminate X|]|reflexivity]. intros Q. exfalso. exact (N (Q m k I O)).
Qed.
(** The time a writer puts in the movie it writes is a reading of std::chrono::system_clock, a signed 64-bit number of
    nanoseconds since 1970, truncated to seconds (simple_writer.cpp:26-28, faststart_writer.cpp:28-30): every reading has
    a date. *)
Theorem C51_clock : forall ns, - 2 ^ 63 <= ns < 2 ^ 63 -> time_printable (convert_to_epoch_19040101 (Z.quot ns 1000000000 mod 2 ^ 64)).
Proof.
  intros ns H. unfold convert_to_epoch_19040101, SECONDS_19040101_to_19700101, time_printable, year_min_second.
  assert (Q : -9223372037 < Z.quot ns 1000000000 < 9223372037) by lia. set (q := Z.quot ns 1000000000) in *. clearbody q.
  rewrite Zplus_mod_idemp_l. destruct (Z_lt_ge_dec (q + 2082844800) 0).
  - right. replace ((q + 2082844800) mod 2 ^ 64) with (q + 2082844800 + 2 ^ 64) by (apply Z.mod_unique with (-1); lia). lia.
  - left. rewrite Z.mod_small by lia. lia.
Qed.
(** A box of each kind; a tree and a file that can be printed. *)
Example C51_satisfiable :
  let good := B_mfhd (mk_mfhd fullbox0 7) in
  let bad := B_mdhd (mk_mdhd fullbox0 (2 ^ 63 + 2082844800) 0 0 0 false [117; 110; 100] 0) in
  box_times good /\ box_printable good /\ box_times bad /\ ~ box_printable bad /\
  (exists ns text, SimpleReader_read true (serialize sample_tree) = Some (Ok (ns, text)) /\
    match ns with [n] => forall o, exists r, BoxInfo_write n o = Ok r | _ => False end).
Proof.
  split; [exact I|]. split; [exact I|]. split; [cbn [box_times mdhd_creation_time mdhd_modification_time]; lia|]. split.
  - cbn [box_printable mdhd_creation_time mdhd_modification_time]. unfold time_printable, year_min_second. lia.
  - do 2 eexists. split; [vm_compute; reflexivity|]. cbv beta iota. intros o. eapply C51_write; [vm_compute; tauto|vm_compute; tauto| |].
    + intros k O E. inversion O as [|k' t' h' b' l' I1 O1]; subst; [discriminate E|]. cbn [In] in I1. destruct I1 as [<-|[<-|[]]].
      * inversion O1 as [|k2 t2 h2 b2 l2 I2 O2]; subst; [discriminate E|]. cbn [In] in I2. destruct I2 as [<-|[]]. inversion O2 as [|k3 t3 h3 b3 l3 I3 O3]; subst; [discriminate E|destruct I3].
      * inversion O1 as [|k2 t2 h2 b2 l2 I2 O2]; subst; [discriminate E|destruct I2].
    + apply occurs_all. vm_compute. tauto.
Qed.
Print Assumptions C51_print.
Print Assumptions C51_write.
Print Assumptions C51_read.
Print Assumptions C51_clock.

(** C52.  The text the reader prints is one line per box of the file, in the order of the file, indented by two spaces per
    enclosing box, showing its type, offset, size and members (DumpSpec.v). *)
Theorem C52_dump : forall file data ns text, bytes data -> Zlen data < 2 ^ 63 -> SimpleReader_read file data = Some (Ok (ns, text)) ->
  exists lines, Forall2 shows (flat_map (preorder 0) ns) lines /\ text = flat_map (fun l => l ++ [10]) lines.
Proof. exact dump_lines. Qed.
Print Assumptions C52_dump.
Example C52_case : exists ns, SimpleReader_read true (serialize sample_tree) = Some (Ok (ns,
  lit "[moov] Offset=0 Size=51" ++ [10] ++ lit "  [udta] Offset=8 Size=19" ++ [10] ++ lit "    [xxxx] Offset=16 Size=11 (unsupported) Data=[0x1, 0x2, 0x3]" ++ [10] ++
  lit "  [stts] Offset=27 Size=24 Version=0 Flags=0x000000 EntryCount=1 Entries=[{SampleCount=3 SampleDuration=1001}]" ++ [10])) /\
  map fst (flat_map (preorder 0) ns) = [0; 1; 2; 1]%nat.
Proof. eexists. split; vm_compute; reflexivity. Qed.

(** C53.  The text tells boxes apart: two well-formed boxes of the same class that agree on the members the text leaves out
    ([hidden], PrintSpec.v) and print the same text are equal; two lines of boxes of the same type show the same text only
    when offset, size and member text agree. *)
Theorem C53_text_determines : forall ch ch' b b' h, box_kind b = box_kind b' -> box_wf ch b -> box_wf ch' b' -> hidden b = Some h -> hidden b' = Some h ->
  Box_toStringOnlyData b = Box_toStringOnlyData b' -> b = b'.
Proof. exact text_determines. Qed.
Theorem C53_line_determines : forall h h' b b' s, h_type h = h_type h' -> Box_toString (Some h) b = Ok s -> Box_toString (Some h') b' = Ok s ->
  h_offset h = h_offset h' /\ h_size h = h_size h' /\ Box_toStringOnlyData b = Box_toStringOnlyData b'.
Proof. exact line_determines. Qed.
Example C53_satisfiable :
  let b := B_trun (mk_trun (mk_fullbox 0 0 5 1) 8 0 [mk_trun_entry 10 0 3 0; mk_trun_entry 10 0 4 0]) in
  let b' := B_trun (mk_trun (mk_fullbox 0 0 5 1) 8 0 [mk_trun_entry 10 0 3 0; mk_trun_entry 104 0 4 0]) in
  box_wf 0 b /\ box_wf 0 b' /\ hidden b = Some [] /\ hidden b' = Some [] /\ Box_toStringOnlyData b <> Box_toStringOnlyData b' /\
  Box_toStringOnlyData b = Ok (lit "Version=0 Flags=0x000501 SampleCount=2 DataOffset=8 Entries=[{SampleDuration=10 SampleFlags=0x3}, {SampleDuration=10 SampleFlags=0x4}]").
Proof.
  assert (W : forall d, 0 <= d < 2 ^ 32 -> box_wf 0 (B_trun (mk_trun (mk_fullbox 0 0 5 1) 8 0 [mk_trun_entry 10 0 3 0; mk_trun_entry d 0 4 0]))).
  { intros d D. cbn [box_wf]. unfold trun_wf, fields_ok, absent. split; [|cbn; repeat split; try discriminate; repeat constructor; discriminate].
    unfold trun_layout. cbn. repeat first [apply Forall_cons|apply Forall_nil]; cbn; unfold fits_u, fits_s; cbn; lia. }
  split; [apply W; lia|]. split; [apply W; lia|]. split; [reflexivity|]. split; [reflexivity|]. split; [vm_compute; discriminate|vm_compute; reflexivity].
Qed.
Print Assumptions C53_text_determines.
Print Assumptions C53_line_determines.
