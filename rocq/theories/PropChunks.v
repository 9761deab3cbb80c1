(** The chunks of a track are those the program made: C69. *)
From Verif Require Import Base Boxes Box BoxSpec PrintSpec BoxTree TreeSpec WireFormat AnnexBSpec Track Writers MovieSpec SessionProofs MovieShape Completion SimpleFile FaststartFile FileLemmas TrackLemmas CompareSpec IndependenceSpec ChunkSpec Chunks PropFile PropIndependence.
From Coq Require Import List.
Import ListNotations.
Open Scope Z_scope.
Open Scope list_scope.

(** C69.  In the finished file of either writer, the chunks of a track are the groups of samples between its calls of
    terminateCurrentChunk ([chunks_of]): there is one chunk offset for each, at which the file has the octets of its samples, one
    after the other; the sample-to-chunk table gives its number of samples.  The tables are as short as they can be, and 64-bit
    offsets are used only if a chunk starts beyond 2^32. *)
Theorem C69_chunks : forall cls timescale duration time ft ops sel,
  time_printable time -> box_typed (B_ftyp ft) -> recording ops -> chosen ops sel -> movie_fits ft ops sel -> bytes (media ops) ->
  let file := output (fst (run (start cls timescale duration time ft) (program cls ops sel))) in
  exists traks,
    file = flat_map (serialize_with written) (file_boxes cls timescale duration time ft ops traks) /\
    Forall2 (fun i tr => exists stbl, stbl_kids tr = Some stbl /\ divided file (chunks_of i ops) stbl) sel traks.
Proof.
  intros cls timescale duration time ft ops sel A B C D E F. destruct (chunks_session cls timescale duration time ft ops sel A B C D E F) as (traks & H1 & H2). cbv zeta in *.
  exists traks. split; [|exact H2]. destruct cls; exact H1.
Qed.
(** The chunks hold all samples of the track, in order, and none is empty. *)
Theorem C69_all_samples : forall ops i, forallb media_op ops = true -> known_tracks ops -> (i < length (created ops))%nat ->
  concat (chunks_of i ops) = samples_of i ops /\ Forall (fun ch => ch <> []) (chunks_of i ops).
Proof.
  intros ops i M K L. unfold chunks_of. assert (X : exists c, codec_of ops i = Some c).
  { unfold codec_of. destruct (nth_error (created ops) i) as [o|] eqn:E; [|apply nth_error_None in E; exfalso; apply (PeanoNat.Nat.lt_irrefl i); apply (PeanoNat.Nat.lt_le_trans _ _ _ L E)].
    apply nth_error_In in E. apply filter_In in E as [_ E]. destruct o; try discriminate. eauto. }
  destruct X as (c & X). rewrite X. split; [rewrite divide_concat, (marks_samples i ops c M K X); reflexivity|].
  generalize (flat_map (mark c i) ops). intros l. assert (Cl : forall g, Forall (fun ch : list sample => ch <> []) (close g)) by (intros [|s g]; [constructor|constructor; [discriminate|constructor]]).
  assert (G : forall g, Forall (fun ch => ch <> []) (divide g l)); [|apply G]. induction l as [|[s|] l IH]; intros g; cbn [divide]; [apply Cl|apply IH|]. apply Forall_app. split; [apply Cl|apply IH].
Qed.
Print Assumptions C69_chunks.
Print Assumptions C69_all_samples.

(** The session of PropFile.v: the audio track has a chunk of one sample and one of two, the H.264 track two of one sample each. *)
Example C69_session :
  map (map sm_data) (chunks_of 0 session_ops) = [[[1; 2; 3]]; [[4; 5]; [6]]] /\
  map (map sm_data) (chunks_of 1 session_ops) = [[[0; 0; 0; 3; 101; 136; 132]]; [[0; 0; 0; 3; 65; 154; 2]]] /\
  map (map sm_data) (chunks_of 0 (alone_ops false)) = [[[0; 0; 0; 3; 101; 136; 132]; [0; 0; 0; 3; 65; 154; 2]]].
Proof. repeat split; reflexivity. Qed.
Example C69_hypotheses : recording session_ops /\ chosen session_ops [1%nat; 0%nat] /\ movie_fits session_ftyp session_ops [1%nat; 0%nat] /\ bytes (media session_ops) /\ box_typed (B_ftyp session_ftyp).
Proof. exact (conj session_recording (conj session_chosen (conj session_fits (conj session_bytes session_ftyp_ok)))). Qed.
(** Terminating twice, or before the first sample, makes no chunk; tables that split a run or name another number of samples are told apart. *)
Example C69_divide : forall a b c, divide [] [None; Some a; None; None; Some b; Some c] = [[a]; [b; c]]. Proof. reflexivity. Qed.
Example C69_discriminates :
  let stbl off stsc := [T t_stts (B_stts (mk_stts (fbox 0 0) [])) []; T t_stsc (B_stsc (mk_stsc (fbox 0 0) stsc)) []; T t_stco (B_stco (mk_stco (fbox 0 0) off)) []] in
  let s d := mk_sample 0 d false in
  let file := [1; 2; 3; 4] in
  divided file [[s [2]]; [s [3; 4]]] (stbl [1; 2] [mk_stsc_entry 1 1 1]) /\
  ~ divided file [[s [2]]; [s [3; 4]]] (stbl [1; 3] [mk_stsc_entry 1 1 1]) /\
  ~ divided file [[s [2]]; [s [3; 4]]] (stbl [1] [mk_stsc_entry 1 1 1]) /\
  ~ divided file [[s [2]]; [s [3; 4]]] (stbl [1; 2] [mk_stsc_entry 1 2 1]) /\
  ~ divided file [[s [2]]; [s [3; 4]]] (stbl [1; 2] [mk_stsc_entry 1 1 1; mk_stsc_entry 2 1 1]).
Proof.
  cbv zeta. split; [|split; [|split; [|split]]].
  - exists [1; 2], [mk_stsc_entry 1 1 1], []. split; [reflexivity|]. split; [reflexivity|]. split; [reflexivity|]. split; [repeat constructor|].
    split; [split; [intros X; exfalso; apply X; reflexivity|intros X; exfalso; inversion X as [? ? Y|? ? Y]; subst; [vm_compute in Y; congruence|inversion Y as [? ? Z|? ? Z]; subst; [vm_compute in Z; congruence|inversion Z]]]|].
    split; [intros [|[|[|k]]] ch E; try discriminate; injection E as <-; reflexivity|]. split; [repeat constructor; vm_compute; congruence|].
    split; [intros [|? [|]] a b post E; discriminate|]. split; [constructor|]. intros [|] a b post E; discriminate.
  - intros (off & stsc & stts & A & B & C & D & _). vm_compute in A. injection A as <-. inversion D as [|? ? ? ? _ D']; subst. inversion D' as [|? ? ? ? X _]; subst. vm_compute in X. discriminate.
  - intros (off & stsc & stts & A & B & C & D & _). vm_compute in A. injection A as <-. inversion D as [|? ? ? ? _ D']; subst. inversion D'.
  - intros (off & stsc & stts & A & B & C & D & _ & E & _). vm_compute in B. injection B as <-. specialize (E 0%nat _ eq_refl). vm_compute in E. discriminate.
  - intros (off & stsc & stts & A & B & C & D & _ & E & _ & F & _). vm_compute in B. injection B as <-. destruct (F [] _ _ [] eq_refl) as (_ & X). apply X. reflexivity.
Qed.
