(** C76: the structure of the movie box. *)
From Verif Require Import Base BitIO BitFacts BitIOProofs Boxes WireFormat DescriptorSpec Box BoxSpec BoxTac BoxWrite BoxIO BoxSize BoxLemmas Print PrintSpec PrintProofs BoxTree TreeSpec TreeProofs TreeLayout TreePrint TreeRead TreeLemmas H264 Track Writers MovieSpec AnnexBSpec H264Proofs TrackProofs TrakProofs SessionProofs MovieShape Completion MovieSize FileProofs SimpleFile FaststartFile TrackLemmas FileLemmas RoundTrip PropFile StructureSpec.
From Coq Require Import Ascii String List.
Import ListNotations.
Open Scope Z_scope.
Open Scope list_scope.

Lemma trak_named t : exists offsets, (offsets = "stco" \/ offsets = "co64")%string /\ names_of (tree_of (make_trak t)) = trak_names (t_codec t) offsets.
Proof.
  assert (O : exists offsets, (offsets = "stco" \/ offsets = "co64")%string /\ names_of (tree_of (make_offset_box (t_chunks t))) = only offsets).
  { unfold make_offset_box. destruct (use_co64 (t_chunks t)); eexists; split; [right|..|left|]; reflexivity. }
  destruct O as (offsets & A & O). exists offsets. split; [exact A|].
  unfold make_trak, make_stbl, make_stsd, make_sample_entry, new_info, trak_names.
  destruct (t_codec t) as [b m a|b m a|o r|v w h m a|w h p l ti cx cy cp obus|w h cv pr co lv sps pps]; cbn [codec_handler tree_of map names_of make_media_header new_info]; rewrite O; reflexivity.
Qed.
Lemma trak_versioned t : all_boxes versioned (tree_of (make_trak t)).
Proof.
  assert (O : all_boxes versioned (tree_of (make_offset_box (t_chunks t)))) by (unfold make_offset_box; destruct (use_co64 (t_chunks t)); (split; [reflexivity|exact I])).
  assert (Tk : all_boxes versioned (tree_of (make_tkhd t))) by (unfold make_tkhd; destruct (t_codec t); (split; [reflexivity|exact I])).
  assert (S : all_boxes versioned (tree_of (make_sample_entry t))) by (unfold make_sample_entry; destruct (t_codec t); repeat split).
  unfold make_trak, make_stbl, make_stsd, new_info. cbn [tree_of map]. rewrite all_boxes_eq. split; [exact I|]. constructor; [exact Tk|]. constructor; [repeat split|]. constructor; [|constructor].
  rewrite all_boxes_eq. split; [exact I|]. constructor; [repeat split|]. constructor; [repeat split|]. constructor; [|constructor].
  rewrite all_boxes_eq. split; [exact I|]. constructor; [destruct (t_codec t); repeat split|]. constructor; [repeat split|]. constructor; [|constructor].
  destruct (t_codec t); cbn [map tree_of]; rewrite all_boxes_eq; (split; [exact I|]); (constructor; [rewrite all_boxes_eq; split; [reflexivity|constructor; [exact S|constructor]]|]); repeat (constructor; [first [exact O|repeat split]|]); constructor.
Qed.
Lemma like_names c c' offsets : codec_like c c' -> trak_names c' offsets = trak_names c offsets.
Proof. destruct c, c'; cbn [codec_like]; try contradiction; try discriminate; intros H; try reflexivity; try (injection H; intros; subst; reflexivity). Qed.
Lemma tracks_structured cls timescale duration time ft ops sel (g : track -> track) (P : nat -> track -> Prop) traks : ftyp_ok ft -> Zlen (ftyp_octets ft) + 16 < 2 ^ 64 -> recording ops ->
  (forall o t, static o time t -> static o time (g t)) ->
  Forall2 (fun i tr => exists t, nth_error (s_tracks (fst (run (start cls timescale duration time ft) (O_WriteFtyp :: ops)))) i = Some t /\ P i t /\ tr = tree_of (make_trak (g t))) sel traks ->
  Forall2 (track_named ops) sel (map names_of traks) /\ Forall (all_boxes versioned) traks.
Proof.
  intros Fo L R G H. pose proof (session_tracks cls timescale duration time ft ops Fo L R) as Sh. induction H as [|i tr sel traks (t & E & _ & ->) H (IH1 & IH2)]; [split; constructor|].
  split; [|constructor; [apply trak_versioned|exact IH2]]. cbn [map]. constructor; [|exact IH1].
  destruct (sh_tracks _ _ _ Sh i t E) as ((o & Eo & So) & _). destruct o as [c tsc dts dmv mt id| | | | | | | | | | | |]; try contradiction. apply G in So. destruct So as (_ & _ & _ & _ & _ & _ & Lk).
  destruct (trak_named (g t)) as (offsets & A & B). exists c, tsc, dts, dmv, mt, id, offsets. split; [exact Eo|]. split; [exact A|]. rewrite B. apply like_names. exact Lk.
Qed.
Lemma moov_versioned timescale duration time id traks : Forall (all_boxes versioned) traks -> all_boxes versioned (moov_tree timescale duration time id traks).
Proof. intros F. unfold moov_tree. rewrite all_boxes_eq. split; [exact I|]. constructor; [repeat split|]. apply Forall_app. split; [exact F|]. repeat constructor. Qed.
(** C76.  The file of either writer consists of these boxes, inside each other and in this order, with these versions and flags, and no others. *)
Theorem C76_simple : forall timescale duration time ft ops sel,
  time_printable time -> box_typed (B_ftyp ft) -> recording ops -> chosen ops sel -> movie_fits ft ops sel -> bytes (media ops) ->
  exists boxes traks,
    output (fst (run (start Simple timescale duration time ft) (simple_program ops sel))) = flat_map (serialize_with written) boxes /\
    map names_of boxes = [only "ftyp"] ++ (if Zlen (media ops) + 8 <? 2 ^ 32 then [only "free"] else []) ++ [only "mdat"; moov_names traks] /\
    Forall2 (track_named ops) sel traks /\ Forall (all_boxes versioned) boxes.
Proof.
  intros timescale duration time ft ops sel TP A B C D E. destruct (simple_session timescale duration time ft ops sel TP A B C D) as (_ & _ & traks & H1 & _ & H2). cbv zeta in *.
  destruct (movie_fits_media _ _ _ A D) as (L & _). destruct (tracks_structured Simple timescale duration time ft ops sel Track_finalize _ traks A L B ltac:(intros o t; apply static_finalize) H2) as (H3 & H4).
  exists ([ftyp_tree ft] ++ free_trees (media ops) ++ [mdat_tree (media ops)] ++ [moov_tree timescale duration time (u32 (1 + ids_issued ops)) traks]), (map names_of traks). split; [|split; [|split; [exact H3|]]].
  - unfold output. rewrite H1. rewrite flat_map4, free_octets. rewrite mdat_octets by exact E. change (serialize_with written (ftyp_tree ft)) with (ftyp_octets ft). unfold moov_tree. rewrite <- udta_ok. rewrite <- !app_assoc. reflexivity.
  - rewrite !map_app. unfold free_trees, moov_names, moov_tree. destruct (_ <? _); cbn [map app names_of]; rewrite map_app; reflexivity.
  - apply Forall_app. split; [repeat constructor|]. apply Forall_app. split; [unfold free_trees; destruct (_ <? _); repeat constructor|]. constructor; [repeat constructor|]. constructor; [|constructor]. apply moov_versioned. exact H4.
Qed.
Theorem C76_faststart : forall timescale duration time ft ops sel,
  time_printable time -> box_typed (B_ftyp ft) -> recording ops -> chosen ops sel -> movie_fits ft ops sel -> bytes (media ops) ->
  exists boxes traks,
    output (fst (run (start Faststart timescale duration time ft) (faststart_program ops sel))) = flat_map (serialize_with written) boxes /\
    map names_of boxes = [only "ftyp"; moov_names traks; only "mdat"] /\
    Forall2 (track_named ops) sel traks /\ Forall (all_boxes versioned) boxes.
Proof.
  intros timescale duration time ft ops sel TP A B C D E. destruct (faststart_session timescale duration time ft ops sel TP A B C D) as (_ & _ & S & traks & H1 & _ & H2 & _). cbv zeta in *.
  destruct (movie_fits_media _ _ _ A D) as (L & _). destruct (tracks_structured Faststart timescale duration time ft ops sel (F S) _ traks A L B ltac:(intros o t; apply static_F) H2) as (H3 & H4).
  exists ([ftyp_tree ft] ++ [moov_tree timescale duration time (u32 (1 + ids_issued ops)) traks] ++ [mdat_tree (media ops)]), (map names_of traks). split; [|split; [|split; [exact H3|]]].
  - unfold output. rewrite H1. rewrite flat_map3. rewrite mdat_octets by exact E. change (serialize_with written (ftyp_tree ft)) with (ftyp_octets ft). unfold moov_tree. rewrite <- udta_ok. rewrite <- !app_assoc. reflexivity.
  - unfold moov_names, moov_tree. cbn [map app names_of]. rewrite map_app. reflexivity.
  - constructor; [repeat constructor|]. constructor; [apply moov_versioned; exact H4|repeat constructor].
Qed.
Print Assumptions C76_simple.
Print Assumptions C76_faststart.
(** The session of PropFile.v (it meets the hypotheses: PropFile.v), an H.264 and an AAC track: what the reader finds in the file. *)
Example C76_session :
  match SimpleReader_read true (output (fst (run (start Simple 1000 64 0 session_ftyp) (simple_program session_ops [1%nat; 0%nat])))) with
  | Some (Ok (ns, _)) => map (fun n => names_of (tree_of n)) ns =
      [only "ftyp"; only "free"; only "mdat"; moov_names [trak_names (H264 640 480 1 66 0 30 [] []) "stco"; trak_names (AAC 0 128000 128000) "stco"]]
  | _ => False
  end.
Proof. vm_compute. reflexivity. Qed.
