(** The boxes a writer builds can be laid out and written. *)
From Verif Require Import Base BitIO BitFacts BitIOProofs Boxes WireFormat Box BoxSpec BoxSize Print PrintSpec PrintProofs BoxTree TreeSpec TreeProofs TreeLayout TreeRead TreePrint H264 Track Writers MovieSpec TrackProofs TrakProofs SessionProofs.
From Coq Require Import String List.
Import ListNotations.
Open Scope Z_scope.
Open Scope list_scope.

Definition sound (n : node) : Prop := all_boxes box_shape (tree_of n) /\ types_ok (tree_of n) /\ headers_ok n.
Lemma sound_eq t h b l : sound (Node t h b l) <-> box_shape b /\ length t = 4%nat /\
  match h with None => True | Some h => h_type h = t /\ h_extend_to_eof h = false end /\ Forall sound l.
Proof.
  unfold sound. cbn [tree_of]. rewrite all_boxes_eq, types_ok_eq, headers_ok_eq, !Forall_map. split.
  - intros ((A1 & A2) & (B1 & B2) & C1 & C2). repeat split; auto. rewrite Forall_forall in *. auto.
  - intros (A1 & B1 & C1 & F). assert (G : forall P : node -> Prop, (forall n, all_boxes box_shape (tree_of n) /\ types_ok (tree_of n) /\ headers_ok n -> P n) -> Forall P l) by (intros P HP; eapply Forall_impl; [|exact F]; auto).
    repeat split; auto; apply G; tauto.
Qed.
Lemma sound_new t b l : box_shape b -> length t = 4%nat -> Forall sound l -> sound (new_info t b l).
Proof. intros. unfold new_info. rewrite sound_eq. auto. Qed.
Lemma sound_add m k : sound m -> sound k -> sound (node_add_leaf m k).
Proof. destruct m as [t h b l]. cbn [node_add_leaf]. rewrite !sound_eq. intros (A & B & C & D) K. repeat split; auto. apply Forall_app; auto. Qed.
Ltac snd_ := repeat (apply sound_new; [|reflexivity|repeat apply Forall_cons; try apply Forall_nil]).
Ltac shape_ := cbn [box_shape]; unfold len_is, hdlr_shape, visual_entry_shape, audio_entry_shape; cbn; repeat (split || constructor); try reflexivity; try discriminate; auto.
Lemma sound_trak t : sound (make_trak t).
Proof.
  unfold make_trak. unfold make_tkhd, make_edts, make_mdhd, make_hdlr, make_media_header, make_dinf, make_stbl, make_stsd, make_stts, make_stss, make_stsc, make_stsz, make_sgpd, make_sbgp, make_offset_box, make_sample_entry.
  destruct (use_co64 _); destruct (t_codec t) as [| | |vp8 ? ? ? ?| |]; try destruct vp8; cbn [codec_handler handler_array]; snd_; shape_.
Qed.
Lemma sound_udta : sound make_udta.
Proof. unfold make_udta, make_hdlr. snd_; shape_. Qed.
Lemma sound_moov timescale duration time id : sound (moov_with timescale duration time id).
Proof. unfold moov_with. snd_; shape_. Qed.
Lemma sound_sized n : sound n -> sized n. Proof. intros (A & _). apply shape_sized, A. Qed.

(** * They can be printed *)
Definition printed (n : node) : Prop := all_boxes box_printable (tree_of n).
Lemma printed_eq t h b l : printed (Node t h b l) <-> box_printable b /\ Forall printed l.
Proof. unfold printed. cbn [tree_of]. rewrite all_boxes_eq, Forall_map. reflexivity. Qed.
Lemma printed_new t b l : box_printable b -> Forall printed l -> printed (new_info t b l).
Proof. intros. unfold new_info. rewrite printed_eq. auto. Qed.
Lemma printed_add m k : printed m -> printed k -> printed (node_add_leaf m k).
Proof. destruct m as [t h b l]. cbn [node_add_leaf]. rewrite !printed_eq. intros (A & B) K. split; [exact A|]. apply Forall_app; auto. Qed.
Ltac prt_ := repeat (apply printed_new; [|repeat apply Forall_cons; try apply Forall_nil]).
Ltac simple_prt := first [exact I|cbn [box_printable mdhd_creation_time mdhd_modification_time tkhd_creation_time tkhd_modification_time mvhd_creation_time mvhd_modification_time]; auto].
Lemma printed_trak t : time_printable (t_time t) -> printed (make_trak t).
Proof.
  intros P. unfold make_trak. unfold make_tkhd, make_edts, make_mdhd, make_hdlr, make_media_header, make_dinf, make_stbl, make_stsd, make_stts, make_stss, make_stsc, make_stsz, make_sgpd, make_sbgp, make_offset_box, make_sample_entry.
  destruct (use_co64 _); destruct (t_codec t) as [| | |vp8 ? ? ? ?| |]; try destruct vp8; cbn [codec_handler handler_array]; prt_; simple_prt.
Qed.
Lemma printed_udta : printed make_udta.
Proof. unfold make_udta, make_hdlr. prt_; simple_prt. Qed.
Lemma printed_moov timescale duration time id : time_printable time -> printed (moov_with timescale duration time id).
Proof. intros P. unfold moov_with, mvhd_of. prt_; simple_prt. Qed.
Lemma printed_place n off : printed n -> printed (place n off).
Proof. unfold printed. rewrite tree_of_place. auto. Qed.
