(** Payload theorems for every class of box: what writeData emits, and that readData recovers it. *)
From Verif Require Import Base BitIO BitFacts BitIOProofs Boxes WireFormat BoxTac BoxWrite BoxRead Box BoxSpec.

Lemma rspec_rmap {A B} (f : A -> B) m bs rest a : rspec m bs rest a -> rspec (rmap f m) bs rest (f a).
Proof.
  intros H. unfold rmap. rewrite <- (app_nil_r bs). eapply rspec_bind; [exact H|]. apply rspec_ret.
Qed.

Lemma box_wf_fields ch b : box_wf ch b -> fields_ok (box_layout b).
Proof.
  destruct b; cbn [box_wf box_layout]; intros H; try solve [constructor];
  repeat match type of H with
         | ?P /\ ch = 0 => destruct H as [H _]
         end; try exact H;
  repeat match goal with
  | H : fields_ok _ |- _ => exact H
  | H : audio_entry_wf _ _ |- _ => apply H
  | H : esds_wf _ |- _ => destruct H as [[H _] _]; exact H
  | H : raw_wf ?d |- fields_ok (raw_layout ?d) => constructor; [exact H|constructor]
  | H : meta_wf _ |- _ => unfold meta_wf in H; subst; unfold meta_layout, fb_layout; repeat constructor; cbn; unfold fits_u; lia
  | H : ?w ?x |- _ => unfold w in H
  | H : _ /\ _ |- _ => destruct H
  end.
Qed.

Lemma box_write ch b : box_wf ch b -> wspec (Box_writeData b) (enc (box_layout b)).
Proof.
  intros H. pose proof (box_wf_fields ch b H) as F. revert H.
  destruct b; cbn [box_layout Box_writeData box_wf] in *; intros H.
  - apply wspec_skip.
  - apply btrt_write. exact F.
  - apply co64_write. exact F.
  - apply colr_write. exact F.
  - apply ctts_write. exact F.
  - apply dops_write. exact F.
  - apply data_write. exact F.
  - apply dref_write. exact F.
  - apply elst_write. exact F.
  - apply emsg_write. exact F.
  - apply esds_write. exact F.
  - apply fiel_write. exact F.
  - apply free_write. exact F.
  - apply mdat_write. exact F.
  - apply skip_write. exact F.
  - apply unsupported_write. exact F.
  - apply ftyp_write. exact F.
  - apply hdlr_write. exact F.
  - apply iods_write. exact F.
  - apply mdhd_write; [apply H|exact F].
  - apply mehd_write. exact F.
  - apply meta_write. exact F.
  - apply mfhd_write. exact F.
  - apply mfro_write. exact F.
  - apply mvhd_write. exact F.
  - apply pasp_write. exact F.
  - apply pssh_write. exact F.
  - apply sbgp_write. exact F.
  - apply sdtp_write. exact F.
  - apply sgpd_write. exact F.
  - apply sidx_write. exact F.
  - apply smhd_write. exact F.
  - apply stco_write. exact F.
  - apply stsc_write. exact F.
  - apply stsd_write. exact F.
  - apply stss_write. exact F.
  - apply stsz_write. exact F.
  - apply stts_write. exact F.
  - apply tfdt_write. exact F.
  - apply tfhd_write. exact F.
  - apply tfra_write. exact F.
  - apply tkhd_write. exact F.
  - apply trex_write. exact F.
  - apply trun_write. exact F.
  - apply url_write. exact F.
  - apply urn_write. exact F.
  - apply vmhd_write. exact F.
  - apply vpcc_write. exact F.
  - apply av1c_write. exact F.
  - apply avcc_write; [apply H|exact F].
  - apply visual_entry_write. exact F.
  - apply audio_entry_write. exact F.
Qed.

(** [uw]: whether the parent is a "wave" box (only audio sample entries care). *)
Lemma box_read ch b rest type :
  box_wf ch b -> ch = Zlen rest / 8 -> (ch = 0 -> rest = []) -> (forall a, b = B_audio a -> ase_type a = type) ->
  forall uw, (forall a, b = B_audio a -> uw = false) ->
  rspec (Box_readData (box_kind b) type uw) (enc (box_layout b)) rest b.
Proof.
  intros H E Z0 Ty uw Uw. pose proof (box_wf_fields ch b H) as F.
  destruct b; cbn [box_layout Box_readData box_wf box_kind] in *.
  - apply (rspec_rmap (fun _ : unit => B_container) _ _ _ tt). apply rspec_ret.
  - apply (rspec_rmap B_btrt). apply btrt_read; try exact F; apply H.
  - apply (rspec_rmap B_co64). apply co64_read; try exact F; apply H.
  - destruct H as [H C]. rewrite (Z0 C). apply (rspec_rmap B_colr). apply colr_read; try exact F; apply H.
  - apply (rspec_rmap B_ctts). apply ctts_read; try exact F; apply H.
  - apply (rspec_rmap B_dOps). apply dops_read; try exact F; apply H.
  - destruct H as [H C]. rewrite (Z0 C). apply (rspec_rmap B_data). apply data_read; try exact F; apply H.
  - apply (rspec_rmap B_dref). apply dref_read; try exact F; apply H.
  - apply (rspec_rmap B_elst). apply elst_read; try exact F; apply H.
  - destruct H as [H C]. rewrite (Z0 C). apply (rspec_rmap B_emsg). apply emsg_read; try exact F; apply H.
  - destruct H as [H C]. rewrite (Z0 C). apply (rspec_rmap B_esds). apply esds_read_wf; try exact F; apply H.
  - apply (rspec_rmap B_fiel). apply fiel_read; try exact F; apply H.
  - destruct H as [H C]. rewrite (Z0 C). apply (rspec_rmap B_free). apply free_read; try exact F; apply H.
  - destruct H as [H C]. rewrite (Z0 C). apply (rspec_rmap B_mdat). apply mdat_read; try exact F; apply H.
  - destruct H as [H C]. rewrite (Z0 C). apply (rspec_rmap B_skip). apply skip_read; try exact F; apply H.
  - destruct H as [H C]. rewrite (Z0 C). apply (rspec_rmap B_unsupported). apply unsupported_read; try exact F; apply H.
  - destruct H as [H C]. rewrite (Z0 C). apply (rspec_rmap B_ftyp). apply ftyp_read; try exact F; apply H.
  - destruct H as [H C]. rewrite (Z0 C). apply (rspec_rmap B_hdlr). apply hdlr_read; try exact F; apply H.
  - apply (rspec_rmap B_iods). apply iods_read; try exact F; apply H.
  - apply (rspec_rmap B_mdhd). apply mdhd_read; try exact F; apply H.
  - apply (rspec_rmap B_mehd). apply mehd_read; try exact F; apply H.
  - apply (rspec_rmap B_meta). apply meta_read; try exact F; apply H.
  - apply (rspec_rmap B_mfhd). apply mfhd_read; try exact F; apply H.
  - apply (rspec_rmap B_mfro). apply mfro_read; try exact F; apply H.
  - apply (rspec_rmap B_mvhd). apply mvhd_read; try exact F; apply H.
  - apply (rspec_rmap B_pasp). apply pasp_read; try exact F; apply H.
  - apply (rspec_rmap B_pssh). apply pssh_read; try exact F; apply H.
  - apply (rspec_rmap B_sbgp). apply sbgp_read; try exact F; apply H.
  - destruct H as [H C]. rewrite (Z0 C). apply (rspec_rmap B_sdtp). apply sdtp_read; try exact F; apply H.
  - apply (rspec_rmap B_sgpd). apply sgpd_read; try exact F; apply H.
  - apply (rspec_rmap B_sidx). apply sidx_read; try exact F; apply H.
  - apply (rspec_rmap B_smhd). apply smhd_read; try exact F; apply H.
  - apply (rspec_rmap B_stco). apply stco_read; try exact F; apply H.
  - apply (rspec_rmap B_stsc). apply stsc_read; try exact F; apply H.
  - apply (rspec_rmap B_stsd). apply stsd_read; try exact F; apply H.
  - apply (rspec_rmap B_stss). apply stss_read; try exact F; apply H.
  - apply (rspec_rmap B_stsz). apply stsz_read; try exact F; apply H.
  - apply (rspec_rmap B_stts). apply stts_read; try exact F; apply H.
  - apply (rspec_rmap B_tfdt). apply tfdt_read; try exact F; apply H.
  - apply (rspec_rmap B_tfhd). apply tfhd_read; try exact F; apply H.
  - apply (rspec_rmap B_tfra). apply tfra_read; try exact F; apply H.
  - apply (rspec_rmap B_tkhd). apply tkhd_read; try exact F; apply H.
  - apply (rspec_rmap B_trex). apply trex_read; try exact F; apply H.
  - apply (rspec_rmap B_trun). apply trun_read; try exact F; apply H.
  - destruct H as [H C]. rewrite (Z0 C). apply (rspec_rmap B_url). apply url_read; try exact F; apply H.
  - destruct H as [H C]. rewrite (Z0 C). apply (rspec_rmap B_urn). apply urn_read; try exact F; apply H.
  - apply (rspec_rmap B_vmhd). apply vmhd_read; try exact F; apply H.
  - apply (rspec_rmap B_vpcC). apply vpcc_read; try exact F; apply H.
  - destruct H as [H C]. rewrite (Z0 C). apply (rspec_rmap B_av1C). apply av1c_read; try exact F; apply H.
  - destruct H as [H C]. rewrite (Z0 C). apply (rspec_rmap B_avcC). apply avcc_read; try exact F; apply H.
  - apply (rspec_rmap B_visual). apply visual_entry_read; try exact F; apply H.
  - rewrite <- (Ty _ eq_refl), (Uw _ eq_refl). apply (rspec_rmap B_audio). apply audio_entry_read. rewrite <- E. exact H.
Qed.
