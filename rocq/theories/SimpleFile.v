(** SimpleWriter: the finished file (C28, C31, C32, C34). *)
From Coq Require Import ZifyBool.
From Verif Require Import Base BitIO BitFacts BitIOProofs Boxes WireFormat Box BoxSpec BoxSize Print PrintSpec PrintProofs BoxTree TreeSpec TreeProofs TreeLayout H264 Track Writers MovieSpec AnnexBSpec H264Proofs TrackProofs TrakProofs SessionProofs MovieShape Completion MovieSize FileProofs.
From Coq Require Import String List.
Import ListNotations.
Open Scope Z_scope.
Open Scope list_scope.

Definition free_header (m : list Z) : list Z := if Zlen m + 8 <? 2 ^ 32 then frame_header (str "free") 0 else [].
Lemma free_mdat_length m : Zlen (free_header m ++ frame_header (str "mdat") (Zlen m)) = 16.
Proof.
  rewrite Zlen_app, frame_header_length by reflexivity. unfold free_header, frame_header_size. destruct (_ <? _); [|reflexivity]. rewrite frame_header_length by reflexivity. reflexivity.
Qed.
Lemma written_free : written (B_free []) = []. Proof. reflexivity. Qed.
Lemma moov_node_tree timescale duration time id traks : tree_of (moov_node timescale duration time id traks) =
  T (str "moov") B_container (T (str "mvhd") (B_mvhd (mvhd_of timescale duration time id)) [] :: map tree_of traks ++ [tree_of make_udta]).
Proof. unfold moov_node, new_info. cbn [tree_of map]. rewrite map_app. reflexivity. Qed.

Section S.
Variables (timescale duration time : Z) (ft : ftyp) (ops : list op) (sel : list nat).
Hypothesis (Fok : ftyp_ok ft) (Fit : samples_fit ops) (Sel : chosen ops sel) (Bnd : movie_fits ft ops sel).
Notation fb := (ftyp_octets ft).
Notation base := (Zlen fb + 16).
Notation m := (media ops).
Notation nid := (u32 (1 + ids_issued ops)).

Lemma ftyp_size : Zlen fb <= 24 + 4 * Zlen (ftyp_compatible_brands ft).
Proof.
  unfold ftyp_octets. rewrite sound_size by (apply sound_ftyp; exact Fok). unfold ftyp_node. eapply Z.le_trans; [apply nsize_new|]. rewrite sum_by_nil. cbn [Box_getDataSize]. unfold Ftyp_getDataSize. lia.
Qed.
(** one trak per selected track, whatever is done to the track *)
Lemma traks_bound (g : track -> track) ts0 :
  Forall2 (fun i t => exists b b', tinv time b i ops t /\ finished (g t) (recs_of i b' (history ops)) /\ t_codec (g t) = t_codec t) sel ts0 ->
  sum_by nsize (map (fun t => make_trak (g t)) ts0) <= moov_bound ops sel - 4096.
Proof.
  intros H. unfold moov_bound. clear Sel Bnd. match goal with |- _ <= 4096 + total ?f sel - 4096 => set (ff := f) in * end. enough (sum_by nsize (map (fun t => make_trak (g t)) ts0) <= total ff sel) by lia.
  induction H as [|i t l ts1 (b & b' & T & Fi & Ec) H IH]; [cbn; lia|]. cbn [map]. rewrite sum_by_cons. cbn [total fold_right]. fold (total ff l).
  pose proof (trak_size (g t)). pose proof (tinv_bound time b ops i t T b' (g t) Fi Ec). unfold ff at 1. lia.
Qed.

Lemma simple_append s : sinv Simple timescale duration time ft fb base ops s ->
  exists s' ts0, step s (O_AppendTrakAndUdta sel) = (s', Ok tt) /\
    Forall2 (fun i t => nth_error (s_tracks s) i = Some t /\ tinv time base i ops t) sel ts0 /\
    s_writer s' = set_moov (Some (moov_node timescale duration time 1 (map (fun t => make_trak (Track_finalize t)) ts0))) (s_writer s).
Proof.
  intros S. destruct Sel as [ND Kn]. destruct (select_tracks _ _ _ _ _ _ _ ops s sel S Kn) as (ts0 & H0).
  destruct (si_w _ _ _ _ _ _ _ _ _ S) as [C1 C2 C3 C4 C5 C6 C7 C8 (D1 & D2 & D3 & pad & D4 & D5)].
  cbn [step]. rewrite C1. unfold Simple_append. rewrite D2.
  destruct (append_traks_ok None sel (moov_with timescale duration time 1) (s_tracks s) ND) as (ts' & traks & E & Le & F & A).
  { rewrite (si_len _ _ _ _ _ _ _ _ _ S). exact Kn. }
  rewrite E. cbn [obind lift_s]. eexists. exists ts0. split; [reflexivity|]. split; [exact H0|]. cbn [s_writer]. f_equal. f_equal. rewrite moov_node_eq. f_equal.
  clear -H0 F. revert traks F. induction H0 as [|i t sel ts0 (Hi & _) H IH]; intros traks F; inversion F as [|? k ? ks (t' & Ht & ->) F']; subst; [reflexivity|].
  cbn [map]. rewrite Hi in Ht. injection Ht as <-. f_equal. apply IH. exact F'.
Qed.

Lemma simple_header w o : mw_class w = Simple -> mw_ftyp_size w = Some (Zlen fb) -> mw_mdat_size w = Zlen m -> Zlen fb + 16 + Zlen m < 2 ^ 64 ->
  mw_os w = o -> (exists pad, os_data o = fb ++ pad ++ m /\ (pad = repeat 0 16 \/ (pad = [] /\ m = []))) ->
  exists o', SimpleWriter_writeFreeBoxAndMdatHeader w = Ok (set_os o' w) /\ os_data o' = fb ++ free_header m ++ frame_header (str "mdat") (Zlen m) ++ m.
Proof.
  intros C1 C2 C3 B Eo (pad & E & P). unfold SimpleWriter_writeFreeBoxAndMdatHeader. rewrite C2, C3, Eo. pose proof (Zlen_nonneg fb). pose proof (Zlen_nonneg m).
  assert (Sp : splice (os_data o) (Zlen fb) (free_header m ++ frame_header (str "mdat") (Zlen m)) = fb ++ free_header m ++ frame_header (str "mdat") (Zlen m) ++ m).
  { rewrite E, splice_at by reflexivity. rewrite <- app_assoc. do 3 f_equal. pose proof (free_mdat_length m) as L.
    replace (length (free_header m ++ frame_header (str "mdat") (Zlen m))) with 16%nat by (symmetry; apply Nat2Z.inj; exact L).
    destruct P as [->|(-> & ->)]; reflexivity. }
  assert (Hc : (Zlen m >? UINT32_MAX - 8) = negb (Zlen m + 8 <? 2 ^ 32)) by (unfold UINT32_MAX; lia). rewrite Hc.
  unfold free_header in *. destruct (Z.ltb_spec (Zlen m + 8) (2 ^ 32)) as [L|L]; cbn [negb].
  - set (fn := new_info (str "free") (B_free []) []). assert (Sf : sound fn) by (unfold fn; snd_; exact I). assert (Pf : printed fn) by (unfold fn; prt_; simple_prt). assert (Nf : nsize fn = 8) by (vm_compute; reflexivity).
    assert (Ef : serialize_with written (tree_of fn) = frame_header (str "free") 0) by (vm_compute; reflexivity).
    rewrite sound_adjust by (auto; lia). rewrite sound_write by (auto; lia). rewrite getSize_place, Nf, Ef. cbn [os_seekp os_data].
    eexists. split; [reflexivity|]. unfold header_write. cbn [snd h_offset]. rewrite u64_small by lia. rewrite u64_small by (unfold SMALL_HEADER_SIZE; lia).
    replace SMALL_HEADER_SIZE with (frame_header_size (Zlen m)) by (unfold frame_header_size, SMALL_HEADER_SIZE; replace (Zlen m + 8 <? 2 ^ 32) with true by lia; reflexivity).
    rewrite header_octets_frame by lia. unfold os_write, os_seekp. cbn [os_data os_pos].
    change 8 with (Zlen (frame_header (str "free") 0)) at 1. rewrite splice_app by (try lia; vm_compute; discriminate). exact Sp.
  - eexists. split; [reflexivity|]. unfold header_write. cbn [snd h_offset]. rewrite u64_small by (unfold LARGE_HEADER_SIZE; lia).
    replace LARGE_HEADER_SIZE with (frame_header_size (Zlen m)) by (unfold frame_header_size, LARGE_HEADER_SIZE; replace (Zlen m + 8 <? 2 ^ 32) with false by lia; reflexivity).
    rewrite header_octets_frame by lia. unfold os_write, os_seekp. cbn [os_data os_pos]. exact Sp.
Qed.

Lemma simple_finish s : time_printable time -> sinv Simple timescale duration time ft fb base ops s ->
  let r := run s [O_AppendTrakAndUdta sel; O_WriteFreeAndMdatHeader; O_WriteMoov] in
  snd r = [Ok tt; Ok tt; Ok tt] /\
  exists traks, 
    let pre := fb ++ free_header m ++ frame_header (str "mdat") (Zlen m) in
    let post := serialize_with written (T (str "moov") B_container (T (str "mvhd") (B_mvhd (mvhd_of timescale duration time nid)) [] :: traks ++ [tree_of make_udta])) in
    let file := pre ++ m ++ post in
    os_data (mw_os (s_writer (fst r))) = file /\
    Forall2 (fun i tr => tree_type tr = str "trak" /\ exists info, read_trak tr = Some info /\ describes file ops i info) sel traks /\
    Forall2 (fun i tr => exists t, nth_error (s_tracks s) i = Some t /\ tinv time base i ops t /\ tr = tree_of (make_trak (Track_finalize t))) sel traks.
Proof.
  intros Tp S. cbv zeta. destruct (simple_append s S) as (s1 & ts0 & E1 & H0 & W1). cbn [run]. rewrite E1.
  pose proof ftyp_size as Bf. unfold movie_fits in Bnd.
  assert (Bm : 4096 <= moov_bound ops sel).
  { unfold moov_bound. pose proof (total_nonneg (fun i => 4096 + 36 * Zlen (samples_of i ops) + match codec_of ops i with Some c => config_octets c (sps_of i ops) (pps_of i ops) | None => 0 end) sel) as X. cbv beta in X.
    assert (0 <= total (fun i => 4096 + 36 * Zlen (samples_of i ops) + match codec_of ops i with Some c => config_octets c (sps_of i ops) (pps_of i ops) | None => 0 end) sel); [|lia].
    apply X. intros i. pose proof (Zlen_nonneg (samples_of i ops)). destruct (codec_of ops i) as [c|]; [pose proof (config_octets_nonneg c (sps_of i ops) (pps_of i ops))|]; lia. }
  pose proof (Zlen_nonneg fb). pose proof (Zlen_nonneg m). pose proof (Zlen_nonneg (ftyp_compatible_brands ft)).
  destruct (si_w _ _ _ _ _ _ _ _ _ S) as [C1 C2 C3 C4 C5 C6 C7 C8 (D1 & D2 & D3 & pad & D4 & D5)].
  destruct (simple_header (s_writer s1) (mw_os (s_writer s))) as (o' & E2 & O'); try (rewrite W1; cbn [set_moov mw_class mw_ftyp_size mw_mdat_size mw_os]; auto; fail); [lia|exists pad; auto|].
  cbn [step]. rewrite E2. cbn [lift fst snd s_writer s_tracks].
  set (traks := map (fun t => make_trak (Track_finalize t)) ts0) in *.
  assert (Bt : sum_by nsize traks <= moov_bound ops sel - 4096).
  { apply (traks_bound Track_finalize). clear -H0. induction H0 as [|i t sel ts0 (_ & T) H IH]; constructor; auto. exists base, base. split; [exact T|]. split; [apply recorded_finalize, (ti_rec _ _ _ _ _ T)|].
    unfold Track_finalize. destruct (t_finalized t); reflexivity. }
  assert (So : forall id, sound (moov_node timescale duration time id traks)).
  { intros id. apply sound_moov_node. subst traks. apply Forall_map, Forall_forall. intros t _. apply sound_trak. }
  assert (Po : forall id, printed (moov_node timescale duration time id traks)).
  { intros id. apply printed_moov_node; [exact Tp|]. subst traks. apply Forall_map. clear -H0 Tp. induction H0 as [|i t l ts1 (_ & T) H IH]; [constructor|]. constructor; [|exact IH].
    apply printed_trak. rewrite finalize_time, (tinv_time _ _ _ _ _ T). exact Tp. }
  pose proof (fun id => moov_size timescale duration time id traks) as Ms.
  unfold Writer_writeMoovBox. replace (mw_class (set_os o' (s_writer s1))) with Simple by (rewrite W1; cbn; auto).
  unfold Writer_setOffsetAndSize. rewrite W1. cbn [set_os set_moov mw_moov mw_ftyp_size mw_class mw_mdat_size]. rewrite C6, C1, C7.
  unfold LARGE_HEADER_SIZE. rewrite u64_small by lia. rewrite sound_adjust by (auto; specialize (Ms 1); lia). cbn [obind].
  unfold write_moov_tree. cbn [set_moov set_os mw_moov mw_next_id mw_os]. rewrite C8, set_id_place. rewrite sound_write by (auto; specialize (Ms nid); lia).
  cbn [lift fst snd s_writer s_tracks set_os set_moov mw_os os_data]. split; [reflexivity|]. exists (map tree_of traks).
  rewrite O', moov_node_tree. set (pre := fb ++ free_header m ++ frame_header (str "mdat") (Zlen m)).
  assert (Lp : Zlen pre = Zlen fb + 16) by (unfold pre; rewrite Zlen_app, free_mdat_length; reflexivity).
  split; [|split].
  - replace (fb ++ free_header m ++ frame_header (str "mdat") (Zlen m) ++ m) with (pre ++ m) by (unfold pre; rewrite <- !app_assoc; reflexivity).
    replace (Zlen fb + 16 + Zlen m) with (Zlen (pre ++ m)) by (rewrite Zlen_app; lia). rewrite splice_end, <- app_assoc. reflexivity.
  - unfold traks. rewrite map_map. set (post := serialize_with _ _). clearbody post. assert (Bb : Zlen fb + 16 + Zlen m < 2 ^ 64) by lia. clear -Fit H0 Lp Bb.
    induction H0 as [|i t sel0 ts0 (_ & T) H IH]; cbn [map]; constructor; [split; [reflexivity|]|auto].
    destruct (ti_static _ _ _ _ _ T) as (o & Eo & Sto).
    apply (describes_finished time ops Fit i (Track_finalize t) o (Zlen fb + 16) pre post Eo); [apply static_finalize; exact Sto|apply recorded_finalize, (ti_rec _ _ _ _ _ T)|exact Lp|lia].
  - unfold traks. rewrite map_map. clear -H0. induction H0 as [|i t sel0 ts0 (N & T) H IH]; cbn [map]; constructor; eauto.
Qed.
End S.

(** The whole session. *)
Lemma movie_fits_media ft ops sel : ftyp_ok ft -> movie_fits ft ops sel -> Zlen (ftyp_octets ft) + 16 < 2 ^ 64 /\ Zlen (media ops) < 2 ^ 64 /\ 4096 <= moov_bound ops sel.
Proof.
  intros Fo B. unfold movie_fits in B. pose proof (ftyp_size ft Fo) as Bf.
  assert (Bm : 4096 <= moov_bound ops sel).
  { unfold moov_bound. match goal with |- _ <= 4096 + ?x => assert (0 <= x); [|lia] end. apply total_nonneg. intros i. pose proof (Zlen_nonneg (samples_of i ops)). destruct (codec_of ops i) as [c|]; [pose proof (config_octets_nonneg c (sps_of i ops) (pps_of i ops))|]; lia. }
  pose proof (Zlen_nonneg (media ops)). pose proof (Zlen_nonneg (ftyp_compatible_brands ft)). lia.
Qed.
Lemma simple_session timescale duration time ft ops sel : time_printable time -> ftyp_ok ft -> recording ops -> chosen ops sel -> movie_fits ft ops sel ->
  let r := run (start Simple timescale duration time ft) (simple_program ops sel) in
  Forall (fun x => x <> UB) (snd r) /\ skipn (length (O_WriteFtyp :: ops)) (snd r) = [Ok tt; Ok tt; Ok tt] /\
  exists traks,
    let pre := ftyp_octets ft ++ free_header (media ops) ++ frame_header (str "mdat") (Zlen (media ops)) in
    let post := serialize_with written (T (str "moov") B_container (T (str "mvhd") (B_mvhd (mvhd_of timescale duration time (u32 (1 + ids_issued ops)))) [] :: traks ++ [tree_of make_udta])) in
    let file := pre ++ media ops ++ post in
    os_data (mw_os (s_writer (fst r))) = file /\
    Forall2 (fun i tr => tree_type tr = str "trak" /\ exists info, read_trak tr = Some info /\ describes file ops i info) sel traks /\
    Forall2 (fun i tr => exists t, nth_error (s_tracks (fst (run (start Simple timescale duration time ft) (O_WriteFtyp :: ops)))) i = Some t /\ tinv time (Zlen (ftyp_octets ft) + 16) i ops t /\ tr = tree_of (make_trak (Track_finalize t))) sel traks.
Proof.
  intros Tp Fo [R1 R2 R3 R4] Ch B. cbv zeta. destruct (movie_fits_media _ _ _ Fo B) as (B1 & B2 & B3).
  destruct (start_sinv Simple timescale duration time ft Fo B1) as (E0 & S0).
  unfold simple_program. cbn [run]. destruct (step (start Simple timescale duration time ft) O_WriteFtyp) as [s0 r0] eqn:Es. cbn [fst snd] in *. subst r0.
  destruct (run_sinv _ _ _ _ _ _ _ s0 ops S0 R1 R2 R3 R4 B2) as (S1 & U1). cbn [base_of] in S1.
  rewrite run_app. destruct (run s0 ops) as [s1 rs] eqn:Er. cbn [fst snd] in *.
  destruct (simple_finish timescale duration time ft ops sel Fo R4 Ch B s1 Tp S1) as (Ef & traks & H1 & H2 & H3). cbv zeta in *.
  set (r2 := run s1 _) in *. destruct r2 as [s2 rs2]. cbn [fst snd] in *. subst rs2.
  assert (Lr : length rs = length ops).
  { pose proof (f_equal snd Er) as L. cbn [snd] in L. rewrite <- L. clear. revert s0. induction ops as [|o l IH]; intros s0; [reflexivity|]. cbn [run]. destruct (step s0 o) as [sa ra]. specialize (IH sa). destruct (run sa l). cbn [snd length] in *. lia. }
  split; [constructor; [discriminate|]; apply Forall_app; split; [exact U1|repeat constructor; discriminate]|].
  split; [cbn [length skipn]; apply skipn_exact; exact Lr|]. exists traks. auto.
Qed.
