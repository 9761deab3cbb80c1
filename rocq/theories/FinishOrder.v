(** The finishing calls in another order, or repeated (C66). *)
From Coq Require Import ZifyBool.
From Verif Require Import Base BitIO BitFacts BitIOProofs Boxes WireFormat Box BoxSpec BoxSize Print PrintSpec PrintProofs BoxTree TreeSpec TreeProofs TreeLayout TreeLemmas H264 Track Writers MovieSpec AnnexBSpec H264Proofs TrackProofs TrakProofs SessionProofs MovieShape Completion MovieSize FileProofs SimpleFile FaststartFile.
From Coq Require Import String List.
Import ListNotations.
Open Scope Z_scope.
Open Scope list_scope.

Lemma all_ok_app {A} (x : A) a b : Forall (fun r => r = x) a -> Forall (fun r => r = x) b -> Forall (fun r => r = x) (a ++ b).
Proof. intros. apply Forall_app. auto. Qed.
Lemma splice_mid a b c p d : Zlen a = p -> Zlen b = Zlen d -> splice (a ++ b ++ c) p d = a ++ d ++ c.
Proof. intros H L. rewrite splice_at by exact H. do 2 f_equal. apply skipn_exact. unfold Zlen in L. lia. Qed.
Lemma repeat_Zlen n : 0 <= n -> Zlen (repeat 0 (Z.to_nat n)) = n.
Proof. intros. unfold Zlen. rewrite repeat_length. lia. Qed.

Section Simple.
Variables (timescale duration time : Z) (ft : ftyp) (ops : list op) (sel : list nat).
Hypothesis (Fok : ftyp_ok ft) (Fit : samples_fit ops) (Sel : chosen ops sel) (Bnd : movie_fits ft ops sel) (Tp : time_printable time).
Notation fb := (ftyp_octets ft).
Notation base := (Zlen fb + 16).
Notation m := (media ops).
Notation nid := (u32 (1 + ids_issued ops)).
Notation HD := (free_header m ++ frame_header (str "mdat") (Zlen m)).

(** what the stream holds: the header written or not (h), the movie box written or not (post) *)
Definition stored (h : bool) (post : option (list Z)) (d : list Z) : Prop :=
  exists pad, d = fb ++ pad ++ m ++ match post with Some p => p | None => [] end /\
    (if h then pad = HD else pad = repeat 0 16 \/ (pad = [] /\ m = [] /\ post = None)).
Definition wfacts (w : mwriter) : Prop :=
  mw_class w = Simple /\ mw_ftyp_size w = Some (Zlen fb) /\ mw_mdat_size w = Zlen m /\ mw_next_id w = nid.

Lemma header_again w h post : wfacts w -> Zlen fb + 16 + Zlen m < 2 ^ 64 -> stored h post (os_data (mw_os w)) ->
  exists o', SimpleWriter_writeFreeBoxAndMdatHeader w = Ok (set_os o' w) /\ stored true post (os_data o').
Proof.
  intros (C1 & C2 & C3 & _) B (pad & E & P). unfold SimpleWriter_writeFreeBoxAndMdatHeader. rewrite C2, C3. pose proof (Zlen_nonneg fb). pose proof (Zlen_nonneg m).
  set (tl := match post with Some p => p | None => [] end) in *.
  assert (Sp : splice (os_data (mw_os w)) (Zlen fb) HD = fb ++ HD ++ m ++ tl).
  { rewrite E, splice_at by reflexivity. do 2 f_equal. pose proof (free_mdat_length m) as L.
    replace (length HD) with 16%nat by (symmetry; apply Nat2Z.inj; exact L).
    assert (X : pad = [] /\ m = [] /\ post = None \/ length pad = 16%nat).
    { destruct h; [right; subst pad; apply Nat2Z.inj; exact L|]. destruct P as [->|P]; [right; reflexivity|left; exact P]. }
    destruct X as [(-> & Em & Ep)|X]; [subst tl; rewrite Em, Ep; reflexivity|]. apply skipn_exact. exact X. }
  assert (Done : stored true post (fb ++ HD ++ m ++ tl)) by (exists HD; split; reflexivity). rewrite <- Sp in Done.
  assert (Hc : (Zlen m >? UINT32_MAX - 8) = negb (Zlen m + 8 <? 2 ^ 32)) by (unfold UINT32_MAX; lia). rewrite Hc. clear Sp P E.
  unfold free_header in *. destruct (Z.ltb_spec (Zlen m + 8) (2 ^ 32)) as [L|L]; cbn [negb].
  - set (fn := new_info (str "free") (B_free []) []). assert (Sf : sound fn) by (unfold fn; snd_; exact I). assert (Pf : printed fn) by (unfold fn; prt_; simple_prt). assert (Nf : nsize fn = 8) by (vm_compute; reflexivity).
    assert (Ef : serialize_with written (tree_of fn) = frame_header (str "free") 0) by (vm_compute; reflexivity).
    rewrite sound_adjust by (auto; lia). rewrite sound_write by (auto; lia). rewrite getSize_place, Nf, Ef. cbn [os_seekp os_data].
    eexists. split; [reflexivity|]. unfold header_write. cbn [snd h_offset]. rewrite u64_small by lia. rewrite u64_small by (unfold SMALL_HEADER_SIZE; lia).
    replace SMALL_HEADER_SIZE with (frame_header_size (Zlen m)) by (unfold frame_header_size, SMALL_HEADER_SIZE; replace (Zlen m + 8 <? 2 ^ 32) with true by lia; reflexivity).
    rewrite header_octets_frame by lia. unfold os_write, os_seekp. cbn [os_data os_pos].
    change 8 with (Zlen (frame_header (str "free") 0)) at 1. rewrite splice_app by (try lia; vm_compute; discriminate). exact Done.
  - eexists. split; [reflexivity|]. unfold header_write. cbn [snd h_offset]. rewrite u64_small by (unfold LARGE_HEADER_SIZE; lia).
    replace LARGE_HEADER_SIZE with (frame_header_size (Zlen m)) by (unfold frame_header_size, LARGE_HEADER_SIZE; replace (Zlen m + 8 <? 2 ^ 32) with false by lia; reflexivity).
    rewrite header_octets_frame by lia. unfold os_write, os_seekp. cbn [os_data os_pos]. exact Done.
Qed.

Variables (traks : list node).
Hypothesis (So : forall id, sound (moov_node timescale duration time id traks)).
Hypothesis (Po : forall id, printed (moov_node timescale duration time id traks)).
Hypothesis (Bt : sum_by nsize traks <= moov_bound ops sel - 4096).
Notation moov id := (moov_node timescale duration time id traks).
Notation mv := (serialize_with written (tree_of (moov nid))).
(** the writer's moov box: as appended, or already placed and numbered *)
Definition prepared (n : node) : Prop := n = moov 1 \/ exists off, n = place (moov nid) off.

Lemma moov_again w n h post : wfacts w -> prepared n -> mw_moov w = Some n -> (post = None \/ post = Some mv) -> stored h post (os_data (mw_os w)) ->
  exists o' n', Writer_writeMoovBox w = Ok (set_moov (Some n') (set_os o' w)) /\ prepared n' /\ stored h (Some mv) (os_data o').
Proof.
  intros (C1 & C2 & C3 & C4) Pr Em Hp (pad & E & P). pose proof (Zlen_nonneg fb). pose proof (Zlen_nonneg m).
  pose proof (fun id => moov_size timescale duration time id traks) as Ms. pose proof (ftyp_size ft Fok) as Bf. unfold movie_fits in Bnd. destruct (movie_fits_media _ _ _ Fok Bnd) as (B1 & B2 & B3).
  pose proof (Zlen_nonneg (ftyp_compatible_brands ft)).
  unfold Writer_writeMoovBox. rewrite C1. unfold Writer_setOffsetAndSize. rewrite Em, C2, C1, C3. unfold LARGE_HEADER_SIZE. rewrite u64_small by lia.
  assert (A : BoxInfo_adjustOffsetAndSize n (Zlen fb + 16 + Zlen m) = Ok (place n (Zlen fb + 16 + Zlen m), nsize n)).
  { destruct Pr as [->|(off & -> )].
    - apply sound_adjust; [apply So|]. specialize (Ms 1). lia.
    - destruct (nsize_place (moov nid) off) as (N1 & _ & N3). apply adjust_ok; [apply N3, sound_sized, So|]. rewrite N1. specialize (Ms nid). lia. }
  rewrite A. cbn [obind]. unfold write_moov_tree. cbn [set_moov mw_moov mw_next_id mw_os]. rewrite C4.
  assert (Id : set_next_track_id nid (place n (Zlen fb + 16 + Zlen m)) = place (moov nid) (Zlen fb + 16 + Zlen m)).
  { destruct Pr as [->|(off & -> )]; [apply set_id_place|]. rewrite place_place. apply set_id_place. }
  rewrite Id. rewrite sound_write by (auto; specialize (Ms nid); lia).
  eexists. eexists. split; [reflexivity|]. split; [right; eexists; reflexivity|]. cbn [os_data].
  assert (L16 : length pad = 16%nat -> Zlen (fb ++ pad ++ m) = Zlen fb + 16 + Zlen m) by (intros X; rewrite !Zlen_app; unfold Zlen at 2; rewrite X; lia).
  rewrite E. destruct (Nat.eq_dec (length pad) 16) as [L|L].
  - exists pad. split.
    + specialize (L16 L). destruct Hp as [-> | ->].
      * rewrite app_nil_r. rewrite <- L16, splice_end, <- !app_assoc. reflexivity.
      * replace (fb ++ pad ++ m ++ mv) with ((fb ++ pad ++ m) ++ mv ++ []) by (rewrite <- !app_assoc, app_nil_r; reflexivity).
        rewrite splice_mid by (auto; lia). rewrite <- !app_assoc, app_nil_r. reflexivity.
    + destruct h; [exact P|]. destruct P as [P|(-> & _)]; [left; exact P|discriminate L].
  - destruct h; [exfalso; subst pad; apply L; apply Nat2Z.inj; exact (free_mdat_length m)|]. destruct P as [->|(-> & Em0 & -> )]; [exfalso; apply L; reflexivity|].
    exists (repeat 0 16). split; [|left; reflexivity]. rewrite Em0. cbn [app]. rewrite !app_nil_r. change (Zlen []) with 0. rewrite Z.add_0_r.
    change 16 with (Z.of_nat 16). rewrite splice_gap; [reflexivity|]. intros X. pose proof (sound_size _ (So nid)) as Y. rewrite X in Y. pose proof (nsize_pos _ (sound_sized _ (So nid))). change (Zlen []) with 0 in Y. lia.
Qed.

(** any list of finishing calls *)
Definition has_header (l : list op) : bool := existsb (fun o => match o with O_WriteFreeAndMdatHeader => true | _ => false end) l.
Definition has_moov (l : list op) : bool := existsb (fun o => match o with O_WriteMoov => true | _ => false end) l.
Lemma simple_tail l : Forall (fun o => o = O_WriteFreeAndMdatHeader \/ o = O_WriteMoov) l -> forall s n h post,
  wfacts (s_writer s) -> prepared n -> mw_moov (s_writer s) = Some n -> (post = None \/ post = Some mv) -> stored h post (os_data (mw_os (s_writer s))) ->
  Forall (fun r => r = Ok tt) (snd (run s l)) /\ stored (h || has_header l) (if has_moov l then Some mv else post) (os_data (mw_os (s_writer (fst (run s l))))).
Proof.
  destruct (movie_fits_media _ _ _ Fok Bnd) as (B1 & B2 & B3). pose proof (ftyp_size ft Fok) as Bf. pose proof Bnd as Bn. unfold movie_fits in Bn. pose proof (Zlen_nonneg (ftyp_compatible_brands ft)).
  induction 1 as [|o l [->| ->] Hl IH]; intros s n h post Wf Pr Em Hp St.
  - cbn [run fst snd has_header has_moov existsb]. rewrite orb_false_r. split; [constructor|exact St].
  - destruct (header_again (s_writer s) h post Wf ltac:(lia) St) as (o' & E & St'). cbn [run step]. rewrite E. cbn [lift].
    destruct (IH (mk_session (set_os o' (s_writer s)) (s_tracks s)) n true post) as (R1 & R2); try assumption.
    destruct (run _ l) as [s2 rs]. cbn [fst snd] in *. change (has_moov (O_WriteFreeAndMdatHeader :: l)) with (has_moov l). change (has_header (O_WriteFreeAndMdatHeader :: l)) with true. rewrite orb_true_r. split; [constructor; [reflexivity|exact R1]|exact R2].
  - destruct (moov_again (s_writer s) n h post Wf Pr Em Hp St) as (o' & n' & E & Pr' & St'). cbn [run step]. rewrite E. cbn [lift].
    destruct (IH (mk_session (set_moov (Some n') (set_os o' (s_writer s))) (s_tracks s)) n' h (Some mv)) as (R1 & R2); auto.
    destruct (run _ l) as [s2 rs]. cbn [fst snd] in *. change (has_moov (O_WriteMoov :: l)) with true. change (has_header (O_WriteMoov :: l)) with (has_header l). split; [constructor; [reflexivity|exact R1]|]. destruct (has_moov l); exact R2.
Qed.

End Simple.

(** calls of writeFreeBoxAndMdatHeader before the traks are appended *)
Lemma simple_head ft ops sel : ftyp_ok ft -> movie_fits ft ops sel ->
  forall k s h, wfacts ft ops (s_writer s) -> stored ft ops h None (os_data (mw_os (s_writer s))) ->
  exists o', run s (repeat O_WriteFreeAndMdatHeader k) = (mk_session (set_os o' (s_writer s)) (s_tracks s), repeat (Ok tt) k) /\
    stored ft ops (h || (0 <? k)%nat) None (os_data o').
Proof.
  intros Fok Bnd. destruct (movie_fits_media _ _ _ Fok Bnd) as (B1 & B2 & B3). pose proof (ftyp_size ft Fok) as Bf. pose proof Bnd as Bn. unfold movie_fits in Bn. pose proof (Zlen_nonneg (ftyp_compatible_brands ft)).
  induction k as [|k IH]; intros s h Wf St.
  - exists (mw_os (s_writer s)). cbn [repeat run]. split; [|rewrite orb_false_r; exact St]. destruct s as [[] ?]. reflexivity.
  - destruct (header_again ft ops (s_writer s) h None Wf ltac:(lia) St) as (o' & E & St'). cbn [repeat run step]. rewrite E. cbn [lift].
    destruct (IH (mk_session (set_os o' (s_writer s)) (s_tracks s)) true Wf St') as (o2 & R1 & R2). rewrite R1. exists o2. split; [reflexivity|]. rewrite orb_true_r. exact R2.
Qed.

Lemma append_os w ts o sel : mw_class w = Simple -> let r := step (mk_session w ts) (O_AppendTrakAndUdta sel) in
  step (mk_session (set_os o w) ts) (O_AppendTrakAndUdta sel) = (mk_session (set_os o (s_writer (fst r))) (s_tracks (fst r)), snd r).
Proof.
  intros C. cbv zeta. cbn [step s_writer]. change (mw_class (set_os o w)) with (mw_class w). rewrite C. unfold Simple_append. cbn [s_writer s_tracks].
  change (mw_moov (set_os o w)) with (mw_moov w). destruct (mw_moov w) as [n|]; [|reflexivity]. destruct (append_traks None sel n ts) as [[n' ts']|e|]; reflexivity.
Qed.

(** The whole session: any finishing order leaves one and the same file. *)
Lemma simple_orders timescale duration time ft ops sel : time_printable time -> ftyp_ok ft -> recording ops -> chosen ops sel -> movie_fits ft ops sel ->
  exists file, forall before after, Forall (fun o => o = O_WriteFreeAndMdatHeader) before -> Forall (fun o => o = O_WriteFreeAndMdatHeader \/ o = O_WriteMoov) after ->
    In O_WriteFreeAndMdatHeader (before ++ after) -> In O_WriteMoov after ->
    let r := run (start Simple timescale duration time ft) (O_WriteFtyp :: ops ++ before ++ [O_AppendTrakAndUdta sel] ++ after) in
    Forall (fun r => r = Ok tt) (skipn (length (O_WriteFtyp :: ops)) (snd r)) /\ output (fst r) = file.
Proof.
  intros Tp Fo [R1 R2 R3 R4] Ch B. destruct (movie_fits_media _ _ _ Fo B) as (B1 & B2 & B3).
  destruct (start_sinv Simple timescale duration time ft Fo B1) as (E0 & S0).
  destruct (step (start Simple timescale duration time ft) O_WriteFtyp) as [s0 r0] eqn:Es. cbn [fst snd] in *. subst r0.
  destruct (run_sinv _ _ _ _ _ _ _ s0 ops S0 R1 R2 R3 R4 B2) as (S1 & U1). cbn [base_of] in S1.
  destruct (run s0 ops) as [s1 rs] eqn:Er. cbn [fst snd] in *.
  assert (Lr : length rs = length ops).
  { pose proof (f_equal snd Er) as L. cbn [snd] in L. rewrite <- L. clear. revert s0. induction ops as [|o l IH]; intros s0; [reflexivity|]. cbn [run]. destruct (step s0 o) as [sa ra]. specialize (IH sa). destruct (run sa l). cbn [snd length] in *. lia. }
  destruct (simple_append timescale duration time ft ops sel Ch s1 S1) as (s2 & ts0 & E1 & H0 & W1).
  set (traks := map (fun t => make_trak (Track_finalize t)) ts0) in *.
  assert (So : forall id, sound (moov_node timescale duration time id traks)).
  { intros id. apply sound_moov_node. subst traks. apply Forall_map, Forall_forall. intros t _. apply sound_trak. }
  assert (Po : forall id, printed (moov_node timescale duration time id traks)).
  { intros id. apply printed_moov_node; [exact Tp|]. subst traks. apply Forall_map. clear -H0 Tp. induction H0 as [|i t l ts1 (_ & T) H IH]; [constructor|]. constructor; [|exact IH].
    apply printed_trak. rewrite finalize_time, (tinv_time _ _ _ _ _ T). exact Tp. }
  assert (Bt : sum_by nsize traks <= moov_bound ops sel - 4096).
  { apply (traks_bound time ops sel Track_finalize). clear -H0. induction H0 as [|i t sel ts0 (_ & T) H IH]; constructor; auto. eexists. eexists. split; [exact T|]. split; [apply recorded_finalize, (ti_rec _ _ _ _ _ T)|].
    unfold Track_finalize. destruct (t_finalized t); reflexivity. }
  set (m := media ops). set (mv := serialize_with written (tree_of (moov_node timescale duration time (u32 (1 + ids_issued ops)) traks))).
  exists (ftyp_octets ft ++ (free_header m ++ frame_header (str "mdat") (Zlen m)) ++ m ++ mv).
  intros before after Hb Ha Ih Im. cbv zeta. cbn [run app]. rewrite Es. rewrite run_app, Er. cbv iota beta.
  assert (Eb : before = repeat O_WriteFreeAndMdatHeader (length before)).
  { clear -Hb. induction Hb as [|o l -> H IH]; cbn [length repeat]; [reflexivity|f_equal; exact IH]. }
  destruct (si_w _ _ _ _ _ _ _ _ _ S1) as [C1 C2 C3 C4 C5 C6 C7 C8 (D1 & D2 & D3 & pad & D4 & D5)].
  assert (Wf : wfacts ft ops (s_writer s1)) by (repeat split; assumption).
  destruct (simple_head ft ops sel Fo B (length before) s1 false Wf) as (o' & Rb & St).
  { exists pad. rewrite app_nil_r. split; [exact D4|]. destruct D5 as [D5|(D5 & D6)]; [left|right]; auto. }
  rewrite <- Eb in Rb. cbn [fst snd]. rewrite run_app, Rb. cbn [fst snd]. rewrite run_cons. rewrite (append_os (s_writer s1) (s_tracks s1) o' sel C1).
  replace (mk_session (s_writer s1) (s_tracks s1)) with s1 by (destruct s1; reflexivity). rewrite E1. cbn [fst snd]. cbv iota beta.
  destruct (simple_tail timescale duration time ft ops sel Fo B traks So Po Bt after Ha (mk_session (set_os o' (s_writer s2)) (s_tracks s2)) (moov_node timescale duration time 1 traks) (false || (0 <? length before)%nat) None) as (Q1 & Q2).
  { rewrite W1. exact Wf. } { left. reflexivity. } { rewrite W1. reflexivity. } { left. reflexivity. } { rewrite W1 in *. exact St. }
  destruct (run _ after) as [s3 rs3]. cbn [fst snd] in *.
  split.
  - cbn [length skipn]. rewrite skipn_exact by exact Lr. apply Forall_app. split; [|constructor; [reflexivity|exact Q1]]. clear. induction (length before); cbn [repeat]; constructor; auto.
  - assert (Hm : has_moov after = true) by (unfold has_moov; apply existsb_exists; exists O_WriteMoov; auto).
    assert (Hh : ((0 <? length before)%nat || has_header after)%bool = true).
    { apply in_app_or in Ih. destruct Ih as [I|I]; [destruct before; [destruct I|reflexivity]|]. apply orb_true_iff. right. unfold has_header. apply existsb_exists. exists O_WriteFreeAndMdatHeader. auto. }
    rewrite Hm in Q2. cbn [orb] in Q2. rewrite Hh in Q2. destruct Q2 as (pd & E & ->). exact E.
Qed.

Section Faststart.
Variables (ft : ftyp) (ops : list op) (mn : node).
Notation fb := (ftyp_octets ft).
Notation m := (media ops).
Notation hs := (frame_header_size (Zlen m)).
Notation mv := (serialize_with written (tree_of mn)).
Notation HD := (frame_header (str "mdat") (Zlen m)).
Hypothesis (Sm : sound mn) (Pm : printed mn) (Bn : Zlen fb + nsize mn + hs + Zlen m < 2 ^ 64).

(** what follows the movie box: nothing yet, the mdat header, or the header and the media data *)
Definition part (b : nat) : list Z := match b with O => [] | S O => HD | _ => HD ++ m end.
Definition laid (a : bool) (b : nat) (d : list Z) : Prop :=
  d = fb ++ (if a then mv else match b with O => [] | _ => repeat 0 (Z.to_nat (nsize mn)) end) ++ part b.
Definition ffacts (w : mwriter) (id : Z) : Prop :=
  mw_class w = Faststart /\ mw_ftyp_size w = Some (Zlen fb) /\ mw_mdat_size w = Zlen m /\ mw_next_id w = id /\ mw_moov w = Some (place mn (Zlen fb)) /\
  set_next_track_id id (place mn (Zlen fb)) = place mn (Zlen fb).

Lemma mv_size : Zlen mv = nsize mn. Proof. apply sound_size. exact Sm. Qed.
Lemma mn_pos : 8 <= nsize mn. Proof. apply nsize_pos, sound_sized, Sm. Qed.
Lemma faststart_moov_again w id a b : ffacts w id -> laid a b (os_data (mw_os w)) ->
  exists o', Writer_writeMoovBox w = Ok (set_os o' w) /\ laid true b (os_data o').
Proof.
  intros (C1 & C2 & C3 & C4 & C5 & C6) L. pose proof mn_pos. pose proof mv_size. pose proof (Zlen_nonneg fb). pose proof (Zlen_nonneg m). pose proof (frame_hs (Zlen m)).
  unfold Writer_writeMoovBox. rewrite C1, C2. unfold write_moov_tree. cbn [set_os mw_moov mw_next_id mw_os]. rewrite C4, C5, C6.
  rewrite sound_write by (auto; lia). eexists. split; [rewrite <- C5; destruct w; reflexivity|]. cbn [os_seekp os_data]. rewrite L. unfold laid.
  destruct a; [apply splice_mid; [reflexivity|reflexivity]|].
  destruct b as [|b]; [cbn [part]; rewrite !app_nil_r; apply splice_end|]. apply splice_mid; [reflexivity|]. rewrite repeat_Zlen; lia.
Qed.
Lemma mdat_header_again w id a b : ffacts w id -> laid a b (os_data (mw_os w)) ->
  exists o', Faststart_writeMdatHeader w = Ok (set_os o' w) /\ laid a (Nat.max 1 b) (os_data o') /\ os_pos o' = Zlen fb + nsize mn + hs.
Proof.
  intros (C1 & C2 & C3 & C4 & C5 & C6) L. pose proof mn_pos. pose proof mv_size as Mv. pose proof (Zlen_nonneg fb). pose proof (Zlen_nonneg m). pose proof (frame_hs (Zlen m)).
  unfold Faststart_writeMdatHeader. rewrite C2. unfold Faststart_getMoovSize. rewrite C5, getSize_place. cbn [obind].
  assert (Eh : Faststart_getMdatHeaderSize w = hs).
  { unfold Faststart_getMdatHeaderSize. rewrite C3. unfold frame_header_size, UINT32_MAX, LARGE_HEADER_SIZE, SMALL_HEADER_SIZE. destruct (Z.gtb_spec (Zlen m) (2 ^ 32 - 1 - 8)), (Z.ltb_spec (Zlen m + 8) (2 ^ 32)); lia. }
  rewrite Eh, C3. rewrite !u64_small by lia. eexists. split; [reflexivity|]. unfold header_write. cbn [snd h_offset]. rewrite header_octets_frame by lia.
  unfold os_write, os_seekp. cbn [os_data os_pos]. assert (Lh : Zlen HD = hs) by (apply frame_header_length; reflexivity).
  split; [|rewrite Lh; reflexivity]. rewrite L. unfold laid.
  assert (Hn : HD <> []) by (intros X; rewrite X in Lh; change (Zlen []) with 0 in Lh; lia).
  destruct b as [|b].
  - cbn [part Nat.max]. rewrite app_nil_r. destruct a.
    + rewrite <- Mv, <- Zlen_app, splice_end, <- app_assoc. reflexivity.
    + rewrite app_nil_r. replace (nsize mn) with (Z.of_nat (Z.to_nat (nsize mn))) at 1 by lia. apply splice_gap. exact Hn.
  - replace (Nat.max 1 (S b)) with (S b) by lia. set (A := if a then mv else _).
    assert (LA : Zlen (fb ++ A) = Zlen fb + nsize mn) by (rewrite Zlen_app; unfold A; destruct a; [lia|rewrite repeat_Zlen; lia]).
    rewrite app_assoc. rewrite splice_at by exact LA. f_equal. f_equal.
    destruct b as [|b]; cbn [part]; [rewrite skipn_all2 by lia; apply app_nil_r|]. f_equal. apply skipn_exact. reflexivity.
Qed.
#[local] Opaque COPY_MDAT_DATA_BUFFER_SIZE.
Lemma copy_ok w id a b : ffacts w id -> laid a (S b) (os_data (mw_os w)) -> os_pos (mw_os w) = Zlen fb + nsize mn + hs -> mw_tmp_open w = true -> os_data (mw_tmp w) = m ->
  exists o', Faststart_copyMdatData w = Ok (set_tmp (mw_tmp w) false (set_os o' w)) /\ laid a 2 (os_data o').
Proof.
  intros (C1 & C2 & C3 & C4 & C5 & C6) L P T D. pose proof mn_pos. pose proof mv_size as Mv. pose proof (Zlen_nonneg fb). pose proof (Zlen_nonneg m). pose proof (frame_hs (Zlen m)).
  unfold Faststart_copyMdatData. rewrite T, D. rewrite copy_file by lia. eexists. split; [reflexivity|]. unfold os_write. cbn [os_data]. rewrite L, P.
  assert (Lh : Zlen HD = hs) by (apply frame_header_length; reflexivity). unfold laid. set (A := if a then mv else _).
  assert (LA : Zlen ((fb ++ A) ++ HD) = Zlen fb + nsize mn + hs) by (rewrite !Zlen_app, Lh; unfold A; destruct a; [lia|rewrite repeat_Zlen; lia]).
  replace (fb ++ A ++ part (S b)) with (((fb ++ A) ++ HD) ++ match b with O => [] | _ => m end) by (destruct b; cbn [part]; rewrite ?app_nil_r, <- ?app_assoc; reflexivity).
  rewrite splice_at by exact LA. cbn [part]. rewrite <- !app_assoc. do 3 f_equal. destruct b; [rewrite skipn_nil; apply app_nil_r|]. rewrite skipn_all2 by lia. apply app_nil_r.
Qed.

Definition has_mdat (l : list op) : bool := existsb (fun o => match o with O_WriteMdatHeader => true | _ => false end) l.
Lemma ffacts_tmp w id t b : ffacts w id -> ffacts (set_tmp t b w) id. Proof. exact (fun H => H). Qed.
Lemma faststart_tail l : Forall (fun o => o = O_WriteMdatHeader \/ o = O_WriteMoov) l -> forall s id a b,
  ffacts (s_writer s) id -> laid a b (os_data (mw_os (s_writer s))) ->
  exists o', run s l = (mk_session (set_os o' (s_writer s)) (s_tracks s), repeat (Ok tt) (length l)) /\ laid (a || has_moov l) (if has_mdat l then Nat.max 1 b else b) (os_data o').
Proof.
  induction 1 as [|o l [-> | ->] Hl IH]; intros s id a b Wf St.
  - exists (mw_os (s_writer s)). cbn [run length repeat has_mdat has_moov existsb]. rewrite orb_false_r. split; [|exact St]. destruct s as [[] ?]. reflexivity.
  - destruct (mdat_header_again (s_writer s) id a b Wf St) as (o' & E & St' & _). cbn [run step]. rewrite E. cbn [lift].
    destruct (IH (mk_session (set_os o' (s_writer s)) (s_tracks s)) id a _ Wf St') as (o2 & R1 & R2). rewrite R1. exists o2. split; [reflexivity|].
    change (has_mdat (O_WriteMdatHeader :: l)) with true. change (has_moov (O_WriteMdatHeader :: l)) with (has_moov l). cbv iota. rewrite Nat.max_assoc in R2. change (Nat.max 1 1) with 1%nat in R2. destruct (has_mdat l); exact R2.
  - destruct (faststart_moov_again (s_writer s) id a b Wf St) as (o' & E & St'). cbn [run step]. rewrite E. cbn [lift].
    destruct (IH (mk_session (set_os o' (s_writer s)) (s_tracks s)) id true b Wf St') as (o2 & R1 & R2). rewrite R1. exists o2. split; [reflexivity|].
    change (has_mdat (O_WriteMoov :: l)) with (has_mdat l). change (has_moov (O_WriteMoov :: l)) with true. rewrite orb_true_r. exact R2.
Qed.
End Faststart.

(** The whole session: any number of calls of writeMoovBox and writeMdatHeader in any order, with copyMdatData right after
    a writeMdatHeader. *)
Lemma faststart_orders timescale duration time ft ops sel : time_printable time -> ftyp_ok ft -> recording ops -> chosen ops sel -> movie_fits ft ops sel ->
  exists file, forall before after, Forall (fun o => o = O_WriteMdatHeader \/ o = O_WriteMoov) before -> Forall (fun o => o = O_WriteMdatHeader \/ o = O_WriteMoov) after ->
    In O_WriteMoov (before ++ after) ->
    let r := run (start Faststart timescale duration time ft) (O_WriteFtyp :: ops ++ [O_AppendTrakAndUdta sel] ++ before ++ [O_WriteMdatHeader; O_CopyMdatData] ++ after) in
    Forall (fun r => r = Ok tt) (skipn (length (O_WriteFtyp :: ops)) (snd r)) /\ output (fst r) = file.
Proof.
  intros Tp Fo [R1 R2 R3 R4] Ch B. destruct (movie_fits_media _ _ _ Fo B) as (B1 & B2 & B3).
  destruct (start_sinv Faststart timescale duration time ft Fo B1) as (E0 & S0).
  destruct (step (start Faststart timescale duration time ft) O_WriteFtyp) as [s0 r0] eqn:Es. cbn [fst snd] in *. subst r0.
  destruct (run_sinv _ _ _ _ _ _ _ s0 ops S0 R1 R2 R3 R4 B2) as (S1 & U1). cbn [base_of] in S1.
  destruct (run s0 ops) as [s1 rs] eqn:Er. cbn [fst snd] in *.
  assert (Lr : length rs = length ops).
  { pose proof (f_equal snd Er) as L. cbn [snd] in L. rewrite <- L. clear. revert s0. induction ops as [|o l IH]; intros s0; [reflexivity|]. cbn [run]. destruct (step s0 o) as [sa ra]. specialize (IH sa). destruct (run sa l). cbn [snd length] in *. lia. }
  destruct (select_tracks _ _ _ _ _ _ _ ops s1 sel S1 (proj2 Ch)) as (ts0 & H0).
  destruct (faststart_append timescale duration time ft ops sel Fo Ch B s1 ts0 S1 H0) as (s2 & sz & E1 & O & ES & W1).
  destruct (si_w _ _ _ _ _ _ _ _ _ S1) as [C1 C2 C3 C4 C5 C6 C7 C8 (D1 & D2 & D3 & D4 & D5)].
  set (mn := moov_node timescale duration time (u32 (1 + ids_issued ops)) (traks_at ts0 sz)) in *.
  assert (Sm : sound mn) by apply sound_traks. assert (Pm : printed mn) by (apply (printed_traks timescale duration time ops sel s1 ts0 H0); exact Tp).
  assert (Bn : Zlen (ftyp_octets ft) + nsize mn + frame_header_size (Zlen (media ops)) + Zlen (media ops) < 2 ^ 64).
  { destruct O as (_ & O2). rewrite ES in O2. exact O2. }
  assert (Wf : ffacts ft ops mn (s_writer s2) (u32 (1 + ids_issued ops))).
  { rewrite W1. unfold ffacts. cbn [set_moov mw_class mw_ftyp_size mw_mdat_size mw_next_id mw_moov]. repeat split; try assumption. }
  exists (ftyp_octets ft ++ serialize_with written (tree_of mn) ++ frame_header (str "mdat") (Zlen (media ops)) ++ media ops).
  intros before after Hb Ha Im. cbv zeta. cbn [run app]. rewrite Es. rewrite run_app, Er. cbn [fst snd]. rewrite run_cons, E1.
  destruct (faststart_tail ft ops mn Sm Pm Bn before Hb s2 _ false 0 Wf) as (o3 & Q3 & L3). { rewrite W1. cbn [set_moov mw_os]. rewrite D3. unfold laid. cbn [part os_data app]. rewrite app_nil_r. reflexivity. }
  rewrite run_app, Q3. cbn [fst snd]. cbn [orb] in L3.
  set (s3 := mk_session (set_os o3 (s_writer s2)) (s_tracks s2)). assert (Wf3 : ffacts ft ops mn (s_writer s3) (u32 (1 + ids_issued ops))) by exact Wf.
  destruct (mdat_header_again ft ops mn Sm Bn (s_writer s3) _ _ _ Wf3 L3) as (o4 & E4 & L4 & P4).
  rewrite run_cons. cbn [step]. rewrite E4. cbn [lift]. rewrite run_cons. cbn [step s_writer s_tracks].
  set (w4 := set_os o4 (s_writer s3)) in *. assert (Wf4 : ffacts ft ops mn w4 (u32 (1 + ids_issued ops))) by exact Wf.
  replace (Nat.max 1 (if has_mdat before then Nat.max 1 0 else 0)) with 1%nat in L4 by (destruct (has_mdat before); reflexivity).
  destruct (copy_ok ft ops mn Sm w4 _ _ 0 Wf4 L4 P4) as (o5 & E5 & L5).
  { unfold w4, s3. rewrite W1. exact D5. } { unfold w4, s3. rewrite W1. cbn [set_os set_moov mw_tmp s_writer]. rewrite D4. reflexivity. }
  rewrite E5. cbn [lift s_tracks].
  set (s5 := mk_session _ _). assert (Wf5 : ffacts ft ops mn (s_writer s5) (u32 (1 + ids_issued ops))) by exact Wf.
  destruct (faststart_tail ft ops mn Sm Pm Bn after Ha s5 _ _ 2 Wf5 L5) as (o6 & Q6 & L6). rewrite Q6. cbn [fst snd].
  split.
  - cbn [length skipn]. rewrite skipn_exact by exact Lr. constructor; [reflexivity|]. apply Forall_app. split; [|constructor; [reflexivity|constructor; [reflexivity|]]];
      (apply Forall_forall; intros x X; apply (repeat_spec _ _ _ X)).
  - assert (Hm : has_moov before || has_moov after = true).
    { apply orb_true_iff. apply in_app_or in Im. destruct Im as [I|I]; [left|right]; unfold has_moov; apply existsb_exists; exists O_WriteMoov; auto. }
    rewrite Hm in L6. replace (if has_mdat after then Nat.max 1 2 else 2%nat) with 2%nat in L6 by (destruct (has_mdat after); reflexivity). exact L6.
Qed.
