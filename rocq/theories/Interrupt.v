(** Programs that are killed (C57). *)
From Coq Require Import ZifyBool.
From Verif Require Import Base BitIO BitFacts BitIOProofs Boxes WireFormat Box BoxSpec BoxSize Print PrintSpec PrintProofs BoxTree TreeSpec TreeProofs TreeLayout TreePrint H264 Track Writers MovieSpec AnnexBSpec H264Proofs TrackProofs TrakProofs SessionProofs MovieShape Completion MovieSize FileProofs SimpleFile FaststartFile Device FailureSpec DeviceProofs.
From Coq Require Import String List.
Import ListNotations.
Open Scope Z_scope.
Open Scope list_scope.

Lemma split_program {A} (l f p q : list A) o : l ++ f = p ++ o :: q -> (exists q', l = p ++ o :: q') \/ (exists p', p = l ++ p' /\ f = p' ++ o :: q).
Proof.
  revert p. induction l as [|x l IH]; intros p E; [right; exists p; auto|]. destruct p as [|y p]; cbn [app] in E; injection E as -> E; [left; exists l; reflexivity|].
  destruct (IH _ E) as [(q' & ->)|(p' & -> & ->)]; [left; exists q'; reflexivity|right; exists p'; auto].
Qed.
Lemma run_length ops : forall s, length (snd (run s ops)) = length ops.
Proof. induction ops as [|o l IH]; intros s0; [reflexivity|]. cbn [run]. destruct (step s0 o) as [sa ra]. specialize (IH sa). destruct (run sa l). cbn [snd length] in *. lia. Qed.

(** the media data stored so far, when a recording call is interrupted *)
Lemma actions_winv cls timescale duration time ft fb base ts key nid : forall acts t w m t' w', track_actions ts key acts t w = Ok (t', w') ->
  winv cls timescale duration time ft fb base m nid w -> Zlen m + Zlen (concat (stored_in acts)) < 2 ^ 64 ->
  winv cls timescale duration time ft fb base (m ++ concat (stored_in acts)) nid w'.
Proof.
  induction acts as [|a acts IH]; intros t w m t' w' E W B; cbn [track_actions stored_in flat_map concat] in *.
  - injection E as _ <-. rewrite app_nil_r. exact W.
  - fold (stored_in acts) in *. destruct a as [d|p|p]; cbn [app concat] in *; [|exact (IH _ _ _ _ _ E W B)..].
    rewrite Zlen_app in B. pose proof (Zlen_nonneg (concat (stored_in acts))). destruct (add_mdat _ _ _ _ _ _ _ m nid w d W) as (_ & w1 & Ew & W1); [lia|].
    unfold track_store in E. rewrite Ew in E. rewrite app_assoc. apply (IH _ _ _ _ _ E W1). rewrite Zlen_app. lia.
Qed.

Section S.
Variables (timescale duration time : Z) (ft : ftyp) (ops : list op) (sel : list nat).
Hypothesis (Fok : ftyp_ok ft) (Rec : recording ops) (Sel : chosen ops sel) (Bnd : movie_fits ft ops sel) (Tp : time_printable time).
Notation fb := (ftyp_octets ft).

(** a prefix of a recording is a recording *)
Lemma recording_prefix a b : recording (a ++ b) -> recording a.
Proof.
  intros [R1 R2 R3 R4]. constructor.
  - rewrite forallb_app in R1. apply andb_prop in R1. tauto.
  - intros pre o post i E. apply (R2 pre o (post ++ b) i). rewrite E, <- app_assoc. reflexivity.
  - intros pre mid post i ts d k ts' d' k' E. apply (R3 pre mid (post ++ b) i ts d k ts' d' k'). rewrite E, <- !app_assoc. cbn [app]. rewrite <- app_assoc. reflexivity.
  - eapply samples_fit_prefix. exact R4.
Qed.
Lemma media_app a : forall b, exists r, media (a ++ b) = media a ++ r.
Proof.
  induction b as [|o b IH] using rev_ind; [exists []; rewrite !app_nil_r; reflexivity|]. destruct IH as (r & E). exists (r ++ octets_of (stores (a ++ b) o)).
  rewrite app_assoc, media_snoc, E, <- app_assoc. reflexivity.
Qed.
(** the session after the calls [a] of the recording *)
Lemma after_calls cls a b : ops = a ++ b -> exists s, s = fst (run (start cls timescale duration time ft) (O_WriteFtyp :: a)) /\
  sinv cls timescale duration time ft fb (base_of cls ft) a s.
Proof.
  intros E. destruct (movie_fits_media _ _ _ Fok Bnd) as (B1 & B2 & B3). destruct (start_sinv cls timescale duration time ft Fok B1) as (E0 & S0).
  pose proof Rec as R. rewrite E in R. destruct (recording_prefix _ _ R) as [R1 R2 R3 R4].
  assert (Bm : Zlen (media a) < 2 ^ 64) by (destruct (media_app a b) as (r & Er); rewrite E, Er, Zlen_app in B2; pose proof (Zlen_nonneg r); lia).
  cbn [run]. destruct (step (start cls timescale duration time ft) O_WriteFtyp) as [s0 r0]. cbn [fst snd] in *.
  destruct (run_sinv _ _ _ _ _ _ _ s0 a S0 R1 R2 R3 R4 Bm) as (S1 & _). destruct (run s0 a) as [s1 rs]. cbn [fst] in *. exists s1. auto.
Qed.

(** interrupted while recording *)
Lemma interrupted_call cls a o b s s' : ops = a ++ o :: b -> sinv cls timescale duration time ft fb (base_of cls ft) a s -> interrupted s o s' ->
  exists q w, prefix_of q (octets_of (stores a o)) /\
    winv cls timescale duration time ft fb (base_of cls ft) (media a ++ q) (u32 (1 + ids_issued a)) w /\
    mw_os (s_writer s') = mw_os w /\ mw_tmp (s_writer s') = mw_tmp w /\ mw_tmp_open (s_writer s') = mw_tmp_open w.
Proof.
  intros E S I. destruct (movie_fits_media _ _ _ Fok Bnd) as (B1 & B2 & B3). pose proof Rec as R. rewrite E in R.
  replace (a ++ o :: b) with ((a ++ [o]) ++ b) in R by (rewrite <- app_assoc; reflexivity). destruct (recording_prefix _ _ R) as [R1 R2 R3 R4].
  assert (Bm : Zlen (media (a ++ [o])) < 2 ^ 64) by (destruct (media_app (a ++ [o]) b) as (r & Er); rewrite <- app_assoc in Er; cbn [app] in Er; rewrite E, Er, Zlen_app in B2; pose proof (Zlen_nonneg r); lia).
  rewrite media_snoc, Zlen_app in Bm. pose proof (si_w _ _ _ _ _ _ _ _ _ S) as W. set (nid := u32 (1 + ids_issued a)) in *.
  (* storing a part of [d] *)
  assert (Cut : forall m w d k, winv cls timescale duration time ft fb (base_of cls ft) m nid w -> Zlen m + Zlen d < 2 ^ 64 -> exists w', 
    winv cls timescale duration time ft fb (base_of cls ft) (m ++ firstn k d) nid w' /\ mw_os (cut_store k d w) = mw_os w' /\ mw_tmp (cut_store k d w) = mw_tmp w' /\ mw_tmp_open (cut_store k d w) = mw_tmp_open w').
  { clear. intros m w d k W B. destruct (add_mdat _ _ _ _ _ _ _ m nid w (firstn k d) W) as (_ & w' & Ew & W'); [unfold Zlen in *; rewrite firstn_length; lia|].
    exists w'. split; [exact W'|]. unfold cut_store. unfold Writer_addMdatData in Ew. destruct W as [C1 _ _ _ _ _ _ _ C9]. rewrite C1 in *. destruct cls.
    - injection Ew as <-. auto.
    - destruct C9 as (_ & _ & _ & _ & C). rewrite C in Ew. injection Ew as <-. auto. }
  rewrite forallb_app in R1. apply andb_prop in R1. destruct R1 as [_ Mo]. cbn [forallb] in Mo. rewrite Bool.andb_true_r in Mo.
  assert (Nope : forall l s1 os1, l = [] -> partial l s1 os1 -> False) by (clear; intros l s1 os1 -> (l1 & x & l2 & k & E1 & _); destruct E1 as [E1|E1]; destruct l1; discriminate).
  destruct o; try discriminate Mo; cbn [interrupted] in I.
  1,2,4,5: destruct I as (s1 & os1 & _ & P & _); exfalso; exact (Nope _ _ _ eq_refl P).
  - destruct I as (tr & acts & r & a1 & d & a2 & tr1 & w1 & k & E1 & E2 & E3 & E4 & L & Ew).
    destruct (si_tracks _ _ _ _ _ _ _ _ _ S i tr E1) as [(o0 & Eo & So) _ _ _ _].
    destruct (codec_of_static time a i o0 tr Eo So data) as (acts' & r' & E2' & _ & c & Ec & Es). rewrite E2 in E2'. injection E2' as <- <-.
    assert (Eoct : octets_of (stores a (O_AddData i timestamp data is_key)) = concat (stored_in acts)).
    { unfold stores, stored. rewrite Ec, Es. unfold octets_of. rewrite flat_map_concat_map, map_map. cbn [snd sm_data]. rewrite map_id. reflexivity. }
    rewrite Eoct in *. unfold stored_in in Bm, Eoct |- *. rewrite E3 in Bm, Eoct |- *. rewrite flat_map_app in *. cbn [flat_map] in *. fold (stored_in a1) in *. fold (stored_in a2) in *. rewrite concat_app in *. cbn [app concat] in *.
    rewrite !Zlen_app in Bm. pose proof (Zlen_nonneg (concat (stored_in a2))). pose proof (Zlen_nonneg d).
    pose proof (actions_winv _ _ _ _ _ _ _ _ _ _ _ _ _ _ _ _ E4 W) as W1. destruct (Cut _ _ d k (W1 ltac:(lia))) as (w2 & W2 & F1 & F2 & F3); [rewrite Zlen_app; lia|].
    exists (concat (stored_in a1) ++ firstn k d), w2. rewrite (app_assoc (media a)), Ew. split; [|auto].
    exists (skipn k d ++ concat (stored_in a2)). rewrite <- app_assoc. f_equal. rewrite app_assoc, firstn_skipn. reflexivity.
  - destruct I as (k & L & Ew). assert (Eo : octets_of (stores a (O_AddRaw data)) = data) by (cbn; apply app_nil_r). rewrite Eo in *.
    destruct (Cut _ _ data k W ltac:(lia)) as (w2 & W2 & F1 & F2 & F3). exists (firstn k data), w2. rewrite Ew. split; [exists (skipn k data); rewrite firstn_skipn; reflexivity|auto].
Qed.

(** ** Killed while the ftyp box is written *)
Lemma partial_nil o o' : partial [] o o' -> False.
Proof. intros (l1 & x & l2 & k & E1 & _). destruct E1 as [E1|E1]; destruct l1; discriminate. Qed.
Lemma partial_app_seek l p o o' : partial (l ++ [Seek p]) o o' -> partial l o o'.
Proof.
  intros (l1 & x & l2 & k & E1 & L & ->). assert (H : exists l2', l = l1 ++ Write x :: l2' \/ l = l1 ++ Put x :: l2').
  { destruct E1 as [E1|E1]; (destruct (exists_last (l := l2)) as (l2' & y & ->);
    [intros ->; apply app_inj_tail in E1; destruct E1 as [_ E1]; discriminate|]); rewrite app_comm_cons, app_assoc in E1; apply app_inj_tail in E1; destruct E1 as [E1 _]; exists l2'; auto. }
  destruct H as (l2' & H). exists l1, x, l2', k. auto.
Qed.
Lemma interrupted_ftyp cls s' : interrupted (start cls timescale duration time ft) O_WriteFtyp s' ->
  exists k, (k < length fb)%nat /\ os_data (mw_os (s_writer s')) = firstn k fb /\ mw_tmp (s_writer s') = mkOS [] 0.
Proof.
  intros (s1 & os & _ & P & E). destruct (movie_fits_media _ _ _ Fok Bnd) as (B1 & _). pose proof (sound_ftyp ft Fok) as Sf. pose proof (sound_size _ Sf) as Ls. fold fb in Ls.
  cbn [call_cmds] in P. unfold writeFtypBox_cmds in P.
  assert (Ew : mw_ftyp (s_writer (start cls timescale duration time ft)) = ft) by (destruct cls; reflexivity). rewrite Ew in P. fold (ftyp_node ft) in P. rewrite sound_adjust in P by (auto; lia).
  assert (P' : partial (BoxInfo_cmds (place (ftyp_node ft) 0)) (mkOS [] 0) os).
  { replace (mkOS [] 0) with (mw_os (s_writer (start cls timescale duration time ft))) by (destruct cls; reflexivity). destruct (mw_class _); [exact (partial_app_seek _ _ _ _ P)|rewrite app_nil_r in P; exact P]. }
  destruct (flow_partial 0 _ _ (flow_place (ftyp_node ft) 0 Sf ltac:(lia) ltac:(lia)) (mkOS [] 0) _ ltac:(lia) eq_refl P') as (k & L & D). exists k. split; [exact L|]. rewrite E. cbn [set_os mw_os mw_tmp]. split; [|destruct cls; reflexivity].
  rewrite D. cbn [os_data]. fold fb. apply (splice_end []).
Qed.

(** ** SimpleWriter: killed while the file is completed *)
Notation F := (Zlen fb).
Notation m := (media ops).
Notation hdr := (free_header m ++ frame_header (str "mdat") (Zlen m)).
Notation nid := (u32 (1 + ids_issued ops)).
Lemma free_flow w : mw_class w = Simple -> mw_ftyp_size w = Some F -> mw_mdat_size w = Zlen m -> F + 16 + Zlen m < 2 ^ 64 ->
  exists l, writeFreeBoxAndMdatHeader_cmds w = Seek F :: l /\ flow F (Seek F :: l) hdr.
Proof.
  intros C1 C2 C3 B. unfold writeFreeBoxAndMdatHeader_cmds. rewrite C2, C3. pose proof (Zlen_nonneg fb). pose proof (Zlen_nonneg m).
  eexists. split; [reflexivity|]. constructor.
  assert (Hc : (Zlen m >? UINT32_MAX - 8) = negb (Zlen m + 8 <? 2 ^ 32)) by (unfold UINT32_MAX; lia). rewrite Hc. unfold free_header.
  destruct (Z.ltb_spec (Zlen m + 8) (2 ^ 32)) as [L|L]; cbn [negb].
  - set (fn := new_info (str "free") (B_free []) []). assert (Sf : sound fn) by (unfold fn; snd_; exact I). assert (Pf : printed fn) by (unfold fn; prt_; simple_prt). assert (Nf : nsize fn = 8) by (vm_compute; reflexivity).
    assert (Ef : serialize_with written (tree_of fn) = frame_header (str "free") 0) by (vm_compute; reflexivity).
    rewrite sound_adjust by (auto; lia). unfold size_after_write. rewrite sound_write by (auto; lia). rewrite getSize_place, Nf.
    apply flow_app; [rewrite <- Ef; apply flow_place; auto; lia|]. change (Zlen (frame_header (str "free") 0)) with 8. unfold header_cmds. cbn [h_offset]. rewrite u64_small by lia. rewrite u64_small by (unfold SMALL_HEADER_SIZE; lia).
    replace SMALL_HEADER_SIZE with (frame_header_size (Zlen m)) by (unfold frame_header_size, SMALL_HEADER_SIZE; replace (Zlen m + 8 <? 2 ^ 32) with true by lia; reflexivity).
    rewrite header_octets_frame by lia. constructor. rewrite <- (app_nil_r (frame_header (str "mdat") (Zlen m))) at 2. constructor. constructor.
  - unfold header_cmds. cbn [h_offset app]. rewrite u64_small by (unfold LARGE_HEADER_SIZE; lia).
    replace LARGE_HEADER_SIZE with (frame_header_size (Zlen m)) by (unfold frame_header_size, LARGE_HEADER_SIZE; replace (Zlen m + 8 <? 2 ^ 32) with false by lia; reflexivity).
    rewrite header_octets_frame by lia. constructor. rewrite <- (app_nil_r (frame_header (str "mdat") (Zlen m))) at 2. constructor. constructor.
Qed.

(** what is in the output of a killed program *)
Inductive killed_simple (out : list Z) (done : nat) : Prop :=
  | killed_ftyp k : done = 0%nat -> (k < length fb)%nat -> out = firstn k fb -> killed_simple out done
  | killed_recording a o b q pad : ops = a ++ o :: b -> done = S (length a) -> prefix_of q (octets_of (stores a o)) ->
      out = fb ++ pad ++ media a ++ q -> pad = repeat 0 16 \/ (pad = [] /\ media a ++ q = []) -> killed_simple out done
  | killed_header k pad : done = (length ops + 2)%nat -> (k < 16)%nat -> out = fb ++ firstn k hdr ++ skipn k pad ++ m -> pad = repeat 0 16 \/ (pad = [] /\ m = []) -> killed_simple out done
  | killed_moov n : done = (length ops + 3)%nat -> F + 16 + Zlen m <= Z.of_nat n ->
      let file := output (fst (run (start Simple timescale duration time ft) (simple_program ops sel))) in
      (n < length file)%nat -> out = firstn n file -> killed_simple out done.

Lemma simple_killed e t st t' s rs : survives e -> run_dev e t (start Simple timescale duration time ft) (simple_program ops sel) = (st, t', s, rs) ->
  (st = Running /\ (s, rs) = run (start Simple timescale duration time ft) (simple_program ops sel)) \/
  (st = Dead /\ killed_simple (output s) (length rs)).
Proof.
  intros Su E. destruct (run_dev_kill e Su _ _ _ _ _ _ _ E) as [A|(Es & pre & o & post & Ep & Er & I)]; [left; exact A|right]. split; [exact Es|].
  subst rs. rewrite run_length. clear E Es. unfold simple_program in Ep. destruct pre as [|o0 pre].
  { cbn [app] in Ep. injection Ep as <- _. cbn [run fst] in I. destruct (interrupted_ftyp _ _ I) as (k & L & D & _). apply (killed_ftyp _ _ k); auto. }
  cbn [app] in Ep. injection Ep as <- Ep. destruct (split_program _ _ _ _ _ Ep) as [(q & Eo)|(p' & -> & Ef)].
  { destruct (after_calls Simple pre (o :: q) Eo) as (s1 & -> & S1). destruct (interrupted_call Simple pre o q _ _ Eo S1 I) as (qq & w & Pq & W & Ew & _).
    destruct W as [_ _ _ _ _ _ _ _ (_ & _ & _ & pad & D4 & D5)]. apply (killed_recording _ _ pre o q qq pad); auto. unfold output. rewrite Ew. exact D4. }
  destruct (after_calls Simple ops [] (eq_sym (app_nil_r _))) as (s1 & E1 & S1). destruct (simple_append timescale duration time ft ops sel Sel s1 S1) as (s2 & ts0 & E2 & H0 & W1).
  assert (Run : forall l, run (start Simple timescale duration time ft) (O_WriteFtyp :: ops ++ l) = (fst (run s1 l), snd (run (start Simple timescale duration time ft) (O_WriteFtyp :: ops)) ++ snd (run s1 l))).
  { intros l. rewrite app_comm_cons, run_app, <- E1. reflexivity. }
  rewrite Run in I. cbn [fst] in I.
  destruct (movie_fits_media _ _ _ Fok Bnd) as (B1 & B2 & B3). pose proof (ftyp_size ft Fok) as Bf. unfold movie_fits in Bnd. pose proof (Zlen_nonneg fb). pose proof (Zlen_nonneg m). pose proof (Zlen_nonneg (ftyp_compatible_brands ft)).
  destruct (si_w _ _ _ _ _ _ _ _ _ S1) as [C1 C2 C3 C4 C5 C6 C7 C8 (D1 & D2 & D3 & pad & D4 & D5)].
  destruct p' as [|x p']; cbn [app] in Ef; injection Ef as <- Ef.
  { destruct I as (s3 & os & _ & P & _). destruct (partial_nil _ _ P). }
  cbn [run] in I. rewrite E2 in I.
  assert (Hw : mw_class (s_writer s2) = Simple /\ mw_ftyp_size (s_writer s2) = Some F /\ mw_mdat_size (s_writer s2) = Zlen m /\ mw_os (s_writer s2) = mw_os (s_writer s1) /\ mw_next_id (s_writer s2) = nid) by (rewrite W1; cbn; auto).
  destruct Hw as (V1 & V2 & V3 & V4 & V5). assert (L16 : length hdr = 16%nat) by (apply Nat2Z.inj; exact (free_mdat_length m)).
  destruct p' as [|x p']; cbn [app] in Ef; injection Ef as <- Ef.
  { cbn [run fst snd] in I. destruct I as (s3 & os & _ & P & Es). cbn [call_cmds] in P. destruct (free_flow _ V1 V2 V3 ltac:(lia)) as (l & El & Fl). rewrite El in P.
    destruct (flow_partial_seek _ _ _ _ _ Fl ltac:(lia) P) as (k & L & D). rewrite L16 in L. apply (killed_header _ _ k pad); [cbn [length]; rewrite app_length; cbn [length]; lia|exact L| |exact D5].
    unfold output. rewrite Es. cbn [set_os mw_os]. rewrite D, V4, D4, splice_at by reflexivity. f_equal. f_equal. rewrite firstn_length_le by lia.
    destruct D5 as [->|(-> & ->)]; [|rewrite !skipn_nil; reflexivity]. rewrite skipn_app. rewrite repeat_length; replace (k - 16)%nat with 0%nat by lia. reflexivity. }
  destruct p' as [|x p']; cbn [app] in Ef; [|exfalso; injection Ef as _ Ef; destruct p'; discriminate]. injection Ef as <- _.
  destruct (simple_header ft ops (s_writer s2) _ V1 V2 V3 ltac:(lia) V4 ltac:(exists pad; auto)) as (o' & E3 & O').
  pose (file := output (fst (run (start Simple timescale duration time ft) (simple_program ops sel)))).
  assert (Hf : file = output (fst (run s1 [O_AppendTrakAndUdta sel; O_WriteFreeAndMdatHeader; O_WriteMoov]))) by (unfold file, simple_program; rewrite Run; reflexivity).
  revert Hf. cbn [run]. rewrite E2. cbn [run step fst snd app] in I |- *. rewrite E3 in I |- *. cbn [lift run fst snd s_writer s_tracks app] in I |- *. intros Hf.
  destruct I as (s3 & os & Es3 & P & Es). cbn [s_writer] in *.
  set (traks := map (fun t => make_trak (Track_finalize t)) ts0) in *.
  assert (Bt : sum_by nsize traks <= moov_bound ops sel - 4096).
  { apply (traks_bound time ops sel Track_finalize). clear -H0. induction H0 as [|i t0 sel ts0 (_ & T) H IH]; constructor; auto. exists (F + 16), (F + 16). split; [exact T|]. split; [apply recorded_finalize, (ti_rec _ _ _ _ _ T)|].
    unfold Track_finalize. destruct (t_finalized t0); reflexivity. }
  assert (So : forall id, sound (moov_node timescale duration time id traks)).
  { intros id. apply sound_moov_node. subst traks. apply Forall_map, Forall_forall. intros t0 _. apply sound_trak. }
  pose proof (fun id => moov_size timescale duration time id traks) as Ms.
  assert (Ec : call_cmds O_WriteMoov (set_os o' (s_writer s2)) = BoxInfo_cmds (place (moov_node timescale duration time nid traks) (F + 16 + Zlen m))).
  { cbn [call_cmds]. unfold writeMoovBox_cmds. cbn [set_os mw_class]. rewrite V1. unfold Writer_setOffsetAndSize. cbn [set_os mw_moov mw_ftyp_size mw_class mw_mdat_size]. rewrite W1 at 1. cbn [set_moov mw_moov]. rewrite V2, V1, V3.
    unfold LARGE_HEADER_SIZE. rewrite u64_small by lia. rewrite sound_adjust by (auto; specialize (Ms 1); lia).
    unfold moov_tree_cmds. cbn [set_moov set_os mw_moov mw_next_id mw_os]. rewrite V5, set_id_place. reflexivity. }
  pose proof (flow_place (moov_node timescale duration time nid traks) (F + 16 + Zlen m) (So nid) ltac:(lia) ltac:(specialize (Ms nid); lia)) as Fl. rewrite <- Ec in Fl.
  destruct (place_cmds (moov_node timescale duration time nid traks) (F + 16 + Zlen m) (So nid)) as (l & El). rewrite <- Ec in El. 
  set (mo := serialize_with written _) in Fl. clearbody mo. pose proof (step_cmds _ O_WriteMoov _ _ eq_refl Es3) as Full. cbn [s_writer] in Full.
  rewrite El in P, Fl, Full. destruct (flow_partial_seek _ _ _ _ _ Fl ltac:(lia) P) as (k & L & D). cbn [set_os mw_os] in D, Full.
  assert (Lo : Zlen (os_data o') = F + 16 + Zlen m) by (rewrite O', Zlen_app; rewrite app_assoc, Zlen_app; change (Zlen hdr) with (Zlen hdr); rewrite free_mdat_length; lia).
  assert (Ff : os_data (mw_os (s_writer s3)) = os_data o' ++ mo).
  { rewrite Full. replace (plain (Seek (F + 16 + Zlen m) :: l) o') with (plain (Seek (F + 16 + Zlen m) :: l) (os_seekp (F + 16 + Zlen m) o')) by reflexivity.
    rewrite (flow_plain _ _ _ Fl) by (auto; lia). cbn [os_data os_seekp]. rewrite <- Lo. apply splice_end. }
  rewrite <- Lo, splice_end in D.
  assert (Hf2 : file = os_data o' ++ mo).
  { rewrite Hf. unfold output. replace (lift {| s_writer := set_os o' (s_writer s2); s_tracks := s_tracks s2 |} (Writer_writeMoovBox (set_os o' (s_writer s2)))) with (s3, @Ok unit tt) by (symmetry; exact Es3). cbn [fst]. exact Ff. }
  apply (killed_moov _ _ (length (os_data o') + k)%nat).
  - cbn [length]. rewrite app_length. cbn [length]. lia.
  - unfold Zlen in Lo at 1. lia.
  - fold file. rewrite Hf2, app_length. lia.
  - fold file. unfold output. rewrite Es. cbn [set_os mw_os]. rewrite D, Hf2, firstn_app_2. reflexivity.
Qed.

(** ** FaststartWriter: the calls that complete the file *)
#[local] Opaque COPY_MDAT_DATA_BUFFER_SIZE.
Lemma copy_flow file : forall fuel p pos, 0 <= pos <= Zlen file -> Zlen file - pos < Z.of_nat fuel * COPY_MDAT_DATA_BUFFER_SIZE -> flow p (copy_cmds fuel file pos) (skipn (Z.to_nat pos) file).
Proof.
  pose proof copy_positive as HC. induction fuel as [|f IH]; intros p pos Hp B; [lia|].
  destruct (copy_step _ file pos HC Hp) as (S1 & S2). cbn [copy_cmds]. cbv zeta in *.
  destruct (Z.ltb_spec (Zlen (firstn (Z.to_nat COPY_MDAT_DATA_BUFFER_SIZE) (skipn (Z.to_nat pos) file))) COPY_MDAT_DATA_BUFFER_SIZE) as [L|L].
  - rewrite (S1 L). rewrite <- (app_nil_r (skipn (Z.to_nat pos) file)) at 2. constructor. constructor.
  - destruct (S2 L) as (Lc & CL & Nc & E). rewrite Lc. rewrite <- E at 2. constructor. apply IH; [lia|nia].
Qed.
Lemma copy_flow_all file p : flow p (copy_cmds (length file + 1) file 0) file.
Proof.
  pose proof copy_positive. pose proof (Zlen_nonneg file). apply (copy_flow file (length file + 1) p 0); [lia|]. unfold Zlen. nia.
Qed.
Lemma step_flow s o s' l p bs : simple_call o = true -> step s o = (s', Ok tt) -> call_cmds o (s_writer s) = l -> flow p l bs -> 0 <= p ->
  (os_pos (mw_os (s_writer s)) = p \/ exists l', l = Seek p :: l') ->
  mw_os (s_writer s') = mkOS (splice (os_data (mw_os (s_writer s))) p bs) (p + Zlen bs).
Proof.
  intros Sc Es El Fl P Hp. rewrite (step_cmds _ _ _ _ Sc Es), El. destruct Hp as [Hp|(l' & E)]; [apply flow_plain; assumption|].
  replace (plain l (mw_os (s_writer s))) with (plain l (os_seekp p (mw_os (s_writer s)))) by (rewrite E; reflexivity). rewrite (flow_plain _ _ _ Fl); [reflexivity|exact P|reflexivity].
Qed.
Lemma faststart_calls s0 : sinv Faststart timescale duration time ft fb 0 ops s0 ->
  exists s1 s2 s3 s4 mv, let hd := frame_header (str "mdat") (Zlen m) in
    step s0 (O_AppendTrakAndUdta sel) = (s1, Ok tt) /\ step s1 O_WriteMoov = (s2, Ok tt) /\ step s2 O_WriteMdatHeader = (s3, Ok tt) /\ step s3 O_CopyMdatData = (s4, Ok tt) /\
    (exists l, call_cmds O_WriteMoov (s_writer s1) = Seek F :: l) /\ flow F (call_cmds O_WriteMoov (s_writer s1)) mv /\
    (exists l, call_cmds O_WriteMdatHeader (s_writer s2) = Seek (F + Zlen mv) :: l) /\ flow (F + Zlen mv) (call_cmds O_WriteMdatHeader (s_writer s2)) hd /\
    flow (F + Zlen mv + Zlen hd) (call_cmds O_CopyMdatData (s_writer s3)) m /\
    mw_os (s_writer s1) = mkOS fb F /\ mw_os (s_writer s2) = mkOS (fb ++ mv) (F + Zlen mv) /\ mw_os (s_writer s3) = mkOS (fb ++ mv ++ hd) (F + Zlen mv + Zlen hd) /\
    mw_os (s_writer s4) = mkOS (fb ++ mv ++ hd ++ m) (F + Zlen mv + Zlen hd + Zlen m) /\
    (forall s', s' = s1 \/ s' = s2 \/ s' = s3 -> mw_tmp (s_writer s') = mkOS m (Zlen m) /\ mw_tmp_open (s_writer s') = true).
Proof.
  intros S0. cbv zeta. destruct (select_tracks _ _ _ _ _ _ _ ops s0 sel S0 (proj2 Sel)) as (ts0 & H0). destruct Rec as [_ _ _ R4].
  destruct (faststart_append timescale duration time ft ops sel Fok Sel Bnd s0 ts0 S0 H0) as (s1 & S & E1 & O & ES & W1).
  destruct (si_w _ _ _ _ _ _ _ _ _ S0) as [C1 C2 C3 C4 C5 C6 C7 C8 (D1 & D2 & D3 & D4 & D5)].
  pose proof (M_bound timescale duration time ops sel s0 ts0 H0 S O) as MB. pose proof (frame_hs (Zlen m)). pose proof (Zlen_nonneg fb). pose proof (Zlen_nonneg m).
  set (mn := moov_node timescale duration time nid (traks_at ts0 S)) in *. assert (Sm : sound mn) by apply sound_traks. 
  assert (Pm : printed mn) by (eapply printed_traks; [exact H0|exact Tp]). change (M timescale duration time ops ts0 S) with (nsize mn) in *. unfold ok in O.
  pose proof (sound_size mn Sm) as Lm. set (mv := serialize_with written (tree_of mn)) in *.
  (* writeMoovBox *)
  assert (Cm : call_cmds O_WriteMoov (s_writer s1) = Seek F :: BoxInfo_cmds (place mn F)).
  { cbn [call_cmds]. unfold writeMoovBox_cmds. rewrite W1. cbn [set_moov mw_class mw_ftyp_size]. rewrite C1, C6. unfold moov_tree_cmds. cbn [set_moov mw_moov mw_next_id]. rewrite C8. unfold mn. rewrite set_id_place. reflexivity. }
  pose proof (flow_place mn F Sm ltac:(lia) ltac:(lia)) as Fm. fold mv in Fm. apply flow_seek in Fm.
  assert (E2 : exists s2, step s1 O_WriteMoov = (s2, Ok tt) /\ s_writer s2 = set_os (mw_os (s_writer s2)) (s_writer s1)).
  { cbn [step]. unfold Writer_writeMoovBox. rewrite W1. cbn [set_moov mw_class mw_ftyp_size mw_os]. rewrite C1, C6. unfold write_moov_tree. cbn [set_os set_moov mw_moov mw_next_id mw_os]. rewrite C8, D3.
    replace (set_next_track_id nid (place mn F)) with (place mn F) by (unfold mn; symmetry; apply set_id_place). rewrite sound_write by (auto; lia). cbn [lift]. eexists. split; [reflexivity|]. reflexivity. }
  destruct E2 as (s2 & E2 & W2). assert (V1 : mw_os (s_writer s1) = mkOS fb F) by (rewrite W1; exact D3).
  pose proof (step_flow _ O_WriteMoov _ _ _ _ eq_refl E2 Cm Fm ltac:(lia) ltac:(right; eauto)) as V2. rewrite V1 in V2. cbn [os_data] in V2. rewrite splice_end in V2.
  (* writeMdatHeader *)
  assert (Hw2 : mw_ftyp_size (s_writer s2) = Some F /\ Faststart_getMoovSize (s_writer s2) = Ok (Zlen mv) /\ Faststart_getMdatHeaderSize (s_writer s2) = frame_header_size (Zlen m) /\ mw_mdat_size (s_writer s2) = Zlen m /\ mw_tmp (s_writer s2) = mkOS m (Zlen m) /\ mw_tmp_open (s_writer s2) = true).
  { rewrite W2, W1. unfold Faststart_getMoovSize. cbn [set_os set_moov mw_ftyp_size mw_moov mw_mdat_size mw_tmp mw_tmp_open]. rewrite getSize_place, <- Lm. split; [exact C6|]. split; [reflexivity|]. split; [|auto].
    exact (header_size_eq timescale duration time ft ops s0 S0 None). }
  destruct Hw2 as (X1 & X2 & X3 & X4 & X5 & X6).
  assert (Ch : call_cmds O_WriteMdatHeader (s_writer s2) = [Seek (F + Zlen mv); Seek (F + Zlen mv); Put (frame_header (str "mdat") (Zlen m))]).
  { cbn [call_cmds]. unfold writeMdatHeader_cmds. rewrite X1, X2, X3, X4. rewrite !u64_small by lia. unfold header_cmds. cbn [h_offset]. rewrite header_octets_frame by lia. reflexivity. }
  assert (Fh : flow (F + Zlen mv) (call_cmds O_WriteMdatHeader (s_writer s2)) (frame_header (str "mdat") (Zlen m))).
  { rewrite Ch. do 2 constructor. rewrite <- (app_nil_r (frame_header (str "mdat") (Zlen m))) at 2. constructor. constructor. }
  assert (E3 : exists s3, step s2 O_WriteMdatHeader = (s3, Ok tt) /\ s_writer s3 = set_os (mw_os (s_writer s3)) (s_writer s2)).
  { cbn [step]. unfold Faststart_writeMdatHeader. rewrite X1, X2. cbn [obind lift]. eexists. split; [reflexivity|]. reflexivity. }
  destruct E3 as (s3 & E3 & W3).
  pose proof (step_flow _ O_WriteMdatHeader _ _ _ _ eq_refl E3 eq_refl Fh ltac:(lia) ltac:(right; rewrite Ch; eauto)) as V3. rewrite V2 in V3. cbn [os_data] in V3. rewrite <- Zlen_app, splice_end, Zlen_app, <- app_assoc in V3.
  (* copyMdatData *)
  assert (Y : mw_tmp (s_writer s3) = mkOS m (Zlen m) /\ mw_tmp_open (s_writer s3) = true) by (rewrite W3; auto). destruct Y as (Y1 & Y2).
  assert (Fc : forall p, flow p (call_cmds O_CopyMdatData (s_writer s3)) m) by (intros p; cbn [call_cmds]; unfold copyMdatData_cmds; rewrite Y1; apply copy_flow_all).
  assert (E4 : exists s4, step s3 O_CopyMdatData = (s4, Ok tt)).
  { cbn [step]. unfold Faststart_copyMdatData. rewrite Y1, Y2. cbn [os_data]. rewrite copy_file by (rewrite V3; cbn [os_pos]; pose proof (Zlen_nonneg (frame_header (str "mdat") (Zlen m))); lia). cbn [lift]. eauto. }
  destruct E4 as (s4 & E4). pose proof (Zlen_nonneg (frame_header (str "mdat") (Zlen m))).
  pose proof (step_flow _ O_CopyMdatData _ _ _ _ eq_refl E4 eq_refl (Fc (F + Zlen mv + Zlen (frame_header (str "mdat") (Zlen m)))) ltac:(lia) ltac:(left; rewrite V3; reflexivity)) as V4.
  rewrite V3 in V4. cbn [os_data] in V4. replace (F + Zlen mv + Zlen (frame_header (str "mdat") (Zlen m))) with (Zlen (fb ++ mv ++ frame_header (str "mdat") (Zlen m))) in V4 at 1 by (rewrite !Zlen_app; lia).
  rewrite splice_end, <- !app_assoc in V4.
  exists s1, s2, s3, s4, mv. repeat (split; [assumption || (rewrite ?Cm, ?Ch; eauto; fail)|]).
  intros s' [->|[->| ->]]; [|auto..]. rewrite W1. cbn [set_moov mw_tmp mw_tmp_open]. auto.
Qed.

(** ** FaststartWriter: killed anywhere *)
Lemma faststart_killed e t st t' s rs : survives e -> run_dev e t (start Faststart timescale duration time ft) (faststart_program ops sel) = (st, t', s, rs) ->
  (st = Running /\ (s, rs) = run (start Faststart timescale duration time ft) (faststart_program ops sel)) \/
  (st = Dead /\ (exists n, let file := output (fst (run (start Faststart timescale duration time ft) (faststart_program ops sel))) in (n < length file)%nat /\ output s = firstn n file) /\
     (rs <> [] -> mw_tmp_open (s_writer s) = true /\ exists a q o b, mw_tmp (s_writer s) = mkOS (a ++ q) (Zlen (a ++ q)) /\ 
        ((q = [] /\ a = m /\ (length ops < length rs)%nat) \/ (exists pre, ops = pre ++ o :: b /\ length rs = S (length pre) /\ a = media pre /\ prefix_of q (octets_of (stores pre o)))))).
Proof.
  intros Su E. destruct (run_dev_kill e Su _ _ _ _ _ _ _ E) as [A|(Es & pre & o & post & Ep & Er & I)]; [left; exact A|right]. split; [exact Es|]. clear E Es.
  assert (Lr : length rs = length pre) by (rewrite Er; apply run_length). assert (Nr : rs <> [] -> pre <> []) by (intros Hn ->; apply Hn; destruct rs; [reflexivity|discriminate]). clear Er. rewrite Lr. clear Lr.
  destruct (after_calls Faststart ops [] (eq_sym (app_nil_r _))) as (s0 & E0 & S0). cbn [base_of] in S0.
  destruct (faststart_calls s0 S0) as (s1 & s2 & s3 & s4 & mv & E1 & E2 & E3 & E4 & Cm & Fm & Ch & Fh & Fc & V1 & V2 & V3 & V4 & Tm). cbv zeta in *. set (hd := frame_header (str "mdat") (Zlen m)) in *.
  assert (Run : forall l, run (start Faststart timescale duration time ft) (O_WriteFtyp :: ops ++ l) = (fst (run s0 l), snd (run (start Faststart timescale duration time ft) (O_WriteFtyp :: ops)) ++ snd (run s0 l))).
  { intros l. rewrite app_comm_cons, run_app, <- E0. reflexivity. }
  assert (Hf : output (fst (run (start Faststart timescale duration time ft) (faststart_program ops sel))) = fb ++ mv ++ hd ++ m).
  { unfold faststart_program. rewrite Run. cbn [fst run]. rewrite E1, E2, E3, E4. cbn [fst]. unfold output. rewrite V4. reflexivity. }
  cbv zeta. rewrite Hf. pose proof (Zlen_nonneg fb) as Lf. pose proof (Zlen_nonneg mv) as Lmv. assert (Lh : 0 < Zlen hd) by (unfold hd; rewrite frame_header_length by reflexivity; pose proof (frame_hs (Zlen m)); lia).
  unfold faststart_program in Ep. destruct pre as [|o0 pre].
  { cbn [app] in Ep. injection Ep as <- _. cbn [run fst] in I. destruct (interrupted_ftyp _ _ I) as (k & L & D & _). split; [|intros Hn; destruct (Nr Hn eq_refl)].
    exists k. rewrite app_length. split; [lia|]. unfold output. rewrite D, firstn_app. replace (k - length fb)%nat with 0%nat by lia. rewrite app_nil_r. reflexivity. }
  clear Nr. cbn [app] in Ep. injection Ep as <- Ep. destruct (split_program _ _ _ _ _ Ep) as [(q & Eo)|(p' & -> & Ef)].
  { destruct (after_calls Faststart pre (o :: q) Eo) as (sx & -> & Sx). destruct (interrupted_call Faststart pre o q _ _ Eo Sx I) as (qq & w & Pq & W & Ew & Ew2 & Ew3).
    destruct W as [_ _ _ _ _ _ _ _ (_ & _ & D3 & D4 & D5)]. split.
    - exists (length fb). split; [rewrite !app_length; unfold Zlen in Lh; lia|]. unfold output. rewrite Ew, D3. cbn [os_data]. rewrite firstn_app, Nat.sub_diag, firstn_all, app_nil_r. reflexivity.
    - intros _. rewrite Ew2, Ew3. split; [exact D5|]. exists (media pre), qq, o, q. split; [exact D4|]. right. exists pre. auto. }
  rewrite Run in I. cbn [fst] in I.
  assert (Fin : forall p l bs sx o0 os tail, simple_call o0 = true -> o0 = o -> call_cmds o0 (s_writer sx) = l -> flow p l bs -> 0 <= p -> (os_pos (mw_os (s_writer sx)) = p \/ exists l', l = Seek p :: l') ->
     partial (call_cmds o0 (s_writer sx)) (mw_os (s_writer sx)) os -> s_writer s = set_os os (s_writer sx) -> Zlen (os_data (mw_os (s_writer sx))) = p -> (os_data (mw_os (s_writer sx)) ++ bs) ++ tail = fb ++ mv ++ hd ++ m ->
     (sx = s1 \/ sx = s2 \/ sx = s3) ->
     (exists n, (n < length (fb ++ mv ++ hd ++ m))%nat /\ output s = firstn n (fb ++ mv ++ hd ++ m)) /\
     (rs <> [] -> mw_tmp_open (s_writer s) = true /\ exists a q o b, mw_tmp (s_writer s) = mkOS (a ++ q) (Zlen (a ++ q)) /\ 
        ((q = [] /\ a = m /\ (length ops < length (O_WriteFtyp :: ops ++ p'))%nat) \/ (exists pre, ops = pre ++ o :: b /\ length (O_WriteFtyp :: ops ++ p') = S (length pre) /\ a = media pre /\ prefix_of q (octets_of (stores pre o)))))).
  { intros p l bs sx o0 os tail Sc Eo El Fl P Hp Pa Ew Lx Et Hx. rewrite El in Pa. split.
    - assert (D : exists k, (k < length bs)%nat /\ os_data os = splice (os_data (mw_os (s_writer sx))) p (firstn k bs)).
      { destruct Hp as [Hp|(l' & E)]; [exact (flow_partial _ _ _ Fl _ _ P Hp Pa)|]. rewrite E in Fl, Pa. exact (flow_partial_seek _ _ _ _ _ Fl P Pa). }
      destruct D as (k & Lk & D). rewrite <- Lx, splice_end in D. exists (length (os_data (mw_os (s_writer sx))) + k)%nat. rewrite <- Et. split; [rewrite !app_length; lia|].
      unfold output. rewrite Ew. cbn [set_os mw_os]. rewrite D, <- app_assoc, firstn_app_2. f_equal. rewrite firstn_app. replace (k - length bs)%nat with 0%nat by lia. rewrite app_nil_r. reflexivity.
    - intros _. destruct (Tm sx Hx) as (T1 & T2). rewrite Ew. cbn [set_os mw_tmp mw_tmp_open]. split; [exact T2|]. exists m, [], o, []. rewrite app_nil_r. split; [exact T1|]. left. split; [reflexivity|]. split; [reflexivity|]. cbn [length]. rewrite app_length. lia. }
  destruct p' as [|x p']; cbn [app] in Ef; injection Ef as <- Ef.
  { destruct I as (s5 & os & _ & P & _). destruct (partial_nil _ _ P). }
  cbn [run] in I. rewrite E1 in I.
  destruct p' as [|x p']; cbn [app] in Ef; injection Ef as <- Ef.
  { cbn [run fst snd] in I. destruct I as (s5 & os & _ & P & Ew). apply (Fin F _ mv s1 O_WriteMoov os (hd ++ m) eq_refl eq_refl eq_refl Fm Lf ltac:(right; exact Cm) P Ew); [rewrite V1; reflexivity|rewrite V1; cbn [os_data]; rewrite <- !app_assoc; reflexivity|auto]. }
  cbn [run] in I. rewrite E2 in I.
  destruct p' as [|x p']; cbn [app] in Ef; injection Ef as <- Ef.
  { cbn [run fst snd] in I. destruct I as (s5 & os & _ & P & Ew). apply (Fin (F + Zlen mv) _ hd s2 O_WriteMdatHeader os m eq_refl eq_refl eq_refl Fh ltac:(lia) ltac:(right; exact Ch) P Ew); [rewrite V2; cbn [os_data]; apply Zlen_app|rewrite V2; cbn [os_data]; rewrite <- !app_assoc; reflexivity|auto]. }
  cbn [run] in I. rewrite E3 in I.
  destruct p' as [|x p']; cbn [app] in Ef; [|exfalso; injection Ef as _ Ef; destruct p'; discriminate]. injection Ef as <- _.
  cbn [run fst snd] in I. destruct I as (s5 & os & _ & P & Ew). apply (Fin (F + Zlen mv + Zlen hd) _ m s3 O_CopyMdatData os [] eq_refl eq_refl eq_refl Fc ltac:(lia) ltac:(left; rewrite V3; reflexivity) P Ew); [rewrite V3; cbn [os_data]; rewrite !Zlen_app; lia|rewrite V3; cbn [os_data]; rewrite app_nil_r, <- !app_assoc; reflexivity|auto].
Qed.
End S.
