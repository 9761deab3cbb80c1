(** From a recording session to the finished file. *)
From Verif Require Import Base BitIO BitFacts BitIOProofs Boxes WireFormat Box BoxSpec BoxSize Print PrintSpec PrintProofs BoxTree TreeSpec TreeProofs TreeLayout TreeRead TreePrint H264 Track Writers MovieSpec AnnexBSpec H264Proofs TrackProofs TrakProofs SessionProofs MovieShape.
From Coq Require Import String List.
Import ListNotations.
Open Scope Z_scope.
Open Scope list_scope.

(** * The beginning of the file *)
Definition ftyp_node (ft : ftyp) : node := new_info (str "ftyp") (B_ftyp ft) [].
Definition ftyp_octets (ft : ftyp) : list Z := serialize_with written (tree_of (ftyp_node ft)).
Definition base_of (cls : wclass) (ft : ftyp) : Z := match cls with Simple => Zlen (ftyp_octets ft) + 16 | Faststart => 0 end.
Definition ftyp_ok (ft : ftyp) : Prop := box_shape (B_ftyp ft).
Lemma sound_ftyp ft : ftyp_ok ft -> sound (ftyp_node ft).
Proof. intros H. apply sound_new; [exact H|reflexivity|constructor]. Qed.
Lemma sound_size n : sound n -> Zlen (serialize_with written (tree_of n)) = nsize n.
Proof. intros (A & B & _). apply nsize_serialize; assumption. Qed.
Lemma sound_adjust n off : sound n -> nsize n < 2 ^ 64 -> BoxInfo_adjustOffsetAndSize n off = Ok (place n off, nsize n).
Proof. intros H. apply adjust_ok, sound_sized, H. Qed.
Lemma sound_write n off o : sound n -> printed n -> 0 <= off -> off + nsize n < 2 ^ 64 -> BoxInfo_write (place n off) o =
  Ok (place n off, mkOS (splice (os_data o) off (serialize_with written (tree_of n))) (off + Zlen (serialize_with written (tree_of n)))).
Proof. intros (A & B & C) P. apply write_place; try assumption. apply printable_prints. exact P. Qed.
Lemma printed_ftyp ft : printed (ftyp_node ft).
Proof. apply printed_new; [exact I|constructor]. Qed.
Lemma getSize_place n off : BoxInfo_getSize (place n off) = Ok (nsize n).
Proof. unfold BoxInfo_getSize. pose proof (announced_place n off) as H. unfold announced_size in H. destruct n as [t h b l]. rewrite place_eq in *. cbv zeta in *. cbn [n_header h_size] in *. rewrite H. reflexivity. Qed.

Lemma start_sinv cls timescale duration time ft : ftyp_ok ft -> Zlen (ftyp_octets ft) + 16 < 2 ^ 64 ->
  let s := step (start cls timescale duration time ft) O_WriteFtyp in
  snd s = Ok tt /\ sinv cls timescale duration time ft (ftyp_octets ft) (base_of cls ft) [] (fst s).
Proof.
  intros F B. cbv zeta. pose proof (sound_ftyp ft F) as S. unfold step. cbn [start s_writer s_tracks].
  set (w := match cls with Simple => _ | Faststart => _ end).
  assert (Ew : mw_ftyp w = ft /\ mw_os w = mkOS [] 0 /\ mw_class w = cls) by (destruct cls; auto). destruct Ew as (E1 & E2 & E3).
  pose proof (sound_size _ S) as Sz. fold (ftyp_octets ft) in Sz. pose proof (Zlen_nonneg (ftyp_octets ft)).
  unfold Writer_writeFtypBox. rewrite E1, E2, E3. fold (ftyp_node ft). rewrite sound_adjust by (auto; lia). rewrite sound_write by (auto using printed_ftyp; lia).
  rewrite getSize_place. fold (ftyp_octets ft). rewrite <- Sz. cbn [os_data]. rewrite Z.add_0_l.
  assert (Es : splice [] 0 (ftyp_octets ft) = ftyp_octets ft). { change 0 with (Zlen (@nil Z)). rewrite splice_end. reflexivity. }
  rewrite Es. destruct cls; cbn [lift fst snd w s_writer]; (split; [reflexivity|]); constructor; cbn [s_writer s_tracks];
    try (intros i t E; destruct i; discriminate); try reflexivity; constructor; try reflexivity.
  - cbn [set_os set_ftyp_size mw_os os_seekp os_pos os_data mw_moov base_of media history history_from flat_map]. unfold LARGE_HEADER_SIZE.
    rewrite (@Zlen_nil Z), u64_small by lia. split; [reflexivity|]. split; [reflexivity|]. split; [lia|]. exists []. rewrite app_nil_r. auto.
  - cbn. auto.
Qed.

(** * Appending the trak boxes *)
Lemma fold_add_leafs ks : forall ty h b l, fold_left node_add_leaf ks (Node ty h b l) = Node ty h b (l ++ ks).
Proof. induction ks as [|k ks IH]; intros ty h b l; cbn [fold_left node_add_leaf]; [rewrite app_nil_r; reflexivity|]. rewrite IH, <- app_assoc. reflexivity. Qed.

Definition touch (diff : option Z) (t : track) : track := Track_finalize (match diff with Some d => Track_resetChunkOffsets d t | None => t end).
Lemma append_traks_ok diff sel : forall m ts, NoDup sel -> Forall (fun i => (i < length ts)%nat) sel ->
  exists ts' traks, append_traks diff sel m ts = Ok (fold_left node_add_leaf traks m, ts') /\ length ts' = length ts /\
    Forall2 (fun i k => exists t, nth_error ts i = Some t /\ k = make_trak (touch diff t)) sel traks /\
    (forall i t, nth_error ts i = Some t -> nth_error ts' i = Some (if in_dec Nat.eq_dec i sel then touch diff t else t)).
Proof.
  induction sel as [|i sel IH]; intros m ts N L.
  - exists ts, []. cbn [append_traks fold_left]. repeat split; auto.
  - inversion N as [|? ? N1 N2]; inversion L as [|? ? L1 L2]; subst. cbn [append_traks].
    destruct (nth_error ts i) as [t|] eqn:Et; [|apply nth_error_None in Et; lia].
    set (t1 := match diff with Some d => Track_resetChunkOffsets d t | None => t end). unfold Track_appendTrakBoxInfo. cbv zeta.
    assert (Et1 : Track_finalize t1 = touch diff t) by reflexivity. rewrite Et1.
    destruct (IH (node_add_leaf m (make_trak (touch diff t))) (update_nth i (touch diff t) ts) N2) as (ts' & traks & E & Le & F & A).
    { eapply Forall_impl; [|exact L2]. cbv beta. intros j Hj. rewrite update_nth_length. exact Hj. }
    exists ts', (make_trak (touch diff t) :: traks). cbn [fold_left]. split; [exact E|]. split; [rewrite Le; apply update_nth_length|]. split.
    + constructor; [exists t; auto|]. clear -F N1.
      assert (G : Forall (fun j => j <> i) sel) by (apply Forall_forall; intros j Hj ->; contradiction).
      revert G. induction F as [|j k sel traks (t' & H & ->) F IH]; intros G; constructor; inversion G; subst.
      * exists t'. split; [|reflexivity]. rewrite nth_error_update in H. replace (Nat.eqb i j) with false in H by (symmetry; apply Nat.eqb_neq; auto). exact H.
      * apply IH; [|assumption]. intros Hc. apply N1. right. exact Hc.
    + intros j u Hu. destruct (in_dec Nat.eq_dec j (i :: sel)) as [I|I].
      * destruct (Nat.eq_dec i j) as [->|Nj].
        -- specialize (A j (touch diff t)). rewrite nth_error_update, Nat.eqb_refl in A. replace (_ <? _)%nat with true in A by (symmetry; apply Nat.ltb_lt; exact L1).
           specialize (A eq_refl). destruct (in_dec Nat.eq_dec j sel); [contradiction|]. rewrite Et in Hu. injection Hu as <-. exact A.
        -- specialize (A j u). rewrite nth_error_update in A. replace (Nat.eqb i j) with false in A by (symmetry; apply Nat.eqb_neq; auto). specialize (A Hu).
           destruct (in_dec Nat.eq_dec j sel) as [|X]; [exact A|]. exfalso. apply X. destruct I; [congruence|assumption].
      * assert (Nj : i <> j) by (intros ->; apply I; left; reflexivity). specialize (A j u). rewrite nth_error_update in A.
        replace (Nat.eqb i j) with false in A by (symmetry; apply Nat.eqb_neq; auto). specialize (A Hu).
        destruct (in_dec Nat.eq_dec j sel) as [X|]; [exfalso; apply I; right; exact X|exact A].
Qed.

(** * The movie box *)
Section Movie.
Variables (timescale duration time : Z).
Notation mvhd_of := (mvhd_of timescale duration time).
Definition moov_node (id : Z) (traks : list node) : node :=
  new_info (str "moov") B_container (new_info (str "mvhd") (B_mvhd (mvhd_of id)) [] :: traks ++ [make_udta]).
Lemma moov_node_eq id traks : node_add_leaf (fold_left node_add_leaf traks (moov_with timescale duration time id)) make_udta = moov_node id traks.
Proof. unfold moov_with, new_info. rewrite fold_add_leafs. cbn [node_add_leaf app]. reflexivity. Qed.
Lemma place_kid t h h' b k l off o : h_type (makeHeader t h) = h_type (makeHeader t h') -> h_extend_to_eof (makeHeader t h) = h_extend_to_eof (makeHeader t h') ->
  place (Node t h b (place k o :: l)) off = place (Node t h' b (k :: l)) off.
Proof.
  intros H1 H2. rewrite (place_eq t h), (place_eq t h'). cbv zeta. rewrite H1, H2.
  assert (En : sum_by nsize (place k o :: l) = sum_by nsize (k :: l)) by (unfold sum_by; cbn [fold_right]; destruct (nsize_place k o) as (-> & _); reflexivity).
  rewrite En. cbn [place_all]. destruct (nsize_place k o) as (-> & _). rewrite place_place. reflexivity.
Qed.
Lemma moov_node_place id traks off :
  place (node_add_leaf (fold_left node_add_leaf traks (place (moov_with timescale duration time id) off)) make_udta) off = place (moov_node id traks) off.
Proof.
  unfold moov_with, moov_node. set (k := new_info (str "mvhd") _ []). unfold new_info. rewrite (place_eq _ None _ [k] off). cbv zeta. rewrite fold_add_leafs. cbn [node_add_leaf].
  cbn [place_all app]. apply place_kid; reflexivity.
Qed.
Lemma set_id_place id0 id traks off : set_next_track_id id (place (moov_node id0 traks) off) = place (moov_node id traks) off.
Proof. unfold moov_node, new_info. rewrite !place_eq. reflexivity. Qed.
Lemma sound_moov_node id traks : Forall sound traks -> sound (moov_node id traks).
Proof.
  intros H. unfold moov_node. apply sound_new; [exact I|reflexivity|]. constructor; [|apply Forall_app; split; [exact H|constructor; [apply sound_udta|constructor]]].
  snd_. shape_.
Qed.
Lemma printed_moov_node id traks : time_printable time -> Forall printed traks -> printed (moov_node id traks).
Proof.
  intros P H. unfold moov_node. apply printed_new; [exact I|]. constructor; [|apply Forall_app; split; [exact H|constructor; [apply printed_udta|constructor]]].
  unfold mvhd_of. prt_; simple_prt.
Qed.
End Movie.
