(** FaststartWriter: the layout loop and the finished file (C29, C30, C31, C33). *)
From Coq Require Import ZifyBool.
From Verif Require Import Base BitIO BitFacts BitIOProofs Boxes WireFormat Box BoxSpec BoxSize Print PrintSpec PrintProofs BoxTree TreeSpec TreeProofs TreeLayout H264 Track Writers MovieSpec AnnexBSpec H264Proofs TrackProofs TrakProofs SessionProofs MovieShape Completion MovieSize FileProofs SimpleFile.
From Coq Require Import String List.
Import ListNotations.
Open Scope Z_scope.
Open Scope list_scope.

(** * Copying the media data *)
Lemma os_write_app a b o : 0 <= os_pos o -> a <> [] -> os_write b (os_write a o) = os_write (a ++ b) o.
Proof. intros H N. unfold os_write. cbn [os_data os_pos]. rewrite splice_app by assumption. rewrite Zlen_app. f_equal. lia. Qed.
(** one turn of the loop, for any buffer size *)
Lemma copy_step (C : Z) (file : list Z) pos : 0 < C -> 0 <= pos <= Zlen file ->
  let rest := skipn (Z.to_nat pos) file in let chunk := firstn (Z.to_nat C) rest in
  (Zlen chunk < C -> chunk = rest) /\
  (C <= Zlen chunk -> Zlen chunk = C /\ pos + C <= Zlen file /\ chunk <> [] /\ chunk ++ skipn (Z.to_nat (pos + C)) file = rest).
Proof.
  intros HC Hp rest chunk.
  assert (Lr : Zlen rest = Zlen file - pos) by (unfold rest, Zlen; rewrite skipn_length; unfold Zlen in Hp; lia). split; intros L.
  - apply firstn_all2. unfold chunk, Zlen in L. rewrite firstn_length in L. unfold Zlen in Lr. lia.
  - assert (Lc : Zlen chunk = C) by (unfold chunk, Zlen in *; rewrite firstn_length in *; lia).
    assert (CL : C <= Zlen rest) by (unfold chunk, Zlen in *; rewrite firstn_length in *; lia).
    split; [exact Lc|]. split; [lia|]. split; [intros E; rewrite E in Lc; cbn in Lc; lia|].
    replace (skipn (Z.to_nat (pos + C)) file) with (skipn (Z.to_nat C) rest) by (unfold rest; rewrite skipn_skipn; f_equal; lia). apply firstn_skipn.
Qed.
Lemma copy_positive : 0 < COPY_MDAT_DATA_BUFFER_SIZE. Proof. vm_compute. reflexivity. Qed.
#[local] Opaque COPY_MDAT_DATA_BUFFER_SIZE.
Lemma copy_loop_ok fuel : forall file pos o, 0 <= os_pos o -> 0 <= pos <= Zlen file -> Zlen file - pos < Z.of_nat fuel * COPY_MDAT_DATA_BUFFER_SIZE ->
  copy_loop fuel file pos o = Some (os_write (skipn (Z.to_nat pos) file) o).
Proof.
  pose proof copy_positive as HC.
  induction fuel as [|f IH]; intros file pos o Ho Hp B; [lia|].
  destruct (copy_step _ file pos HC Hp) as (S1 & S2). cbn [copy_loop]. cbv zeta in *.
  destruct (Z.ltb_spec (Zlen (firstn (Z.to_nat COPY_MDAT_DATA_BUFFER_SIZE) (skipn (Z.to_nat pos) file))) COPY_MDAT_DATA_BUFFER_SIZE) as [L|L].
  - rewrite (S1 L). reflexivity.
  - destruct (S2 L) as (Lc & CL & Nc & E). rewrite Lc.
    rewrite IH; [|unfold os_write; cbn [os_pos]; lia|lia|nia].
    rewrite os_write_app by assumption. rewrite E. reflexivity.
Qed.
Lemma copy_file file o : 0 <= os_pos o -> copy_loop (length file + 1) file 0 o = Some (os_write file o).
Proof.
  intros H. rewrite copy_loop_ok; [reflexivity|exact H|pose proof (Zlen_nonneg file); lia|].
  pose proof copy_positive. unfold Zlen. nia.
Qed.

(** * 64-bit offsets *)
Lemma last_map {A B} (f : A -> B) (l : list A) d d' : l <> [] -> last (map f l) d = f (last l d').
Proof. induction l as [|x l IH]; intros H; [congruence|]. destruct l as [|y l]; [reflexivity|]. change (last (map f (y :: l)) d = f (last (y :: l) d')). apply IH. congruence. Qed.
Definition last_offset (t : track) : Z := match t_chunks (Track_finalize t) with [] => -1 | l => c_offset (last l chunk0) end.
Lemma co_spec S t recs B : finished (Track_finalize t) recs -> Forall (fun r => 0 <= fst r <= B) recs -> 0 <= S -> S + B < 2 ^ 64 ->
  co S t = (0 <=? last_offset t) && (last_offset t + S >? UINT32_MAX).
Proof.
  intros [_ _ _ _ (gs & Hr & Hc)] HB S0 SB. unfold co, F, Track_resetChunkOffsets, use_co64, last_offset. cbv zeta. cbn [t_chunks].
  pose proof (chunk_offsets_in _ _ Hc) as I. rewrite Hr in I. rewrite Forall_forall in HB.
  destruct (t_chunks (Track_finalize t)) as [|c0 cs] eqn:E; [reflexivity|].
  match goal with |- context [match map ?f ?l with _ => _ end] => change (match map f l with [] => false | _ :: _ => c_offset (last (map f l) chunk0) >? UINT32_MAX end) with (c_offset (last (map f l) chunk0) >? UINT32_MAX); rewrite (last_map f l chunk0 chunk0) by congruence end.
  cbn [c_offset]. set (l := last (c0 :: cs) chunk0). assert (Il : In l (c0 :: cs)).
  { subst l. destruct (exists_last (l := c0 :: cs)) as (x & y & Ey); [congruence|]. rewrite Ey, last_last. apply in_or_app. right. left. reflexivity. }
  destruct (I l Il) as (s & Hs). specialize (HB _ Hs). cbn [fst] in HB.
  replace (0 <=? c_offset l) with true by lia. cbn [andb]. f_equal. unfold u64. rewrite Zplus_mod_idemp_r. apply Z.mod_small. lia.
Qed.

Lemma f2_length {A B} {R : A -> B -> Prop} {l l'} : Forall2 R l l' -> length l = length l'.
Proof. induction 1; cbn [length]; congruence. Qed.

Lemma f2_impl {A B} (R R' : A -> B -> Prop) l l' : (forall a b, R a b -> R' a b) -> Forall2 R l l' -> Forall2 R' l l'.
Proof. intros H. induction 1; constructor; auto. Qed.

Lemma run_cons s o l : run s (o :: l) = let '(s1, r) := step s o in let '(s2, rs) := run s1 l in (s2, r :: rs).
Proof. reflexivity. Qed.

Section S.
Variables (timescale duration time : Z) (ft : ftyp) (ops : list op) (sel : list nat).
Hypothesis (Fok : ftyp_ok ft) (Fit : samples_fit ops) (Sel : chosen ops sel) (Bnd : movie_fits ft ops sel).
Notation fb := (ftyp_octets ft).
Notation m := (media ops).
Notation nid := (u32 (1 + ids_issued ops)).
Notation hs := (frame_header_size (Zlen m)).
Variables (s : session) (ts0 : list track).
Hypothesis (Inv : sinv Faststart timescale duration time ft fb 0 ops s).
Hypothesis (Ts0 : Forall2 (fun i t => nth_error (s_tracks s) i = Some t /\ tinv time 0 i ops t) sel ts0).

Definition traks_at (S : Z) : list node := map (fun t => make_trak (F S t)) ts0.
Definition M (S : Z) : Z := nsize (moov_node timescale duration time nid (traks_at S)).
Definition next (S : Z) : Z := Zlen fb + M S + hs.
Definition count (S : Z) : nat := length (filter (co S) ts0).
Definition ok (S : Z) : Prop := 0 <= S /\ S + Zlen m < 2 ^ 64.

Lemma sound_traks S : sound (moov_node timescale duration time nid (traks_at S)).
Proof. apply sound_moov_node. unfold traks_at. apply Forall_map, Forall_forall. intros t _. apply sound_trak. Qed.
Lemma printed_traks S : time_printable time -> printed (moov_node timescale duration time nid (traks_at S)).
Proof.
  intros Tp. apply printed_moov_node; [exact Tp|]. unfold traks_at. apply Forall_map. pose proof Ts0 as H0. clear -H0 Tp. induction H0 as [|i t l ts1 (_ & T) H IH]; [constructor|]. constructor; [|exact IH].
  apply printed_trak. rewrite F_time, (tinv_time _ _ _ _ _ T). exact Tp.
Qed.
Lemma M_bound S : ok S -> 8 <= M S /\ M S <= moov_bound ops sel - 3096.
Proof.
  intros (S0 & S1). split; [apply nsize_pos, sound_sized, sound_traks|]. unfold M. pose proof (moov_size timescale duration time nid (traks_at S)).
  assert (sum_by nsize (traks_at S) <= moov_bound ops sel - 4096); [|lia]. unfold traks_at. apply (traks_bound time ops sel (F S)).
  clear -Ts0 S0 S1. induction Ts0 as [|i t l ts1 (_ & T) H IH]; constructor; auto. exists 0, (0 + S). split; [exact T|]. split; [apply (tinv_shift_finished time 0 ops i t S T); lia|].
  unfold F, Track_resetChunkOffsets. cbv zeta. cbn [t_codec]. unfold Track_finalize. destruct (t_finalized t); reflexivity.
Qed.
Lemma next_ok S : ok S -> ok (next S).
Proof.
  intros H. pose proof (M_bound S H). pose proof (ftyp_size ft Fok). pose proof (frame_hs (Zlen m)). pose proof (Zlen_nonneg fb). pose proof (Zlen_nonneg m). unfold movie_fits in Bnd. unfold ok, next. lia.
Qed.
Lemma co_mono a b t : In t ts0 -> ok a -> ok b -> a <= b -> co a t = true -> co b t = true.
Proof.
  intros I (A0 & A1) (B0 & B1) L. assert (T : exists i, tinv time 0 i ops t).
  { clear -Ts0 I. induction Ts0 as [|i t' l ts1 (_ & T) H IH]; [destruct I|]. destruct I as [->|I]; eauto. }
  destruct T as (i & T). pose proof (recorded_finalize _ _ (ti_rec _ _ _ _ _ T)) as Fi.
  assert (HB : Forall (fun r => 0 <= fst r <= Zlen m) (recs_of i 0 (history ops))).
  { eapply Forall_impl; [|apply recs_bounds]. cbv beta. intros r (H1 & H2). rewrite <- media_octets in H2. pose proof (Zlen_nonneg (sm_data (snd r))). unfold size_of in H2. lia. }
  rewrite (co_spec a t _ (Zlen m) Fi HB) by lia. rewrite (co_spec b t _ (Zlen m) Fi HB) by lia. lia.
Qed.
Lemma M_mono a b : ok a -> ok b -> a <= b -> M a <= M b.
Proof.
  intros A B L. unfold M, moov_node. apply nsize_le; [reflexivity|]. constructor; [reflexivity|]. apply Forall2_app; [|constructor; [apply Z.le_refl|constructor]].
  pose proof (fun t I => co_mono a b t I A B L) as Mo. unfold traks_at. clear -Mo. induction ts0 as [|t l IH]; cbn [map]; constructor; [|apply IH; intros; apply Mo; [right; assumption|assumption]].
  apply trak_mono. apply Mo. left. reflexivity.
Qed.
Lemma count_le S : (count S <= length sel)%nat.
Proof. unfold count. rewrite (f2_length Ts0). clear. induction ts0 as [|t l IH]; cbn [filter length]; [lia|]. destruct (co S t); cbn [length]; lia. Qed.
Lemma count_grows a b : ok a -> ok b -> a <= b -> M a <> M b -> (count a < count b)%nat.
Proof.
  intros A B L N. pose proof (fun t I => co_mono a b t I A B L) as Mo.
  assert (G : forall l, (forall t, In t l -> co a t = true -> co b t = true) -> (length (filter (co a) l) <= length (filter (co b) l))%nat /\
    (length (filter (co a) l) = length (filter (co b) l) -> Forall (fun t => co a t = co b t) l)).
  { clear. induction l as [|t l IH]; intros H; [split; [auto|constructor]|]. destruct IH as (I1 & I2); [intros; apply H; [right|]; assumption|].
    pose proof (H t (or_introl eq_refl)) as Ht. cbn [filter]. destruct (co a t) eqn:Ea, (co b t) eqn:Eb; cbn [length]; try (specialize (Ht eq_refl); discriminate); (split; [lia|intros; constructor; [congruence|apply I2; lia]]) || (split; [lia|intros; lia]). }
  destruct (G ts0 Mo) as (G1 & G2). fold (count a) (count b) in *. destruct (Nat.eq_dec (count a) (count b)) as [E|]; [|lia]. exfalso. apply N. specialize (G2 E).
  apply Z.le_antisymm; (unfold M, moov_node; apply nsize_le; [reflexivity|]; constructor; [reflexivity|]; apply Forall2_app; [|constructor; [apply Z.le_refl|constructor]]; unfold traks_at; clear -G2; induction G2 as [|t l Ht H IH]; cbn [map]; constructor; [apply trak_mono; congruence|exact IH]).
Qed.

(** ** One iteration *)
Notation w := (s_writer s).
Record linv (s' : session) (prev : Z) : Prop := {
  li_w : exists mo, s_writer s' = set_moov mo w;
  li_len : length (s_tracks s') = length (s_tracks s);
  li_tracks : Forall2 (fun i t0 => exists t, nth_error (s_tracks s') i = Some t /\ forall d, F d t = F (prev + d) t0) sel ts0 }.
Lemma header_size_eq mo : Faststart_getMdatHeaderSize (set_moov mo w) = hs.
Proof.
  unfold Faststart_getMdatHeaderSize. cbn [set_moov mw_mdat_size]. rewrite (wi_mdat _ _ _ _ _ _ _ _ _ _ (si_w _ _ _ _ _ _ _ _ _ Inv)). unfold frame_header_size, UINT32_MAX, LARGE_HEADER_SIZE, SMALL_HEADER_SIZE.
  destruct (Z.gtb_spec (Zlen m) (2 ^ 32 - 1 - 8)), (Z.ltb_spec (Zlen m + 8) (2 ^ 32)); lia.
Qed.
Lemma iteration s' prev size : linv s' prev -> ok size -> size <= next size ->
  exists s2, Faststart_iter sel s' prev size = Ok (s2, next size) /\ linv s2 size /\
    s_writer s2 = set_moov (Some (place (moov_node timescale duration time nid (traks_at size)) (Zlen fb))) w /\
    Forall2 (fun i t0 => nth_error (s_tracks s2) i = Some (F size t0)) sel ts0.
Proof.
  intros [(mo & Ew) Le Tr] Ok_ Hn. destruct Sel as [ND Kn]. pose proof (M_bound size Ok_) as MB. pose proof (next_ok size Ok_) as (N0 & N1).
  pose proof (ftyp_size ft Fok). pose proof (frame_hs (Zlen m)). pose proof (Zlen_nonneg fb). pose proof (Zlen_nonneg m).
  destruct (si_w _ _ _ _ _ _ _ _ _ Inv) as [C1 C2 C3 C4 C5 C6 C7 C8 (D1 & D2 & D3 & D4 & D5)].
  unfold Faststart_iter, Faststart_recreateMoovBoxInfo. rewrite Ew.
  assert (Em : make_moov (set_moov mo w) = moov_with timescale duration time nid).
  { unfold make_moov, make_mvhd, moov_with. cbn [set_moov mw_time mw_timescale mw_duration mw_next_id]. rewrite C2, C3, C4, C8. reflexivity. }
  rewrite Em. unfold Writer_setOffsetAndSize at 1. cbn [set_moov mw_moov mw_ftyp_size mw_class]. rewrite C6, C1.
  rewrite sound_adjust by (apply sound_moov || (vm_compute; reflexivity)). cbn [obind set_moov mw_moov].
  destruct (append_traks_ok (Some (u64 (size - prev))) sel (place (moov_with timescale duration time nid) (Zlen fb)) (s_tracks s') ND) as (ts' & traks & E & Lt & Ft & A).
  { rewrite Le, (si_len _ _ _ _ _ _ _ _ _ Inv). exact Kn. }
  rewrite E. cbn [obind].
  assert (Etr : traks = traks_at size).
  { unfold traks_at. clear -Tr Ft. revert traks Ft. induction Tr as [|i t0 l l' (t & Ht & HF) H IH]; intros traks Ft; inversion Ft as [|? k ? ks (t' & Ht' & ->) F']; subst; [reflexivity|].
    cbn [map]. rewrite Ht in Ht'. injection Ht' as <-. f_equal; [|apply IH; exact F']. f_equal. unfold touch. fold (F (size - prev) t). rewrite finalize_F, HF. f_equal. lia. }
  unfold Writer_setOffsetAndSize. cbn [set_moov mw_moov mw_ftyp_size mw_class]. rewrite C6, C1.
  set (mn := node_add_leaf _ make_udta).
  assert (Sm : sound mn).
  { subst mn. apply sound_add; [|apply sound_udta]. subst traks. unfold traks_at. generalize (sound_moov timescale duration time nid). intros Sv.
    assert (Sp : sound (place (moov_with timescale duration time nid) (Zlen fb))).
    { unfold sound. rewrite tree_of_place. destruct Sv as (V1 & V2 & V3). auto using headers_ok_place. }
    revert Sp. generalize (place (moov_with timescale duration time nid) (Zlen fb)). clear. induction ts0 as [|t l IH]; intros n Sn; cbn [map fold_left]; [exact Sn|]. apply IH, sound_add; [exact Sn|apply sound_trak]. }
  assert (Pm : place mn (Zlen fb) = place (moov_node timescale duration time nid (traks_at size)) (Zlen fb)) by (subst mn; rewrite Etr; apply moov_node_place).
  assert (Nm : nsize mn = M size).
  { destruct (nsize_place mn (Zlen fb)) as (<- & _). rewrite Pm. apply nsize_place. }
  rewrite sound_adjust by (auto; unfold next in *; lia). rewrite Pm. cbn [obind]. unfold Faststart_size. cbn [set_moov mw_ftyp_size]. rewrite C6. unfold Faststart_getMoovSize. cbn [set_moov mw_moov].
  rewrite getSize_place. cbn [obind]. fold (M size).
  match goal with |- context [Faststart_getMdatHeaderSize ?x] => change x with (set_moov (Some (place (moov_node timescale duration time nid (traks_at size)) (Zlen fb))) w) end.
  rewrite header_size_eq. fold (next size). rewrite u64_small by lia. replace (next size <? size) with false by lia.
  eexists. split; [reflexivity|]. cbn [s_writer s_tracks].
  assert (Tr2 : Forall2 (fun i t0 => nth_error ts' i = Some (F size t0)) sel ts0).
  { assert (G : Forall (fun i => In i sel) sel) by (apply Forall_forall; auto). clear -Tr A G.
    assert (X : forall l l', Forall2 (fun i t0 => exists t, nth_error (s_tracks s') i = Some t /\ forall d, F d t = F (prev + d) t0) l l' -> Forall (fun i => In i sel) l -> Forall2 (fun i t0 => nth_error ts' i = Some (F size t0)) l l').
    { induction 1 as [|i t0 l l' (t & Ht & HF) H IH]; intros G'; constructor; inversion G'; subst; [|auto]. rewrite (A i t Ht). destruct (in_dec Nat.eq_dec i sel); [|contradiction]. f_equal.
      unfold touch. fold (F (size - prev) t). rewrite finalize_F, HF. f_equal. lia. }
    apply X; assumption. }
  split; [|split; [reflexivity|exact Tr2]]. constructor; cbn [s_writer s_tracks].
  - eexists. reflexivity.
  - rewrite Lt, Le. reflexivity.
  - eapply f2_impl; [|exact Tr2]. cbv beta. intros i t0 Ht. exists (F size t0). split; [exact Ht|]. intros d. apply F_F.
Qed.

(** ** The loop *)
Definition needed (S : Z) : nat := if next S =? S then 1 else (length sel - count S) + 2.
Lemma loop_ok fuel : forall s' prev size, linv s' prev -> ok size -> size <= next size -> (needed size <= fuel)%nat ->
  exists s2 S, Faststart_loop fuel sel s' prev size = Some (Ok s2) /\ ok S /\ next S = S /\ (forall S', ok S' -> next S' = S' -> size <= S' -> S <= S') /\
    s_writer s2 = set_moov (Some (place (moov_node timescale duration time nid (traks_at S)) (Zlen fb))) w /\
    Forall2 (fun i t0 => nth_error (s_tracks s2) i = Some (F S t0)) sel ts0.
Proof.
  induction fuel as [|f IH]; intros s' prev size L O Hn Hf; [unfold needed in Hf; destruct (next size =? size); lia|].
  destruct (iteration s' prev size L O Hn) as (s2 & E & L2 & W2 & T2). cbn [Faststart_loop]. rewrite E.
  destruct (Z.eqb_spec size (next size)) as [Eq|Ne]; cbn [negb].
  - exists s2, size. repeat (split; auto).
  - pose proof (next_ok size O) as O2. assert (Mm : M size <= M (next size)) by (apply M_mono; auto).
    assert (Hn2 : next size <= next (next size)) by (unfold next at 1 2; unfold next in Mm; unfold next; lia).
    assert (Nf : (needed (next size) <= f)%nat).
    {
    unfold needed in *. replace (next size =? size) with false in Hf by lia. destruct (Z.eqb_spec (next (next size)) (next size)) as [E2|N2]; [lia|].
    assert (Mn : M size <> M (next size)) by (intros X; apply N2; unfold next at 1; rewrite <- X; reflexivity).
    pose proof (count_grows size (next size) O O2 Hn Mn). pose proof (count_le (next size)). lia. }
    destruct (IH s2 size (next size) L2 O2 Hn2 Nf) as (s3 & S & Q1 & Q2 & Q3 & Q4 & Q5). exists s3, S. split; [exact Q1|]. split; [exact Q2|]. split; [exact Q3|]. split; [|exact Q5].
    intros S' O' F' L'. apply (Q4 S' O' F'). pose proof (M_mono size S' O O' L'). rewrite <- F'. unfold next. lia.
Qed.

(** ** appendTrakAndUdtaBoxInfo ends, normally (C30) *)
Lemma faststart_append_least :
  exists s2 S, step s (O_AppendTrakAndUdta sel) = (s2, Ok tt) /\ ok S /\ S = Zlen fb + M S + hs /\ (forall S', ok S' -> next S' = S' -> S <= S') /\
    s_writer s2 = set_moov (Some (place (moov_node timescale duration time nid (traks_at S)) (Zlen fb))) w.
Proof.
  destruct (si_w _ _ _ _ _ _ _ _ _ Inv) as [C1 C2 C3 C4 C5 C6 C7 C8 (D1 & D2 & D3 & D4 & D5)].
  pose proof (ftyp_size ft Fok). pose proof (frame_hs (Zlen m)). pose proof (Zlen_nonneg fb). pose proof (Zlen_nonneg m). pose proof (Zlen_nonneg (ftyp_compatible_brands ft)). unfold movie_fits in Bnd.
  set (S0 := Zlen fb + hs).
  assert (O0 : ok S0).
  { assert (Ok0 : ok 0) by (unfold ok; destruct (movie_fits_media _ _ _ Fok Bnd) as (_ & ? & _); lia). pose proof (M_bound 0 Ok0). unfold ok, S0. lia. }
  pose proof (M_bound S0 O0) as MB.
  cbn [step]. rewrite C1. unfold Faststart_append, Faststart_size, Faststart_getMoovSize. rewrite C6, D2. cbn [obind].
  pose proof (header_size_eq None) as Hh. replace (set_moov None w) with w in Hh by (rewrite <- D2; destruct w; reflexivity). rewrite Hh.
  rewrite Z.add_0_r. fold S0. rewrite u64_small by (unfold ok in O0; lia).
  destruct (loop_ok (Faststart_append_fuel sel) s 0 S0) as (s2 & S & E & O & Hn & Le & W & T).
  - constructor; [exists None; rewrite <- D2; destruct w; reflexivity|reflexivity|]. eapply f2_impl; [|exact Ts0]. cbv beta. intros i t (Ht & _). exists t. auto.
  - exact O0.
  - unfold next. unfold S0 at 1. lia.
  - unfold needed, Faststart_append_fuel. destruct (_ =? _); lia.
  - rewrite E. exists s2, S. cbn [lift_s]. split; [reflexivity|]. split; [exact O|]. split; [symmetry; exact Hn|]. split; [|exact W].
    intros S' O' F'. apply (Le S' O' F'). rewrite <- F'. pose proof (M_bound S' O'). unfold next, S0. lia.
Qed.

Lemma faststart_append :
  exists s2 S, step s (O_AppendTrakAndUdta sel) = (s2, Ok tt) /\ ok S /\ S = Zlen fb + M S + hs /\
    s_writer s2 = set_moov (Some (place (moov_node timescale duration time nid (traks_at S)) (Zlen fb))) w.
Proof. destruct faststart_append_least as (s2 & S & H1 & H2 & H3 & _ & H4). exists s2, S. auto. Qed.

Lemma faststart_finish : time_printable time ->
  let r := run s [O_AppendTrakAndUdta sel; O_WriteMoov; O_WriteMdatHeader; O_CopyMdatData] in
  snd r = [Ok tt; Ok tt; Ok tt; Ok tt] /\
  exists S traks,
    let pre := fb ++ serialize_with written (T (str "moov") B_container (T (str "mvhd") (B_mvhd (mvhd_of timescale duration time nid)) [] :: traks ++ [tree_of make_udta]))
                  ++ frame_header (str "mdat") (Zlen m) in
    let file := pre ++ m in
    os_data (mw_os (s_writer (fst r))) = file /\
    Forall2 (fun i tr => tree_type tr = str "trak" /\ exists info, read_trak tr = Some info /\ describes file ops i info) sel traks /\
    Forall2 (fun i tr => exists t, nth_error (s_tracks s) i = Some t /\ tinv time 0 i ops t /\ tr = tree_of (make_trak (F S t))) sel traks /\
    (0 <= S /\ S + Zlen m < 2 ^ 64 /\ S = Zlen pre) /\
    (forall S' traks', 0 <= S' -> S' + Zlen m < 2 ^ 64 ->
       Forall2 (fun i tr => exists t, nth_error (s_tracks s) i = Some t /\ tinv time 0 i ops t /\ tr = tree_of (make_trak (F S' t))) sel traks' ->
       S' = Zlen (fb ++ serialize_with written (T (str "moov") B_container (T (str "mvhd") (B_mvhd (mvhd_of timescale duration time nid)) [] :: traks' ++ [tree_of make_udta]))
                  ++ frame_header (str "mdat") (Zlen m)) -> S <= S').
Proof.
  intros Tp. cbv zeta. destruct faststart_append_least as (s1 & S & E1 & O & ES & Least & W1). rewrite run_cons, E1.
  destruct (si_w _ _ _ _ _ _ _ _ _ Inv) as [C1 C2 C3 C4 C5 C6 C7 C8 (D1 & D2 & D3 & D4 & D5)].
  pose proof (M_bound S O) as MB. pose proof (frame_hs (Zlen m)). pose proof (Zlen_nonneg fb). pose proof (Zlen_nonneg m). unfold ok in O.
  set (mn := moov_node timescale duration time nid (traks_at S)) in *. assert (Sm : sound mn) by apply sound_traks. assert (Pm : printed mn) by (apply printed_traks; exact Tp). fold mn in MB. change (M S) with (nsize mn) in *.
  assert (Lm : Zlen (fb ++ serialize_with written (tree_of mn)) = Zlen fb + nsize mn) by (rewrite Zlen_app, (sound_size mn Sm); reflexivity).
  assert (R : exists s2, run s1 [O_WriteMoov; O_WriteMdatHeader; O_CopyMdatData] = (s2, [Ok tt; Ok tt; Ok tt]) /\
    os_data (mw_os (s_writer s2)) = (fb ++ serialize_with written (tree_of mn)) ++ frame_header (str "mdat") (Zlen m) ++ m).
  { cbn [run step]. unfold Writer_writeMoovBox. rewrite W1. cbn [set_moov mw_class mw_ftyp_size mw_os]. rewrite C1, C6. unfold write_moov_tree. cbn [set_os set_moov mw_moov mw_next_id mw_os]. rewrite C8, D3.
    replace (set_next_track_id nid (place mn (Zlen fb))) with (place mn (Zlen fb)) by (unfold mn; symmetry; apply set_id_place). rewrite sound_write by (auto; lia). cbn [os_seekp os_data lift s_writer s_tracks].
    rewrite splice_end. unfold Faststart_writeMdatHeader. cbn [set_os set_moov mw_ftyp_size mw_os]. rewrite C6. unfold Faststart_getMoovSize. cbn [set_os set_moov mw_moov]. rewrite getSize_place. cbn [obind].
    match goal with |- context [Faststart_getMdatHeaderSize ?x] => replace (Faststart_getMdatHeaderSize x) with hs by (symmetry; exact (header_size_eq None)) end.
    cbn [set_os set_moov mw_mdat_size]. rewrite C7. rewrite !u64_small by lia. cbn [lift s_writer s_tracks]. unfold header_write. cbn [snd h_offset os_seekp os_data].
    rewrite header_octets_frame by lia.
    unfold Faststart_copyMdatData. cbn [set_os set_moov mw_tmp_open mw_tmp mw_os]. rewrite D5, D4. cbn [os_data].
    rewrite <- Lm. rewrite copy_file by (unfold os_write, os_seekp; cbn [os_pos]; apply Z.add_nonneg_nonneg; apply Zlen_nonneg).
    cbn [lift s_writer s_tracks]. eexists. split; [reflexivity|]. cbn [set_tmp set_os set_moov s_writer mw_os]. unfold os_write, os_seekp. cbn [os_data os_pos]. rewrite splice_end, <- Zlen_app, splice_end, <- (app_assoc (fb ++ _)). reflexivity. }
  destruct R as (s2 & -> & Ed). cbn [fst snd]. split; [reflexivity|]. rewrite Ed.
  exists S, (map tree_of (traks_at S)). unfold mn. rewrite moov_node_tree.
  set (mv := serialize_with written _). set (pre := fb ++ mv ++ frame_header (str "mdat") (Zlen m)).
  assert (Lp : Zlen pre = S).
  { unfold pre. rewrite app_assoc, Zlen_app, frame_header_length by reflexivity. rewrite ES, <- Lm. unfold mv, mn. rewrite moov_node_tree. reflexivity. }
  split; [unfold pre; rewrite <- !app_assoc; reflexivity|]. split.
  - unfold traks_at. rewrite map_map. clearbody pre. clear -Fit Ts0 Lp O.
    induction Ts0 as [|i t l ts1 (_ & T) H IH]; cbn [map]; constructor; [split; [reflexivity|]|auto].
    destruct (ti_static _ _ _ _ _ T) as (o & Eo & Sto).
    rewrite <- (app_nil_r m). apply (describes_finished time ops Fit i (F S t) o S pre [] Eo); [|apply (tinv_shift_finished time 0 ops i t S T); lia|exact Lp|lia].
    unfold F, Track_resetChunkOffsets. pose proof (static_finalize _ _ _ Sto) as X. unfold static in *. exact X.
  - split; [unfold traks_at; rewrite map_map; clear -Ts0; induction Ts0 as [|i t l ts1 (N & T) H IH]; cbn [map]; constructor; eauto|].
    split; [split; [exact (proj1 O)|split; [exact (proj2 O)|symmetry; exact Lp]]|]. intros S' traks' O1 O2 H' E'. apply (Least S' (conj O1 O2)).
    assert (Et : traks' = map tree_of (traks_at S')).
    { unfold traks_at. rewrite map_map. clear -H' Ts0. revert traks' H'. induction Ts0 as [|i t l ts1 (N & T) H IH]; intros traks' H'; inversion H' as [|? ? ? ? (t' & N' & _ & E) H'']; subst; [reflexivity|]. cbn [map]. f_equal; [congruence|apply IH; assumption]. }
    subst traks'. rewrite <- moov_node_tree in E'. rewrite !Zlen_app, frame_header_length in E' by reflexivity. rewrite (sound_size _ (sound_traks S')) in E'. unfold next, M. lia.
Qed.
End S.

(** The whole session. *)
Lemma faststart_session_least timescale duration time ft ops sel : time_printable time -> ftyp_ok ft -> recording ops -> chosen ops sel -> movie_fits ft ops sel ->
  let r := run (start Faststart timescale duration time ft) (faststart_program ops sel) in
  Forall (fun x => x <> UB) (snd r) /\ skipn (length (O_WriteFtyp :: ops)) (snd r) = [Ok tt; Ok tt; Ok tt; Ok tt] /\
  exists S traks,
    let pre := ftyp_octets ft ++ serialize_with written (T (str "moov") B_container (T (str "mvhd") (B_mvhd (mvhd_of timescale duration time (u32 (1 + ids_issued ops)))) [] :: traks ++ [tree_of make_udta]))
                  ++ frame_header (str "mdat") (Zlen (media ops)) in
    let file := pre ++ media ops in
    os_data (mw_os (s_writer (fst r))) = file /\
    Forall2 (fun i tr => tree_type tr = str "trak" /\ exists info, read_trak tr = Some info /\ describes file ops i info) sel traks /\
    Forall2 (fun i tr => exists t, nth_error (s_tracks (fst (run (start Faststart timescale duration time ft) (O_WriteFtyp :: ops)))) i = Some t /\ tinv time 0 i ops t /\ tr = tree_of (make_trak (F S t))) sel traks /\
    (0 <= S /\ S + Zlen (media ops) < 2 ^ 64 /\ S = Zlen pre) /\
    (forall S' traks', 0 <= S' -> S' + Zlen (media ops) < 2 ^ 64 ->
       Forall2 (fun i tr => exists t, nth_error (s_tracks (fst (run (start Faststart timescale duration time ft) (O_WriteFtyp :: ops)))) i = Some t /\ tinv time 0 i ops t /\ tr = tree_of (make_trak (F S' t))) sel traks' ->
       S' = Zlen (ftyp_octets ft ++ serialize_with written (T (str "moov") B_container (T (str "mvhd") (B_mvhd (mvhd_of timescale duration time (u32 (1 + ids_issued ops)))) [] :: traks' ++ [tree_of make_udta]))
                  ++ frame_header (str "mdat") (Zlen (media ops))) -> S <= S').
Proof.
  intros Tp Fo [R1 R2 R3 R4] Ch B. cbv zeta. destruct (movie_fits_media _ _ _ Fo B) as (B1 & B2 & B3).
  destruct (start_sinv Faststart timescale duration time ft Fo B1) as (E0 & S0).
  unfold faststart_program. cbn [run]. destruct (step (start Faststart timescale duration time ft) O_WriteFtyp) as [s0 r0] eqn:Es. cbn [fst snd] in *. subst r0.
  destruct (run_sinv _ _ _ _ _ _ _ s0 ops S0 R1 R2 R3 R4 B2) as (S1 & U1). cbn [base_of] in S1.
  rewrite run_app. destruct (run s0 ops) as [s1 rs] eqn:Er. cbn [fst snd] in *.
  destruct (select_tracks _ _ _ _ _ _ _ ops s1 sel S1 (proj2 Ch)) as (ts0 & H0).
  destruct (faststart_finish timescale duration time ft ops sel Fo R4 Ch B s1 ts0 S1 H0 Tp) as (Ef & S & traks & H1 & H2 & H3). cbv zeta in *.
  set (r2 := run s1 _) in *. destruct r2 as [s2 rs2]. cbn [fst snd] in *. subst rs2.
  assert (Lr : length rs = length ops).
  { pose proof (f_equal snd Er) as L. cbn [snd] in L. rewrite <- L. clear. revert s0. induction ops as [|o l IH]; intros s0; [reflexivity|]. cbn [run]. destruct (step s0 o) as [sa ra]. specialize (IH sa). destruct (run sa l). cbn [snd length] in *. lia. }
  split; [constructor; [discriminate|]; apply Forall_app; split; [exact U1|repeat constructor; discriminate]|].
  split; [cbn [length skipn]; apply skipn_exact; exact Lr|]. exists S, traks. auto.
Qed.
Lemma faststart_session timescale duration time ft ops sel : time_printable time -> ftyp_ok ft -> recording ops -> chosen ops sel -> movie_fits ft ops sel ->
  let r := run (start Faststart timescale duration time ft) (faststart_program ops sel) in
  Forall (fun x => x <> UB) (snd r) /\ skipn (length (O_WriteFtyp :: ops)) (snd r) = [Ok tt; Ok tt; Ok tt; Ok tt] /\
  exists S traks,
    let pre := ftyp_octets ft ++ serialize_with written (T (str "moov") B_container (T (str "mvhd") (B_mvhd (mvhd_of timescale duration time (u32 (1 + ids_issued ops)))) [] :: traks ++ [tree_of make_udta]))
                  ++ frame_header (str "mdat") (Zlen (media ops)) in
    let file := pre ++ media ops in
    os_data (mw_os (s_writer (fst r))) = file /\
    Forall2 (fun i tr => tree_type tr = str "trak" /\ exists info, read_trak tr = Some info /\ describes file ops i info) sel traks /\
    Forall2 (fun i tr => exists t, nth_error (s_tracks (fst (run (start Faststart timescale duration time ft) (O_WriteFtyp :: ops)))) i = Some t /\ tinv time 0 i ops t /\ tr = tree_of (make_trak (F S t))) sel traks /\
    0 <= S /\ S + Zlen (media ops) < 2 ^ 64 /\ S = Zlen pre.
Proof.
  intros Tp Fo R Ch B. destruct (faststart_session_least timescale duration time ft ops sel Tp Fo R Ch B) as (H1 & H2 & S & traks & H3 & H4 & H5 & H6 & _). cbv zeta in *.
  split; [exact H1|]. split; [exact H2|]. exists S, traks. auto.
Qed.
