(** Lemmas for C82. *)
From Verif Require Import Base BitIO BitFacts BitIOProofs Boxes WireFormat Box BoxSpec BoxTac BoxWrite BoxIO BoxSize BoxLemmas Print PrintSpec BoxTree TreeSpec TreeProofs TreeLayout AnnexBSpec H264 Track Writers MovieSpec TrackProofs TrakProofs SessionProofs MovieShape Completion MovieSize FileProofs SimpleFile FaststartFile TrackLemmas FileLemmas IndependenceSpec Independence TilingSpec.
From Coq Require Import Ascii String List.
Import ListNotations.
Open Scope Z_scope.
Open Scope list_scope.

(** * The positions of the samples stored *)
Definition located (i : nat) (b : Z) (h : list (option nat * sample)) : list (Z * Z) := map loc (recs_of i b h).
Definition who_of (h : list (option nat * sample)) : list (option nat) := flat_map (fun x => map (fun _ => fst x) (sm_data (snd x))) h.
Definition total (h : list (option nat * sample)) : Z := Zlen (octets_of h).
Definition mine (i : nat) (w : option nat) : bool := match w with Some j => Nat.eqb i j | None => false end.
Lemma located_cons i b w s h : located i b ((w, s) :: h) = (if mine i w then [(b, Zlen (sm_data s))] else []) ++ located i (b + Zlen (sm_data s)) h.
Proof. unfold located, recs_of, select. cbn [placed flat_map fst snd]. destruct w as [j|]; cbn [mine]; [destruct (Nat.eqb i j)|]; reflexivity. Qed.
Lemma total_cons w s h : total ((w, s) :: h) = Zlen (sm_data s) + total h.
Proof. unfold total, octets_of. cbn [flat_map snd]. apply Zlen_app. Qed.
Lemma located_within i b h : Forall (within b (total h)) (located i b h).
Proof.
  unfold located. apply Forall_map. eapply Forall_impl; [|apply recs_bounds]. cbv beta. intros r (A & B). unfold within, loc, total, size_of in *. cbn [fst snd].
  pose proof (Zlen_nonneg (sm_data (snd r))). lia.
Qed.
Lemma within_in i b h r : In r (located i b h) -> within b (total h) r.
Proof. intros H. pose proof (located_within i b h) as X. rewrite Forall_forall in X. exact (X r H). Qed.

Lemma apart_sym a b : apart a b -> apart b a. Proof. intros [H|H]; [right|left]; exact H. Qed.
Lemma apart_first b n m r : within (b + n) m r -> apart (b, n) r.
Proof. unfold within, apart. cbn [fst snd]. lia. Qed.
Lemma apart_tracks i j h : i <> j -> forall b r r', In r (located i b h) -> In r' (located j b h) -> apart r r'.
Proof.
  intros N. induction h as [|[w s] h IH]; intros b r r' A B; [contradiction|]. rewrite located_cons in A, B. apply in_app_iff in A, B.
  assert (X : forall q (z : Z * Z), In z (if mine q w then [(b, Zlen (sm_data s))] else []) -> mine q w = true /\ z = (b, Zlen (sm_data s))).
  { intros q z H. destruct (mine q w); [destruct H as [<-|[]]; auto|contradiction]. }
  destruct A as [A|A], B as [B|B].
  - apply X in A, B. destruct A as (A & _), B as (B & _). destruct w as [w|]; [|discriminate]. apply PeanoNat.Nat.eqb_eq in A, B. congruence.
  - apply X in A as (_ & ->). eapply apart_first, within_in, B.
  - apply X in B as (_ & ->). apply apart_sym. eapply apart_first, within_in, A.
  - eapply IH; eassumption.
Qed.
Lemma apart_same i h : forall b n n' r r', nth_error (located i b h) n = Some r -> nth_error (located i b h) n' = Some r' -> n <> n' -> apart r r'.
Proof.
  induction h as [|[w s] h IH]; intros b n n' r r' A B N; [destruct n; discriminate|]. rewrite located_cons in A, B.
  destruct (mine i w); cbn [app] in A, B; [|exact (IH _ _ _ _ _ A B N)]. destruct n as [|n], n' as [|n']; cbn [nth_error] in A, B.
  - contradiction.
  - injection A as <-. eapply apart_first, within_in, nth_error_In, B.
  - injection B as <-. apply apart_sym. eapply apart_first, within_in, nth_error_In, A.
  - eapply IH; [exact A|exact B|congruence].
Qed.
Lemma located_owner i h : forall b p, b <= p -> (exists n r, nth_error (located i b h) n = Some r /\ covers r p) <-> nth_error (who_of h) (Z.to_nat (p - b)) = Some (Some i).
Proof.
  induction h as [|[w s] h IH]; intros b p L.
  - split; [intros (n & r & A & _); destruct n; discriminate|destruct (Z.to_nat (p - b)); discriminate].
  - rewrite located_cons. unfold who_of. cbn [flat_map fst snd]. fold (who_of h). set (l := Zlen (sm_data s)). assert (L0 : 0 <= l) by apply Zlen_nonneg.
    assert (Len : length (map (fun _ : Z => w) (sm_data s)) = Z.to_nat l) by (rewrite map_length; unfold l, Zlen; lia).
    destruct (Z.lt_ge_cases p (b + l)) as [Q|Q].
    + rewrite nth_error_app1 by lia. assert (E : nth_error (map (fun _ : Z => w) (sm_data s)) (Z.to_nat (p - b)) = Some w).
      { destruct (nth_error (sm_data s) (Z.to_nat (p - b))) as [x|] eqn:E; [apply (map_nth_error (fun _ => w)) in E; exact E|]. apply nth_error_None in E. rewrite map_length in Len. lia. }
      rewrite E. split.
      * intros (n & r & A & C). unfold covers in C. destruct (mine i w) eqn:M; cbn [app] in A.
        -- destruct w as [j|]; [|discriminate]. apply PeanoNat.Nat.eqb_eq in M. congruence.
        -- apply nth_error_In, within_in in A. unfold within in A. fold l in A. lia.
      * intros X. injection X as ->. cbn [mine]. rewrite PeanoNat.Nat.eqb_refl. exists 0%nat, (b, l). split; [reflexivity|]. unfold covers. cbn [fst snd]. lia.
    + rewrite nth_error_app2 by lia. rewrite Len. replace (Z.to_nat (p - b) - Z.to_nat l)%nat with (Z.to_nat (p - (b + l))) by lia. rewrite <- IH by lia. split.
      * intros (n & r & A & C). destruct (mine i w); cbn [app] in A; [|eauto]. destruct n as [|n]; cbn [nth_error] in A; [|eauto]. injection A as <-. unfold covers in C. cbn [fst snd] in C. fold l in C. lia.
      * intros (n & r & A & C). destruct (mine i w); cbn [app]; [exists (S n)|exists n]; exists r; auto.
Qed.

(** * Files *)
Definition locates (ops : list op) (b : Z) (i : nat) (info : track_info) : Prop := i_locations info = located i b (history ops).
Lemma f2_right {A B} (P : A -> B -> Prop) l l' : Forall2 P l l' -> forall k b, nth_error l' k = Some b -> exists a, nth_error l k = Some a /\ P a b.
Proof. induction 1 as [|a b l l' H F IH]; intros [|k] x E; cbn [nth_error] in *; try discriminate; [injection E as <-; eauto|eauto]. Qed.
Lemma f2_left {A B} (P : A -> B -> Prop) l l' : Forall2 P l l' -> forall k a, nth_error l k = Some a -> exists b, nth_error l' k = Some b /\ P a b.
Proof. induction 1 as [|a b l l' H F IH]; intros [|k] x E; cbn [nth_error] in *; try discriminate; [injection E as <-; eauto|eauto]. Qed.
Lemma located_tiled pre post ops sel b infos : Zlen pre = b -> NoDup sel -> Forall2 (locates ops b) sel infos -> tiled (pre ++ media ops ++ post) ops sel b infos.
Proof.
  intros Ep Nd H. assert (Et : total (history ops) = Zlen (media ops)) by reflexivity. pose proof (Zlen_nonneg pre). pose proof (Zlen_nonneg post).
  assert (Fn : forall k n r, found infos k n r -> exists i, nth_error sel k = Some i /\ nth_error (located i b (history ops)) n = Some r).
  { intros k n r (info & A & B). destruct (f2_right _ _ _ H k info A) as (i & I & L). exists i. split; [exact I|]. rewrite <- L. exact B. }
  split; [lia|]. split; [rewrite !Zlen_app; lia|]. split.
  { unfold octets_at. cbn [fst snd]. rewrite <- Ep. rewrite skipn_exact by (unfold Zlen; lia). rewrite firstn_exact by (unfold Zlen; lia). reflexivity. }
  split; [|split].
  - intros k n r F. destruct (Fn _ _ _ F) as (i & _ & A). rewrite <- Et. eapply within_in, nth_error_In, A.
  - intros k n r k' n' r' F F' N. destruct (Fn _ _ _ F) as (i & I & A). destruct (Fn _ _ _ F') as (i' & I' & A').
    destruct (PeanoNat.Nat.eq_dec i i') as [<-|D].
    + assert (k = k'). { apply (proj1 (NoDup_nth_error sel) Nd); [apply nth_error_Some; congruence|congruence]. }
      eapply apart_same; [exact A|exact A'|congruence].
    + eapply apart_tracks; [exact D|eapply nth_error_In, A|eapply nth_error_In, A'].
  - intros p k i L I. change (owners ops) with (who_of (history ops)). rewrite <- located_owner by exact L. split.
    + intros (n & r & F & C). destruct (Fn _ _ _ F) as (i' & I' & A). exists n, r. split; [congruence|exact C].
    + intros (n & r & A & C). exists n, r. split; [|exact C]. destruct (f2_left _ _ _ H k i I) as (info & J & Lo). exists info. split; [exact J|]. rewrite Lo. exact A.
Qed.

Lemma trak_located i ops b t : samples_fit ops -> finished t (recs_of i b (history ops)) -> 0 <= b -> b + Zlen (media ops) < 2 ^ 64 ->
  exists info, read_trak (tree_of (make_trak t)) = Some info /\ locates ops b i info.
Proof.
  intros Fit Fi B0 B1. destruct (Fit i) as [N1 N2]. pose proof (recs_of_samples i (history ops) b) as Er. rewrite <- samples_select in Er.
  assert (Bo : Forall (fun r => 0 <= fst r < 2 ^ 64) (recs_of i b (history ops))).
  { eapply Forall_impl; [|apply recs_bounds]. cbv beta. intros r (H1 & H2). rewrite <- media_octets in H2. pose proof (Zlen_nonneg (sm_data (snd r))). unfold size_of in H2. lia. }
  rewrite finished_trak with (recs := recs_of i b (history ops)); auto using recs_sorted; [|rewrite <- Er, Zlen_map in N1; exact N1].
  eexists. split; [reflexivity|]. unfold locates. cbn [i_locations]. reflexivity.
Qed.
Lemma movie_located ops b sel traks pre post timescale duration time id :
  Forall2 (fun i tr => tree_type tr = str "trak" /\ exists info, read_trak tr = Some info /\ locates ops b i info) sel traks ->
  Forall (fun t => is_type t_moov t = false) pre -> Forall (fun t => is_type t_moov t = false) post ->
  exists infos, read_movie (pre ++ [moov_tree timescale duration time id traks] ++ post) = Some (map Some infos) /\ Forall2 (locates ops b) sel infos.
Proof.
  intros D A B. rewrite read_moov; auto; [|clear -D; induction D as [|i tr l l' (H & _) D IH]; constructor; auto].
  clear -D. induction D as [|i tr l l' (_ & info & E & H) D (infos & E' & H')]; [exists []; split; [reflexivity|constructor]|].
  exists (info :: infos). split; [cbn [map]; rewrite E; injection E' as ->; reflexivity|constructor; assumption].
Qed.

Lemma tiled_session cls timescale duration time ft ops sel : time_printable time -> ftyp_ok ft -> recording ops -> chosen ops sel -> movie_fits ft ops sel -> bytes (media ops) ->
  let file := output (fst (run (start cls timescale duration time ft) (program cls ops sel))) in
  exists traks infos base,
    file = flat_map (serialize_with written) (boxes_of cls timescale duration time ft ops traks) /\
    read_movie (boxes_of cls timescale duration time ft ops traks) = Some (map Some infos) /\ tiled file ops sel base infos.
Proof.
  intros Tp Fo R Ch B Hb. destruct (movie_fits_media _ _ _ Fo B) as (B1 & B2 & B3). pose proof R as [R1 R2 R3 R4]. pose proof Ch as [Nd _].
  cbv zeta. destruct cls; cbn [program boxes_of].
  - destruct (simple_session timescale duration time ft ops sel Tp Fo R Ch B) as (_ & _ & traks & E & _ & T). cbv zeta in *. set (b := Zlen (ftyp_octets ft) + 16) in *.
    assert (B0 : 0 <= b) by (pose proof (Zlen_nonneg (ftyp_octets ft)); unfold b; lia).
    assert (Bb : b + Zlen (media ops) < 2 ^ 64) by (pose proof (SimpleFile.ftyp_size ft Fo); unfold movie_fits in B; unfold b; lia).
    destruct (movie_located ops b sel traks ([ftyp_tree ft] ++ free_trees (media ops) ++ [mdat_tree (media ops)]) [] timescale duration time (u32 (1 + ids_issued ops))) as (infos & E1 & E2).
    + eapply f2_impl; [|exact T]. intros i tr (t & Et & Ti & ->). split; [reflexivity|]. apply trak_located; auto. apply recorded_finalize, (ti_rec _ _ _ _ _ Ti).
    + apply Forall_app. split; [repeat constructor|]. apply Forall_app. split; [unfold free_trees; destruct (_ <? _); repeat constructor|repeat constructor].
    + constructor.
    + exists traks, infos, b. split; [|split].
      * unfold output. rewrite E. rewrite flat_map4, free_octets. rewrite mdat_octets by exact Hb.
        change (serialize_with written (ftyp_tree ft)) with (ftyp_octets ft). unfold moov_tree. rewrite <- udta_ok. rewrite <- !app_assoc. reflexivity.
      * rewrite <- E1. f_equal. rewrite <- !app_assoc, app_nil_r. reflexivity.
      * unfold output. rewrite E. apply located_tiled; auto. rewrite Zlen_app, free_mdat_length. reflexivity.
  - destruct (faststart_session timescale duration time ft ops sel Tp Fo R Ch B) as (_ & _ & S & traks & E & _ & T & S0 & S1 & S2). cbv zeta in *.
    destruct (movie_located ops S sel traks [ftyp_tree ft] [mdat_tree (media ops)] timescale duration time (u32 (1 + ids_issued ops))) as (infos & E1 & E2).
    + eapply f2_impl; [|exact T]. intros i tr (t & Et & Ti & ->). split; [reflexivity|]. apply trak_located; [exact R4|apply (tinv_shift_finished time 0 ops i t S Ti); lia|lia|lia].
    + repeat constructor.
    + repeat constructor.
    + exists traks, infos, S. split; [|split].
      * unfold output. rewrite E. rewrite flat_map3. rewrite mdat_octets by exact Hb.
        change (serialize_with written (ftyp_tree ft)) with (ftyp_octets ft). unfold moov_tree. rewrite <- udta_ok. rewrite <- !app_assoc. reflexivity.
      * exact E1.
      * unfold output. rewrite E. match goal with |- tiled (?pre ++ media ops) _ _ _ _ => pose proof (located_tiled pre [] ops sel S infos) as X end. rewrite app_nil_r in X. apply X; auto.
Qed.
