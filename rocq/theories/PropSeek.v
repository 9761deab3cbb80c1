(** C80: jumping to a moment of a track. *)
From Coq Require Import ZifyBool.
From Verif Require Import Base BitIO Boxes WireFormat BoxSpec Box BoxTree TreeSpec PrintSpec Track Writers MovieSpec FaststartFile RoundTrip SeekSpec PropFile PropRoundTrip.
From Coq Require Import Ascii String List Sorted.
Import ListNotations.
Open Scope Z_scope.
Open Scope list_scope.

(** The durations computed from timestamps that do not decrease. *)
Lemma playing_walk : forall ts d t0 t, StronglySorted Z.le ((t0 :: ts) ++ [d]) -> d - t0 < 2 ^ 32 -> t0 <= t ->
  match playing (expected_durations (t0 :: ts) d) (t - t0) with
  | Some k => t < d /\ exists u, nth_error (t0 :: ts) k = Some u /\ u <= t /\ forall k' u', (k < k')%nat -> nth_error (t0 :: ts) k' = Some u' -> t < u'
  | None => d <= t
  end.
Proof.
  induction ts as [|t1 ts IH]; intros d t0 t S B L.
  - cbn [expected_durations playing app] in *. inversion S as [|? ? S1 F]; subst. inversion F as [|? ? F1 _]; subst.
    rewrite Z.mod_small by lia. destruct (t - t0 <? d - t0) eqn:C; cbn [option_map].
    + split; [lia|]. exists t0. split; [reflexivity|]. split; [exact L|]. intros k' u' K E. destruct k' as [|k']; [lia|]. destruct k'; discriminate E.
    + lia.
  - cbn [app] in S. inversion S as [|? ? S1 F]; subst. inversion F as [|? ? F1 F2]; subst. apply Forall_app in F2 as [F2 F3]. inversion F3 as [|? ? F4 _]; subst.
    assert (L1 : t1 <= d). { inversion S1 as [|? ? _ G]; subst. apply Forall_app in G as [_ G]. inversion G; subst; assumption. }
    assert (Eu : expected_durations (t0 :: t1 :: ts) d = (t1 - t0) mod 2 ^ 32 :: expected_durations (t1 :: ts) d) by reflexivity. rewrite Eu. cbn [playing].
    rewrite Z.mod_small by lia. destruct (t - t0 <? t1 - t0) eqn:C.
    + split; [lia|]. exists t0. split; [reflexivity|]. split; [exact L|]. intros k' u' K E. destruct k' as [|k']; [lia|]. cbn [nth_error] in E.
      destruct k' as [|k']; [injection E as <-; lia|]. cbn [nth_error] in E. apply nth_error_In in E. inversion S1 as [|? ? _ G]; subst. rewrite Forall_forall in G. pose proof (G u' ltac:(apply in_or_app; left; exact E)). lia.
    + replace (t - t0 - (t1 - t0)) with (t - t1) by lia. pose proof (IH d t1 t S1 ltac:(lia) ltac:(lia)) as H.
      destruct (playing (expected_durations (t1 :: ts) d) (t - t1)) as [k|]; cbn [option_map]; [|exact H]. destruct H as (H0 & u & H1 & H2 & H3). split; [exact H0|]. exists u.
      split; [exact H1|]. split; [exact H2|]. intros k' u' K E. destruct k' as [|k']; [lia|]. exact (H3 k' u' ltac:(lia) E).
Qed.

(** The last number up to [k + 1] in a growing list. *)
Definition upto (k : nat) (r : option nat) (n : Z) : option nat := if n <=? Z.of_nat k + 1 then Some (Z.to_nat (n - 1)) else r.
Lemma restart_keys : forall l samples k b, (forall m s, nth_error l m = Some s -> nth_error samples (b + m) = Some s) ->
  forall r, match fold_left (upto k) (filter (fun n => match nth_error samples (Z.to_nat n - 1) with Some s => sm_key s | None => false end) (map Z.of_nat (seq (S b) (length l)))) r with
  | Some j => (r = Some j /\ forall m s, (b + m <= k)%nat -> nth_error l m = Some s -> sm_key s = false) \/
      exists m s, j = (b + m)%nat /\ (j <= k)%nat /\ nth_error l m = Some s /\ sm_key s = true /\ forall m' s', (m < m')%nat -> (b + m' <= k)%nat -> nth_error l m' = Some s' -> sm_key s' = false
  | None => r = None /\ forall m s, (b + m <= k)%nat -> nth_error l m = Some s -> sm_key s = false
  end.
Proof.
  induction l as [|x l IH]; intros samples k b N r.
  - cbn [length seq map filter fold_left]. destruct r; [left|]; (split; [reflexivity|]); intros m s _ E; destruct m; discriminate E.
  - cbn [length seq map filter]. replace (Z.to_nat (Z.of_nat (S b)) - 1)%nat with b by lia. pose proof (N 0%nat x eq_refl) as Nx. rewrite Nat.add_0_r in Nx. rewrite Nx.
    assert (N' : forall m s, nth_error l m = Some s -> nth_error samples (S b + m) = Some s) by (intros m s E; rewrite Nat.add_succ_comm; exact (N (S m) s E)).
    destruct (sm_key x) eqn:K.
    + cbn [fold_left]. pose proof (IH samples k (S b) N' (upto k r (Z.of_nat (S b)))) as H.
      destruct (fold_left (upto k) _ (upto k r (Z.of_nat (S b)))) as [j|]; unfold upto in H.
      * destruct H as [[H1 H2]|(m & s & H1 & H2 & H3 & H4 & H5)].
        -- destruct (Z.of_nat (S b) <=? Z.of_nat k + 1) eqn:Le.
           ++ right. assert (Ej : j = Z.to_nat (Z.of_nat (S b) - 1)) by congruence. clear H1. exists 0%nat, x. split; [lia|]. split; [lia|]. split; [reflexivity|]. split; [exact K|].
              intros m' s' M1 M2 E. destruct m' as [|m']; [lia|]. exact (H2 m' s' ltac:(lia) E).
           ++ left. split; [exact H1|]. intros m s M E. lia.
        -- right. exists (S m), s. split; [lia|]. split; [exact H2|]. split; [exact H3|]. split; [exact H4|]. intros m' s' M1 M2 E. destruct m' as [|m']; [lia|]. exact (H5 m' s' ltac:(lia) ltac:(lia) E).
      * destruct H as [H1 H2]. destruct (Z.of_nat (S b) <=? Z.of_nat k + 1) eqn:Le; [discriminate H1|]. split; [exact H1|]. intros m s M E. lia.
    + pose proof (IH samples k (S b) N' r) as H. destruct (fold_left (upto k) _ r) as [j|].
      * destruct H as [[H1 H2]|(m & s & H1 & H2 & H3 & H4 & H5)].
        -- left. split; [exact H1|]. intros m s M E. destruct m as [|m]; [injection E as <-; exact K|]. exact (H2 m s ltac:(lia) E).
        -- right. exists (S m), s. split; [lia|]. split; [exact H2|]. split; [exact H3|]. split; [exact H4|]. intros m' s' M1 M2 E. destruct m' as [|m']; [lia|]. exact (H5 m' s' ltac:(lia) ltac:(lia) E).
      * destruct H as [H1 H2]. split; [exact H1|]. intros m s M E. destruct m as [|m]; [injection E as <-; exact K|]. exact (H2 m s ltac:(lia) E).
Qed.
Lemma restart_key samples k : match restart (Some (sync_numbers samples)) k with
  | Some j => latest_key samples k j
  | None => forall j s, (j <= k)%nat -> nth_error samples j = Some s -> sm_key s = false
  end.
Proof.
  pose proof (restart_keys samples samples k 0 (fun m s E => E) None) as H. unfold restart, sync_numbers. change (fun r n => if n <=? Z.of_nat k + 1 then Some (Z.to_nat (n - 1)) else r) with (upto k).
  destruct (fold_left (upto k) _ None) as [j|].
  - destruct H as [[H _]|(m & s & -> & H2 & H3 & H4 & H5)]; [discriminate H|]. cbn [Nat.add] in *. split; [exact H2|]. split; [exists s; split; [exact H3|exact H4]|].
    intros j' s' A B E. exact (H5 j' s' A B E).
  - destruct H as [_ H]. intros j s A E. exact (H j s A E).
Qed.
Lemma map_nth {A B C} (f : A -> C) (g : B -> C) : forall l m, map f l = map g m -> forall k, option_map f (nth_error l k) = option_map g (nth_error m k).
Proof.
  induction l as [|a l IH]; intros [|b m] E k; try discriminate E; [destruct k; reflexivity|]. injection E as E1 E2. destruct k as [|k]; cbn [nth_error option_map]; [f_equal; exact E1|exact (IH m E2 k)].
Qed.
Lemma described_moments file ops i info : describes file ops i info -> finds_moments file ops i info.
Proof.
  intros (c & ts & d & dm & mt & id & E & _ & _ & _ & O & D & Y). exists c, ts, d, dm, mt, id. split; [exact E|]. cbv zeta. intros [S B] first rest Es.
  pose proof (map_nth _ _ _ _ O) as N. rewrite D. rewrite Es in *. cbn [map] in *.
  assert (G : forall t, sm_ts first <= t -> _) by (intros t L; exact (playing_walk (map sm_ts rest) d (sm_ts first) t S B L)). cbn beta in G.
  assert (Fd : sm_ts first <= d). { inversion S as [|? ? _ F]; subst. apply Forall_app in F as [_ F]. inversion F; subst; assumption. }
  split.
  - intros t L. pose proof (G t ltac:(lia)) as H. destruct (playing _ (t - sm_ts first)) as [k|]; [destruct H; lia|reflexivity].
  - intros t L. pose proof (G t ltac:(lia)) as H. destruct (playing _ (t - sm_ts first)) as [k|]; [|lia]. destruct H as (_ & u & H1 & H2 & H3). exists k. split; [reflexivity|].
    change (sm_ts first :: map sm_ts rest) with (map sm_ts (first :: rest)) in *. split; [|split; [exact (N k)|]].
    + rewrite nth_error_map in H1. destruct (nth_error (first :: rest) k) as [s|] eqn:Ek; [|discriminate H1]. injection H1 as <-. exists s. split; [exact Ek|]. split; [exact H2|].
      intros k' s' K Es'. apply (H3 k' (sm_ts s') K). rewrite nth_error_map, Es'. reflexivity.
    + rewrite Y. destruct (is_video c); [|reflexivity]. pose proof (restart_key (first :: rest) k) as R. destruct (restart _ k) as [j|]; [|exact R]. split; [exact R|exact (N j)].
Qed.

(** C80.  In the file of any session that SimpleWriter or FaststartWriter has finished, as SimpleReader reads it, a player can jump
    to every moment of every chosen track: if the timestamps given do not decrease, the sample it finds with the tables is the
    one recorded last at that moment or before, where the tables say; and, for video, it finds the last key frame up to
    it, from which decoding has to start. *)
Theorem C80_simple : forall seekable timescale duration time ft ops sel,
  box_wf 0 (B_ftyp ft) -> recording ops -> chosen ops sel -> movie_fits ft ops sel -> bytes (media ops) ->
  fits_u 32 timescale -> fits_u 32 duration -> fits_u 32 time -> Forall (track_fits ops) sel ->
  let file := output (fst (run (start Simple timescale duration time ft) (simple_program ops sel))) in
  exists ns text infos, SimpleReader_read seekable file = Some (Ok (ns, text)) /\
    read_movie (map tree_of ns) = Some (map Some infos) /\ Forall2 (finds_moments file ops) sel infos.
Proof.
  intros seekable timescale duration time ft ops sel A B C D E P1 P2 P3 P4.
  destruct (C47_simple_reads_back seekable timescale duration time ft ops sel A B C D E P1 P2 P3 P4) as (ns & text & _ & H1 & _ & _ & _ & (infos & H2 & H3) & _). cbv zeta in *.
  exists ns, text, infos. split; [exact H1|]. split; [exact H2|]. eapply f2_impl; [|exact H3]. intros i info. apply described_moments.
Qed.
Print Assumptions C80_simple.
Theorem C80_faststart : forall seekable timescale duration time ft ops sel,
  box_wf 0 (B_ftyp ft) -> recording ops -> chosen ops sel -> movie_fits ft ops sel -> bytes (media ops) ->
  fits_u 32 timescale -> fits_u 32 duration -> fits_u 32 time -> Forall (track_fits ops) sel ->
  let file := output (fst (run (start Faststart timescale duration time ft) (faststart_program ops sel))) in
  exists ns text infos, SimpleReader_read seekable file = Some (Ok (ns, text)) /\
    read_movie (map tree_of ns) = Some (map Some infos) /\ Forall2 (finds_moments file ops) sel infos.
Proof.
  intros seekable timescale duration time ft ops sel A B C D E P1 P2 P3 P4.
  destruct (C47_faststart_reads_back seekable timescale duration time ft ops sel A B C D E P1 P2 P3 P4) as (ns & text & _ & H1 & _ & _ & _ & (infos & H2 & H3) & _). cbv zeta in *.
  exists ns, text, infos. split; [exact H1|]. split; [exact H2|]. eapply f2_impl; [|exact H3]. intros i info. apply described_moments.
Qed.
Print Assumptions C80_faststart.

(** The session of PropFile.v meets the hypotheses (its ftyp box and tracks: PropRoundTrip.v) and its timestamps are in order.  At 40
    ms the second picture of its H.264 track is shown; decoding starts at the first one. *)
Example C80_in_order : in_order (samples_of 1 session_ops) 64 /\ in_order (samples_of 0 session_ops) 3072.
Proof.
  rewrite (proj1 session_samples_are). replace (samples_of 0 session_ops) with [mk_sample 0 [1; 2; 3] false; mk_sample 1024 [4; 5] false; mk_sample 2048 [6] false] by reflexivity.
  split; (split; [cbn [map sm_ts app]; repeat (constructor; [|repeat (constructor; [lia|]); constructor]); constructor|cbn [sm_ts]; lia]).
Qed.
Example C80_case : let file := output (fst (run (start Simple 1000 64 0 session_ftyp) (simple_program session_ops [1%nat; 0%nat]))) in
  match SimpleReader_read true file with
  | Some (Ok (ns, _)) =>
      match read_movie (map tree_of ns) with
      | Some [Some v; Some a] => playing (i_durations v) 40 = Some 1%nat /\ restart (i_sync v) 1 = Some 0%nat /\ playing (i_durations v) 64 = None /\
          playing (i_durations a) 1023 = Some 0%nat /\ playing (i_durations a) 1024 = Some 1%nat /\ restart (i_sync a) 1 = Some 1%nat
      | _ => False
      end
  | _ => False
  end.
Proof. vm_compute. do 5 (split; [reflexivity|]). reflexivity. Qed.
(** Two samples with the same timestamp and two key frames: the later ones are found. *)
Example C80_later : let l := [mk_sample 5 [1] true; mk_sample 7 [2] false; mk_sample 7 [3] true; mk_sample 9 [4] false] in
  playing (expected_durations (map sm_ts l) 12) (8 - 5) = Some 2%nat /\ restart (Some (sync_numbers l)) 3 = Some 2%nat /\ restart (Some (sync_numbers l)) 1 = Some 0%nat.
Proof. vm_compute. do 2 (split; [reflexivity|]). reflexivity. Qed.
