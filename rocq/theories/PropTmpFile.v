(** The intermediate file of FaststartWriter when it does not read as asked: C83. *)
From Verif Require Import Base BitIOProofs Boxes Box BoxSpec PrintSpec BoxTree TreeSpec TreeProofs TreeLayout Track Writers MovieSpec SessionProofs Completion FaststartFile FileLemmas PropFile TmpFile TmpFileProofs.
From Coq Require Import List.
Import ListNotations.
Open Scope Z_scope.
Open Scope list_scope.
Local Opaque COPY_MDAT_DATA_BUFFER_SIZE.

(** C83.  copyMdatData, however the reads of the intermediate file divide the data, whichever of them fail, and whether or not fseek, fclose
    and remove succeed; [r] is the outcome, if the reads [evs] tell it.  The output is extended by a beginning of the media data at any
    time.  Reads that fail lose nothing and repeat nothing: if the call returns, the output has got all the media data, the intermediate file is closed
    and gone; if it raises, that is std::runtime_error because fseek has failed, nothing having been copied and
    the file being there and open, or because fclose or remove has, after everything was copied. *)
Theorem C83_copies : forall x evs w w' there r, mw_tmp_open w = true -> os_pos (mw_os w) = Zlen (os_data (mw_os w)) -> copyMdatData_file x evs w = (w', there, r) ->
  let media := os_data (mw_tmp w) in
  (exists k, os_data (mw_os w') = os_data (mw_os w) ++ firstn k media) /\
  match r with
  | None => there = true /\ mw_tmp_open w' = true
  | Some (Ok _) => os_data (mw_os w') = os_data (mw_os w) ++ media /\ there = false /\ mw_tmp_open w' = false /\ seek_ok x = true /\ close_ok x = true /\ remove_ok x = true
  | Some (Throw e) => e = RuntimeError /\ there = true /\
      (seek_ok x = false /\ w' = w \/
       seek_ok x = true /\ (close_ok x = false \/ remove_ok x = false) /\ os_data (mw_os w') = os_data (mw_os w) ++ media /\ mw_tmp_open w' = false)
  | Some UB => False
  end.
Proof.
  intros x evs w w' there r O P E. cbv zeta. unfold copyMdatData_file in E. rewrite O in E. cbn [negb] in E.
  assert (W : forall bs, os_data (os_write bs (mw_os w)) = os_data (mw_os w) ++ bs) by (intros bs; unfold os_write; cbn [os_data]; rewrite P; apply splice_end).
  destruct (seek_ok x) eqn:Sk; cbn [negb] in E.
  2: { injection E as <- <- <-. split; [exists 0%nat; cbn [firstn]; rewrite app_nil_r; reflexivity|]. auto. }
  destruct (copying (S (length evs)) COPY_MDAT_DATA_BUFFER_SIZE (os_data (mw_tmp w)) evs (mw_os w)) as [o b] eqn:C.
  destruct (copying_facts _ _ copy_positive _ _ _ _ _ ltac:(rewrite P; apply Zlen_nonneg) C) as (k & K1 & K2). destruct b.
  - specialize (K2 eq_refl). assert (D : os_data o = os_data (mw_os w) ++ os_data (mw_tmp w)) by (rewrite K2; apply W).
    assert (X : exists k, os_data o = os_data (mw_os w) ++ firstn k (os_data (mw_tmp w))) by (exists k; rewrite K1; apply W).
    destruct (close_ok x) eqn:Cl; cbn [negb] in E; [destruct (remove_ok x) eqn:Re; cbn [negb] in E|]; injection E as <- <- <-; cbn [set_tmp set_os mw_os mw_tmp_open]; (split; [exact X|]); auto 10.
  - injection E as <- <- <-. cbn [set_os mw_os mw_tmp_open]. split; [exists k; rewrite K1; apply W|]. auto.
Qed.
(** It ends once more reads have succeeded than there are octets: with finitely many failures in between, at the latest then. *)
Theorem C83_ends : forall x evs w w' there r, copyMdatData_file x evs w = (w', there, r) -> (length (os_data (mw_tmp w)) < gots evs)%nat -> r <> None.
Proof.
  intros x evs w w' there r E L N. subst r. unfold copyMdatData_file in E. destruct (negb (mw_tmp_open w)); [discriminate|]. destruct (negb (seek_ok x)); [discriminate|].
  destruct (copying (S (length evs)) COPY_MDAT_DATA_BUFFER_SIZE (os_data (mw_tmp w)) evs (mw_os w)) as [o b] eqn:C. destruct b.
  - destruct (negb (close_ok x)); [discriminate|]. destruct (negb (remove_ok x)); discriminate.
  - pose proof (copying_ends COPY_MDAT_DATA_BUFFER_SIZE (S (length evs)) copy_positive (os_data (mw_tmp w)) evs (mw_os w) ltac:(lia)) as H. rewrite C in H. specialize (H eq_refl). lia.
Qed.
(** Reads that fail are tried again, for ever: if from some moment on all of them fail (and it has not ended before), it never returns nor raises. *)
Theorem C83_hangs : forall x (reads : nat -> read_event) n w, (forall i, (n <= i)%nat -> reads i = Failed) ->
  snd (copyMdatData_file x (map reads (seq 0 n)) w) = None -> forall m, (n <= m)%nat -> snd (copyMdatData_file x (map reads (seq 0 m)) w) = None.
Proof.
  intros x reads n w F E m L. assert (M : map reads (seq 0 m) = map reads (seq 0 n) ++ repeat Failed (m - n)).
  { replace m with (n + (m - n))%nat at 1 by lia. rewrite seq_app, map_app. f_equal. cbn [Nat.add]. generalize (m - n)%nat. clear -F. intros k. assert (G : forall a, (n <= a)%nat -> map reads (seq a k) = repeat Failed k); [|apply G; lia].
    induction k as [|k IH]; intros a La; [reflexivity|]. cbn [seq map repeat]. rewrite F by exact La. f_equal. apply IH. lia. }
  rewrite M. unfold copyMdatData_file in *. destruct (negb (mw_tmp_open w)); [discriminate|]. destruct (negb (seek_ok x)); [discriminate|].
  destruct (copying (S (length (map reads (seq 0 n)))) COPY_MDAT_DATA_BUFFER_SIZE (os_data (mw_tmp w)) (map reads (seq 0 n)) (mw_os w)) as [o b] eqn:C. destruct b.
  { destruct (negb (close_ok x)); [discriminate|]. destruct (negb (remove_ok x)); discriminate. }
  pose proof (copying_stuck COPY_MDAT_DATA_BUFFER_SIZE (S (length (map reads (seq 0 n)))) copy_positive (os_data (mw_tmp w)) (map reads (seq 0 n)) (mw_os w) ltac:(lia)) as H. rewrite C in H.
  specialize (H eq_refl (m - n)%nat (S (length (map reads (seq 0 n) ++ repeat Failed (m - n))))). destruct (copying _ _ _ (_ ++ _) _) as [o' b']. cbn [snd] in H. subst b'. reflexivity.
Qed.
(** In a session: if the last call of a FaststartWriter gets that far that the reads begin and it comes to an end, returning or not, the output is the
    finished file, the same as if no read had failed. *)
Theorem C83_session : forall x evs timescale duration time ft ops sel,
  time_printable time -> box_typed (B_ftyp ft) -> recording ops -> chosen ops sel -> movie_fits ft ops sel -> seek_ok x = true ->
  let w := s_writer (fst (run (start Faststart timescale duration time ft) (O_WriteFtyp :: ops ++ [O_AppendTrakAndUdta sel; O_WriteMoov; O_WriteMdatHeader]))) in
  forall w' there r, copyMdatData_file x evs w = (w', there, Some r) ->
  r <> UB /\ os_data (mw_os w') = output (fst (run (start Faststart timescale duration time ft) (faststart_program ops sel))).
Proof.
  intros x evs timescale duration time ft ops sel Tp Fo R Ch B Sk w w' there r E. destruct (session_copy timescale duration time ft ops sel Tp Fo R Ch B) as (H1 & H2 & H3). cbv zeta in *. fold (before_copy ops sel) in w. fold w in H1, H2, H3.
  rewrite H3. unfold copyMdatData_file in E. rewrite H1, Sk in E. cbn [negb] in E.
  destruct (copying (S (length evs)) COPY_MDAT_DATA_BUFFER_SIZE (os_data (mw_tmp w)) evs (mw_os w)) as [o b] eqn:C. destruct (copying_facts _ _ copy_positive _ _ _ _ _ H2 C) as (k & _ & K2). destruct b; [|discriminate].
  specialize (K2 eq_refl). subst o.
  destruct (close_ok x); cbn [negb] in E; [destruct (remove_ok x); cbn [negb] in E|]; injection E as <- <- <-; (split; [discriminate|reflexivity]).
Qed.
(** The constructor returns only if both calls of the system have succeeded; then there are a file and a descriptor, both the object's, and nothing else. *)
Theorem C83_constructor : forall mkstemp_ok fdopen_ok p r, FaststartWriter_opens mkstemp_ok fdopen_ok = (p, r) ->
  (r = Ok tt <-> mkstemp_ok = true /\ fdopen_ok = true) /\ (r = Ok tt -> p = mk_place true true 0) /\ (r <> Ok tt -> r = Throw RuntimeError /\ (mkstemp_ok = false -> p_file p = false /\ p_descriptor p = false)).
Proof.
  intros a b p r E. unfold FaststartWriter_opens in E. destruct a, b; cbn [negb] in E; injection E as <- <-; (split; [|split]).
  all: try (intros H; split; [reflexivity|intros X; try discriminate X; split; reflexivity]).
  all: try reflexivity.
  all: try discriminate.
  all: try (split; [intros X; first [discriminate X|split; reflexivity]|intros (X & Y); first [discriminate X|discriminate Y|reflexivity]]).
  all: intros H; contradiction H; reflexivity.
Qed.
Print Assumptions C83_copies.
Print Assumptions C83_ends.
Print Assumptions C83_hangs.
Print Assumptions C83_session.
Print Assumptions C83_constructor.

(** Cases: the session of PropFile.v; reads of one octet at a time, of which each second fails; a failing fclose; reads that only fail. *)
Definition session_writer : mwriter := s_writer (fst (run (start Faststart 1000 64 0 session_ftyp) (O_WriteFtyp :: session_ops ++ [O_AppendTrakAndUdta [1%nat; 0%nat]; O_WriteMoov; O_WriteMdatHeader]))).
Example C83_hypotheses : time_printable 0 /\ box_typed (B_ftyp session_ftyp) /\ recording session_ops /\ chosen session_ops [1%nat; 0%nat] /\ movie_fits session_ftyp session_ops [1%nat; 0%nat].
Proof. split; [left; split; [discriminate|reflexivity]|]. exact (conj session_ftyp_ok (conj session_recording (conj session_chosen session_fits))). Qed.
Definition stuttering (n : nat) : list read_event := flat_map (fun _ => [Got 0; Failed]) (seq 0 n).
(** The loop with a buffer of 4 octets: every other read fails, one octet at a time; three failures in a row do not end it. *)
Example C83_stuttering :
  copying 50 4 [1; 2; 3; 4; 5] (stuttering 6) (mkOS [] 0) = (mkOS [1; 2; 3; 4; 5] 5, true) /\
  copying 50 4 [1; 2; 3; 4; 5] [Got 2; Failed; Failed; Failed; Got 1; Got 7] (mkOS [] 0) = (mkOS [1; 2; 3; 4; 5] 5, true) /\
  copying 50 4 [1; 2; 3; 4; 5] [Got 2; Failed; Failed; Failed; Got 1] (mkOS [] 0) = (mkOS [1; 2; 3] 3, false) /\
  fread 4 [1; 2; 3; 4; 5] [Got 2; Got 7; Got 0] = ([1; 2; 3; 4], [5], [Got 0], Full) /\
  fread 4 [1; 2; 3] [Got 2; Failed; Got 0] = ([1; 2; 3], [], [Got 0], Error) /\
  fread 4 [1; 2; 3] [Got 2; Got 5] = ([1; 2; 3], [], [], At_end).
Proof. vm_compute. repeat split; reflexivity. Qed.
Example C83_writer : mw_tmp_open session_writer = true /\ os_pos (mw_os session_writer) = Zlen (os_data (mw_os session_writer)) /\ Zlen (os_data (mw_tmp session_writer)) = 22.
Proof. vm_compute. repeat split; reflexivity. Qed.
(** By the theorems: 23 reads that succeed suffice, whatever fails between them; the file is the finished one even if fclose fails. *)
Example C83_case_ends : forall w' there r, copyMdatData_file (mk_calls true false true) (stuttering 23) session_writer = (w', there, r) -> r <> None.
Proof.
  intros w' there r E. refine (C83_ends _ _ _ _ _ _ E _). destruct C83_writer as (_ & _ & C). assert (G : gots (stuttering 23) = 23%nat) by (vm_compute; reflexivity). rewrite G. clear E G.
  unfold Zlen in C. revert C. generalize (length (os_data (mw_tmp session_writer))). intros n C. lia.
Qed.
Example C83_case : forall w' there r, copyMdatData_file (mk_calls true false true) (stuttering 23) session_writer = (w', there, Some r) ->
  r <> UB /\ os_data (mw_os w') = output (fst (run (start Faststart 1000 64 0 session_ftyp) (faststart_program session_ops [1%nat; 0%nat]))).
Proof.
  destruct C83_hypotheses as (P1 & P2 & P3 & P4 & P5).
  exact (C83_session (mk_calls true false true) (stuttering 23) 1000 64 0 session_ftyp session_ops [1%nat; 0%nat] P1 P2 P3 P4 P5 eq_refl).
Qed.
