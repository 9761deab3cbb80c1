(** Properties of unfinished and damaged output: C56, C57, C58, C59. *)
From Verif Require Import Base BitIO BitIOProofs Boxes WireFormat DescriptorSpec Box BoxSpec BoxSize PrintSpec BoxTree TreeSpec TreeProofs TreeRead AnnexBSpec H264 Track Writers MovieSpec SessionProofs Completion SimpleFile Truncation RoundTrip Device FailureSpec DeviceProofs Interrupt InterruptLemmas OpenEnd Refusal Kept Begun PropTree PropFile PropRoundTrip.
From Coq Require Import String List.
Import ListNotations.
Open Scope Z_scope.
Open Scope list_scope.

(** C56.  Any file of well-formed boxes, cut anywhere before its end: cut between two top-level boxes, the reader reports
    exactly the boxes before the cut; cut anywhere else, it raises an exception. *)
Theorem C56_cut_files : forall seekable ts n,
  Forall (tree_wf false) ts -> Forall (all_boxes box_printable) ts -> Zlen (flat_map serialize ts) < 2 ^ 63 ->
  (n < length (flat_map serialize ts))%nat ->
  let cut := firstn n (flat_map serialize ts) in
  (exists k ns text, (k < length ts)%nat /\ cut = flat_map serialize (firstn k ts) /\
     SimpleReader_read seekable cut = Some (Ok (ns, text)) /\ map tree_of ns = firstn k ts) \/
  ((forall k, cut <> flat_map serialize (firstn k ts)) /\ exists e, SimpleReader_read seekable cut = Some (Throw e)).
Proof. exact cut_read. Qed.
Print Assumptions C56_cut_files.
Example C56_case : let ts := [sample_tree; T [102; 114; 101; 101] (B_free [0; 0]) []] in
  Forall (tree_wf false) ts /\ Forall (all_boxes box_printable) ts /\ length (flat_map serialize ts) = 61%nat /\
  SimpleReader_read true (firstn 60 (flat_map serialize ts)) = Some (Throw RuntimeError) /\
  SimpleReader_read true (firstn 53 (flat_map serialize ts)) = Some (Throw InvalidArgument) /\
  exists ns text, SimpleReader_read true (firstn 51 (flat_map serialize ts)) = Some (Ok (ns, text)) /\ map tree_of ns = [sample_tree].
Proof.
  destruct C18_satisfiable as (A & B & _). split; [exact A|]. split; [exact B|]. split; [vm_compute; reflexivity|]. split; [vm_compute; reflexivity|]. split; [vm_compute; reflexivity|].
  eexists. eexists. split; [vm_compute; reflexivity|vm_compute; reflexivity].
Qed.

(** A finished file that lost its end is not taken for a finished file: a file of SimpleWriter is refused or shows no movie
    (moov), one of FaststartWriter is refused or shows no media data (mdat). *)
Theorem C56_simple_cut : forall seekable timescale duration time ft ops sel,
  box_wf 0 (B_ftyp ft) -> recording ops -> chosen ops sel -> movie_fits ft ops sel -> bytes (media ops) ->
  fits_u 32 timescale -> fits_u 32 duration -> fits_u 32 time -> Forall (track_fits ops) sel ->
  let file := output (fst (run (start Simple timescale duration time ft) (simple_program ops sel))) in
  forall n, Zlen file < 2 ^ 63 -> (n < length file)%nat ->
  (exists e, SimpleReader_read seekable (firstn n file) = Some (Throw e)) \/
  (exists ns text, SimpleReader_read seekable (firstn n file) = Some (Ok (ns, text)) /\ kids_of_type t_moov (map tree_of ns) = []).
Proof.
  intros seekable timescale duration time ft ops sel A B C D E P1 P2 P3 P4 file n L N.
  destruct (simple_back timescale duration time ft ops sel A B C D E P1 P2 P3 P4 seekable) as (ns0 & text0 & traks & H1 & _ & _ & _ & _ & _ & _ & G & Pr & _). cbv zeta in *. fold file in H1.
  rewrite (good_serialize_all false _ G) in H1. rewrite H1 in *.
  match type of H1 with _ = flat_map serialize ?l => set (ts := l) in * end.
  destruct (cut_read seekable ts n) as [(k & ns & text & Lk & _ & R & Tr)|(_ & e & R)]; auto.
  - apply Forall_map. eapply Forall_impl; [|exact G]. intros t (X & _). exact X.
  - apply Forall_map. eapply Forall_impl; [|exact Pr]. exact printable_as_read.
  - right. exists ns, text. split; [exact R|]. rewrite Tr. unfold ts in *. clear -Lk. unfold kids_of_type, free_trees in *.
    destruct (_ <? _); cbn [app map length] in *; destruct k as [|[|[|[|k]]]]; try reflexivity; lia.
  - left. exists e. exact R.
Qed.
Print Assumptions C56_simple_cut.
Theorem C56_faststart_cut : forall seekable timescale duration time ft ops sel,
  box_wf 0 (B_ftyp ft) -> recording ops -> chosen ops sel -> movie_fits ft ops sel -> bytes (media ops) ->
  fits_u 32 timescale -> fits_u 32 duration -> fits_u 32 time -> Forall (track_fits ops) sel ->
  let file := output (fst (run (start Faststart timescale duration time ft) (faststart_program ops sel))) in
  forall n, Zlen file < 2 ^ 63 -> (n < length file)%nat ->
  (exists e, SimpleReader_read seekable (firstn n file) = Some (Throw e)) \/
  (exists ns text, SimpleReader_read seekable (firstn n file) = Some (Ok (ns, text)) /\ kids_of_type (str "mdat") (map tree_of ns) = []).
Proof.
  intros seekable timescale duration time ft ops sel A B C D E P1 P2 P3 P4 file n L N.
  destruct (faststart_back timescale duration time ft ops sel A B C D E P1 P2 P3 P4 seekable) as (ns0 & text0 & traks & H1 & _ & _ & _ & _ & _ & _ & G & Pr & _). cbv zeta in *. fold file in H1.
  rewrite (good_serialize_all false _ G) in H1. rewrite H1 in *.
  match type of H1 with _ = flat_map serialize ?l => set (ts := l) in * end.
  destruct (cut_read seekable ts n) as [(k & ns & text & Lk & _ & R & Tr)|(_ & e & R)]; auto.
  - apply Forall_map. eapply Forall_impl; [|exact G]. intros t (X & _). exact X.
  - apply Forall_map. eapply Forall_impl; [|exact Pr]. exact printable_as_read.
  - right. exists ns, text. split; [exact R|]. rewrite Tr. unfold ts in *. clear -Lk. unfold kids_of_type in *.
    cbn [app map length] in *; destruct k as [|[|[|k]]]; try reflexivity; lia.
  - left. exists e. exact R.
Qed.
Print Assumptions C56_faststart_cut.
(** The session of PropFile.v: cut inside moov, and cut after mdat. *)
Example session_cut : let file := output (fst (run (start Simple 1000 64 0 session_ftyp) (simple_program session_ops [1%nat; 0%nat]))) in
  SimpleReader_read true (firstn (length file - 1) file) = Some (Throw RuntimeError) /\
  match SimpleReader_read true (firstn 62 file) with Some (Ok (ns, _)) => map (fun n => tree_type (tree_of n)) ns = [str "ftyp"; str "free"; str "mdat"] | _ => False end.
Proof. vm_compute. split; reflexivity. Qed.

(** * Programs that are killed (C57) *)

(** The model of failing output (Device.v) and that of the other properties (Writers.v) are the same where nothing fails: any
    calls, on any session. *)
Theorem C57_undisturbed : forall s ops, exists t, run_dev (mk_devices takes_all takes_all) 0 s ops = (let '(s', rs) := run s ops in (Running, t, s', rs)).
Proof.
  intros s ops. destruct (run_dev (mk_devices takes_all takes_all) 0 s ops) as [[[st t] s'] rs] eqn:E.
  assert (Su : survives (mk_devices takes_all takes_all)) by (split; intros t0 p; discriminate).
  destruct (run_dev_kill _ Su _ _ _ _ _ _ _ E) as [(-> & <-)|(-> & _)]; [exists t; reflexivity|]. pose proof (run_dev_alive (mk_devices takes_all takes_all) (fun _ _ => eq_refl) (fun _ _ => eq_refl) _ _ _ _ _ _ _ E) as X. discriminate X.
Qed.
Print Assumptions C57_undisturbed.

(** SimpleWriter.  Killed at any octet: nothing was refused, so either the program ran to its end as if undisturbed, or it is
    dead.  If it died before writeFtypBox returned, the output is a beginning of the ftyp box.  Otherwise the output has the
    whole ftyp box, and, 16 octets after it, all the media data of the calls that had returned and a part (from its
    beginning) of that of the call that was interrupted, undamaged: also when the program died while completing the file. *)
Theorem C57_simple : forall e timescale duration time ft ops sel,
  time_printable time -> box_typed (B_ftyp ft) -> recording ops -> chosen ops sel -> movie_fits ft ops sel -> nothing_refused e ->
  let whole := run (start Simple timescale duration time ft) (simple_program ops sel) in
  let head := serialize_with written (ftyp_tree ft) in
  let '(st, _, s, rs) := run_dev e 0 (start Simple timescale duration time ft) (simple_program ops sel) in
  (st = Running /\ (s, rs) = whole) \/
  (st = Dead /\ (rs = [] -> prefix_of (output s) head) /\
   (rs <> [] -> exists p, prefix_of (media (firstn (length rs - 1) ops)) p /\ prefix_of p (media (firstn (length rs) ops)) /\
      octets_at (output s) (0, Zlen head) = head /\ octets_at (output s) (Zlen head + 16, Zlen p) = p)).
Proof.
  intros e timescale duration time ft ops sel A B C D E G. cbv zeta. destruct (run_dev e 0 _ _) as [[[st t'] s] rs] eqn:R.
  exact (simple_interrupted timescale duration time ft ops sel e 0 st t' s rs B C D E A (refuses_survives e G) R).
Qed.
Print Assumptions C57_simple.
(** FaststartWriter.  The output is always a beginning of the finished file, and until copyMdatData has returned the media
    data are in the intermediate file, in the same sense as above. *)
Theorem C57_faststart : forall e timescale duration time ft ops sel,
  time_printable time -> box_typed (B_ftyp ft) -> recording ops -> chosen ops sel -> movie_fits ft ops sel -> nothing_refused e ->
  let whole := run (start Faststart timescale duration time ft) (faststart_program ops sel) in
  let '(st, _, s, rs) := run_dev e 0 (start Faststart timescale duration time ft) (faststart_program ops sel) in
  (st = Running /\ (s, rs) = whole) \/
  (st = Dead /\ (exists n, (n < length (output (fst whole)))%nat /\ output s = firstn n (output (fst whole))) /\
   (rs <> [] -> mw_tmp_open (s_writer s) = true /\
      prefix_of (media (firstn (length rs - 1) ops)) (os_data (mw_tmp (s_writer s))) /\
      prefix_of (os_data (mw_tmp (s_writer s))) (media (firstn (length rs) ops)))).
Proof.
  intros e timescale duration time ft ops sel A B C D E G. cbv zeta. destruct (run_dev e 0 _ _) as [[[st t'] s] rs] eqn:R.
  exact (faststart_interrupted timescale duration time ft ops sel e 0 st t' s rs B C D E A (refuses_survives e G) R).
Qed.
Print Assumptions C57_faststart.

(** ** What is left is not taken for a finished file *)

Lemma firstn_bytes n l : bytes l -> bytes (firstn n l).
Proof. intros H. unfold bytes in *. rewrite <- (firstn_skipn n l) in H. apply Forall_app in H. apply H. Qed.
Lemma ftyp_wf_tree ft : box_wf 0 (B_ftyp ft) -> Forall (tree_wf false) [ftyp_tree ft] /\ Forall (all_boxes box_printable) [ftyp_tree ft] /\ flat_map serialize [ftyp_tree ft] = ftyp_octets ft.
Proof.
  intros A. destruct (good_ftyp false ft A) as (W & _). change (tree_as_read (ftyp_tree ft)) with (ftyp_tree ft) in W. split; [constructor; [exact W|constructor]|]. split; [constructor; [exact (conj I I)|constructor]|].
  cbn [flat_map]. rewrite app_nil_r, <- (TreeLemmas.wf_written false _ W). reflexivity.
Qed.
(** Killed while recording: SimpleReader reads the file.  It shows the ftyp box, and one box of unknown type (four zero
    octets) that extends to the end of the file and contains eight zero octets and the media data stored so far. *)
Theorem C57_simple_recording : forall seekable e timescale duration time ft ops sel,
  time_printable time -> box_wf 0 (B_ftyp ft) -> recording ops -> chosen ops sel -> movie_fits ft ops sel -> bytes (media ops) -> nothing_refused e ->
  let '(st, _, s, rs) := run_dev e 0 (start Simple timescale duration time ft) (simple_program ops sel) in
  st = Dead -> (0 < length rs <= length ops)%nat -> Zlen (output s) < 2 ^ 63 ->
  exists p ns text, prefix_of (media (firstn (length rs - 1) ops)) p /\ prefix_of p (media (firstn (length rs) ops)) /\
    SimpleReader_read seekable (output s) = Some (Ok (ns, text)) /\
    (map tree_of ns = [ftyp_tree ft; T [0; 0; 0; 0] (B_unsupported (repeat 0 8 ++ p)) []] \/ (p = [] /\ map tree_of ns = [ftyp_tree ft])).
Proof.
  intros seekable e timescale duration time ft ops sel A Bw C D E Hb G. destruct (run_dev e 0 _ _) as [[[st t'] s] rs] eqn:R. intros -> L Ls.
  pose proof (ftyp_wf_typed ft Bw) as B.
  destruct (simple_killed timescale duration time ft ops sel B C D E e 0 Dead t' s rs (refuses_survives e G) R) as [(X & _)|(_ & K)]; [discriminate|].
  destruct (ftyp_wf_tree ft Bw) as (W1 & P1 & S1). inversion K as [k Dn Lk O|a o b q pad Eo Dn Pq O P|k pad Dn Lk O P|n Dn Lk f N O]; clear K; try lia.
  rewrite Dn. destruct (firstn_middle a o b (length a) eq_refl) as (F1 & F2). rewrite Eo in *. replace (S (length a) - 1)%nat with (length a) by lia. rewrite F1, F2, media_snoc.
  assert (Bp : bytes (media a ++ q)).
  { destruct (media_app (a ++ [o]) b) as (r1 & Er). rewrite <- app_assoc in Er. cbn [app] in Er. rewrite Er, media_snoc in Hb. destruct Pq as (r2 & Eq). rewrite Eq in Hb. unfold bytes in *. rewrite !Forall_app in Hb. apply Forall_app. tauto. }
  exists (media a ++ q). destruct P as [->|(-> & Ep)].
  - assert (Wt : tree_wf false (T [0; 0; 0; 0] (B_unsupported (repeat 0 8 ++ media a ++ q)) [])).
    { rewrite tree_wf_eq. split; [reflexivity|]. split; [repeat constructor; unfold is_byte; lia|]. split; [reflexivity|]. split; [split; [|reflexivity]|].
      - apply bytes_app; [repeat constructor; unfold is_byte; lia|exact Bp].
      - split; [intros y Hy; discriminate|constructor]. }
    assert (Eo2 : output s = flat_map serialize [ftyp_tree ft] ++ serialize_open (T [0; 0; 0; 0] (B_unsupported (repeat 0 8 ++ media a ++ q)) [])).
    { rewrite O, S1. f_equal. unfold serialize_open. cbn [flat_map]. rewrite app_nil_r.
      assert (Wp : wire_payload (B_unsupported (repeat 0 8 ++ media a ++ q)) = repeat 0 8 ++ media a ++ q); [|rewrite Wp; reflexivity].
      unfold wire_payload. cbn [box_layout]. unfold raw_layout, enc. cbn [flat_map field_bits]. rewrite app_nil_r. apply octets_of_bits. apply bytes_app; [repeat constructor; unfold is_byte; lia|exact Bp]. }
    destruct (open_read seekable [ftyp_tree ft] (T [0; 0; 0; 0] (B_unsupported (repeat 0 8 ++ media a ++ q)) []) W1 Wt) as (ns & text & Rd & M).
    { apply Forall_app. split; [exact P1|constructor; [split; exact I|constructor]]. } { rewrite <- Eo2. exact Ls. }
    rewrite <- Eo2 in Rd. exists ns, text. split; [exists q; reflexivity|]. split; [destruct Pq as (r & ->); exists r; rewrite app_assoc; reflexivity|]. auto.
  - rewrite Ep in *. destruct (ReaderPrint.read_back seekable [ftyp_tree ft] W1 P1) as (ns & text & Rd & _ & M & _).
    { rewrite S1. rewrite O in Ls. rewrite app_nil_r in Ls. cbn [app] in Ls. lia. }
    exists ns, text. split; [exists q; symmetry; exact Ep|]. split; [destruct Pq as (r & ->); exists r; rewrite app_assoc, Ep; reflexivity|]. rewrite S1 in Rd. rewrite O. cbn [app]. rewrite app_nil_r. auto.
Qed.
Print Assumptions C57_simple_recording.
(** Killed at any time, except within the 16 octets writeFreeBoxAndMdatHeader writes: SimpleReader raises an exception or shows
    no movie (moov).  (Within these 16 octets the announced size of the media data can be wrong; Findings.v.) *)
Theorem C57_simple_unfinished : forall seekable e timescale duration time ft ops sel,
  box_wf 0 (B_ftyp ft) -> recording ops -> chosen ops sel -> movie_fits ft ops sel -> bytes (media ops) ->
  fits_u 32 timescale -> fits_u 32 duration -> fits_u 32 time -> Forall (track_fits ops) sel -> nothing_refused e ->
  Zlen (output (fst (run (start Simple timescale duration time ft) (simple_program ops sel)))) < 2 ^ 63 ->
  let '(st, _, s, rs) := run_dev e 0 (start Simple timescale duration time ft) (simple_program ops sel) in
  st = Dead -> length rs <> (length ops + 2)%nat ->
  (exists x, SimpleReader_read seekable (output s) = Some (Throw x)) \/
  (exists ns text, SimpleReader_read seekable (output s) = Some (Ok (ns, text)) /\ kids_of_type t_moov (map tree_of ns) = []).
Proof.
  intros seekable e timescale duration time ft ops sel Bw C D E Hb T1 T2 T3 T4 G Lf.
  assert (Tp : time_printable time) by (apply fits_printable || (left; unfold fits_u in T3; lia)).
  pose proof (C57_simple_recording seekable e timescale duration time ft ops sel Tp Bw C D E Hb G) as Rec.
  destruct (run_dev e 0 _ _) as [[[st t'] s] rs] eqn:R. intros -> Nh. pose proof (ftyp_wf_typed ft Bw) as B.
  destruct (simple_killed timescale duration time ft ops sel B C D E e 0 Dead t' s rs (refuses_survives e G) R) as [(X & _)|(_ & K)]; [discriminate|].
  destruct (simple_session timescale duration time ft ops sel Tp B C D E) as (_ & _ & traks & Hf & _). cbv zeta in Hf. fold (output (fst (run (start Simple timescale duration time ft) (simple_program ops sel)))) in Hf.
  destruct (ftyp_wf_tree ft Bw) as (W1 & P1 & S1).
  assert (Lh : Zlen (ftyp_octets ft) + 16 + Zlen (media ops) <= Zlen (output (fst (run (start Simple timescale duration time ft) (simple_program ops sel))))).
  { rewrite Hf. rewrite <- !app_assoc, !Zlen_app. pose proof (free_mdat_length (media ops)) as X. rewrite Zlen_app in X. match goal with |- context [Zlen (serialize_with written ?t)] => pose proof (Zlen_nonneg (serialize_with written t)) end. lia. }
  inversion K as [k Dn Lk O|a o b q pad Eo Dn Pq O P|k pad Dn Lk O P|n Dn Lk f N O]; clear K; [| |contradiction|].
  - destruct (cut_read seekable [ftyp_tree ft] k W1 P1) as [(j & ns & text & Lj & _ & Rd & M)|(_ & x & Rd)]; rewrite ?S1 in *; [pose proof (Zlen_nonneg (media ops)); lia|exact Lk| |].
    + right. rewrite O. exists ns, text. split; [exact Rd|]. rewrite M. cbn [length] in Lj. replace j with 0%nat by lia. reflexivity.
    + left. exists x. rewrite O. exact Rd.
  - assert (Lo : Zlen (output s) < 2 ^ 63).
    { rewrite O, !Zlen_app. assert (Zlen pad <= 16) by (destruct P as [->|(-> & _)]; [reflexivity|discriminate]).
      assert (Zlen (media a) + Zlen q <= Zlen (media ops)); [|lia]. destruct (media_app (a ++ [o]) b) as (r1 & Er). rewrite <- app_assoc in Er. cbn [app] in Er. rewrite Eo, Er, media_snoc. destruct Pq as (r2 & ->). rewrite !Zlen_app. pose proof (Zlen_nonneg r1). pose proof (Zlen_nonneg r2). lia. }
    destruct Rec as (p & ns & text & _ & _ & Rd & [M|(_ & M)]); [reflexivity|rewrite Dn, Eo, app_length; cbn [length]; lia|exact Lo| |]; right; exists ns, text; (split; [exact Rd|]); rewrite M; reflexivity.
  - rewrite O. exact (C56_simple_cut seekable timescale duration time ft ops sel Bw C D E Hb T1 T2 T3 T4 n Lf N).
Qed.
Print Assumptions C57_simple_unfinished.
Theorem C57_faststart_unfinished : forall seekable e timescale duration time ft ops sel,
  box_wf 0 (B_ftyp ft) -> recording ops -> chosen ops sel -> movie_fits ft ops sel -> bytes (media ops) ->
  fits_u 32 timescale -> fits_u 32 duration -> fits_u 32 time -> Forall (track_fits ops) sel -> nothing_refused e ->
  Zlen (output (fst (run (start Faststart timescale duration time ft) (faststart_program ops sel)))) < 2 ^ 63 ->
  let '(st, _, s, rs) := run_dev e 0 (start Faststart timescale duration time ft) (faststart_program ops sel) in
  st = Dead ->
  (exists x, SimpleReader_read seekable (output s) = Some (Throw x)) \/
  (exists ns text, SimpleReader_read seekable (output s) = Some (Ok (ns, text)) /\ kids_of_type (str "mdat") (map tree_of ns) = []).
Proof.
  intros seekable e timescale duration time ft ops sel Bw C D E Hb T1 T2 T3 T4 G Lf.
  assert (Tp : time_printable time) by (left; unfold fits_u in T3; lia).
  pose proof (C57_faststart e timescale duration time ft ops sel Tp (ftyp_wf_typed ft Bw) C D E G) as K. cbv zeta in K. destruct (run_dev e 0 _ _) as [[[st t'] s] rs]. intros ->.
  destruct K as [(X & _)|(_ & (n & N & O) & _)]; [discriminate|]. rewrite O. exact (C56_faststart_cut seekable timescale duration time ft ops sel Bw C D E Hb T1 T2 T3 T4 n Lf N).
Qed.
Print Assumptions C57_faststart_unfinished.
(** The session of PropFile.v, killed when 32 octets have been stored (while a sample of the H.264 track is stored). *)
Definition killed_at (n : nat) : devices := mk_devices (fun t _ => if Nat.eqb t n then Killed else Stored) (fun t _ => if Nat.eqb t n then Killed else Stored).
Example killed_case n : nothing_refused (killed_at n).
Proof. intros t pos. unfold killed_at. cbn. destruct (Nat.eqb t n); split; discriminate. Qed.
Example session_killed : let '(st, _, s, rs) := run_dev (killed_at 32) 0 (start Simple 1000 64 0 session_ftyp) (simple_program session_ops [1%nat; 0%nat]) in
  st = Dead /\ length rs = 7%nat /\ output s = firstn 24 (output s) ++ repeat 0 16 ++ [1; 2; 3; 0; 0; 0; 3; 101].
Proof. vm_compute. repeat split. Qed.
Example session_killed_faststart : let '(st, _, s, rs) := run_dev (killed_at 200) 0 (start Faststart 1000 64 0 session_ftyp) (faststart_program session_ops [1%nat; 0%nat]) in
  st = Dead /\ length rs = 15%nat /\ length (output s) = 178%nat /\ mw_tmp_open (s_writer s) = true /\ os_data (mw_tmp (s_writer s)) = media session_ops.
Proof. vm_compute. repeat split. Qed.

(** * Boxes that extend to the end of the file (C58) *)
Theorem C58_open_box : forall seekable ts t,
  Forall (tree_wf false) ts -> tree_wf false t -> Forall (all_boxes box_printable) (ts ++ [t]) -> Zlen (flat_map serialize ts ++ serialize_open t) < 2 ^ 63 ->
  exists ns text, SimpleReader_read seekable (flat_map serialize ts ++ serialize_open t) = Some (Ok (ns, text)) /\ map tree_of ns = ts ++ [t].
Proof. exact open_read. Qed.
Print Assumptions C58_open_box.
Example C58_case : let t := T [102; 114; 101; 101] (B_free [7; 7]) [] in
  tree_wf false t /\ serialize_open t = [0; 0; 0; 0; 102; 114; 101; 101; 7; 7] /\
  exists ns text, SimpleReader_read true (flat_map serialize [sample_tree] ++ serialize_open t) = Some (Ok (ns, text)) /\ map tree_of ns = [sample_tree; t].
Proof.
  cbv zeta. destruct C18_satisfiable as (A & B & _). split; [inversion A as [|? ? _ A2]; inversion A2 as [|? ? A3 _]; subst|].
  - rewrite tree_wf_eq. split; [reflexivity|]. split; [repeat constructor; unfold is_byte; lia|]. split; [reflexivity|]. split; [split; [repeat constructor; unfold is_byte; lia|reflexivity]|]. split; [intros y Hy; discriminate|constructor].
  - split; [reflexivity|]. eexists. eexists. split; [vm_compute; reflexivity|reflexivity].
Qed.

(** * Refused output (C59) *)

(** SimpleWriter on an output that, at some octet, does not take any more from there on (a full disk).  Storing media data does
    not notice; but if writeMoovBox returns, the file is complete: every call did what it would have done undisturbed. *)
Theorem C59_simple : forall e timescale duration time ft ops sel,
  box_typed (B_ftyp ft) -> recording ops -> chosen ops sel -> movie_fits ft ops sel -> stays_refused (on_output e) ->
  let whole := run (start Simple timescale duration time ft) (simple_program ops sel) in
  let '(st, _, s, rs) := run_dev e 0 (start Simple timescale duration time ft) (simple_program ops sel) in
  st = Running -> last rs UB = Ok tt -> (s, rs) = whole.
Proof.
  intros e timescale duration time ft ops sel B C D E G. cbv zeta. destruct (run_dev e 0 _ _) as [[[st t'] s] rs] eqn:R. intros -> La.
  exact (simple_refused timescale duration time ft ops sel B C D E e G 0 t' s rs R La).
Qed.
Print Assumptions C59_simple.
(** FaststartWriter.  Whatever the intermediate file does, if all calls return they have the results of an undisturbed session,
    and the output is that of an undisturbed session or lacks a part of its end: the media data, or the header of mdat also. *)
Theorem C59_faststart : forall e timescale duration time ft ops sel,
  time_printable time -> box_typed (B_ftyp ft) -> recording ops -> chosen ops sel -> movie_fits ft ops sel -> stays_refused (on_output e) ->
  let whole := run (start Faststart timescale duration time ft) (faststart_program ops sel) in
  let '(st, _, s, rs) := run_dev e 0 (start Faststart timescale duration time ft) (faststart_program ops sel) in
  st = Running -> rs = snd whole /\ ((s, rs) = whole \/
    exists n, (n < length (output (fst whole)))%nat /\ Zlen (output (fst whole)) - Zlen (media ops) - 16 <= Z.of_nat n /\ output s = firstn n (output (fst whole))).
Proof.
  intros e timescale duration time ft ops sel A B C D E G. cbv zeta. destruct (run_dev e 0 _ _) as [[[st t'] s] rs] eqn:R. intros ->.
  exact (faststart_refused timescale duration time ft ops sel B C D E e G A 0 t' s rs R).
Qed.
Print Assumptions C59_faststart.
(** However the session ends (all calls returned, an exception, killed), the output is a beginning of the file of an undisturbed
    session. *)
Theorem C59_faststart_begun : forall e timescale duration time ft ops sel,
  time_printable time -> box_typed (B_ftyp ft) -> recording ops -> chosen ops sel -> movie_fits ft ops sel -> stays_refused (on_output e) ->
  let whole := run (start Faststart timescale duration time ft) (faststart_program ops sel) in
  let '(st, _, s, rs) := run_dev e 0 (start Faststart timescale duration time ft) (faststart_program ops sel) in
  prefix_of (output s) (output (fst whole)).
Proof.
  intros e timescale duration time ft ops sel A B C D E G. cbv zeta. destruct (run_dev e 0 _ _) as [[[st t'] s] rs] eqn:R.
  assert (Hn : st = Running \/ st <> Running) by (destruct st; auto; right; discriminate). destruct Hn as [->|Ns].
  - destruct (faststart_refused timescale duration time ft ops sel B C D E e G A 0 t' s rs R) as (_ & [W|(n & _ & _ & ->)]).
    + cbv zeta in W. rewrite <- W. exists []. rewrite app_nil_r. reflexivity.
    + eexists. symmetry. apply firstn_skipn.
  - exact (faststart_begun timescale duration time ft ops sel B C D E A e G 0 st t' s rs R Ns).
Qed.
Print Assumptions C59_faststart_begun.
(** A reader notices: the file is that of an undisturbed session, or SimpleReader raises an exception or shows no mdat. *)
Theorem C59_faststart_noticed : forall seekable e timescale duration time ft ops sel,
  box_wf 0 (B_ftyp ft) -> recording ops -> chosen ops sel -> movie_fits ft ops sel -> bytes (media ops) ->
  fits_u 32 timescale -> fits_u 32 duration -> fits_u 32 time -> Forall (track_fits ops) sel -> stays_refused (on_output e) ->
  let file := output (fst (run (start Faststart timescale duration time ft) (faststart_program ops sel))) in
  Zlen file < 2 ^ 63 ->
  let '(st, _, s, rs) := run_dev e 0 (start Faststart timescale duration time ft) (faststart_program ops sel) in
  output s = file \/
  (exists x, SimpleReader_read seekable (output s) = Some (Throw x)) \/
  (exists ns text, SimpleReader_read seekable (output s) = Some (Ok (ns, text)) /\ kids_of_type (str "mdat") (map tree_of ns) = []).
Proof.
  intros seekable e timescale duration time ft ops sel Bw C D E Hb T1 T2 T3 T4 G file Lf.
  assert (Tp : time_printable time) by (left; unfold fits_u in T3; lia).
  pose proof (C59_faststart_begun e timescale duration time ft ops sel Tp (ftyp_wf_typed ft Bw) C D E G) as K. cbv zeta in K. destruct (run_dev e 0 _ _) as [[[st t'] s] rs].
  fold file in K. destruct K as (x & K). destruct x as [|y x]; [left; rewrite K, app_nil_r; reflexivity|right].
  assert (O : output s = firstn (length (output s)) file) by (rewrite K, firstn_app, Nat.sub_diag, firstn_all, firstn_O, app_nil_r; reflexivity).
  assert (N : (length (output s) < length file)%nat) by (rewrite K, app_length; cbn [length]; lia). rewrite O.
  exact (C56_faststart_cut seekable timescale duration time ft ops sel Bw C D E Hb T1 T2 T3 T4 _ Lf N).
Qed.
Print Assumptions C59_faststart_noticed.
(** A disk with room for [cap] octets is such an output; the session of PropFile.v on one with 60: SimpleWriter stores the media
    data as far as possible and raises the exception in its last call; on one with 2000 everything is stored. *)
Example C59_full_disk cap : stays_refused (full_at cap).
Proof. intros t pos t' pos' E _ L. unfold full_at in *. destruct (Z.ltb_spec pos cap), (Z.ltb_spec pos' cap); congruence || lia. Qed.
Example C59_session_full : let '(st, _, s, rs) := run_dev (mk_devices (full_at 60) takes_all) 0 (start Simple 1000 64 0 session_ftyp) (simple_program session_ops [1%nat; 0%nat]) in
  st = Raised /\ length rs = (length session_ops + 3)%nat /\ Forall (fun r => r = Ok tt) (skipn 14 rs) /\ length (output s) = 60%nat.
Proof. vm_compute. repeat (constructor || split). Qed.
Example C59_session_room : let '(st, _, s, rs) := run_dev (mk_devices (full_at 2000) takes_all) 0 (start Simple 1000 64 0 session_ftyp) (simple_program session_ops [1%nat; 0%nat]) in
  st = Running /\ last rs UB = Ok tt /\ Nat.leb 500 (length (output s)) = true.
Proof. vm_compute. repeat split. Qed.

(** ** What a full disk leaves *)

(** SimpleWriter, however the session ends (all calls made, an exception because of the output, or killed, counting as stored what
    the stream had accepted): if not even
    writeFtypBox returned, the output is a beginning of the ftyp box.  Otherwise it has the whole ftyp box and, 16 octets after it,
    a beginning [p] of the media data, undamaged by the calls that complete the file; [p] lacks nothing of the calls that had
    returned unless something was refused at the place where it ends or before. *)
Theorem C59_simple_kept : forall e timescale duration time ft ops sel,
  box_typed (B_ftyp ft) -> recording ops -> chosen ops sel -> movie_fits ft ops sel -> stays_refused (on_output e) ->
  let head := serialize_with written (ftyp_tree ft) in
  let '(st, _, s, rs) := run_dev e 0 (start Simple timescale duration time ft) (simple_program ops sel) in
  (rs = [] -> prefix_of (output s) head) /\
  (rs <> [] -> octets_at (output s) (0, Zlen head) = head /\
     exists p, prefix_of p (media ops) /\ octets_at (output s) (Zlen head + 16, Zlen p) = p /\
       (prefix_of (media (firstn (length rs - 1) ops)) p \/ exists t pos, on_output e t pos = Refused /\ pos <= Zlen head + 16 + Zlen p)).
Proof.
  intros e timescale duration time ft ops sel B C D E G. cbv zeta. destruct (run_dev e 0 _ _) as [[[st t'] s] rs] eqn:R.
  destruct (simple_kept timescale duration time ft ops sel B C D E e G 0 st t' s rs R) as (A1 & A2). split; [exact A1|]. intros N. destruct (A2 N) as (p & P1 & (P2 & P3) & P4). split; [exact P2|]. exists p. auto.
Qed.
Print Assumptions C59_simple_kept.
(** On a disk with room for [cap] octets, all media data for which there is room are kept: those of the calls that had returned,
    up to position [cap] of the file. *)
Theorem C59_room : forall cap tmp timescale duration time ft ops sel,
  box_typed (B_ftyp ft) -> recording ops -> chosen ops sel -> movie_fits ft ops sel ->
  let head := serialize_with written (ftyp_tree ft) in
  let '(st, _, s, rs) := run_dev (mk_devices (full_at cap) tmp) 0 (start Simple timescale duration time ft) (simple_program ops sel) in
  rs <> [] ->
  let kept := firstn (Z.to_nat (cap - (Zlen head + 16))) (media (firstn (length rs - 1) ops)) in
  octets_at (output s) (Zlen head + 16, Zlen kept) = kept.
Proof.
  intros cap tmp timescale duration time ft ops sel B C D E. cbv zeta.
  pose proof (C59_simple_kept (mk_devices (full_at cap) tmp) timescale duration time ft ops sel B C D E (C59_full_disk cap)) as K. cbv zeta in K.
  destruct (run_dev _ 0 _ _) as [[[st t'] s] rs]. intros N. destruct (proj2 K N) as (_ & p & (x & Px) & P2 & P3). clear K.
  set (F := Zlen (serialize_with written (ftyp_tree ft))) in *. set (md := media (firstn (length rs - 1) ops)) in *. set (n := Z.to_nat (cap - (F + 16))).
  destruct (media_app (firstn (length rs - 1) ops) (skipn (length rs - 1) ops)) as (y & Py). rewrite firstn_skipn in Py. fold md in Py.
  assert (Pre : firstn n md = firstn (length (firstn n md)) p).
  { assert (L : (length (firstn n md) <= length p)%nat).
    { rewrite firstn_length. destruct P3 as [(z & ->)|(t0 & pos & Q1 & Q2)]; [rewrite app_length; lia|]. cbn [on_output] in Q1. unfold full_at in Q1. destruct (Z.ltb_spec pos cap); [discriminate|]. unfold Zlen in *. lia. }
    rewrite Py in Px. apply (f_equal (firstn (length (firstn n md)))) in Px. rewrite (firstn_app _ p) in Px. replace (length (firstn n md) - length p)%nat with 0%nat in Px by lia. rewrite firstn_O, app_nil_r in Px. rewrite <- Px.
    rewrite <- (firstn_skipn n md) at 3. rewrite <- app_assoc, firstn_app, Nat.sub_diag, firstn_all, firstn_O, app_nil_r. reflexivity. }
  unfold octets_at in *. cbn [fst snd] in *. unfold Zlen in P2 |- *. rewrite Nat2Z.id in *. assert (L2 : (length (firstn n md) <= length p)%nat) by (rewrite Pre at 1; rewrite firstn_length; lia).
  revert Pre L2. generalize (firstn n md). intros K Pre L2. transitivity (firstn (length K) p); [|symmetry; exact Pre].
  rewrite <- P2. rewrite firstn_firstn. f_equal. lia.
Qed.
Print Assumptions C59_room.
(** The session of PropFile.v on a disk with room for 45 octets: the ftyp box takes 24 and the 16 octets follow; the 5 octets of
    media data for which there was room are there. *)
Example C59_session_kept : let '(st, _, s, rs) := run_dev (mk_devices (full_at 45) takes_all) 0 (start Simple 1000 64 0 session_ftyp) (simple_program session_ops [1%nat; 0%nat]) in
  st = Raised /\ length rs = (length session_ops + 3)%nat /\ octets_at (output s) (40, 5) = firstn 5 (media session_ops) /\ Nat.ltb 5 (length (media session_ops)) = true.
Proof. vm_compute. repeat split. Qed.

(** FaststartWriter, whatever the intermediate file does: when an exception ends the session, the
    intermediate file is still there with the media data of the calls that had returned and a beginning of those of the call
    that had not. *)
Theorem C59_faststart_kept : forall e timescale duration time ft ops sel,
  box_typed (B_ftyp ft) -> recording ops -> movie_fits ft ops sel -> stays_refused (on_output e) ->
  let '(st, _, s, rs) := run_dev e 0 (start Faststart timescale duration time ft) (faststart_program ops sel) in
  st = Raised -> rs <> [] ->
  mw_tmp_open (s_writer s) = true /\
  prefix_of (media (firstn (length rs - 1) ops)) (os_data (mw_tmp (s_writer s))) /\
  prefix_of (os_data (mw_tmp (s_writer s))) (media (firstn (length rs) ops)).
Proof.
  intros e timescale duration time ft ops sel B C E G. destruct (run_dev e 0 _ _) as [[[st t'] s] rs] eqn:R. intros N Nr.
  exact (faststart_kept timescale duration time ft ops sel B C E e G 0 st t' s rs R ltac:(rewrite N; discriminate) Nr).
Qed.
Print Assumptions C59_faststart_kept.
(** The same session with FaststartWriter: no room in the output for the moov box, and no room for more than 5 octets in the
    intermediate file. *)
Example C59_session_faststart_kept :
  (let '(st, _, s, rs) := run_dev (mk_devices (full_at 300) takes_all) 0 (start Faststart 1000 64 0 session_ftyp) (faststart_program session_ops [1%nat; 0%nat]) in
   st = Raised /\ length rs = (length session_ops + 2)%nat /\ os_data (mw_tmp (s_writer s)) = media session_ops) /\
  (let '(st, _, s, rs) := run_dev (mk_devices takes_all (full_at 5)) 0 (start Faststart 1000 64 0 session_ftyp) (faststart_program session_ops [1%nat; 0%nat]) in
   st = Raised /\ Nat.ltb (length rs) (length session_ops) = true /\ os_data (mw_tmp (s_writer s)) = firstn 5 (media session_ops)).
Proof. vm_compute. repeat split. Qed.
