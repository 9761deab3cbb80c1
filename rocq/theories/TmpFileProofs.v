(** Lemmas for C83. *)
From Verif Require Import Base BitIO BitFacts BitIOProofs Boxes WireFormat Box BoxSpec BoxTac BoxWrite BoxIO BoxSize BoxLemmas Print PrintSpec BoxTree TreeSpec TreeProofs TreeLayout AnnexBSpec H264 Track Writers MovieSpec SessionProofs Completion FaststartFile FileLemmas Refusal Kept TmpFile.
From Coq Require Import List.
Import ListNotations.
Open Scope Z_scope.
Open Scope list_scope.
Local Opaque COPY_MDAT_DATA_BUFFER_SIZE.

(** The reads that do not fail. *)
Definition is_got (e : read_event) : bool := match e with Got _ => true | Failed => false end.
Definition gots (evs : list read_event) : nat := length (filter is_got evs).

Lemma fread_facts evs : forall want rest got rest' evs' e, 0 < want -> fread want rest evs = (got, rest', evs', e) ->
  rest = got ++ rest' /\ (e = At_end -> rest' = []) /\ (e <> Unknown -> (length evs' < length evs)%nat) /\
  (gots evs <= gots evs' + length got + (match e with At_end => 1 | _ => 0 end))%nat /\
  (e = Unknown -> evs' = []).
Proof.
  induction evs as [|ev evs IH]; intros want rest got rest' evs' e W E; cbn [fread] in E; replace (want <=? 0) with false in E by lia.
  - injection E as <- <- <- <-. split; [reflexivity|]. split; [discriminate|]. split; [intros X; contradiction X; reflexivity|]. split; [unfold gots; cbn [filter length]; lia|reflexivity].
  - destruct ev as [n|].
    + destruct rest as [|x rest].
      * injection E as <- <- <- <-. split; [reflexivity|]. split; [reflexivity|]. split; [intros _; cbn [length]; lia|]. split; [unfold gots; cbn [filter is_got length]; lia|discriminate].
      * set (chunk := firstn (Z.to_nat want) (firstn (S n) (x :: rest))) in *.
        assert (C : exists c, chunk = x :: c).
        { unfold chunk. cbn [firstn]. destruct (Z.to_nat want) eqn:Q; [lia|]. cbn [firstn]. eauto. }
        assert (Sp : x :: rest = chunk ++ skipn (length chunk) (x :: rest)).
        { unfold chunk. rewrite firstn_firstn. set (k := Nat.min _ _). rewrite <- (firstn_skipn k (x :: rest)) at 1. f_equal. rewrite firstn_length.
          destruct (Nat.le_ge_cases k (length (x :: rest))) as [L|L]; [rewrite Nat.min_l by exact L; reflexivity|rewrite Nat.min_r by exact L; rewrite !skipn_all2 by lia; reflexivity]. }
        clearbody chunk. destruct C as (c & C).
        destruct (fread (want - Zlen chunk) (skipn (length chunk) (x :: rest)) evs) as [[[g r] ev'] q] eqn:Q. injection E as <- <- <- <-.
        destruct (Z.lt_ge_cases 0 (want - Zlen chunk)) as [P|P].
        -- destruct (IH _ _ _ _ _ _ P Q) as (A1 & A2 & A3 & A4 & A5). split; [rewrite <- app_assoc, <- A1; exact Sp|]. split; [exact A2|]. split; [intros N; specialize (A3 N); cbn [length]; lia|].
           split; [|exact A5]. unfold gots in *. cbn [filter is_got length]. rewrite app_length, C. cbn [length]. lia.
        -- assert (F : fread (want - Zlen chunk) (skipn (length chunk) (x :: rest)) evs = ([], skipn (length chunk) (x :: rest), evs, Full)) by (destruct evs; cbn [fread]; replace (_ <=? 0) with true by lia; reflexivity).
           rewrite F in Q. injection Q as <- <- <- <-. rewrite app_nil_r. split; [exact Sp|]. split; [discriminate|]. split; [intros _; cbn [length]; lia|]. split; [|discriminate]. unfold gots. cbn [filter is_got length]. rewrite C. cbn [length]. lia.
    + injection E as <- <- <- <-. split; [reflexivity|]. split; [discriminate|]. split; [intros _; cbn [length]; lia|]. split; [unfold gots; cbn [filter is_got length]; lia|discriminate].
Qed.
(** What it reads does not depend on later reads; and it stops at the first that fails. *)
Lemma fread_more evs : forall want rest got rest' evs' e, fread want rest evs = (got, rest', evs', e) ->
  (e <> Unknown -> forall more, fread want rest (evs ++ more) = (got, rest', evs' ++ more, e)) /\
  (e = Unknown -> fread want rest (evs ++ []) = (got, rest', [], Unknown) /\ forall more, fread want rest (evs ++ Failed :: more) = (got, rest', more, Error)).
Proof.
  induction evs as [|ev evs IH]; intros want rest got rest' evs' e E.
  - cbn [fread app] in *. destruct (want <=? 0) eqn:W.
    + injection E as <- <- <- <-. split; [|discriminate]. intros _ more. destruct more; cbn [fread]; rewrite W; reflexivity.
    + injection E as <- <- <- <-. split; [intros X; contradiction X; reflexivity|]. intros _. split; [reflexivity|]. intros more. reflexivity.
  - cbn [fread app] in *. destruct (want <=? 0); [injection E as <- <- <- <-; split; [reflexivity|discriminate]|]. destruct ev as [n|]; [|injection E as <- <- <- <-; split; [reflexivity|discriminate]].
    destruct rest as [|x rest]; [injection E as <- <- <- <-; split; [reflexivity|discriminate]|].
    set (chunk := firstn _ _) in *. clearbody chunk. destruct (fread (want - Zlen chunk) (skipn (length chunk) (x :: rest)) evs) as [[[g r] ev'] q] eqn:Q. injection E as <- <- <- <-.
    destruct (IH _ _ _ _ _ _ Q) as (A & B). split.
    + intros N more. rewrite (A N more). reflexivity.
    + intros N. destruct (B N) as (B1 & B2). split; [rewrite B1; reflexivity|]. intros more. rewrite (B2 more). reflexivity.
Qed.

Lemma copying_facts size fuel : 0 < size -> forall rest evs o o' b, 0 <= os_pos o -> copying fuel size rest evs o = (o', b) ->
  exists k, o' = os_write (firstn k rest) o /\ (b = true -> o' = os_write rest o).
Proof.
  intros Sz. induction fuel as [|f IH]; intros rest evs o o' b P E; cbn [copying] in E.
  - injection E as <- <-. exists 0%nat. split; [cbn [firstn]; rewrite os_write_nil; reflexivity|discriminate].
  - destruct (fread size rest evs) as [[[g r] ev'] e] eqn:Q. destruct (fread_facts _ _ _ _ _ _ _ Sz Q) as (A1 & A2 & _).
    assert (K : copying f size r ev' (os_write g o) = (o', b) -> exists k, o' = os_write (firstn k rest) o /\ (b = true -> o' = os_write rest o)).
    { intros E'. assert (P' : 0 <= os_pos (os_write g o)) by (unfold os_write; cbn [os_pos]; pose proof (Zlen_nonneg g); lia). destruct (IH _ _ _ _ _ P' E') as (k & B1 & B2). rewrite os_write_chain in B1, B2 by exact P. exists (length g + k)%nat. rewrite A1. split; [|exact B2].
      rewrite B1. f_equal. rewrite firstn_app_2. reflexivity. }
    destruct e; [exact (K E)| |exact (K E)|].
    + injection E as <- <-. specialize (A2 eq_refl). subst r. rewrite app_nil_r in A1. subst g. exists (length rest). rewrite firstn_all. auto.
    + injection E as <- <-. exists 0%nat. split; [cbn [firstn]; rewrite os_write_nil; reflexivity|discriminate].
Qed.
(** It ends as soon as there have been more reads that did not fail than octets. *)
Lemma copying_ends size fuel : 0 < size -> forall rest evs o, (length evs < fuel)%nat -> snd (copying fuel size rest evs o) = false -> (gots evs <= length rest)%nat.
Proof.
  intros Sz. induction fuel as [|f IH]; intros rest evs o L E; [lia|]. cbn [copying] in E. destruct (fread size rest evs) as [[[g r] ev'] e] eqn:Q.
  destruct (fread_facts _ _ _ _ _ _ _ Sz Q) as (A1 & A2 & A3 & A4 & A5). rewrite A1, app_length.
  assert (K : e <> Unknown -> match e with At_end => False | _ => True end -> snd (copying f size r ev' (os_write g o)) = false -> (gots evs <= length g + length r)%nat).
  { intros N X E'. specialize (A3 N). specialize (IH r ev' (os_write g o) ltac:(lia) E'). destruct e; try contradiction; lia. }
  destruct e; [apply K; [discriminate|exact I|exact E]|discriminate|apply K; [discriminate|exact I|exact E]|]. specialize (A5 eq_refl). subst ev'. unfold gots in A4 at 2. cbn [filter length] in A4. lia.
Qed.
(** If it has not ended and all later reads fail, it never ends. *)
Lemma copying_stuck size fuel : 0 < size -> forall rest evs o, (length evs < fuel)%nat -> snd (copying fuel size rest evs o) = false ->
  forall n fuel', snd (copying fuel' size rest (evs ++ repeat Failed n) o) = false.
Proof.
  intros Sz. assert (F : forall n fuel' rest o, snd (copying fuel' size rest (repeat Failed n) o) = false).
  { induction n as [|n IHn]; intros [|f] rest o; try reflexivity; cbn [copying repeat fread]; replace (size <=? 0) with false by lia; [reflexivity|apply IHn]. }
  induction fuel as [|f IH]; intros rest evs o L E n [|f']; try lia; try reflexivity. cbn [copying] in E |- *. destruct (fread size rest evs) as [[[g r] ev'] e] eqn:Q.
  destruct (fread_facts _ _ _ _ _ _ _ Sz Q) as (_ & _ & A3 & _ & A5). destruct (fread_more _ _ _ _ _ _ _ Q) as (B1 & B2).
  assert (K : e <> Unknown -> snd (copying f size r ev' (os_write g o)) = false -> snd (copying f' size r (ev' ++ repeat Failed n) (os_write g o)) = false) by (intros N E'; specialize (A3 N); apply IH; [lia|exact E']).
  destruct e.
  - rewrite B1 by discriminate. apply K; [discriminate|exact E].
  - discriminate.
  - rewrite B1 by discriminate. apply K; [discriminate|exact E].
  - destruct (B2 eq_refl) as (B3 & B4). destruct n as [|n]; cbn [repeat]; [rewrite B3; reflexivity|]. rewrite B4. apply F.
Qed.

(** * Sessions *)
Definition before_copy (ops : list op) (sel : list nat) : list op := O_WriteFtyp :: ops ++ [O_AppendTrakAndUdta sel; O_WriteMoov; O_WriteMdatHeader].
Lemma program_split ops sel : faststart_program ops sel = before_copy ops sel ++ [O_CopyMdatData].
Proof. unfold faststart_program, before_copy. cbn [app]. f_equal. rewrite <- app_assoc. reflexivity. Qed.
Lemma header_position s s' : step s O_WriteMdatHeader = (s', Ok tt) -> 0 <= os_pos (mw_os (s_writer s')).
Proof.
  cbn [step]. unfold Faststart_writeMdatHeader. destruct (mw_ftyp_size (s_writer s)) as [f|]; [|discriminate]. destruct (Faststart_getMoovSize (s_writer s)) as [m| |]; cbn [obind lift]; try discriminate.
  intros E. injection E as <-. cbn [s_writer set_os mw_os]. unfold header_write. cbn [snd h_offset]. unfold os_write, os_seekp. cbn [os_pos]. match goal with |- context [Zlen ?l] => pose proof (Zlen_nonneg l) end.
  pose proof (Z.mod_pos_bound (f + m) (2 ^ 64) ltac:(lia)). unfold u64 at 1. lia.
Qed.
Lemma last_result {A} (a : list A) x y b : a ++ [x] = b ++ [y] -> x = y.
Proof. intros E. apply app_inj_tail in E. tauto. Qed.
Lemma session_copy timescale duration time ft ops sel : time_printable time -> ftyp_ok ft -> recording ops -> chosen ops sel -> movie_fits ft ops sel ->
  let s := fst (run (start Faststart timescale duration time ft) (before_copy ops sel)) in
  mw_tmp_open (s_writer s) = true /\ 0 <= os_pos (mw_os (s_writer s)) /\
  output (fst (run (start Faststart timescale duration time ft) (faststart_program ops sel))) = os_data (os_write (os_data (mw_tmp (s_writer s))) (mw_os (s_writer s))).
Proof.
  intros Tp Fo R Ch B. destruct (faststart_session_least timescale duration time ft ops sel Tp Fo R Ch B) as (_ & E & _). cbv zeta.
  rewrite program_split in *. rewrite run_app in E |- *. cbn [fst snd] in E |- *. set (s := fst (run (start Faststart timescale duration time ft) (before_copy ops sel))) in *.
  assert (P : 0 <= os_pos (mw_os (s_writer s)) /\ snd (run s [O_CopyMdatData]) = [Ok tt]).
  { unfold s, before_copy in *. replace (O_WriteFtyp :: ops ++ [O_AppendTrakAndUdta sel; O_WriteMoov; O_WriteMdatHeader]) with ((O_WriteFtyp :: ops ++ [O_AppendTrakAndUdta sel; O_WriteMoov]) ++ [O_WriteMdatHeader]) in *
      by (cbn [app]; rewrite <- app_assoc; reflexivity).
    replace (O_WriteFtyp :: ops ++ [O_AppendTrakAndUdta sel; O_WriteMoov]) with ((O_WriteFtyp :: ops) ++ [O_AppendTrakAndUdta sel; O_WriteMoov]) in * by reflexivity.
    rewrite !run_app in *. cbn [fst snd] in *. set (s1 := fst (run (start Faststart timescale duration time ft) (O_WriteFtyp :: ops))) in *. set (s2 := fst (run s1 _)) in *.
    cbn [run] in E |- *. destruct (step s2 O_WriteMdatHeader) as [s3 r3] eqn:E3. cbn [fst snd] in E |- *. destruct (step s3 O_CopyMdatData) as [s4 r4] eqn:E4. cbn [fst snd] in E |- *.
    assert (L : length (snd (run (start Faststart timescale duration time ft) (O_WriteFtyp :: ops))) = length (O_WriteFtyp :: ops)).
    { generalize (start Faststart timescale duration time ft). generalize (O_WriteFtyp :: ops). clear. induction l as [|o l IH]; intros s; [reflexivity|]. cbn [run]. destruct (step s o) as [s1 r]. specialize (IH s1). destruct (run s1 l) as [s2 rs]. cbn [snd length] in *. congruence. }
    change (match step (start Faststart timescale duration time ft) O_WriteFtyp with (s0, r) => let '(s5, rs) := run s0 ops in (s5, r :: rs) end) with (run (start Faststart timescale duration time ft) (O_WriteFtyp :: ops)) in *.
    rewrite <- !app_assoc in E. rewrite skipn_exact in E by exact L. destruct (step s1 (O_AppendTrakAndUdta sel)) as [sx rx] eqn:Ex. destruct (step sx O_WriteMoov) as [sy ry] eqn:Ey. cbn [fst snd app] in E. injection E as E1 E2 E5 E6. subst r3 r4.
    split; [exact (header_position _ _ E3)|reflexivity]. }
  destruct P as (P & E4). split; [|split; [exact P|]].
  - cbn [run step] in E4. unfold Faststart_copyMdatData in E4. destruct (mw_tmp_open (s_writer s)); [reflexivity|discriminate].
  - cbn [run step] in E4 |- *. unfold Faststart_copyMdatData in *. destruct (mw_tmp_open (s_writer s)); [|discriminate]. rewrite copy_file by exact P. reflexivity.
Qed.
