(** Proofs behind the statements of PropTree.v. *)
From Verif Require Import Base BitIO BitFacts BitIOProofs Boxes WireFormat BoxTac BoxWrite BoxRead Box BoxSpec BoxIO BoxSize BoxSafe BoxLemmas
  Print PrintSpec PrintProofs BoxTree TreeSpec TreeProofs TreeLayout TreePrint TreeRead ReaderTotal RegistrySpec RegistryProofs.

(** * Headers *)
Lemma set_frame t off n h : 0 <= n < 2 ^ 64 - 16 -> h_type h = t -> h_extend_to_eof h = false ->
  header_setOffsetAndDataSize h off n = mk_header off (n + frame_header_size n) (frame_header_size n) t false.
Proof.
  intros N <- <-. unfold header_setOffsetAndDataSize, frame_header_size, UINT32_MAX, SMALL_HEADER_SIZE, LARGE_HEADER_SIZE.
  destruct (Z.ltb_spec (n + 8) (2 ^ 32)); destruct (Z.gtb_spec n (2 ^ 32 - 1 - 8)); try lia; rewrite u64_small by lia; reflexivity.
Qed.
Lemma splice_skipn l p b : 0 <= p -> b <> [] -> exists rest, skipn (Z.to_nat p) (splice l p b) = b ++ rest.
Proof.
  intros P B. destruct (splice_form l p b B P) as (a & La & ->). eexists. apply skipn_exact. unfold Zlen in La. lia.
Qed.
Lemma header_write_read type off n o : length type = 4%nat -> 0 <= n < 2 ^ 64 - 16 -> 0 <= off < 2 ^ 64 - 16 -> Zlen (os_data o) < 2 ^ 64 ->
  let h := header_setOffsetAndDataSize (header_new type) off n in
  h_type h = type /\ h_offset h = off /\ h_size h = n + h_header_size h /\
  (n + 8 < 2 ^ 32 -> h_header_size h = 8) /\ (2 ^ 32 <= n + 8 -> h_header_size h = 16) /\
  exists o', header_write h o = (h, o') /\ os_pos o' = off + h_header_size h /\
    os_data o' = splice (os_data o) off (frame_header type n) /\ Zlen (frame_header type n) = h_header_size h /\
    read_box_header (os_data o') off = Ok h.
Proof.
  intros T N O L. cbv zeta. rewrite (set_frame type) by (auto; reflexivity). cbn [h_type h_offset h_size h_header_size].
  repeat split; try (unfold frame_header_size; destruct (Z.ltb_spec (n + 8) (2 ^ 32)); lia).
  pose proof (frame_header_length type n T) as Lh. pose proof (frame_hs n) as F.
  unfold header_write. rewrite header_octets_frame by lia. cbv zeta. cbn [h_type h_offset h_size h_header_size h_extend_to_eof].
  rewrite Lh, Z.sub_diag, Z.add_0_r, u64_small by lia.
  eexists. split; [reflexivity|]. unfold os_write, os_seekp. cbn [os_data os_pos].
  split; [rewrite Lh; reflexivity|]. split; [reflexivity|]. split; [reflexivity|].
  assert (Hn : frame_header type n <> []) by (intros E; rewrite E in Lh; unfold Zlen in Lh; cbn in Lh; lia).
  destruct (splice_skipn (os_data o) off (frame_header type n) ltac:(lia) Hn) as (rest & R).
  apply (read_frame _ _ type n rest); auto; try lia. rewrite splice_length by (auto; lia). lia.
Qed.
Lemma splice_same l p b rest : 0 <= p -> skipn (Z.to_nat p) l = b ++ rest -> splice l p b = l.
Proof.
  intros P E. destruct b as [|x b]; [reflexivity|]. set (c := x :: b) in *.
  rewrite <- (firstn_skipn (Z.to_nat p) l) at 1. rewrite E.
  assert (L : length (firstn (Z.to_nat p) l) = Z.to_nat p).
  { apply firstn_length_le. apply (f_equal (@length Z)) in E. rewrite skipn_length, app_length in E. cbn [c length] in E. lia. }
  rewrite splice_at by (unfold Zlen; lia). rewrite skipn_exact by reflexivity. rewrite <- E. apply firstn_skipn.
Qed.
Lemma be4 a b c d : is_byte a -> is_byte b -> is_byte c -> is_byte d -> uint32_to_be (be_to_uint32 a b c d) = [a; b; c; d].
Proof.
  intros. rewrite be_to_uint32_value by assumption. rewrite uint32_to_be_octets. apply (be_octets_be_value [a; b; c; d]). repeat apply Forall_cons; auto.
Qed.
Lemma be8 a b c d e f g h : is_byte a -> is_byte b -> is_byte c -> is_byte d -> is_byte e -> is_byte f -> is_byte g -> is_byte h ->
  uint64_to_be (be_to_uint64 a b c d e f g h) = [a; b; c; d; e; f; g; h].
Proof.
  intros. rewrite be_to_uint64_value by assumption. rewrite uint64_to_be_octets. apply (be_octets_be_value [a; b; c; d; e; f; g; h]). repeat apply Forall_cons; auto.
Qed.
(** The header read at a place is written there as the very octets it was read from. *)
Lemma header_read_octets data pos h : bytes data -> 0 <= pos -> Zlen data < 2 ^ 64 -> read_box_header data pos = Ok h ->
  h_offset h = pos /\ (h_header_size h = 8 \/ h_header_size h = 16) /\ 0 <= h_size h < 2 ^ 64 /\ Zlen (header_octets h) = h_header_size h /\
  exists rest, skipn (Z.to_nat pos) data = header_octets h ++ rest.
Proof.
  intros B P L. unfold read_box_header. destruct (_ <? SMALL_HEADER_SIZE); [discriminate|].
  assert (Bs : bytes (skipn (Z.to_nat pos) data)).
  { unfold bytes in *. rewrite <- (firstn_skipn (Z.to_nat pos) data) in B. apply Forall_app in B. apply B. }
  destruct (skipn (Z.to_nat pos) data) as [|b0 [|b1 [|b2 [|b3 [|t0 [|t1 [|t2 [|t3 rest]]]]]]]] eqn:E; try discriminate.
  unfold bytes in Bs. rewrite Forall_forall in Bs.
  assert (B0 : is_byte b0) by (apply Bs; cbn; tauto). assert (B1 : is_byte b1) by (apply Bs; cbn; tauto).
  assert (B2 : is_byte b2) by (apply Bs; cbn; tauto). assert (B3 : is_byte b3) by (apply Bs; cbn; tauto).
  pose proof (be4 b0 b1 b2 b3 B0 B1 B2 B3) as E4.
  assert (R4 : 0 <= be_to_uint32 b0 b1 b2 b3 < 2 ^ 32).
  { rewrite be_to_uint32_value by assumption. apply (be_octets_be_value [b0; b1; b2; b3]). repeat apply Forall_cons; auto. }
  cbv zeta. destruct (Z.eqb_spec (be_to_uint32 b0 b1 b2 b3) 0) as [Z0|Z0].
  - intros H. injection H as <-. unfold header_octets. cbn [h_offset h_header_size h_size h_type h_extend_to_eof].
    split; [reflexivity|]. split; [left; reflexivity|]. split; [unfold u64; apply Z.mod_pos_bound; lia|]. split; [reflexivity|].
    rewrite Z0 in E4. injection E4 as <- <- <- <-. exists rest. reflexivity.
  - destruct (Z.eqb_spec (be_to_uint32 b0 b1 b2 b3) 1) as [Z1|Z1].
    + destruct (_ <? LARGE_HEADER_SIZE); [discriminate|].
      destruct rest as [|c0 [|c1 [|c2 [|c3 [|c4 [|c5 [|c6 [|c7 rest]]]]]]]]; try discriminate.
      intros H. injection H as <-. unfold header_octets. cbn [h_offset h_header_size h_size h_type h_extend_to_eof].
      change (LARGE_HEADER_SIZE =? LARGE_HEADER_SIZE) with true. rewrite andb_false_r.
      rewrite be8 by (apply Bs; cbn; tauto).
      split; [reflexivity|]. split; [right; reflexivity|].
      split; [unfold be_to_uint64; apply Z.mod_pos_bound; lia|]. split; [reflexivity|].
      rewrite Z1 in E4. injection E4 as <- <- <- <-. exists rest. reflexivity.
    + intros H. injection H as <-. unfold header_octets. cbn [h_offset h_header_size h_size h_type h_extend_to_eof].
      unfold UINT32_MAX. replace (be_to_uint32 b0 b1 b2 b3 <=? 2 ^ 32 - 1) with true by lia. change (SMALL_HEADER_SIZE =? LARGE_HEADER_SIZE) with false. cbn [negb andb].
      rewrite E4. split; [reflexivity|]. split; [left; reflexivity|]. split; [lia|]. split; [reflexivity|]. exists rest. reflexivity.
Qed.
Lemma header_rewrite data pos h p0 : bytes data -> 0 <= pos -> Zlen data < 2 ^ 64 -> read_box_header data pos = Ok h ->
  header_write h (mkOS data p0) = (h, mkOS data (pos + h_header_size h)).
Proof.
  intros B P L E. destruct (header_read_octets data pos h B P L E) as (O & _ & R & Lh & rest & Sk).
  unfold header_write. cbv zeta. rewrite Lh, Z.sub_diag, Z.add_0_r, u64_small by exact R.
  unfold os_write, os_seekp. cbn [os_data os_pos]. rewrite O, (splice_same data pos _ rest P Sk), Lh.
  destruct h; cbn in *; subst. reflexivity.
Qed.

(** * Layout *)
Lemma writable_shape t : all_boxes writable t -> all_boxes box_shape t.
Proof.
  induction t as [t b l IH] using tree_ind'. rewrite !all_boxes_eq. intros [[A1 A2] B]. split; [apply shape_of; assumption|].
  clear -IH B. induction IH as [|k l Hk Hl IHl]; [constructor|]. inversion B; subst. constructor; auto.
Qed.
Lemma layout_ok n off : all_boxes writable (tree_of n) -> types_ok (tree_of n) -> headers_ok n ->
  let size := Zlen (serialize_with written (tree_of n)) in
  0 <= off -> off + size < 2 ^ 64 ->
  exists n', BoxInfo_adjustOffsetAndSize n off = Ok (n', size) /\ tree_of n' = tree_of n /\ headers_ok n' /\ laid_out n' off /\ announced_size n' = size.
Proof.
  cbv zeta. intros A T H O B. apply writable_shape in A. rewrite nsize_serialize in * by assumption. pose proof (shape_sized _ A) as S.
  exists (place n off). split; [apply adjust_ok; [exact S|lia]|]. split; [apply tree_of_place|]. split; [apply headers_ok_place; exact H|].
  split; [apply place_laid_out; assumption|apply announced_place].
Qed.
(** A laid-out tree is what adjustOffsetAndSize makes of it. *)
Lemma laid_out_nsize n : forall off, laid_out n off -> nsize n = announced_size n.
Proof.
  induction n as [t h b l IH] using node_ind'. intros off Lo. destruct h as [h|]; [|contradiction]. rewrite laid_out_eq in Lo.
  destruct Lo as (_ & _ & L3 & L4 & L5). unfold announced_size. cbn [n_header]. rewrite L4, L3. rewrite nsize_eq. cbn [dsize].
  assert (E : sum_by nsize l = total_announced l).
  { revert L5. generalize (off + h_header_size h + Box_getDataSize b). clear -IH.
    induction IH as [|k l Hk Hl IHl]; intros p Lo; [reflexivity|]. cbn [laid_out_all] in Lo. destruct Lo as [Lk Ll].
    unfold sum_by, total_announced in *. cbn [fold_right]. rewrite (Hk _ Lk), (IHl _ Ll). reflexivity. }
  rewrite E. lia.
Qed.
Lemma laid_out_place n : forall off, sized n -> headers_ok n -> laid_out n off -> 0 <= off -> off + nsize n < 2 ^ 64 -> place n off = n.
Proof.
  induction n as [t h b l IH] using node_ind'. intros off S H Lo O B. pose proof (laid_out_nsize _ _ Lo) as N. destruct h as [h|]; [|contradiction].
  rewrite sized_eq in S. rewrite headers_ok_eq in H. rewrite laid_out_eq in Lo.
  destruct S as [S1 S2], H as [[H1 H1'] H2]. destruct Lo as (L1 & L2 & L3 & L4 & L5). unfold announced_size in N. cbn [n_header] in N.
  pose proof (sum_nsize_nonneg l S2) as S3.
  assert (E : sum_by nsize l = total_announced l) by (rewrite nsize_eq in N; cbn [dsize] in N; clear -L5; revert L5; generalize (off + h_header_size h + Box_getDataSize b);
    induction l as [|k l IHl]; intros p Lo; [reflexivity|]; cbn [laid_out_all] in Lo; destruct Lo as [Lk Ll];
    unfold sum_by, total_announced in *; cbn [fold_right]; rewrite (laid_out_nsize _ _ Lk), (IHl _ Ll); reflexivity).
  rewrite place_eq. cbv zeta. cbn [makeHeader]. rewrite E, <- L3, H1, H1'. rewrite N in B. rewrite E in S3.
  assert (F : h_header_size h = 8 \/ h_header_size h = 16) by (rewrite L3; apply frame_hs).
  replace (Box_getDataSize b + total_announced l + h_header_size h) with (h_size h) by lia. rewrite <- L2 at 1.
  rewrite u64_small by lia.
  assert (P : forall base acc, 0 <= base -> 0 <= acc -> laid_out_all l (base + acc) -> base + acc + total_announced l < 2 ^ 64 -> place_all place l base acc = l).
  { clear -IH S2 H2. induction IH as [|k l Hk Hl IHl]; intros base acc B0 A0 Lo B; [reflexivity|].
    inversion S2 as [|? ? Sk Sl]; inversion H2 as [|? ? Hhk Hhl]; subst. cbn [laid_out_all] in Lo. destruct Lo as [Lk Ll].
    unfold total_announced in *. cbn [fold_right place_all] in *. pose proof (laid_out_nsize _ _ Lk) as Nk. pose proof (nsize_pos k Sk) as Pk.
    assert (0 <= fold_right (fun n s => announced_size n + s) 0 l).
    { clear -Sl Ll. revert Ll. generalize (base + acc + announced_size k). induction l as [|m l IHl]; intros p Lo; [cbn; lia|].
      cbn [laid_out_all fold_right] in *. destruct Lo as [Lm Ll]. inversion Sl as [|? ? Sm Sl']; subst. specialize (IHl Sl' _ Ll).
      pose proof (laid_out_nsize _ _ Lm). pose proof (nsize_pos m Sm). lia. }
    rewrite u64_small by lia. rewrite (Hk _ Sk Hhk Lk) by lia. f_equal. rewrite (u64_small (acc + nsize k)) by lia. rewrite Nk. apply IHl; auto; try lia.
    rewrite Z.add_assoc. exact Ll. }
  rewrite (P (off + h_header_size h + Box_getDataSize b) 0); [|lia|lia|rewrite Z.add_0_r; exact L5|lia].
  subst t. destruct h; cbn in *; subst; reflexivity.
Qed.
Lemma serialize_with_ext p q t : all_boxes (fun b => p b = q b) t -> serialize_with p t = serialize_with q t.
Proof.
  induction t as [t b l IH] using tree_ind'. rewrite all_boxes_eq. intros [A B]. cbn [serialize_with]. rewrite A.
  assert (E : flat_map (serialize_with p) l = flat_map (serialize_with q) l).
  { clear -IH B. induction IH as [|k l Hk Hl IHl]; [reflexivity|]. inversion B; subst. cbn [flat_map]. rewrite Hk, IHl; auto. }
  rewrite E. reflexivity.
Qed.
Lemma wf_written uw t : tree_wf uw t -> serialize_with written t = serialize t.
Proof.
  intros W. apply serialize_with_ext. revert uw W. induction t as [t b l IH] using tree_ind'. intros uw. rewrite tree_wf_eq, all_boxes_eq.
  intros (_ & _ & _ & W & _ & F). split; [eapply written_wire; exact W|]. clear -IH F. induction IH as [|k l Hk Hl IHl]; [constructor|].
  inversion F; subst. constructor; eauto.
Qed.
Lemma write_ok n off o : all_boxes writable (tree_of n) -> all_boxes box_printable (tree_of n) -> types_ok (tree_of n) -> headers_ok n -> laid_out n off ->
  0 <= off -> off + announced_size n < 2 ^ 64 ->
  let region := serialize_with written (tree_of n) in
  Zlen region = announced_size n /\ (forall uw, tree_wf uw (tree_of n) -> region = serialize (tree_of n)) /\
  exists o', BoxInfo_write n o = Ok (n, o') /\ os_pos o' = off + announced_size n /\
    Zlen (os_data o') = Z.max (Zlen (os_data o)) (off + announced_size n) /\
    firstn (length region) (skipn (Z.to_nat off) (os_data o')) = region /\
    forall i, (i < length (os_data o))%nat -> Z.of_nat i < off \/ off + announced_size n <= Z.of_nat i ->
      nth_error (os_data o') i = nth_error (os_data o) i.
Proof.
  intros A Pr T H Lo O B. cbv zeta. apply printable_prints in Pr. apply writable_shape in A. pose proof (shape_sized _ A) as S. pose proof (laid_out_nsize _ _ Lo) as N.
  rewrite <- N in *. pose proof (laid_out_place n off S H Lo O B) as P. pose proof (nsize_serialize n A T) as Z.
  split; [exact Z|]. split; [intros uw W; eapply wf_written; exact W|].
  pose proof (write_place n off o Pr A T H O B) as W. rewrite P in W. eexists. split; [exact W|]. cbn [os_pos os_data]. rewrite Z.
  split; [reflexivity|]. split; [rewrite splice_length by (auto using serialize_nonempty); rewrite Z; reflexivity|].
  split; [apply splice_inside; exact O|]. intros i I D. apply splice_outside; auto. rewrite Z. exact D.
Qed.

(** * Unknown boxes *)
Lemma unsupported_kind t : BoxMap_isSupported BoxMap_registered t = false -> BoxMap_getBoxInstance BoxMap_registered t = K_unsupported.
Proof. unfold BoxMap_isSupported, BoxMap_getBoxInstance. destruct (BoxMap_find _ _); [discriminate|reflexivity]. Qed.
(** * What the reader reports *)
Lemma from_file_eq data uw t h b l : from_file data uw (Node t (Some h) b l) <->
  (0 <= h_offset h /\ read_box_header data (h_offset h) = Ok h /\ h_type h = t /\ h_header_size h <= h_size h /\ h_offset h + h_size h <= Zlen data /\
   (exists r bits, Box_readData (BoxMap_getBoxInstance BoxMap_registered t) t uw (reader_init (payload_at data h)) = Ok (r, bits, b)) /\
   ((exists p, b = B_unsupported p) -> l = [])) /\ Forall (from_file data (list_eqb t [119; 97; 118; 101])) l.
Proof.
  cbn [from_file]. assert (forall w l, (fix all (l : list node) : Prop := match l with [] => True | k :: l' => from_file data w k /\ all l' end) l <-> Forall (from_file data w) l) as E.
  { clear. intros w. induction l as [|k l IH]; [split; [constructor|trivial]|]. rewrite IH. split; [intros [A B]; constructor; assumption|intros F; inversion F; auto]. }
  rewrite E. reflexivity.
Qed.
Definition boxes_all (l : list node) : Z := fold_right (fun k s => boxes k + s) 0 l.
Lemma unsupported_payload p type uw : bytes p ->
  exists r, Box_readData K_unsupported type uw (reader_init p) = Ok (r, 8 * Zlen p, B_unsupported p).
Proof.
  intros B. cbn [Box_readData]. assert (F : fields_ok (raw_layout p)) by (repeat constructor; exact B). pose proof (unsupported_read p F) as R.
  destruct (rspec_rmap B_unsupported _ _ _ _ R (reader_init p)) as (r & E & _).
  - apply rwf_init. exact B.
  - rewrite app_nil_r. unfold raw_layout. cbn [enc flat_map field_bits]. rewrite app_nil_r. unfold rbits. cbn [reader_init r_width r_octet r_pos r_data skipn be Z.to_nat app]. reflexivity.
  - exists r. rewrite E. unfold raw_layout. cbn [enc flat_map field_bits]. rewrite app_nil_r, Zlen_bits_of. reflexivity.
Qed.
Lemma readData_unsupported k type uw r0 r n p : Box_readData k type uw r0 = Ok (r, n, B_unsupported p) -> k = K_unsupported.
Proof.
  destruct k; cbn [Box_readData]; auto; unfold rmap, rbind, rret;
  repeat match goal with |- context [match ?m with Ok _ => _ | Throw _ => _ | UB => _ end] => destruct m as [[[? ?] ?]|?|] end; try discriminate.
Qed.
Section FromFile.
  Variables (file : bool) (data : list Z).
  Hypothesis Hb : bytes data.
  Hypothesis Hl : Zlen data < 2 ^ 63.
  Lemma reader_reports : forall fuel,
    (forall uw pos n pos1 size, 0 <= pos -> readBox fuel file data uw pos = Some (Ok (n, pos1, size)) ->
       from_file data uw n /\ pos + 8 <= Zlen data /\ pos + 8 <= pos1 /\ 8 * boxes n <= Z.min (Zlen data) pos1 - pos) /\
    (forall uw bound rbytes pos ns pos1, 0 <= pos -> readLeafs fuel file data uw bound rbytes pos = Some (Ok (ns, pos1)) ->
       Forall (from_file data uw) ns /\ pos <= pos1 /\ 8 * boxes_all ns <= Z.max 0 (Z.min (Zlen data) pos1 - pos)).
  Proof.
    induction fuel as [|f [IHb IHl]]; split; try (intros; discriminate).
    - intros uw pos n pos1 size P0. cbn [readBox].
      destruct (Z_gt_le_dec pos (Zlen data)) as [Pl|Pl].
      { pose proof (read_header_past data pos ltac:(lia)) as R. destruct (read_box_header data pos); [contradiction|discriminate|discriminate]. }
      pose proof (read_header_cases data pos ltac:(lia) ltac:(lia) Hb) as R.
      destruct (read_box_header data pos) as [h|e|] eqn:Eh; [|discriminate|discriminate].
      destruct R as (R1 & R2 & R3 & R4 & R5). cbv zeta. rewrite R1.
      destruct (negb file && _); [discriminate|].
      rewrite (u64_small (Zlen data - pos)) by lia. rewrite (u64_small (Zlen data - pos - h_header_size h)) by lia.
      destruct (Z.gtb_spec (header_getDataSize h) (Zlen data - pos - h_header_size h)) as [C|C]; [discriminate|].
      assert (Ds : h_size h = header_getDataSize h + h_header_size h /\ 0 <= header_getDataSize h).
      { unfold header_getDataSize, u64 in *. destruct (Z_lt_ge_dec (h_size h) (h_header_size h)) as [Q|Q].
        - exfalso. assert (E : (h_size h - h_header_size h) mod 2 ^ 64 = h_size h - h_header_size h + 2 ^ 64).
          { rewrite <- (Z.mod_add _ 1) by lia. rewrite Z.mul_1_l. apply Z.mod_small. lia. }
          rewrite E in C. lia.
        - rewrite Z.mod_small by lia. lia. }
      destruct Ds as [Ds Dn].
      destruct (Z.gtb_spec (pos + h_header_size h + header_getDataSize h) (Zlen data)) as [C2|C2]; [discriminate|].
      assert (Epl : firstn (Z.to_nat (header_getDataSize h)) (skipn (Z.to_nat (pos + h_header_size h)) data) = payload_at data h) by (unfold payload_at; rewrite R1; reflexivity).
      rewrite Epl.
      assert (Bp : bytes (payload_at data h)).
      { unfold payload_at, bytes in *. rewrite Forall_forall in Hb |- *. intros x Hx. apply Hb. eapply In_firstn_aux; exact Hx. }
      assert (Lp : Zlen (payload_at data h) = header_getDataSize h).
      { unfold payload_at, Zlen in *. rewrite R1, firstn_length, skipn_length. lia. }
      destruct (Box_readData _ _ _ _) as [[[r nb] b]|e|] eqn:Ed; [|discriminate|discriminate].
      pose proof (readData_facts (BoxMap_getBoxInstance BoxMap_registered (h_type h)) (h_type h) uw (payload_at data h) Bp) as Rd. rewrite Ed in Rd. destruct Rd as [Rn _].
      destruct (negb file && _); [discriminate|].
      destruct (readLeafs f file data _ _ _ _) as [[[ns pos2]|e|]|] eqn:El; try discriminate. intros H. injection H as <- <- <-.
      pose proof El as El'. apply IHl in El; [|lia]. destruct El as (L1 & L2 & L3). split; [|split; [lia|split; [lia|]]].
      + rewrite from_file_eq. split; [|exact L1]. rewrite R1. repeat split; auto; try lia.
        * exists r, nb. exact Ed.
        * intros [p ->]. pose proof (readData_unsupported _ _ _ _ _ _ _ Ed) as K. rewrite K in Ed.
          destruct (unsupported_payload (payload_at data h) (h_type h) uw Bp) as (r' & E'). rewrite E' in Ed. assert (En : nb = 8 * Zlen (payload_at data h)) by congruence. clear Ed E'.
          destruct f as [|f']; [discriminate|]. cbn [readLeafs] in El'. rewrite En, Lp in El'. replace (8 * header_getDataSize h / 8) with (header_getDataSize h) in El' by lia.
          replace (header_getDataSize h >? header_getDataSize h) with false in El' by lia. injection El' as <- _. reflexivity.
      + cbn [boxes]. unfold boxes_all in L3. lia.
    - intros uw bound rbytes pos ns pos1 P0. cbn [readLeafs]. destruct (bound >? rbytes).
      2:{ intros H. injection H as <- <-. split; [constructor|]. cbn. lia. }
      destruct (readBox f file data uw pos) as [[[[n pos2] size]|e|]|] eqn:Eb; try discriminate.
      destruct (readLeafs f file data uw bound _ pos2) as [[[l pos3]|e|]|] eqn:El; try discriminate. intros H. injection H as <- <-.
      apply IHb in Eb; [|exact P0]. destruct Eb as (B1 & B2 & B3 & B4). apply IHl in El; [|lia]. destruct El as (L1 & L2 & L3).
      split; [constructor; assumption|]. split; [lia|]. cbn [boxes_all fold_right]. unfold boxes_all in L3. lia.
  Qed.
End FromFile.
Lemma SimpleReader_reports file data ns : bytes data -> Zlen data < 2 ^ 63 -> SimpleReader_parse file data = Some (Ok ns) ->
  Forall (from_file data false) ns /\ 8 * boxes_all ns <= Zlen data.
Proof.
  intros B L. unfold SimpleReader_parse. destruct (readLeafs _ _ _ _ _ _ _) as [[[l pos]|e|]|] eqn:E; try discriminate. intros H. injection H as <-.
  destruct (reader_reports file data B L (length data + 2)) as [_ R]. apply R in E; [|lia]. destruct E as (A & C & D). split; [exact A|]. pose proof (Zlen_nonneg data). lia.
Qed.
Lemma occurs_from data n m : occurs n m -> forall uw, from_file data uw m -> exists uw', from_file data uw' n.
Proof.
  induction 1 as [|k t h b l I O IH]; intros uw F; [eauto|]. destruct h as [h|]; [|destruct F as [[] _]].
  rewrite from_file_eq in F. destruct F as [_ F]. rewrite Forall_forall in F. eapply IH. apply F. exact I.
Qed.
Lemma unknown_preserved file data ns n p0 : bytes data -> Zlen data < 2 ^ 63 -> SimpleReader_parse file data = Some (Ok ns) ->
  (exists m, In m ns /\ occurs n m) -> BoxMap_isSupported BoxMap_registered (n_type n) = false ->
  exists h, n = Node (n_type n) (Some h) (B_unsupported (payload_at data h)) [] /\
    read_box_header data (h_offset h) = Ok h /\ Zlen (payload_at data h) = h_size h - h_header_size h /\
    BoxInfo_write n (mkOS data p0) = Ok (n, mkOS data (h_offset h + h_size h)).
Proof.
  intros B L R (m & M & O) U. destruct (SimpleReader_reports _ _ _ B L R) as [F _]. rewrite Forall_forall in F.
  destruct (occurs_from data n m O false (F m M)) as (uw & G). destruct n as [t [h|] b l]; [|destruct G as [[] _]].
  rewrite from_file_eq in G. destruct G as ((G0 & G1 & G2 & G3 & G4 & (r & bits & G5) & G6) & _). cbn [n_type] in *.
  rewrite (unsupported_kind _ U) in G5.
  assert (Bp : bytes (payload_at data h)).
  { unfold payload_at, bytes in *. rewrite Forall_forall in B |- *. intros x Hx. apply B. eapply In_firstn_aux; exact Hx. }
  destruct (unsupported_payload (payload_at data h) t uw Bp) as (r' & E'). rewrite E' in G5. assert (Eb : b = B_unsupported (payload_at data h)) by congruence. clear G5 E'. subst b.
  rewrite (G6 ltac:(eauto)). exists h. split; [reflexivity|]. split; [exact G1|].
  destruct (header_read_octets data _ h B G0 ltac:(lia) G1) as (_ & Hs & Hr & _).
  assert (Ds : header_getDataSize h = h_size h - h_header_size h) by (unfold header_getDataSize; apply u64_small; lia).
  assert (Lp : Zlen (payload_at data h) = h_size h - h_header_size h).
  { unfold payload_at, Zlen in *. rewrite firstn_length, skipn_length, Ds. lia. }
  split; [exact Lp|]. rewrite BoxInfo_write_eq by (eexists; reflexivity). rewrite (header_rewrite data _ h p0 B G0 ltac:(lia) G1). cbv iota beta.
  rewrite os_writeData_ok by exact I. cbn [BoxInfo_write_all]. do 2 f_equal.
  assert (Wr : written (B_unsupported (payload_at data h)) = payload_at data h).
  { rewrite (written_wire 0) by (cbn; split; [exact Bp|reflexivity]). unfold wire_payload, box_layout, raw_layout. cbn [enc flat_map field_bits]. rewrite app_nil_r. apply octets_of_bits. exact Bp. }
  rewrite Wr. unfold os_write. cbn [os_data os_pos]. rewrite Lp. f_equal; [|lia].
  apply (splice_same data (h_offset h + h_header_size h) _ (skipn (Z.to_nat (header_getDataSize h)) (skipn (Z.to_nat (h_offset h + h_header_size h)) data))).
  - lia.
  - unfold payload_at. symmetry. apply firstn_skipn.
Qed.
(** A box that does not fit, after any well-formed boxes. *)
Lemma oversized_rejected file ts rest h : Forall (tree_wf false) ts -> bytes rest -> Zlen (flat_map serialize ts ++ rest) < 2 ^ 63 ->
  let data := flat_map serialize ts ++ rest in
  read_box_header data (Zlen (flat_map serialize ts)) = Ok h ->
  h_size h < h_header_size h \/ Zlen data < Zlen (flat_map serialize ts) + h_size h ->
  SimpleReader_parse file data = Some (Throw RuntimeError).
Proof.
  cbv zeta. intros W Br L E C. set (data := flat_map serialize ts ++ rest) in *.
  assert (Bd : bytes data).
  { apply bytes_app; [|exact Br]. clear -W. induction W as [|t ts Wt Wts IH]; [constructor|]. cbn [flat_map]. apply bytes_app; [eapply serialize_bytes; exact Wt|exact IH]. }
  assert (Lr : (8 <= length rest)%nat).
  { pose proof (read_header_cases data (Zlen (flat_map serialize ts))) as R. rewrite E in R. unfold data in R. rewrite Zlen_app in R. pose proof (Zlen_nonneg (flat_map serialize ts)). pose proof (Zlen_nonneg rest).
    unfold data in L. rewrite Zlen_app in L. specialize (R ltac:(lia) ltac:(lia) Bd). unfold Zlen in *. lia. }
  assert (Rej : forall fuel, readBox (S fuel) file data false (Zlen (flat_map serialize ts)) = Some (Throw RuntimeError)).
  { intros fuel. apply (readBox_rejects fuel file data false _ h); auto. unfold data. rewrite Zlen_app. pose proof (Zlen_nonneg (flat_map serialize ts)). pose proof (Zlen_nonneg rest). lia. }
  enough (G : forall ts2 pre fuel, Forall (tree_wf false) ts2 -> flat_map serialize ts = pre ++ flat_map serialize ts2 -> (length (flat_map serialize ts2) + 2 <= fuel)%nat ->
     readLeafs fuel file data false (Zlen data) (Zlen pre) (Zlen pre) = Some (Throw RuntimeError)).
  { unfold SimpleReader_parse. specialize (G ts [] (length data + 2)%nat W eq_refl). rewrite (@Zlen_nil Z) in G. rewrite G; [reflexivity|]. unfold data. rewrite app_length. lia. }
  induction ts2 as [|t ts2 IH]; intros pre fuel W2 Ep F.
  - destruct fuel as [|[|fuel]]; [cbn in F; lia|cbn in F; lia|]. cbn [flat_map] in Ep. rewrite app_nil_r in Ep. subst pre. cbn [readLeafs].
    replace (Zlen data >? Zlen (flat_map serialize ts)) with true by (unfold data; rewrite Zlen_app; unfold Zlen; lia). rewrite Rej. reflexivity.
  - inversion W2 as [|? ? Wt Wts]; subst. cbn [flat_map] in Ep, F. rewrite app_length in F. pose proof (serialize_len8 t false Wt) as L8.
    destruct fuel as [|fuel]; [lia|]. cbn [readLeafs].
    assert (D : data = pre ++ serialize t ++ (flat_map serialize ts2 ++ rest)) by (unfold data; rewrite Ep, <- !app_assoc; reflexivity).
    replace (Zlen data >? Zlen pre) with true by (rewrite D, !Zlen_app; pose proof (Zlen_nonneg (flat_map serialize ts2)); pose proof (Zlen_nonneg rest); lia).
    destruct (readBox_ok file data ltac:(lia) fuel) as [Rb _]. destruct (Rb t false pre _ Wt D ltac:(lia)) as (n & En & _). rewrite En.
    rewrite u64_small by (apply (f_equal Zlen) in D; rewrite !Zlen_app in D; pose proof (Zlen_nonneg (flat_map serialize ts2)); pose proof (Zlen_nonneg rest); pose proof (Zlen_nonneg pre); lia).
    specialize (IH (pre ++ serialize t) fuel Wts). rewrite Zlen_app in IH. rewrite IH; [reflexivity|rewrite <- app_assoc; exact Ep|unfold Zlen in L8; lia].
Qed.
Lemma reader_comes_back file data : bytes data -> Zlen data < 2 ^ 63 ->
  (match SimpleReader_parse file data with
   | None => False
   | Some (Ok ns) => Forall (within (Zlen data)) ns
   | Some (Throw _) => True
   | Some UB => has_unversioned_alst data \/ (file = true /\ has_overreporting data)
   end) /\
  exists r, forall fuel, (length data + 2 <= fuel)%nat -> readLeafs fuel file data false (Zlen data) 0 0 = Some r.
Proof.
  intros B L. pose proof (SimpleReader_total file data B L) as T. split; [exact T|]. unfold SimpleReader_parse in T.
  destruct (readLeafs (length data + 2) file data false (Zlen data) 0 0) as [r|] eqn:E; [|contradiction].
  exists r. intros fuel F. destruct (reader_fuel_mono file data (length data + 2) fuel F) as [_ M]. apply M. exact E.
Qed.
Lemma header_outcome data pos : 0 <= pos <= Zlen data -> Zlen data < 2 ^ 64 -> bytes data ->
  let here := skipn (Z.to_nat pos) data in
  (header_truncated here /\ read_box_header data pos = Throw InvalidArgument) \/
  (~ header_truncated here /\ exists h, read_box_header data pos = Ok h /\ header_at here h /\ h_offset h = pos /\
     pos + h_header_size h <= Zlen data /\ 0 <= h_size h < 2 ^ 64).
Proof.
  intros P L By. cbv zeta. unfold read_box_header. rewrite u64_small by lia. unfold SMALL_HEADER_SIZE, LARGE_HEADER_SIZE.
  assert (Ls : Zlen (skipn (Z.to_nat pos) data) = Zlen data - pos) by (unfold Zlen in *; rewrite skipn_length; lia).
  assert (Bs : bytes (skipn (Z.to_nat pos) data)).
  { unfold bytes in *. rewrite <- (firstn_skipn (Z.to_nat pos) data) in By. apply Forall_app in By. apply By. }
  destruct (Z.ltb_spec (Zlen data - pos) 8) as [C|C]; [left; split; [left; lia|reflexivity]|].
  rewrite <- Ls in *. generalize dependent (skipn (Z.to_nat pos) data). intros here Ls Bs C.
  destruct here as [|b0 [|b1 [|b2 [|b3 [|t0 [|t1 [|t2 [|t3 rest]]]]]]]]; try (exfalso; unfold Zlen in C; cbn in C; lia).
  unfold bytes in Bs. rewrite Forall_forall in Bs.
  rewrite be_to_uint32_value by (apply Bs; cbn; tauto).
  assert (R : 0 <= be_value [b0; b1; b2; b3] < 2 ^ 32 /\ be_octets 4 (be_value [b0; b1; b2; b3]) = [b0; b1; b2; b3]).
  { destruct (be_octets_be_value [b0; b1; b2; b3]) as [A B]; [apply Forall_forall; intros x Hx; apply Bs; cbn in *; tauto|]. split; [exact B|exact A]. }
  destruct R as [R Ro]. set (v := be_value [b0; b1; b2; b3]) in *.
  assert (NT : v <> 1 -> ~ header_truncated (b0 :: b1 :: b2 :: b3 :: t0 :: t1 :: t2 :: t3 :: rest)).
  { intros V [X|(X & r & Y)]; [lia|]. apply V. injection Y as -> -> -> -> _. reflexivity. }
  cbv zeta. destruct (Z.eqb_spec v 0) as [Z0|Z0]; [|destruct (Z.eqb_spec v 1) as [Z1|Z1]].
  - right. split; [apply NT; lia|]. eexists. split; [reflexivity|]. cbn [h_offset h_header_size h_size].
    split; [|repeat split; lia]. exists [b0; b1; b2; b3], [t0; t1; t2; t3], rest. repeat split. left. cbn. repeat split; auto.
  - rewrite Z1 in Ro. change (be_octets 4 1) with [0; 0; 0; 1] in Ro. injection Ro as <- <- <- <-.
    destruct (Z.ltb_spec (Zlen (0 :: 0 :: 0 :: 1 :: t0 :: t1 :: t2 :: t3 :: rest)) 16) as [D|D].
    + left. split; [right; split; [lia|]; eexists; reflexivity|reflexivity].
    + destruct rest as [|c0 [|c1 [|c2 [|c3 [|c4 [|c5 [|c6 [|c7 rest]]]]]]]]; try (exfalso; unfold Zlen in D; cbn in D; lia).
      rewrite be_to_uint64_value by (apply Bs; cbn; tauto).
      assert (R8 : 0 <= be_value [c0; c1; c2; c3; c4; c5; c6; c7] < 2 ^ 64).
      { apply (be_octets_be_value [c0; c1; c2; c3; c4; c5; c6; c7]). apply Forall_forall; intros x Hx; apply Bs; cbn in *; tauto. }
      right. split; [intros [X|(X & _)]; lia|]. eexists. split; [reflexivity|]. cbn [h_offset h_header_size h_size].
      split; [|repeat split; lia]. exists [0; 0; 0; 1], [t0; t1; t2; t3], (c0 :: c1 :: c2 :: c3 :: c4 :: c5 :: c6 :: c7 :: rest). repeat split. right. left.
      cbn [h_header_size h_size h_extend_to_eof]. repeat split. exists [c0; c1; c2; c3; c4; c5; c6; c7], rest. repeat split.
  - right. split; [apply NT; lia|]. eexists. split; [reflexivity|]. cbn [h_offset h_header_size h_size].
    split; [|repeat split; lia]. exists [b0; b1; b2; b3], [t0; t1; t2; t3], rest. repeat split. right. right. cbn [h_header_size h_size h_extend_to_eof]. repeat split. fold v. lia.
Qed.
