(** C75: what reading a file costs. *)
From Verif Require Import Base BitIO BitIOProofs Boxes WireFormat DescriptorSpec Box BoxSpec BoxTree TreeSpec TreeLayout TreeProofs TreeRead ReaderTiling TreeLemmas AnnexBSpec H264 Track Writers MovieSpec MovieShape FaststartFile RoundTrip PropFile PropRoundTrip Cost CostSpec CostProofs.
From Coq Require Import Ascii String List.
Import ListNotations.
Open Scope Z_scope.
Open Scope list_scope.

(** C75.  Whatever the file, and whether read() comes back with boxes or an exception: readBox is called at most once for every 8 octets,
    and once more; no more calls are active at the same time; and the copies it makes of the data of boxes, those that exist at the same time as
    well as all together, have at most (n - 8) + (n - 16) + ... octets for n octets of file, which is less than n * n / 16. *)
Theorem C75_any_file : forall file data, bytes data -> Zlen data < 2 ^ 63 ->
  exists c r, SimpleReader_cost file data = Some (c, r) /\ SimpleReader_parse file data = Some r /\
    nested c <= calls c <= Zlen data / 8 + 1 /\
    held c <= copied c <= nested_octets (Zlen data) /\ 16 * nested_octets (Zlen data) <= Zlen data * Zlen data.
Proof.
  intros file data Hb Hl. destruct (cost_total file data Hb Hl) as (c & r & E & P). exists c, r. split; [exact E|]. split; [exact P|].
  pose proof (proj2 (cost_bounds file data Hb Hl (length data + 2)) false (Zlen data) 0 0 ltac:(lia)) as B. unfold SimpleReader_cost in E.
  destruct (readLeafs_c _ _ _ _ _ _ _) as [[c' r']|]; [|discriminate]. injection E as -> <-. destruct B as ((B1 & B2) & B3).
  pose proof (Zlen_nonneg data) as N. unfold slots, left_from in B3. rewrite Z.sub_0_r, (Z.max_r 0 (Zlen data) N) in B3.
  assert (Q : 16 * nested_octets (Zlen data) <= Zlen data * Zlen data).
  { unfold nested_octets. pose proof (Z.div_mod (Zlen data) 8 ltac:(lia)) as D. pose proof (Z.mod_pos_bound (Zlen data) 8 ltac:(lia)). set (q := Zlen data / 8) in *. set (m := Zlen data mod 8) in *. clearbody q m. rewrite D. assert (0 <= q) by lia. nia. }
  destruct r' as [[l p]|e|]; cbn [snd] in B3; [|lia..]. destruct B3 as (B3 & B4 & B5).
  assert (0 <= Z.max 0 (Zlen data - p) / 8) by (apply Z.div_pos; lia). pose proof (nested_octets_nonneg (Z.max 0 (Zlen data - p)) ltac:(lia)). lia.
Qed.
(** When the boxes were read: one call for each box, as many active at the same time as boxes are inside each other, and each box was copied
    once.  If the boxes fill the file (C48), these copies are at most the file times the number of boxes inside each other. *)
Theorem C75_boxes : forall file data ns, bytes data -> Zlen data < 2 ^ 63 -> SimpleReader_parse file data = Some (Ok ns) ->
  exists c, SimpleReader_cost file data = Some (c, Ok ns) /\
    calls c = sumZ boxes ns /\ nested c = maximum (map height ns) /\ copied c = sumZ contents ns /\ held c = maximum (map deepest ns) /\
    ((file = true -> ~ has_overreporting data /\ ~ has_unversioned_alst data) -> copied c <= nested c * Zlen data).
Proof.
  intros file data ns Hb Hl P. destruct (cost_total file data Hb Hl) as (c & r & E & P'). rewrite P in P'. injection P' as <-. exists c. split; [exact E|].
  pose proof (cost_of_parse file data c ns Hb Hl E) as ->. cbn [forest_cost calls nested copied held]. do 4 (split; [reflexivity|]). intros Hf.
  destruct (SimpleReader_tiles file data ns Hb Hl Hf P) as (T1 & T2). rewrite <- T2. apply packed_bound_list. eapply Forall_impl; [exact packed_bound|]. eapply tiled_all_packed; [exact Hb|exact Hl| |exact T1]. lia.
Qed.
(** The bounds are reached, for every size: [8 * k] octets can make read() nest [k] calls and hold copies of (8 * k - 8) + (8 * k - 16) + ... + 8
    octets at the same time. *)
Theorem C75_reached : forall file k, 8 * Z.of_nat k < 2 ^ 63 -> Zlen (nested_file k) = 8 * Z.of_nat k /\
  exists ns, SimpleReader_cost file (nested_file k) = Some (mk_cost (Z.of_nat k) (Z.of_nat k) (nested_octets (8 * Z.of_nat k)) (nested_octets (8 * Z.of_nat k)), Ok ns) /\
    nested_octets (8 * Z.of_nat k) = 4 * Z.of_nat k * (Z.of_nat k - 1).
Proof.
  intros file k H. split; [apply nested_len|]. unfold SimpleReader_cost. rewrite nested_len. pose proof (nested_len k) as L. unfold Zlen in L.
  destruct (nested_cost file k H k (le_n k) (length (nested_file k) + 2)%nat false ltac:(lia)) as (l & E). rewrite Nat.sub_diag in E. change (8 * Z.of_nat 0) with 0 in E. rewrite E. exists l. split; [reflexivity|].
  unfold nested_octets. replace (8 * Z.of_nat k / 8) with (Z.of_nat k) by (rewrite Z.mul_comm, Z.div_mul; lia). nia.
Qed.
(** A file that a writer finished: at most 8 calls are nested, and at most 8 times the file is copied. *)
Fixpoint tree_height (t : tree) : Z := let 'T _ _ kids := t in 1 + maximum (map tree_height kids).
Lemma height_tree n : height n = tree_height (tree_of n).
Proof. induction n as [t h b l IH] using node_ind'. cbn [height tree_of tree_height]. rewrite map_map. do 2 f_equal. induction IH as [|k l E F IH]; [reflexivity|]. cbn [map]. f_equal; assumption. Qed.
Lemma height_as_read t : tree_height (tree_as_read t) = tree_height t.
Proof. induction t as [ty b l IH] using tree_ind'. cbn [tree_as_read tree_height]. rewrite map_map. do 2 f_equal. induction IH as [|k l E F IH]; [reflexivity|]. cbn [map]. f_equal; assumption. Qed.
Lemma entry_height t : tree_height (tree_of (make_sample_entry t)) = 2.
Proof. unfold make_sample_entry. destruct (t_codec t) as [b m a|b m a|o r|w h v m a|w h p l ti cx cy cp obus|w h cv pr co lv sps pps]; try destruct v; reflexivity. Qed.
Lemma offsets_height cs : tree_height (tree_of (make_offset_box cs)) = 1. Proof. unfold make_offset_box. destruct (use_co64 cs); reflexivity. Qed.
Lemma media_header_height h : tree_height (tree_of (make_media_header h)) = 1. Proof. destruct h; reflexivity. Qed.
Lemma trak_height t : tree_height (tree_of (make_trak t)) = 7.
Proof.
  unfold make_trak, new_info. cbn [tree_of map tree_height]. rewrite media_header_height.
  assert (S : tree_height (tree_of (make_stbl t)) = 4).
  { unfold make_stbl, make_stsd, new_info. cbn [tree_of map tree_height].
    destruct (t_codec t); cbn [map tree_of tree_height]; rewrite entry_height, offsets_height; reflexivity. }
  rewrite S. reflexivity.
Qed.

Lemma movie_height timescale duration time id traks : Forall (fun tr => exists t, tr = tree_of (make_trak t)) traks -> 0 <= tree_height (moov_tree timescale duration time id traks) <= 8.
Proof.
  intros F.
  assert (M : 0 <= maximum (map tree_height (traks ++ [udta_tree])) <= 7).
  { induction F as [|tr traks (t & ->) F IH]; [vm_compute; split; discriminate|]. cbn [app map]. rewrite trak_height. set (l := map tree_height (traks ++ [udta_tree])) in *. change (maximum (7 :: l)) with (Z.max 7 (maximum l)). lia. }
  assert (E : tree_height (moov_tree timescale duration time id traks) = 1 + Z.max 1 (maximum (map tree_height (traks ++ [udta_tree])))) by reflexivity. lia.
Qed.
Lemma heights ns trees : map tree_of ns = map tree_as_read trees -> Forall (fun t => tree_height t <= 8) trees -> maximum (map height ns) <= 8.
Proof.
  intros E F. rewrite (map_ext height (fun n => tree_height (tree_of n)) height_tree), <- map_map, E, map_map, (map_ext _ _ height_as_read). clear E.
  induction F as [|t l A F IH]; [unfold maximum; cbn; lia|]. cbn [map]. change (maximum (tree_height t :: map tree_height l)) with (Z.max (tree_height t) (maximum (map tree_height l))). lia.
Qed.
Lemma written_cost seekable file ns text trees : bytes file -> Zlen file < 2 ^ 63 -> SimpleReader_read seekable file = Some (Ok (ns, text)) -> map tree_of ns = map tree_as_read trees ->
  Forall (good false) trees -> Forall (fun t => tree_height t <= 8) trees -> laid_out_all ns 0 -> total_announced ns = Zlen file ->
  exists c, SimpleReader_cost seekable file = Some (c, Ok ns) /\ calls c = sumZ boxes ns /\ nested c <= 8 /\ copied c <= 8 * Zlen file.
Proof.
  intros Hb Hl R E G Hh L T. assert (P : SimpleReader_parse seekable file = Some (Ok ns)).
  { unfold SimpleReader_read in R. destruct (SimpleReader_parse seekable file) as [[l|e|]|]; try discriminate. destruct (print_boxes l); try discriminate. cbn [obind] in R. congruence. }
  destruct (C75_boxes seekable file ns Hb Hl P) as (c & C1 & C2 & C3 & C4 & _ & _). exists c. split; [exact C1|]. split; [exact C2|]. pose proof (heights ns trees E Hh) as H8. split; [lia|].
  assert (S : Forall sized ns).
  { assert (W : Forall (tree_wf false) (map tree_of ns)) by (rewrite E; apply Forall_map; eapply Forall_impl; [|exact G]; intros t (X & _); exact X).
    rewrite Forall_map in W. eapply Forall_impl; [|exact W]. intros n. apply wf_sized. }
  destruct (packed_bound_list ns) as (T0 & T1); [eapply Forall_impl; [exact packed_bound|]; eapply laid_all_packed; [exact S|exact L]|]. rewrite C4, <- T.
  assert (maximum (map height ns) * total_announced ns <= 8 * total_announced ns) by (apply Z.mul_le_mono_nonneg_r; lia). lia.
Qed.

Lemma good_bytes trees : Forall (good false) trees -> bytes (flat_map (serialize_with written) trees).
Proof.
  intros G. rewrite (good_serialize_all false trees G). induction G as [|t l (W & _) G IH]; [constructor|]. cbn [map flat_map]. apply TreeRead.bytes_app; [eapply TreeRead.serialize_bytes; exact W|exact IH].
Qed.
Theorem C75_simple_file : forall seekable timescale duration time ft ops sel,
  box_wf 0 (B_ftyp ft) -> recording ops -> chosen ops sel -> movie_fits ft ops sel -> bytes (media ops) ->
  fits_u 32 timescale -> fits_u 32 duration -> fits_u 32 time -> Forall (track_fits ops) sel ->
  let file := output (fst (run (start Simple timescale duration time ft) (simple_program ops sel))) in
  Zlen file < 2 ^ 63 ->
  exists c ns, SimpleReader_cost seekable file = Some (c, Ok ns) /\ calls c = sumZ boxes ns /\ nested c <= 8 /\ copied c <= 8 * Zlen file.
Proof.
  intros seekable timescale duration time ft ops sel A B C D E P1 P2 P3 P4 file L. destruct (simple_back timescale duration time ft ops sel A B C D E P1 P2 P3 P4 seekable) as (ns & text & traks & H1 & _ & H3 & H4 & H5 & H6 & _ & G & _ & Tr). cbv zeta in *. fold file in H1, H3, H6.
  destruct (written_cost seekable file ns text _ ltac:(rewrite H1; apply good_bytes; exact G) L H3 H4 G) as (c & X); auto; [|exists c, ns; exact X].
  apply Forall_app. split; [repeat constructor; discriminate|]. apply Forall_app. split; [unfold free_trees; destruct (_ <? _); repeat constructor; discriminate|]. constructor; [discriminate|]. constructor; [|constructor]. apply movie_height. exact Tr.
Qed.
Theorem C75_faststart_file : forall seekable timescale duration time ft ops sel,
  box_wf 0 (B_ftyp ft) -> recording ops -> chosen ops sel -> movie_fits ft ops sel -> bytes (media ops) ->
  fits_u 32 timescale -> fits_u 32 duration -> fits_u 32 time -> Forall (track_fits ops) sel ->
  let file := output (fst (run (start Faststart timescale duration time ft) (faststart_program ops sel))) in
  Zlen file < 2 ^ 63 ->
  exists c ns, SimpleReader_cost seekable file = Some (c, Ok ns) /\ calls c = sumZ boxes ns /\ nested c <= 8 /\ copied c <= 8 * Zlen file.
Proof.
  intros seekable timescale duration time ft ops sel A B C D E P1 P2 P3 P4 file L. destruct (faststart_back timescale duration time ft ops sel A B C D E P1 P2 P3 P4 seekable) as (ns & text & traks & H1 & _ & H3 & H4 & H5 & H6 & _ & G & _ & Tr). cbv zeta in *. fold file in H1, H3, H6.
  destruct (written_cost seekable file ns text _ ltac:(rewrite H1; apply good_bytes; exact G) L H3 H4 G) as (c & X); auto; [|exists c, ns; exact X].
  apply Forall_app. split; [repeat constructor; discriminate|]. constructor; [apply movie_height; exact Tr|]. constructor; [discriminate|constructor].
Qed.
Print Assumptions C75_any_file.
Print Assumptions C75_boxes.
Print Assumptions C75_reached.
Print Assumptions C75_simple_file.
Print Assumptions C75_faststart_file.
(** The file of the session of PropFile.v: 55 boxes; and three octets less of it. *)
Example C75_session : let file := output (fst (run (start Simple 1000 64 0 session_ftyp) (simple_program session_ops [1%nat; 0%nat]))) in
  (exists ns, SimpleReader_cost false file = Some (mk_cost 55 8 6240 3285, Ok ns)) /\
  (exists e, SimpleReader_cost false (firstn (length file - 3) file) = Some (mk_cost 4 1 38 22, Throw e)).
Proof. cbv zeta. split; eexists; vm_compute; reflexivity. Qed.
