(** Properties of saving boxes: C78. *)
From Verif Require Import Base BitIO BitSpec Boxes WireFormat Box BoxSpec PrintSpec BoxTree TreeSpec BoxRead BoxSize BoxLemmas TreeRead TreeLayout ReaderTotal ReaderTiling TreeLemmas TreePrint ReaderPrint SaveSpec Rewrite.
From Verif Require Import BitIOProofs TreeProofs SessionProofs PropTree H264 Track Writers MovieSpec TrackLemmas TrakProofs SimpleFile FaststartFile DurationSpec RoundTrip PropFile.
From Coq Require Import Ascii String List.
Import ListNotations.
Open Scope Z_scope.
Open Scope list_scope.

Lemma wf_parts t : forall uw, tree_wf uw t -> all_boxes box_shape t /\ types_ok t.
Proof.
  induction t as [ty b l IH] using tree_ind'. intros uw. rewrite tree_wf_eq, all_boxes_eq, types_ok_eq. intros (A & _ & _ & W & _ & F).
  assert (G : Forall (all_boxes box_shape) l /\ Forall types_ok l).
  { clear -IH F. induction IH as [|k l Hk _ IHl]; [split; constructor|]. apply Forall_cons_iff in F as [Fk F]. destruct (Hk _ Fk). destruct (IHl F). split; constructor; assumption. }
  destruct G. split; split; try assumption. eapply box_wf_shape; exact W.
Qed.
Lemma node_eq n : forall m off, headers_ok n -> headers_ok m -> laid_out n off -> laid_out m off -> tree_of n = tree_of m -> n = m.
Proof.
  induction n as [t h b l IH] using node_ind'. intros [t' h' b' l'] off Hn Hm Ln Lm. cbn [tree_of]. intros E. injection E as <- <- E.
  destruct h as [h|]; [|contradiction]. destruct h' as [h'|]; [|contradiction]. rewrite headers_ok_eq in *. rewrite laid_out_eq in *.
  destruct Hn as ((N1 & N2) & N3), Hm as ((M1 & M2) & M3), Ln as (_ & L2 & L3 & L4 & L5), Lm as (_ & K2 & K3 & K4 & K5).
  assert (G : forall p q, laid_out_all l p -> laid_out_all l' q -> p = q -> l = l').
  { clear -IH N3 M3 E. revert l' E M3. induction IH as [|k l Hk _ IHl]; intros [|k' l'] E M3; try discriminate; [reflexivity|]. injection E as Ek El.
    apply Forall_cons_iff in N3 as [Nk N3]. apply Forall_cons_iff in M3 as [Mk M3]. cbn [laid_out_all]. intros p q (A & B) (C & D) <-.
    assert (k = k') as <- by (eapply Hk; eassumption). f_equal. eapply IHl; eauto. }
  assert (T : Zlen (serialize_with (fun _ => []) (T [] b [])) = Zlen (serialize_with (fun _ => []) (T [] b []))) by reflexivity. clear T.
  assert (S : total_announced l = total_announced l').
  { assert (X : forall p q, laid_out_all l p -> laid_out_all l' q -> total_announced l = total_announced l'); [|exact (X _ _ L5 K5)].
    clear -E. revert l' E. induction l as [|k l IHl]; intros [|k' l'] E p q A B; try discriminate; [reflexivity|]. injection E as Ek El. cbn [laid_out_all total_announced fold_right] in *.
    destruct A as (A1 & A2), B as (B1 & B2). unfold total_announced in IHl. rewrite (IHl l' El _ _ A2 B2).
    rewrite <- (laid_out_nsize _ _ A1), <- (laid_out_nsize _ _ B1). f_equal.
    clear -Ek. revert k' Ek. induction k as [t h b l IH] using node_ind'. intros [t' h' b' l'] E. cbn [tree_of] in E. injection E as _ <- E. rewrite !nsize_eq. cbn [dsize].
    assert (F : sum_by nsize l = sum_by nsize l').
    { revert l' E. induction IH as [|k l Hk _ IHl]; intros [|k' l'] E; try discriminate; [reflexivity|]. injection E as Ek El. unfold sum_by in *. cbn [fold_right]. rewrite (Hk _ Ek), (IHl _ El). reflexivity. }
    rewrite F. reflexivity. }
  rewrite S in L3, L4. assert (h = h') as <-. { destruct h, h'. cbn in *. subst. f_equal; lia. }
  f_equal. eapply G; [exact L5|exact K5|]. reflexivity.
Qed.
Lemma splice_chain' l p a b : 0 <= p -> splice (splice l p a) (p + Zlen a) b = splice l p (a ++ b).
Proof. intros H. destruct a as [|x a]; [cbn [app splice]; rewrite (@Zlen_nil Z), Z.add_0_r; reflexivity|]. apply splice_app; [exact H|discriminate]. Qed.
Lemma splice_empty x : splice [] 0 x = x.
Proof. change 0 with (@Zlen Z []). rewrite SessionProofs.splice_end. reflexivity. Qed.
Lemma save_ok l : forall off o, Forall headers_ok l -> Forall (tree_wf false) (map tree_of l) -> Forall (all_boxes box_printable) (map tree_of l) ->
  0 <= off -> off + Zlen (flat_map serialize (map tree_of l)) < 2 ^ 64 ->
  exists l' o', save_boxes l off o = Ok (l', o') /\ os_data o' = splice (os_data o) off (flat_map serialize (map tree_of l)) /\
    map tree_of l' = map tree_of l /\ laid_out_all l' off /\ Forall headers_ok l' /\ total_announced l' = Zlen (flat_map serialize (map tree_of l)) /\
    (l <> [] -> os_pos o' = off + Zlen (flat_map serialize (map tree_of l))).
Proof.
  induction l as [|n l IH]; intros off o H W P O B.
  - exists [], o. cbn [save_boxes map flat_map laid_out_all total_announced fold_right splice]. rewrite (@Zlen_nil Z). repeat split; [constructor|congruence].
  - cbn [map flat_map] in *. apply Forall_cons_iff in H as [Hn H]. apply Forall_cons_iff in W as [Wn W]. apply Forall_cons_iff in P as [Pn P].
    rewrite Zlen_app in *. pose proof (Zlen_nonneg (flat_map serialize (map tree_of l))) as N0. destruct (wf_parts _ _ Wn) as [S Ty]. pose proof (wf_written _ _ Wn) as Ww.
    pose proof (nsize_serialize n S Ty) as Ze. rewrite Ww in Ze. pose proof (shape_sized _ S) as Sz. pose proof (Zlen_nonneg (serialize (tree_of n))) as N1.
    cbn [save_boxes]. rewrite adjust_ok by (try exact Sz; lia). rewrite (write_place n off o (printable_prints _ Pn) S Ty Hn O) by lia. rewrite Ww, <- Ze.
    destruct (IH (off + Zlen (serialize (tree_of n))) (mkOS (splice (os_data o) off (serialize (tree_of n))) (off + Zlen (serialize (tree_of n)))) H W P) as (l' & o' & E & D & M & L & K & T & Q); [lia|lia|].
    rewrite E. exists (place n off :: l'), o'. split; [reflexivity|]. split; [rewrite D; cbn [os_data]; apply splice_chain'; exact O|].
    cbn [map laid_out_all total_announced fold_right]. rewrite tree_of_place, M, announced_place, <- Ze.
    split; [reflexivity|]. split; [split; [apply place_laid_out; try assumption; lia|exact L]|].
    split; [constructor; [apply headers_ok_place; exact Hn|exact K]|]. split; [unfold total_announced in T; rewrite T; reflexivity|].
    intros _. destruct l as [|m l]; [|rewrite Q by discriminate; lia]. cbn [save_boxes] in E. injection E as <- <-. cbn [map flat_map os_pos]. rewrite (@Zlen_nil Z). lia.
Qed.
Lemma nodes_eq l : forall m off, Forall headers_ok l -> Forall headers_ok m -> laid_out_all l off -> laid_out_all m off -> map tree_of l = map tree_of m -> l = m.
Proof.
  induction l as [|n l IH]; intros [|k m] off A B C D E; try discriminate; [reflexivity|]. cbn [map laid_out_all] in *. injection E as E1 E2.
  apply Forall_cons_iff in A as [A1 A2]. apply Forall_cons_iff in B as [B1 B2]. destruct C as [C1 C2], D as [D1 D2].
  assert (n = k) as <- by (eapply node_eq; eassumption). f_equal. eapply IH; eassumption.
Qed.
Lemma fresh_tree t : tree_of (fresh_info t) = t.
Proof. induction t as [ty b l IH] using tree_ind'. cbn [fresh_info tree_of]. f_equal. rewrite map_map. induction IH as [|k l Hk _ IHl]; [reflexivity|]. cbn [map]. rewrite Hk, IHl. reflexivity. Qed.
Lemma fresh_headers t : headers_ok (fresh_info t).
Proof. induction t as [ty b l IH] using tree_ind'. cbn [fresh_info]. rewrite headers_ok_eq. split; [exact I|]. apply Forall_map. exact IH. Qed.
Lemma fresh_trees ts : map tree_of (map fresh_info ts) = ts.
Proof. rewrite map_map. rewrite <- (map_id ts) at 2. apply map_ext. exact fresh_tree. Qed.

(** C78.  Saving boxes one after the other, wherever the first is put inside or at the end of a stream, replaces the octets there by
    the wire format of the boxes, in order, and nothing else; and leaves them with headers that say where they are. *)
Theorem C78_saved : forall ns before old after put, Forall headers_ok ns -> Forall (tree_wf false) (map tree_of ns) -> Forall (all_boxes box_printable) (map tree_of ns) ->
  let octets := flat_map serialize (map tree_of ns) in
  length old = length octets \/ (after = [] /\ (length old <= length octets)%nat) -> Zlen before + Zlen octets < 2 ^ 64 ->
  exists ns' o', save_boxes ns (Zlen before) (mkOS (before ++ old ++ after) put) = Ok (ns', o') /\ os_data o' = before ++ octets ++ after /\
    map tree_of ns' = map tree_of ns /\ laid_out_all ns' (Zlen before) /\ total_announced ns' = Zlen octets /\
    (ns <> [] -> os_pos o' = Zlen before + Zlen octets).
Proof.
  intros ns before old after put H W P octets L B. destruct (save_ok ns (Zlen before) (mkOS (before ++ old ++ after) put) H W P) as (ns' & o' & E & D & M & K & _ & T & Q); [apply Zlen_nonneg|exact B|].
  exists ns', o'. split; [exact E|]. fold octets in D, T, Q. split; [|auto]. rewrite D. cbn [os_data]. rewrite splice_at by reflexivity. do 2 f_equal.
  destruct L as [L|(-> & L)]; [apply skipn_exact; exact L|]. rewrite app_nil_r. apply skipn_all2. exact L.
Qed.
Print Assumptions C78_saved.

(** The file made of them is read back as the very same boxes, headers included. *)
Theorem C78_saved_read : forall ts, Forall (tree_wf false) ts -> Forall (all_boxes box_printable) ts -> Zlen (flat_map serialize ts) < 2 ^ 64 - 16 ->
  exists ns o, save_boxes (map fresh_info ts) 0 (mkOS [] 0) = Ok (ns, o) /\ map tree_of ns = ts /\
    forall seekable, exists text, SimpleReader_read seekable (os_data o) = Some (Ok (ns, text)).
Proof.
  intros ts W P L. destruct (save_ok (map fresh_info ts) 0 (mkOS [] 0)) as (ns & o & E & D & M & K & H & T & _); try rewrite fresh_trees; try assumption; try lia.
  { apply Forall_map, Forall_forall. intros t _. apply fresh_headers. }
  rewrite fresh_trees in *. exists ns, o. split; [exact E|]. split; [exact M|]. intros seekable. rewrite D. cbn [os_data]. rewrite splice_empty.
  destruct (read_back seekable ts W P L) as (ns' & text & R & _ & M' & K' & _ & H'). exists text. rewrite R. do 3 f_equal. eapply nodes_eq; try eassumption. congruence.
Qed.
Print Assumptions C78_saved_read.

(** Saving again what was saved, in the same place, changes nothing. *)
Theorem C78_saved_again : forall ts, Forall (tree_wf false) ts -> Forall (all_boxes box_printable) ts -> Zlen (flat_map serialize ts) < 2 ^ 64 - 16 ->
  forall ns o, save_boxes (map fresh_info ts) 0 (mkOS [] 0) = Ok (ns, o) ->
  exists o', save_boxes ns 0 o = Ok (ns, o') /\ os_data o' = os_data o.
Proof.
  intros ts W P L ns o E. destruct (save_ok (map fresh_info ts) 0 (mkOS [] 0)) as (ns0 & o0 & E0 & D & M & K & H & T & _); try rewrite fresh_trees; try assumption; try lia.
  { apply Forall_map, Forall_forall. intros t _. apply fresh_headers. }
  rewrite E in E0. injection E0 as <- <-. rewrite fresh_trees in *.
  destruct (save_ok ns 0 o H) as (ns1 & o1 & E1 & D1 & M1 & K1 & H1 & _); rewrite ?M; try assumption; try lia.
  exists o1. rewrite E1. assert (ns1 = ns) as -> by (eapply nodes_eq; eassumption). split; [reflexivity|]. rewrite D1, D, M. cbn [os_data].
  destruct (flat_map serialize ts) as [|x w]; [reflexivity|]. apply splice_same with (rest := []); [lia|]. rewrite app_nil_r. unfold splice. cbn [Z.to_nat firstn app skipn]. rewrite skipn_nil, app_nil_r. reflexivity.
Qed.
Print Assumptions C78_saved_again.

(** * Finished files *)
Lemma write_all_save l : forall off o, Forall headers_ok l -> Forall (tree_wf false) (map tree_of l) -> laid_out_all l off ->
  0 <= off -> off + total_announced l < 2 ^ 64 -> BoxInfo_write_all l o = save_boxes l off o.
Proof.
  induction l as [|n l IH]; intros off o H W L O B; [reflexivity|]. cbn [map laid_out_all total_announced fold_right] in *. destruct L as [L1 L2].
  apply Forall_cons_iff in H as [Hn H]. apply Forall_cons_iff in W as [Wn W]. destruct (wf_parts _ _ Wn) as [S Ty]. pose proof (shape_sized _ S) as Sz.
  pose proof (laid_out_nsize _ _ L1) as N. pose proof (nsize_pos n Sz) as N1.
  assert (N2 : 0 <= fold_right (fun n s => announced_size n + s) 0 l).
  { clear -W L2. revert L2. generalize (off + announced_size n) as p. induction l as [|m l IHl]; intros p L; cbn [fold_right map laid_out_all] in *; [lia|]. apply Forall_cons_iff in W as [Wm W].
    destruct L as [Lm L]. destruct (wf_parts _ _ Wm) as [S Ty]. pose proof (nsize_pos m (shape_sized _ S)). rewrite (laid_out_nsize _ _ Lm) in *. specialize (IHl W _ L). lia. }
  cbn [BoxInfo_write_all save_boxes]. rewrite adjust_ok by (try exact Sz; lia). rewrite (laid_out_place n off Sz Hn L1 O) by lia.
  destruct (BoxInfo_write n o) as [[n' o']|e|]; try reflexivity. rewrite N. rewrite (IH (off + announced_size n) o' H W L2) by (unfold total_announced; lia). reflexivity.
Qed.
Lemma resaved seekable file boxes ns text : Forall (good false) boxes -> Forall (all_boxes box_printable) boxes -> file = flat_map (serialize_with written) boxes -> Zlen file < 2 ^ 64 - 16 ->
  SimpleReader_read seekable file = Some (Ok (ns, text)) -> map tree_of ns = map tree_as_read boxes ->
  (exists o, BoxInfo_write_all ns (mkOS [] 0) = Ok (ns, o) /\ os_data o = file) /\
  (exists o, save_boxes ns 0 (mkOS [] 0) = Ok (ns, o) /\ os_data o = file) /\
  forall put, exists o, save_boxes ns 0 (mkOS file put) = Ok (ns, o) /\ os_data o = file.
Proof.
  intros G Pr E L R M. rewrite (good_serialize_all false boxes G) in E. rewrite <- M in E.
  assert (W : Forall (tree_wf false) (map tree_of ns)). { rewrite M. apply Forall_map. eapply Forall_impl; [|exact G]. intros t (X & _). exact X. }
  assert (P : Forall (all_boxes box_printable) (map tree_of ns)). { rewrite M. apply Forall_map. eapply Forall_impl; [|exact Pr]. exact printable_as_read. }
  assert (L' := L). rewrite E in L'. destruct (reader_roundtrip seekable (map tree_of ns) W L') as (ns' & N1 & N2 & N3 & N4 & N5). rewrite <- E in N1.
  assert (ns' = ns) as ->. { destruct (read_inv _ _ _ _ R) as (Q & _). rewrite N1 in Q. congruence. }
  assert (S : forall o, exists o', save_boxes ns 0 o = Ok (ns, o') /\ os_data o' = splice (os_data o) 0 file).
  { intros o. destruct (save_ok ns 0 o N5 W P) as (ns1 & o1 & E1 & D1 & M1 & K1 & H1 & _); [lia|rewrite <- E; lia|]. exists o1. assert (ns1 = ns) as -> by (eapply nodes_eq; eassumption). split; [exact E1|]. rewrite D1, <- E. reflexivity. }
  assert (Ze : splice [] 0 file = file) by (apply splice_empty).
  assert (A : exists o, save_boxes ns 0 (mkOS [] 0) = Ok (ns, o) /\ os_data o = file). { destruct (S (mkOS [] 0)) as (o & X & Y). exists o. split; [exact X|]. rewrite Y. exact Ze. }
  split; [|split; [exact A|]].
  - destruct A as (o & X & Y). exists o. split; [|exact Y]. rewrite <- X. apply write_all_save; try assumption; [lia|]. rewrite N4, <- E. lia.
  - intros put. destruct (S (mkOS file put)) as (o & X & Y). exists o. split; [exact X|]. rewrite Y. cbn [os_data]. destruct file as [|x w]; [reflexivity|]. apply splice_same with (rest := []); [lia|]. rewrite app_nil_r. reflexivity.
Qed.

(** A finished file, read and saved: written back as found, laid out and written to an empty stream, or saved over itself, the boxes
    found give the very octets of the file, and are not changed by it. *)
Theorem C78_simple_resaved : forall seekable timescale duration time ft ops sel,
  box_wf 0 (B_ftyp ft) -> recording ops -> chosen ops sel -> movie_fits ft ops sel -> bytes (media ops) ->
  fits_u 32 timescale -> fits_u 32 duration -> fits_u 32 time -> Forall (track_fits ops) sel ->
  let file := output (fst (run (start Simple timescale duration time ft) (simple_program ops sel))) in Zlen file < 2 ^ 64 - 16 ->
  exists ns text, SimpleReader_read seekable file = Some (Ok (ns, text)) /\
    (exists o, BoxInfo_write_all ns (mkOS [] 0) = Ok (ns, o) /\ os_data o = file) /\
    (exists o, save_boxes ns 0 (mkOS [] 0) = Ok (ns, o) /\ os_data o = file) /\
    forall put, exists o, save_boxes ns 0 (mkOS file put) = Ok (ns, o) /\ os_data o = file.
Proof.
  intros seekable timescale duration time ft ops sel A B C D E P1 P2 P3 P4 file L. destruct (simple_back timescale duration time ft ops sel A B C D E P1 P2 P3 P4 seekable) as (ns & text & traks & H1 & _ & H3 & H4 & _ & _ & _ & G & Pr & _). cbv zeta in *. fold file in H1, H3.
  exists ns, text. split; [exact H3|]. exact (resaved seekable file _ ns text G Pr H1 L H3 H4).
Qed.
Print Assumptions C78_simple_resaved.
Theorem C78_faststart_resaved : forall seekable timescale duration time ft ops sel,
  box_wf 0 (B_ftyp ft) -> recording ops -> chosen ops sel -> movie_fits ft ops sel -> bytes (media ops) ->
  fits_u 32 timescale -> fits_u 32 duration -> fits_u 32 time -> Forall (track_fits ops) sel ->
  let file := output (fst (run (start Faststart timescale duration time ft) (faststart_program ops sel))) in Zlen file < 2 ^ 64 - 16 ->
  exists ns text, SimpleReader_read seekable file = Some (Ok (ns, text)) /\
    (exists o, BoxInfo_write_all ns (mkOS [] 0) = Ok (ns, o) /\ os_data o = file) /\
    (exists o, save_boxes ns 0 (mkOS [] 0) = Ok (ns, o) /\ os_data o = file) /\
    forall put, exists o, save_boxes ns 0 (mkOS file put) = Ok (ns, o) /\ os_data o = file.
Proof.
  intros seekable timescale duration time ft ops sel A B C D E P1 P2 P3 P4 file L. destruct (faststart_back timescale duration time ft ops sel A B C D E P1 P2 P3 P4 seekable) as (ns & text & traks & H1 & _ & H3 & H4 & _ & _ & _ & G & Pr & _). cbv zeta in *. fold file in H1, H3.
  exists ns, text. split; [exact H3|]. exact (resaved seekable file _ ns text G Pr H1 L H3 H4).
Qed.
Print Assumptions C78_faststart_resaved.

(** A forest that meets the hypotheses, saved after two octets of something else, and what the saved boxes say; and a recorded file saved again. *)
Definition saved_forest : list tree :=
  [T [109; 111; 111; 118] B_container
     [T [117; 100; 116; 97] B_container [T [120; 120; 120; 120] (B_unsupported [1; 2; 3]) []];
      T [115; 116; 116; 115] (B_stts (mk_stts (mk_fullbox 0 0 0 0) [mk_stts_entry 3 1001])) []];
   T [102; 114; 101; 101] (B_free [0; 0]) []].
Example C78_satisfiable : Forall (tree_wf false) saved_forest /\ Forall (all_boxes box_printable) saved_forest /\ Zlen (flat_map serialize saved_forest) = 61 /\
  match save_boxes (map fresh_info saved_forest) 2 (mkOS [7; 7; 9; 9; 9] 5) with
  | Ok (ns, o) => os_data o = [7; 7] ++ flat_map serialize saved_forest /\ map (fun n => option_map h_offset (n_header n)) ns = [Some 2; Some 53]
  | _ => False
  end.
Proof.
  split; [|split; [repeat constructor|split; [vm_compute; reflexivity|vm_compute; split; reflexivity]]].
  constructor; [exact (proj1 (proj2 (proj2 (proj2 (proj2 (proj2 PropTree.C16_satisfiable))))))|]. constructor; [|constructor].
  cbn. repeat split; try discriminate; unfold bytes; repeat first [apply Forall_cons|apply Forall_nil]; unfold is_byte; lia.
Qed.

Example C78_session_resaved : let file := output (fst (run (start Simple 1000 64 0 session_ftyp) (simple_program session_ops [1%nat; 0%nat]))) in
  Zlen file < 2 ^ 64 - 16 /\ match SimpleReader_read true file with Some (Ok (ns, _)) => match save_boxes ns 0 (mkOS [] 0) with Ok (ns', o) => ns' = ns /\ os_data o = file | _ => False end | _ => False end.
Proof. cbv zeta. split; vm_compute; [reflexivity|split; reflexivity]. Qed.
