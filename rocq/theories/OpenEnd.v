(** Proofs about files whose last box extends to the end of the file (size 0) (C57, C58). *)
From Coq Require Import ZifyBool.
From Verif Require Import Base BitIO BitFacts BitIOProofs Boxes WireFormat DescriptorSpec Box BoxSpec BoxSize BoxIO Print PrintSpec PrintProofs BoxTree TreeSpec TreeProofs TreeLayout TreePrint TreeRead ReaderTotal TreeLemmas ReaderPrint Device FailureSpec.

Lemma read_open data pos ty rest : length ty = 4%nat -> 0 <= pos -> Zlen data < 2 ^ 64 -> skipn (Z.to_nat pos) data = [0; 0; 0; 0] ++ ty ++ rest ->
  read_box_header data pos = Ok (mk_header pos (8 + Zlen rest) 8 ty true).
Proof.
  intros L4 P L E. assert (Ls : Zlen data - pos = 8 + Zlen rest).
  { apply (f_equal (@length Z)) in E. rewrite skipn_length, !app_length in E. cbn [length] in E. unfold Zlen in *. lia. }
  pose proof (Zlen_nonneg rest). unfold read_box_header. rewrite u64_small by lia. unfold SMALL_HEADER_SIZE. replace (Zlen data - pos <? 8) with false by lia.
  rewrite E. destruct (list4 ty L4) as (a & b & c & d & ->). cbn [app]. change (be_to_uint32 0 0 0 0) with 0. cbv iota beta zeta. rewrite Z.eqb_refl. rewrite Ls. reflexivity.
Qed.
Lemma open_after file ts ty b kids : Forall (tree_wf false) ts -> tree_wf false (T ty b kids) -> 
  let data := flat_map serialize ts ++ serialize_open (T ty b kids) in Zlen data < 2 ^ 63 ->
  exists ns, SimpleReader_parse file data = Some (Ok ns) /\ map tree_of ns = ts ++ [T ty b kids].
Proof.
  intros W Wt data L.
  assert (Last : forall fuel, (length (flat_map serialize kids) < fuel)%nat -> exists n, readBox (S fuel) file data false (Zlen (flat_map serialize ts)) = Some (Ok (n, Zlen data, Zlen (serialize_open (T ty b kids)))) /\ tree_of n = T ty b kids).
  { intros fuel Hf. pose proof Wt as W'. rewrite tree_wf_eq in W'. destruct W' as (A & B & C & D & G & H). set (ks := flat_map serialize kids) in *. set (body := wire_payload b ++ ks).
    set (pre := flat_map serialize ts) in *. assert (E : data = pre ++ [0; 0; 0; 0] ++ ty ++ body) by reflexivity. destruct (wire_payload_facts _ _ D) as (P1 & P2 & P3).
    assert (Lb : Zlen body = Box_getDataSize b + Zlen ks) by (unfold body; rewrite Zlen_app, P3; reflexivity).
    pose proof (Zlen_nonneg body) as Nb. pose proof (Zlen_nonneg pre) as Np. pose proof (Zlen_nonneg ks) as Nk. pose proof (Zlen_nonneg (wire_payload b)) as Nw.
    assert (L4 : Zlen ty = 4) by (unfold Zlen; lia). assert (Lt : Zlen data = Zlen pre + 8 + Zlen body) by (rewrite E, !Zlen_app, L4; change (Zlen [0; 0; 0; 0]) with 4; lia).
    assert (Ek : skipn (Z.to_nat (Zlen pre)) data = [0; 0; 0; 0] ++ ty ++ body) by (rewrite E, skipn_exact by (unfold Zlen; lia); reflexivity).
    cbn [readBox]. rewrite (read_open data (Zlen pre) ty body A Np ltac:(lia) Ek). cbv zeta. unfold header_getDataSize. cbn [h_offset h_header_size h_size h_type].
    replace (8 + Zlen body - 8) with (Zlen body) by lia. rewrite (u64_small (Zlen body)) by lia. rewrite (u64_small (Zlen data - Zlen pre)), (u64_small (Zlen data - Zlen pre - 8)) by lia.
    replace (Zlen pre + 8 >? Zlen data) with false by lia. rewrite Bool.andb_false_r.
    replace (Zlen body >? Zlen data - Zlen pre - 8) with false by lia. replace (Zlen pre + 8 + Zlen body >? Zlen data) with false by lia.
    assert (Ep : firstn (Z.to_nat (Zlen body)) (skipn (Z.to_nat (Zlen pre + 8)) data) = body).
    { rewrite E. replace (pre ++ [0; 0; 0; 0] ++ ty ++ body) with ((pre ++ [0; 0; 0; 0] ++ ty) ++ body) by (rewrite <- !app_assoc; reflexivity).
      rewrite skipn_exact by (rewrite !app_length; cbn [length]; unfold Zlen in *; lia). apply firstn_all2. unfold Zlen. lia. }
    rewrite Ep, C.
    assert (Bk : bytes ks).
    { pose proof (serialize_bytes _ _ Wt) as Bs. rewrite serialize_eq in Bs. unfold bytes in *. apply Forall_app in Bs. destruct Bs as [_ Bs]. apply Forall_app in Bs. apply Bs. }
    assert (Rd : exists r', Box_readData (box_kind b) ty false (reader_init body) = Ok (r', 8 * Box_getDataSize b, b)).
    { pose proof (box_read (Zlen ks) b (bits_of ks) ty D) as R. rewrite Zlen_bits_of in R.
      specialize (R ltac:(lia)). specialize (R ltac:(intros K; destruct ks; [reflexivity|unfold Zlen in K; cbn [length] in K; lia])).
      specialize (R (fun a Ha => proj1 (G a Ha)) false (fun a Ha => proj2 (G a Ha))).
      destruct (R (reader_init body)) as (r' & R1 & _); [apply rwf_init, bytes_app; assumption|rewrite BitIOProofs.rbits_init; unfold body; rewrite bits_of_app, P1; reflexivity|].
      exists r'. rewrite R1. rewrite (box_layout_size _ _ D). reflexivity. }
    destruct Rd as (r' & ->). replace (8 * Box_getDataSize b / 8) with (Box_getDataSize b) by lia.
    replace (Zlen pre + 8 + Box_getDataSize b >? Zlen data) with false by lia. rewrite Bool.andb_false_r.
    destruct (readBox_ok file data ltac:(lia) fuel) as [_ Rl].
    destruct (Rl kids (list_eqb ty [119; 97; 118; 101]) (pre ++ [0; 0; 0; 0] ++ ty ++ wire_payload b) [] (Box_getDataSize b) (Zlen body)) as (ns & N1 & N2 & N3 & N4).
    { exact H. } { rewrite E. unfold body. fold ks. rewrite app_nil_r, <- !app_assoc. reflexivity. } { exact Hf. } { lia. } { exact Lb. } { lia. }
    rewrite !Zlen_app, P3, L4 in N1. change (Zlen [0; 0; 0; 0]) with 4 in N1. fold ks in N1. fold type_wave in N1.
    replace (Zlen pre + (4 + (4 + Box_getDataSize b))) with (Zlen pre + 8 + Box_getDataSize b) in N1 by lia. rewrite N1. eexists. split.
    { f_equal. f_equal. f_equal; [f_equal; lia|]. unfold serialize_open. fold ks. rewrite !Zlen_app, L4, P3. change (Zlen [0; 0; 0; 0]) with 4. lia. }
    cbn [tree_of]. rewrite N2. reflexivity. }
  assert (Lo : (length (flat_map serialize kids) + 8 <= length (serialize_open (T ty b kids)))%nat).
  { rewrite tree_wf_eq in Wt. destruct Wt as (A & _). unfold serialize_open. rewrite !app_length. cbn [length]. lia. }
  assert (So : Zlen (serialize_open (T ty b kids)) = Zlen data - Zlen (flat_map serialize ts)) by (unfold data; rewrite Zlen_app; lia).
  enough (Gen : forall ts2 pre fuel, Forall (tree_wf false) ts2 -> flat_map serialize ts = pre ++ flat_map serialize ts2 -> (length (flat_map serialize ts2) + length (serialize_open (T ty b kids)) + 2 <= fuel)%nat ->
     exists ns p, readLeafs fuel file data false (Zlen data) (Zlen pre) (Zlen pre) = Some (Ok (ns, p)) /\ map tree_of ns = ts2 ++ [T ty b kids]).
  { unfold SimpleReader_parse. destruct (Gen ts [] (length data + 2)%nat W eq_refl) as (ns & p & R & M); [unfold data; rewrite app_length; lia|]. rewrite (@Zlen_nil Z) in R. rewrite R. eauto. }
  clear W. induction ts2 as [|t ts2 IH]; intros pre fuel W2 Ep Hf.
  - cbn [flat_map length] in *. rewrite app_nil_r in Ep. destruct fuel as [|[|[|fuel]]]; [lia..|]. cbn [readLeafs]. rewrite <- Ep.
    assert (Z8 : 8 <= Zlen (serialize_open (T ty b kids))) by (unfold Zlen; lia). pose proof (Zlen_nonneg (flat_map serialize ts)).
    replace (Zlen data >? Zlen (flat_map serialize ts)) with true by lia.
    destruct (Last (S fuel) ltac:(lia)) as (n & R & M). rewrite R, So, u64_small by lia.
    replace (Zlen (flat_map serialize ts) + (Zlen data - Zlen (flat_map serialize ts))) with (Zlen data) by lia. rewrite Z.gtb_ltb, Z.ltb_irrefl. exists [n], (Zlen data). cbn [map app]. rewrite M. auto.
  - inversion W2 as [|? ? Wt2 Wts]; subst. cbn [flat_map] in Ep, Hf. rewrite app_length in Hf. pose proof (serialize_len8 t false Wt2) as L8.
    destruct fuel as [|fuel]; [lia|]. cbn [readLeafs].
    assert (D : data = pre ++ serialize t ++ (flat_map serialize ts2 ++ serialize_open (T ty b kids))) by (unfold data; rewrite Ep, <- !app_assoc; reflexivity).
    assert (Ld := f_equal Zlen D). rewrite !Zlen_app in Ld. pose proof (Zlen_nonneg (flat_map serialize ts2)). pose proof (Zlen_nonneg (serialize_open (T ty b kids))). pose proof (Zlen_nonneg pre).
    replace (Zlen data >? Zlen pre) with true by lia.
    destruct (readBox_ok file data ltac:(lia) fuel) as [Rb _]. destruct (Rb t false pre _ Wt2 D ltac:(lia)) as (n & En & Tn & _). rewrite En, u64_small by lia.
    destruct (IH (pre ++ serialize t) fuel Wts) as (ns & p & R & M); [rewrite <- app_assoc; exact Ep|unfold Zlen in L8; lia|]. rewrite Zlen_app in R. rewrite R.
    exists (n :: ns), p. split; [reflexivity|]. cbn [map app]. rewrite Tn, M. reflexivity.
Qed.
Lemma open_read file ts t : Forall (tree_wf false) ts -> tree_wf false t -> Forall (all_boxes box_printable) (ts ++ [t]) -> Zlen (flat_map serialize ts ++ serialize_open t) < 2 ^ 63 ->
  exists ns text, SimpleReader_read file (flat_map serialize ts ++ serialize_open t) = Some (Ok (ns, text)) /\ map tree_of ns = ts ++ [t].
Proof.
  destruct t as [ty b kids]. intros W Wt P L. destruct (open_after file ts ty b kids W Wt L) as (ns & E & M). destruct (read_ok file _ ns E) as (text & R & T).
  - apply Forall_forall. intros n I. apply printable_prints. rewrite Forall_forall in P. apply P. rewrite <- M. apply in_map. exact I.
  - exists ns, text. auto.
Qed.
