(** Proofs for C56: files cut short. *)
From Coq Require Import ZifyBool.
From Verif Require Import Base BitIO BitFacts BitIOProofs Boxes WireFormat DescriptorSpec Box BoxSpec Print PrintSpec BoxTree TreeSpec TreeProofs TreeLayout TreePrint TreeRead ReaderTotal TreeLemmas ReaderPrint.

(** The reader fails on boxes followed by something it fails on. *)
Lemma fails_after file ts rest e : Forall (tree_wf false) ts -> bytes rest -> rest <> [] -> Zlen (flat_map serialize ts ++ rest) < 2 ^ 63 ->
  let data := flat_map serialize ts ++ rest in
  (forall fuel, readBox (S fuel) file data false (Zlen (flat_map serialize ts)) = Some (Throw e)) ->
  SimpleReader_parse file data = Some (Throw e).
Proof.
  cbv zeta. intros W Br Nr L Rej. set (data := flat_map serialize ts ++ rest) in *.
  assert (Lr : (1 <= length rest)%nat) by (destruct rest; [contradiction|cbn; lia]).
  enough (G : forall ts2 pre fuel, Forall (tree_wf false) ts2 -> flat_map serialize ts = pre ++ flat_map serialize ts2 -> (length (flat_map serialize ts2) + 2 <= fuel)%nat ->
     readLeafs fuel file data false (Zlen data) (Zlen pre) (Zlen pre) = Some (Throw e)).
  { unfold SimpleReader_parse. specialize (G ts [] (length data + 2)%nat W eq_refl). rewrite (@Zlen_nil Z) in G. rewrite G; [reflexivity|]. unfold data. rewrite app_length. lia. }
  induction ts2 as [|t ts2 IH]; intros pre fuel W2 Ep F.
  - destruct fuel as [|[|fuel]]; [cbn in F; lia|cbn in F; lia|]. cbn [flat_map] in Ep. rewrite app_nil_r in Ep. subst pre. cbn [readLeafs].
    replace (Zlen data >? Zlen (flat_map serialize ts)) with true by (unfold data; rewrite Zlen_app; unfold Zlen; lia). rewrite Rej. reflexivity.
  - inversion W2 as [|? ? Wt Wts]; subst. cbn [flat_map] in Ep, F. rewrite app_length in F. pose proof (serialize_len8 t false Wt) as L8.
    destruct fuel as [|fuel]; [lia|]. cbn [readLeafs].
    assert (D : data = pre ++ serialize t ++ (flat_map serialize ts2 ++ rest)) by (unfold data; rewrite Ep, <- !app_assoc; reflexivity).
    replace (Zlen data >? Zlen pre) with true by (rewrite D, !Zlen_app; pose proof (Zlen_nonneg (flat_map serialize ts2)); pose proof (Zlen_nonneg rest); lia).
    destruct (readBox_ok file data ltac:(lia) fuel) as [Rb _]. destruct (Rb t false pre _ Wt D ltac:(lia)) as (n & En & _). rewrite En.
    rewrite u64_small by (apply (f_equal Zlen) in D; rewrite !Zlen_app in D; pose proof (Zlen_nonneg (flat_map serialize ts2)); pose proof (Zlen_nonneg rest); pose proof (Zlen_nonneg pre); lia).
    specialize (IH (pre ++ serialize t) fuel Wts). rewrite Zlen_app in IH. rewrite IH; [reflexivity|rewrite <- app_assoc; exact Ep|unfold Zlen in L8; lia].
Qed.
Lemma forest_bytes ts : Forall (tree_wf false) ts -> bytes (flat_map serialize ts).
Proof. induction 1 as [|t ts Wt Wts IH]; [constructor|]. cbn [flat_map]. apply bytes_app; [eapply serialize_bytes; exact Wt|exact IH]. Qed.
(** One box cut inside. *)
Lemma cut_box file ts t m : Forall (tree_wf false) ts -> tree_wf false t -> (0 < m < length (serialize t))%nat -> Zlen (flat_map serialize ts ++ serialize t) < 2 ^ 63 ->
  exists e, SimpleReader_parse file (flat_map serialize ts ++ firstn m (serialize t)) = Some (Throw e).
Proof.
  intros W Wt M L. set (rest := firstn m (serialize t)). set (data := flat_map serialize ts ++ rest). set (pos := Zlen (flat_map serialize ts)).
  assert (Bt : bytes (serialize t)) by (eapply serialize_bytes; exact Wt).
  assert (Br : bytes rest). { unfold bytes, rest in *. rewrite <- (firstn_skipn m (serialize t)) in Bt. apply Forall_app in Bt. apply Bt. }
  assert (Lrest : length rest = m) by (unfold rest; rewrite firstn_length; lia).
  assert (Nr : rest <> []) by (intros X; rewrite X in Lrest; cbn in Lrest; lia).
  assert (Ld : Zlen data < 2 ^ 63) by (unfold data; rewrite Zlen_app in *; unfold Zlen in *; lia).
  assert (Bd : bytes data) by (apply bytes_app; [apply forest_bytes; exact W|exact Br]).
  assert (P : 0 <= pos <= Zlen data) by (unfold pos, data; rewrite Zlen_app; pose proof (Zlen_nonneg (flat_map serialize ts)); pose proof (Zlen_nonneg rest); lia).
  assert (K : skipn (Z.to_nat pos) data = rest). { unfold data, pos, Zlen. rewrite Nat2Z.id, skipn_app, Nat.sub_diag, skipn_all. reflexivity. }
  enough (exists e, forall fuel, readBox (S fuel) file data false pos = Some (Throw e)) as (e & R).
  { exists e. apply fails_after; auto. }
  destruct t as [ty b l]. rewrite tree_wf_eq in Wt. destruct Wt as (T4 & _). pose proof (serialize_eq ty b l) as Es. set (body := wire_payload b ++ flat_map serialize l) in *.
  pose proof (frame_header_length ty (Zlen body) T4) as Lh. pose proof (frame_hs (Zlen body)) as Fh. pose proof (Zlen_nonneg body) as Pb.
  assert (Lt : Z.of_nat (length (serialize (T ty b l))) = frame_header_size (Zlen body) + Zlen body) by (rewrite Es, app_length; unfold Zlen in *; lia).
  destruct (header_outcome data pos P ltac:(lia) Bd) as [(_ & E)|(NT & h & E & _)]; rewrite ?K in *.
  { exists InvalidArgument. intros fuel. cbn [readBox]. rewrite E. reflexivity. }
  exists RuntimeError. intros fuel. apply (readBox_rejects fuel file data false pos h); auto.
  assert (C : (length (frame_header ty (Zlen body)) <= m)%nat).
  { destruct (Nat.le_gt_cases (length (frame_header ty (Zlen body))) m) as [C|C]; [exact C|]. exfalso. apply NT.
    unfold header_truncated. destruct (Z_lt_ge_dec (Zlen rest) 8) as [Q|Q]; [left; exact Q|]. right. unfold Zlen in *. split; [lia|].
    unfold rest. rewrite Es. unfold frame_header in *. destruct (Z.of_nat (length body) + 8 <? 2 ^ 32) eqn:Eq.
    - exfalso. unfold frame_header_size in *. rewrite Eq in *. lia.
    - rewrite Lrest in Q. destruct m as [|[|[|[|m]]]]; [lia..|]. change (be_octets 4 1) with [0; 0; 0; 1]. cbn [app firstn]. eexists. reflexivity. }
  assert (Er : rest = frame_header ty (Zlen body) ++ firstn (m - length (frame_header ty (Zlen body))) body).
  { unfold rest. rewrite Es, firstn_app, firstn_all2 by lia. reflexivity. }
  assert (Bn : 0 <= Zlen body < 2 ^ 64 - 16) by (rewrite Zlen_app in L; pose proof (Zlen_nonneg (flat_map serialize ts)); unfold Zlen in L at 2; lia).
  rewrite (read_frame data pos ty (Zlen body) (firstn (m - length (frame_header ty (Zlen body))) body) ltac:(lia) (proj1 P) (eq_trans K Er) T4 Bn) in E.
  injection E as <-. cbn [h_size h_header_size]. right. unfold data. rewrite Zlen_app. fold pos. unfold Zlen at 1. lia.
Qed.
(** Where a prefix of a forest ends. *)
Lemma cut_forest ts : forall n, (n < length (flat_map serialize ts))%nat ->
  exists k t m, nth_error ts k = Some t /\ (m < length (serialize t))%nat /\ firstn n (flat_map serialize ts) = flat_map serialize (firstn k ts) ++ firstn m (serialize t).
Proof.
  induction ts as [|t ts IH]; intros n L; [cbn in L; lia|]. cbn [flat_map] in *. rewrite app_length in L.
  destruct (Nat.lt_ge_cases n (length (serialize t))) as [C|C].
  - exists 0%nat, t, n. split; [reflexivity|]. split; [exact C|]. cbn [firstn flat_map app]. rewrite firstn_app. replace (n - length (serialize t))%nat with 0%nat by lia. rewrite firstn_O, app_nil_r. reflexivity.
  - destruct (IH (n - length (serialize t))%nat ltac:(lia)) as (k & t' & m & A & B & D). exists (S k), t', m. split; [exact A|]. split; [exact B|].
    cbn [firstn flat_map]. rewrite firstn_app, firstn_all2 by lia. rewrite D, app_assoc. reflexivity.
Qed.
Lemma Forall_firstn {A} (P : A -> Prop) k l : Forall P l -> Forall P (firstn k l).
Proof. intros H. rewrite <- (firstn_skipn k l) in H. apply Forall_app in H. apply H. Qed.
Lemma cut_read file ts n : Forall (tree_wf false) ts -> Forall (all_boxes box_printable) ts -> Zlen (flat_map serialize ts) < 2 ^ 63 -> (n < length (flat_map serialize ts))%nat ->
  (exists k ns text, (k < length ts)%nat /\ firstn n (flat_map serialize ts) = flat_map serialize (firstn k ts) /\
     SimpleReader_read file (firstn n (flat_map serialize ts)) = Some (Ok (ns, text)) /\ map tree_of ns = firstn k ts) \/
  ((forall k, firstn n (flat_map serialize ts) <> flat_map serialize (firstn k ts)) /\
   exists e, SimpleReader_read file (firstn n (flat_map serialize ts)) = Some (Throw e)).
Proof.
  intros W P L N. destruct (cut_forest ts n N) as (k & t & m & Ek & M & E). rewrite E.
  assert (Wt : tree_wf false t) by (rewrite Forall_forall in W; apply W; eapply nth_error_In; exact Ek).
  assert (Lk : (k < length ts)%nat) by (apply nth_error_Some; congruence).
  assert (Sp : ts = firstn k ts ++ t :: skipn (S k) ts).
  { clear -Ek. revert ts Ek. induction k as [|k IH]; intros [|x ts] E; try discriminate. - injection E as ->. reflexivity. - cbn [firstn skipn app]. f_equal. apply IH. exact E. }
  assert (Lz : Zlen (flat_map serialize (firstn k ts) ++ serialize t) <= Zlen (flat_map serialize ts)).
  { rewrite Sp at 2. rewrite flat_map_app. cbn [flat_map]. rewrite !Zlen_app. pose proof (Zlen_nonneg (flat_map serialize (skipn (S k) ts))). lia. }
  destruct m as [|m].
  - left. rewrite firstn_O, app_nil_r. destruct (read_back file (firstn k ts)) as (ns & text & R & _ & Tr & _); [apply Forall_firstn; assumption..| |].
    { rewrite Zlen_app in Lz. pose proof (Zlen_nonneg (serialize t)). lia. }
    exists k, ns, text. auto.
  - right. split.
    + intros j Ej. destruct (Nat.lt_trichotomy j k) as [J|[J|J]].
      * assert (X : firstn k ts = firstn j ts ++ firstn (k - j) (skipn j ts)).
        { replace k with (j + (k - j))%nat at 1 by lia. generalize (k - j)%nat. clear. revert ts. induction j as [|j IH]; intros [|x ts] i; cbn [firstn skipn app Nat.add]; try reflexivity; [rewrite firstn_nil; reflexivity|]. f_equal. apply IH. }
        rewrite X, flat_map_app in Ej. apply (f_equal (@length Z)) in Ej. rewrite !app_length, firstn_length in Ej. lia.
      * subst j. apply (f_equal (@length Z)) in Ej. rewrite app_length, firstn_length in Ej. lia.
      * assert (X : firstn j ts = firstn k ts ++ t :: firstn (j - S k) (skipn (S k) ts)).
        { rewrite Sp at 1. rewrite firstn_app. rewrite firstn_all2 by (rewrite firstn_length; lia). f_equal. rewrite firstn_length, Nat.min_l by lia. replace (j - k)%nat with (S (j - S k)) by lia. reflexivity. }
        rewrite X, flat_map_app in Ej. cbn [flat_map] in Ej. apply (f_equal (@length Z)) in Ej. rewrite !app_length, firstn_length in Ej. lia.
    + destruct (cut_box file (firstn k ts) t (S m)) as (e & R); auto; [apply Forall_firstn; exact W|lia|lia|]. exists e. unfold SimpleReader_read. rewrite R. reflexivity.
Qed.
