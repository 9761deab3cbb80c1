(** Proofs about read_box_header and SimpleReader (C15, C18-C21, C42). *)
From Verif Require Import Base BitIO BitFacts BitIOProofs Boxes WireFormat BoxTac BoxWrite BoxRead Box BoxSpec BoxIO BoxSize BoxSafe
  BoxTree TreeSpec TreeProofs TreeLayout.

Section TreeInd.
  Variable P : tree -> Prop.
  Hypothesis H : forall t b l, Forall P l -> P (T t b l).
  Fixpoint tree_ind' (n : tree) : P n :=
    match n with
    | T t b l => H t b l ((fix go (l : list tree) : Forall P l :=
        match l with [] => Forall_nil P | k :: l' => Forall_cons k (tree_ind' k) (go l') end) l)
    end.
End TreeInd.

(** * Headers *)
Lemma list4 (l : list Z) : length l = 4%nat -> exists a b c d, l = [a; b; c; d].
Proof. intros H. destruct l as [|a [|b [|c [|d [|? ?]]]]]; try discriminate. eauto. Qed.
Lemma list8 (l : list Z) : length l = 8%nat -> exists a b c d e f g h, l = [a; b; c; d; e; f; g; h].
Proof. intros H. destruct l as [|a [|b [|c [|d [|e [|f [|g [|h [|? ?]]]]]]]]]; try discriminate. repeat eexists. Qed.
Lemma read_frame data pos t n rest : Zlen data < 2 ^ 64 -> 0 <= pos -> skipn (Z.to_nat pos) data = frame_header t n ++ rest ->
  length t = 4%nat -> 0 <= n < 2 ^ 64 - 16 ->
  read_box_header data pos = Ok (mk_header pos (n + frame_header_size n) (frame_header_size n) t false).
Proof.
  intros L P E Ht B. unfold read_box_header. rewrite E.
  assert (Lr : Zlen data - pos = frame_header_size n + Zlen rest).
  { apply (f_equal Zlen) in E. rewrite Zlen_app, frame_header_length in E by exact Ht. unfold Zlen in E at 1. rewrite skipn_length in E.
    pose proof (frame_hs n). pose proof (Zlen_nonneg rest). unfold Zlen in *. lia. }
  pose proof (Zlen_nonneg rest) as Nr. pose proof (frame_hs n) as Fh.
  rewrite Lr, u64_small by (pose proof (Zlen_nonneg data); lia). unfold SMALL_HEADER_SIZE, LARGE_HEADER_SIZE.
  destruct (Z.ltb_spec (frame_header_size n + Zlen rest) 8) as [C|C]; [lia|].
  destruct (list4 t Ht) as (t0 & t1 & t2 & t3 & ->). unfold frame_header, frame_header_size in *.
  destruct (Z.ltb_spec (n + 8) (2 ^ 32)) as [D|D].
  - destruct (list4 (be_octets 4 (n + 8)) (be_octets_length 4 _)) as (a & b & c & d & Ea). rewrite Ea. cbn [app].
    pose proof (be_octets_bytes 4 (n + 8)) as By. rewrite Ea in By. inversion By as [|? ? Ba By1]; subst. inversion By1 as [|? ? Bb By2]; subst.
    inversion By2 as [|? ? Bc By3]; subst. inversion By3 as [|? ? Bd _]; subst.
    rewrite be_to_uint32_value by assumption. rewrite <- Ea, be_octets_value by (change (256 ^ Z.of_nat 4) with (2 ^ 32); lia).
    replace (n + 8 =? 0) with false by lia. replace (n + 8 =? 1) with false by lia. reflexivity.
  - change (be_octets 4 1) with [0; 0; 0; 1]. cbn [app]. change (be_to_uint32 0 0 0 1) with 1. cbn [Z.eqb Pos.eqb].
    destruct (Z.ltb_spec (16 + Zlen rest) 16) as [C'|_]; [lia|].
    destruct (list8 (be_octets 8 (n + 16)) (be_octets_length 8 _)) as (a & b & c & d & e & f & g & h & Ea). rewrite Ea. cbn [app].
    pose proof (be_octets_bytes 8 (n + 16)) as By. rewrite Ea in By. unfold bytes in By. rewrite Forall_forall in By.
    rewrite be_to_uint64_value by (apply By; cbn; tauto). rewrite <- Ea, be_octets_value by (change (256 ^ Z.of_nat 8) with (2 ^ 64); lia). reflexivity.
Qed.

(** For every stream and position: what read_box_header does. *)
Lemma read_header_cases data pos : 0 <= pos <= Zlen data -> Zlen data < 2 ^ 64 -> bytes data ->
  match read_box_header data pos with
  | Ok h => h_offset h = pos /\ ((h_header_size h = 8 /\ pos + 8 <= Zlen data) \/ (h_header_size h = 16 /\ pos + 16 <= Zlen data)) /\
            0 <= h_size h < 2 ^ 64 /\ length (h_type h) = 4%nat /\ bytes (h_type h)
  | Throw e => e = InvalidArgument /\ Zlen data - pos < 16 /\
               (8 <= Zlen data - pos -> exists t r, skipn (Z.to_nat pos) data = [0; 0; 0; 1] ++ t ++ r /\ length t = 4%nat)
  | UB => False
  end.
Proof.
  intros P L By. unfold read_box_header. rewrite u64_small by lia. unfold SMALL_HEADER_SIZE, LARGE_HEADER_SIZE.
  destruct (Z.ltb_spec (Zlen data - pos) 8) as [C|C]; [repeat split; lia|].
  assert (Ls : Zlen (skipn (Z.to_nat pos) data) = Zlen data - pos) by (unfold Zlen in *; rewrite skipn_length; lia).
  assert (Bs : bytes (skipn (Z.to_nat pos) data)).
  { unfold bytes in *. rewrite <- (firstn_skipn (Z.to_nat pos) data) in By. apply Forall_app in By. apply By. }
  destruct (skipn (Z.to_nat pos) data) as [|b0 [|b1 [|b2 [|b3 [|t0 [|t1 [|t2 [|t3 rest]]]]]]]] eqn:E;
    try (exfalso; unfold Zlen in *; cbn [length] in Ls; lia).
  unfold bytes in Bs. rewrite Forall_forall in Bs.
  assert (Bt : bytes [t0; t1; t2; t3]) by (apply Forall_forall; intros x Hx; apply Bs; cbn in Hx |- *; tauto).
  assert (V : 0 <= be_to_uint32 b0 b1 b2 b3 < 2 ^ 32) by (unfold be_to_uint32; apply Z.mod_pos_bound; lia).
  destruct (Z.eqb_spec (be_to_uint32 b0 b1 b2 b3) 0) as [Z0|Z0].
  { cbn [h_offset h_header_size h_size h_type]. repeat split; auto; lia. }
  destruct (Z.eqb_spec (be_to_uint32 b0 b1 b2 b3) 1) as [Z1|Z1].
  - destruct (Z.ltb_spec (Zlen data - pos) 16) as [D|D].
    + split; [reflexivity|]. split; [exact D|]. intros _. exists [t0; t1; t2; t3], rest. split; [|reflexivity]. cbn [app].
      rewrite be_to_uint32_value in Z1 by (apply Bs; cbn; tauto).
      assert (B4 : bytes [b0; b1; b2; b3]) by (apply Forall_forall; intros x Hx; apply Bs; cbn in Hx |- *; tauto).
      destruct (be_octets_be_value _ B4) as [E4 _]. cbn [length] in E4. rewrite Z1 in E4.
      change (be_octets 4 1) with [0; 0; 0; 1] in E4. inversion E4; subst. reflexivity.
    + destruct rest as [|c0 [|c1 [|c2 [|c3 [|c4 [|c5 [|c6 [|c7 rest]]]]]]]]; try (exfalso; unfold Zlen in *; cbn [length] in Ls; lia).
      cbn [h_offset h_header_size h_size h_type]. repeat split; auto; try lia; unfold be_to_uint64; apply Z.mod_pos_bound; lia.
  - cbn [h_offset h_header_size h_size h_type]. repeat split; auto; lia.
Qed.
(** Beyond the end of the stream (only possible after a seek past the end). *)
Lemma read_header_past data pos : Zlen data < pos -> match read_box_header data pos with Ok _ => False | _ => True end.
Proof.
  intros P. unfold read_box_header. destruct (_ <? _); [exact I|]. rewrite skipn_all2 by (unfold Zlen in P; lia). exact I.
Qed.

(** * Reading back a serialised forest *)
Lemma tree_wf_eq uw t b l : tree_wf uw (T t b l) <->
  length t = 4%nat /\ bytes t /\ BoxMap_getBoxInstance BoxMap_registered t = box_kind b /\
  box_wf (Zlen (flat_map serialize l)) b /\ (forall a, b = B_audio a -> ase_type a = t /\ uw = false) /\
  Forall (tree_wf (list_eqb t [119; 97; 118; 101])) l.
Proof.
  cbn [tree_wf]. assert (forall w l, (fix all (l : list tree) : Prop := match l with [] => True | k :: l' => tree_wf w k /\ all l' end) l <-> Forall (tree_wf w) l) as E.
  { clear. intros w. induction l as [|k l IH]; [split; [constructor|trivial]|]. rewrite IH. split; [intros [A B]; constructor; assumption|intros F; inversion F; auto]. }
  rewrite E. reflexivity.
Qed.
Lemma bytes_app a b : bytes a -> bytes b -> bytes (a ++ b). Proof. apply Forall_app_2 || (intros; apply Forall_app; auto). Qed.
Lemma wire_payload_facts ch b : box_wf ch b -> bits_of (wire_payload b) = enc (box_layout b) /\ bytes (wire_payload b) /\ Zlen (wire_payload b) = Box_getDataSize b.
Proof. intros H. pose proof (box_layout_size ch b H) as L. destruct (octets_bits (enc (box_layout b))) as (A & B & C); [lia|]. unfold wire_payload. repeat split; auto. lia. Qed.
Lemma frame_header_bytes t n : bytes t -> bytes (frame_header t n).
Proof. intros H. unfold frame_header. destruct (_ <? _); repeat apply bytes_app; auto; apply be_octets_bytes. Qed.
Lemma serialize_eq t b l : serialize (T t b l) = frame_header t (Zlen (wire_payload b ++ flat_map serialize l)) ++ wire_payload b ++ flat_map serialize l.
Proof. reflexivity. Qed.
Lemma serialize_bytes t : forall uw, tree_wf uw t -> bytes (serialize t).
Proof.
  induction t as [t b l IH] using tree_ind'. intros uw. rewrite tree_wf_eq. intros (A & B & C & D & E & F). rewrite serialize_eq.
  apply bytes_app; [apply frame_header_bytes; exact B|]. apply bytes_app; [apply (wire_payload_facts _ _ D)|].
  clear -IH F. induction IH as [|k l Hk Hl IHl]; [constructor|]. inversion F; subst. cbn [flat_map]. apply bytes_app; eauto.
Qed.
Lemma serialize_len8 t : forall uw, tree_wf uw t -> 8 <= Zlen (serialize t).
Proof.
  destruct t as [t b l]. intros uw. rewrite tree_wf_eq. intros (A & _). rewrite serialize_eq, Zlen_app, frame_header_length by exact A.
  pose proof (Zlen_nonneg (wire_payload b ++ flat_map serialize l)). destruct (frame_hs (Zlen (wire_payload b ++ flat_map serialize l))); lia.
Qed.

Definition reads_as (t : tree) (pos : Z) (n : node) : Prop := tree_of n = t /\ laid_out n pos /\ announced_size n = Zlen (serialize t) /\ headers_ok n.
Lemma headers_ok_node t h b l : headers_ok (Node t h b l) <-> match h with None => True | Some h => h_type h = t /\ h_extend_to_eof h = false end /\ Forall headers_ok l.
Proof.
  cbn [headers_ok]. assert (forall l, (fix all (l : list node) : Prop := match l with [] => True | k :: l' => headers_ok k /\ all l' end) l <-> Forall headers_ok l) as E.
  { clear. induction l as [|k l IH]; [split; [constructor|trivial]|]. rewrite IH. split; [intros [A B]; constructor; assumption|intros F; inversion F; auto]. }
  rewrite E. reflexivity.
Qed.
Lemma readBox_ok file data : Zlen data < 2 ^ 64 - 16 -> forall fuel,
  (forall t uw pre rest, tree_wf uw t -> data = pre ++ serialize t ++ rest -> (length (serialize t) <= fuel)%nat ->
     exists n, readBox fuel file data uw (Zlen pre) = Some (Ok (n, Zlen pre + Zlen (serialize t), Zlen (serialize t))) /\ reads_as t (Zlen pre) n) /\
  (forall ts uw pre rest rbytes bound, Forall (tree_wf uw) ts -> data = pre ++ flat_map serialize ts ++ rest -> (length (flat_map serialize ts) < fuel)%nat ->
     0 <= rbytes -> bound = rbytes + Zlen (flat_map serialize ts) -> bound < 2 ^ 64 ->
     exists ns, readLeafs fuel file data uw bound rbytes (Zlen pre) = Some (Ok (ns, Zlen pre + Zlen (flat_map serialize ts))) /\
       map tree_of ns = ts /\ laid_out_all ns (Zlen pre) /\ total_announced ns = Zlen (flat_map serialize ts) /\ Forall headers_ok ns).
Proof.
  intros Ld. induction fuel as [|f [IHb IHl]]; split.
  - intros t uw pre rest W _ F. pose proof (serialize_len8 t uw W). unfold Zlen in *. lia.
  - intros. lia.
  - intros [ty b l] uw pre rest W E F. pose proof W as W'. rewrite tree_wf_eq in W'. destruct W' as (A & B & C & D & G & H).
    set (kids := flat_map serialize l) in *. set (body := wire_payload b ++ kids).
    assert (Es : serialize (T ty b l) = frame_header ty (Zlen body) ++ body) by reflexivity. rewrite Es in *.
    destruct (wire_payload_facts _ _ D) as (P1 & P2 & P3).
    assert (Lb : Zlen body = Box_getDataSize b + Zlen kids) by (unfold body; rewrite Zlen_app, P3; reflexivity).
    pose proof (Zlen_nonneg body) as Nb. pose proof (Zlen_nonneg pre) as Np. pose proof (Zlen_nonneg rest) as Nr. pose proof (Zlen_nonneg kids) as Nk.
    pose proof (Zlen_nonneg (wire_payload b)) as Nw.
    pose proof (frame_header_length ty (Zlen body) A) as Lh. pose proof (frame_hs (Zlen body)) as Fh. set (hs := frame_header_size (Zlen body)) in *.
    assert (Lt : Zlen data = Zlen pre + hs + Zlen body + Zlen rest) by (rewrite E, !Zlen_app, Lh; lia).
    assert (Ek : skipn (Z.to_nat (Zlen pre)) data = frame_header ty (Zlen body) ++ (body ++ rest)).
    { rewrite E, skipn_exact by (unfold Zlen; lia). rewrite <- app_assoc. reflexivity. }
    cbn [readBox]. rewrite (read_frame data (Zlen pre) ty (Zlen body) (body ++ rest)); [|lia|lia|exact Ek|exact A|lia].
    fold hs. cbv zeta. unfold header_getDataSize. cbn [h_offset h_header_size h_size h_type].
    replace (Zlen body + hs - hs) with (Zlen body) by lia. rewrite (u64_small (Zlen body)) by lia.
    rewrite (u64_small (Zlen data - Zlen pre)), (u64_small (Zlen data - Zlen pre - hs)) by lia.
    replace (Zlen pre + hs >? Zlen data) with false by lia. rewrite andb_false_r.
    replace (Zlen body >? Zlen data - Zlen pre - hs) with false by lia.
    replace (Zlen pre + hs + Zlen body >? Zlen data) with false by lia.
    assert (Ep : firstn (Z.to_nat (Zlen body)) (skipn (Z.to_nat (Zlen pre + hs)) data) = body).
    { rewrite E, <- !app_assoc, (app_assoc pre). rewrite skipn_exact by (rewrite app_length; unfold Zlen in *; lia). apply firstn_exact. unfold Zlen. lia. }
    rewrite Ep, C.
    assert (Bk : bytes kids).
    { pose proof (serialize_bytes _ _ W) as Bs. rewrite Es in Bs. unfold bytes in *. apply Forall_app in Bs. destruct Bs as [_ Bs]. apply Forall_app in Bs. apply Bs. }
    assert (Rd : exists r', Box_readData (box_kind b) ty uw (reader_init body) = Ok (r', 8 * Box_getDataSize b, b)).
    { pose proof (box_read (Zlen kids) b (bits_of kids) ty D) as R. rewrite Zlen_bits_of in R.
      specialize (R ltac:(lia)). specialize (R ltac:(intros K; destruct kids; [reflexivity|unfold Zlen in K; cbn [length] in K; lia])).
      specialize (R (fun a Ha => proj1 (G a Ha)) uw (fun a Ha => proj2 (G a Ha))).
      destruct (R (reader_init body)) as (r' & R1 & _); [apply rwf_init, bytes_app; assumption|rewrite BitIOProofs.rbits_init; unfold body; rewrite bits_of_app, P1; reflexivity|].
      exists r'. rewrite R1. rewrite (box_layout_size _ _ D). reflexivity. }
    destruct Rd as (r' & ->). replace (8 * Box_getDataSize b / 8) with (Box_getDataSize b) by lia.
    replace (Zlen pre + hs + Box_getDataSize b >? Zlen data) with false by lia. rewrite andb_false_r.
    destruct (IHl l (list_eqb ty [119; 97; 118; 101]) (pre ++ frame_header ty (Zlen body) ++ wire_payload b) rest (Box_getDataSize b) (Zlen body)) as (ns & N1 & N2 & N3 & N4 & N5).
    { exact H. }
    { rewrite E. unfold body. fold kids. rewrite <- !app_assoc. reflexivity. }
    { fold kids. unfold Zlen in *. rewrite app_length in F. unfold body in F at 2. rewrite !app_length in F. lia. }
    { lia. }
    { exact Lb. }
    { lia. }
    rewrite !Zlen_app, Lh, P3 in N1, N3. fold kids in N1, N4. fold type_wave in N1.
    replace (Zlen pre + (hs + Box_getDataSize b)) with (Zlen pre + hs + Box_getDataSize b) in N1, N3 by lia. rewrite N1.
    eexists. split.
    { f_equal. f_equal. f_equal; [f_equal|]; [rewrite Zlen_app, Lh; lia|rewrite Zlen_app, Lh; lia]. }
    unfold reads_as. cbn [tree_of announced_size n_header h_size]. rewrite N2. split; [reflexivity|]. split.
    + rewrite laid_out_eq. rewrite N4. cbn [h_type h_offset h_header_size h_size]. rewrite <- Lb. fold hs. repeat split; auto. lia.
    + split; [unfold announced_size; cbn [n_header h_size]; rewrite Es, Zlen_app, Lh; lia|]. rewrite headers_ok_node. cbn [h_type h_extend_to_eof]. auto.
  - intros ts uw pre rest rbytes bound W E F R0 Bd Bl. cbn [readLeafs]. destruct ts as [|t ts].
    + cbn [flat_map] in *. rewrite (@Zlen_nil Z) in *. replace (bound >? rbytes) with false by lia. exists [].
      rewrite Z.add_0_r. repeat split. constructor.
    + apply Forall_cons_iff in W. destruct W as [Wt Wts]. subst bound. cbn [flat_map] in *. pose proof (serialize_len8 t uw Wt) as L8. rewrite Zlen_app in *. pose proof (Zlen_nonneg (flat_map serialize ts)) as Nt.
      replace (rbytes + (Zlen (serialize t) + Zlen (flat_map serialize ts)) >? rbytes) with true by lia.
      rewrite app_length in F.
      destruct (IHb t uw pre (flat_map serialize ts ++ rest) Wt) as (n & N1 & N2 & N3 & N4 & N5); [rewrite E, <- app_assoc; reflexivity|lia|]. rewrite N1.
      rewrite u64_small by lia.
      destruct (IHl ts uw (pre ++ serialize t) rest (rbytes + Zlen (serialize t)) (rbytes + (Zlen (serialize t) + Zlen (flat_map serialize ts))) Wts) as (ns & M1 & M2 & M3 & M4 & M5).
      { rewrite E, <- !app_assoc. reflexivity. } { unfold Zlen in *. lia. } { lia. } { lia. } { lia. }
      rewrite Zlen_app in M1, M3. rewrite M1. exists (n :: ns). rewrite Z.add_assoc. split; [reflexivity|]. split; [cbn [map]; congruence|].
      cbn [laid_out_all total_announced fold_right]. unfold total_announced in M4. rewrite N4, M4. repeat split; auto.
Qed.
Lemma reader_roundtrip file ts : Forall (tree_wf false) ts -> Zlen (flat_map serialize ts) < 2 ^ 64 - 16 ->
  exists ns, SimpleReader_parse file (flat_map serialize ts) = Some (Ok ns) /\ map tree_of ns = ts /\ laid_out_all ns 0 /\
             total_announced ns = Zlen (flat_map serialize ts) /\ Forall headers_ok ns.
Proof.
  intros W L. unfold SimpleReader_parse. destruct (readBox_ok file (flat_map serialize ts) L (length (flat_map serialize ts) + 2)) as [_ R].
  destruct (R ts false [] [] 0 (Zlen (flat_map serialize ts)) W) as (ns & N1 & N2 & N3 & N4 & N5); try lia.
  { rewrite app_nil_r. reflexivity. }
  rewrite (@Zlen_nil Z) in *. rewrite N1. exists ns. auto.
Qed.
