(** C49: writing the boxes read from a file reproduces the file. *)
From Verif Require Import Base BitIO BitFacts BitIOProofs Boxes WireFormat Box BoxSpec Print PrintSpec PrintProofs BoxTree TreeSpec BoxSafe BoxExact TreeProofs TreeLayout TreeRead ReaderTotal ReaderTiling SessionProofs TreeLemmas TreePrint.

Lemma firstn_extend (l x rest : list Z) p : skipn p l = x ++ rest -> firstn p l ++ x = firstn (p + length x) l /\ (x <> [] -> (p + length x <= length l)%nat).
Proof.
  intros E. assert (L : length (skipn p l) = (length x + length rest)%nat) by (rewrite E, app_length; reflexivity). rewrite skipn_length in L.
  split.
  - rewrite <- (firstn_skipn p l) at 2. rewrite E. destruct (le_lt_dec p (length l)) as [P|P].
    + rewrite firstn_app, firstn_firstn, firstn_length_le by exact P. replace (min (p + length x) p) with p by lia. replace (p + length x - p)%nat with (length x) by lia.
      rewrite firstn_app, Nat.sub_diag, firstn_all. cbn [firstn]. rewrite app_nil_r. reflexivity.
    + assert (x = []) as -> by (destruct x; [reflexivity|cbn [length] in L; lia]). assert (rest = []) as -> by (destruct rest; [reflexivity|cbn [length] in L; lia]).
      rewrite !app_nil_r. rewrite Nat.add_0_r, firstn_firstn, Nat.min_id. reflexivity.
  - intros Nx. destruct x; [congruence|]. cbn [length] in *. lia.
Qed.
Lemma uw_irrelevant k type : k <> K_audio -> forall uw, Box_readData k type uw = Box_readData k type false.
Proof. intros H uw. unfold Box_readData. destruct k; first [congruence|reflexivity]. Qed.
Lemma reproducible_eq uw t h b l : reproducible uw (Node t h b l) <->
  lossless b /\ (uw = true -> box_kind b <> K_audio) /\
  (exists hd, h = Some hd /\ h_size hd = h_header_size hd + Box_getDataSize b + total_announced l) /\
  Forall (reproducible (list_eqb t [119; 97; 118; 101])) l.
Proof.
  cbn [reproducible]. assert (forall u l, (fix all (l : list node) : Prop := match l with [] => True | k :: l' => reproducible u k /\ all l' end) l <-> Forall (reproducible u) l) as E.
  { clear. intros u. induction l as [|k l IH]; [split; auto|]. rewrite Forall_cons_iff, IH. reflexivity. }
  rewrite E. reflexivity.
Qed.
Lemma write_leafs_all l : forall o, (fix leafs_write (l : list node) (o : ostream) : outcome (list node * ostream) :=
            match l with
            | [] => Ok ([], o)
            | n :: l' =>
                match BoxInfo_write n o with
                | Ok (n', o') => match leafs_write l' o' with Ok (r, o'') => Ok (n' :: r, o'') | Throw e => Throw e | UB => UB end
                | Throw e => Throw e
                | UB => UB
                end
            end) l o = BoxInfo_write_all l o.
Proof. induction l as [|n l IH]; intros o; [reflexivity|]. cbn [BoxInfo_write_all]. destruct (BoxInfo_write n o) as [[n' o']|e|]; [|reflexivity..]. rewrite IH. reflexivity. Qed.

Section Rewrite.
  Variable data : list Z.
  Hypothesis Hb : bytes data.
  Hypothesis Hl : Zlen data < 2 ^ 63.
  (** [upto p]: what has been written so far. *)
  Definition cut (p : Z) : list Z := firstn (Z.to_nat p) data.

  Lemma cut_write p bs rest : 0 <= p <= Zlen data -> skipn (Z.to_nat p) data = bs ++ rest ->
    splice (cut p) p bs = cut (p + Zlen bs) /\ p + Zlen bs <= Zlen data.
  Proof.
    intros P E. destruct (firstn_extend _ _ _ _ E) as [F N]. unfold cut. replace (Z.to_nat (p + Zlen bs)) with (Z.to_nat p + length bs)%nat by (unfold Zlen; lia). rewrite <- F.
    assert (Lc : Zlen (firstn (Z.to_nat p) data) = p) by (unfold Zlen in *; rewrite firstn_length; lia).
    split; [rewrite <- Lc at 2; apply splice_end|]. destruct bs as [|x bs]; [change (Zlen (A := Z) []) with 0; lia|]. specialize (N ltac:(discriminate)). unfold Zlen in *. lia.
  Qed.
  Lemma writes_back n : forall uw off, tiled data uw n off -> all_boxes prints (tree_of n) -> reproducible uw n -> 0 <= off <= Zlen data -> forall p,
    BoxInfo_write n (mkOS (cut off) p) = Ok (n, mkOS (cut (off + announced_size n)) (off + announced_size n)) /\ off + announced_size n <= Zlen data.
  Proof.
    induction n as [t h b l IH] using node_ind'. intros uw off Tl Pr Rp Po p. cbn [tree_of] in Pr. rewrite all_boxes_eq, Forall_map in Pr. destruct Pr as [Pr Prl]. apply reproducible_eq in Rp as (Ls & Au & (hd & -> & Hs) & Fl).
    apply tiled_eq in Tl as ((Rh & Ht & Ho) & r & bits & Rd & Sz & Tk).
    assert (Kd : Box_readData (BoxMap_getBoxInstance BoxMap_registered t) t false (reader_init (payload_at data hd)) = Ok (r, bits, b)).
    { destruct uw; [|exact Rd]. rewrite <- (uw_irrelevant _ t) with (uw := true); [exact Rd|]. intros Ka. apply (Au eq_refl).
      rewrite Ka in Rd. cbn [Box_readData] in Rd. unfold rmap, rbind, rret in Rd. destruct (AudioSampleEntry_readData t true _) as [[[? ?] ?]|?|]; try discriminate Rd.
      assert (B_audio a = b) as <- by congruence. reflexivity. }
    assert (Bp : bytes (payload_at data hd)).
    { unfold payload_at, bytes in *. rewrite Forall_forall in Hb |- *. intros x Hx. apply Hb. eapply In_firstn_aux; exact Hx. }
    assert (Nb : bits / 8 = Box_getDataSize b) by lia.
    destruct (read_then_write _ _ _ _ _ _ Bp Kd Ls Nb) as (w & rest & Ew & Ed & _ & Lw).
    assert (Hl' : Zlen data < 2 ^ 64) by (clear - Hl; lia). destruct Po as [Po1 Po2].
    destruct (header_read_octets data off hd Hb Po1 Hl' Rh) as (_ & H8 & Hr & Lh & hrest & Sk).
    cbn [BoxInfo_write]. destruct (Box_toString_ok (Some hd) b Pr) as (txt & ->). cbn [obind]. unfold header_write. cbv zeta. rewrite Lh, Z.sub_diag, Z.add_0_r, u64_small by exact Hr.
    unfold os_write at 1, os_seekp. cbn [os_data os_pos]. rewrite Ho. destruct (cut_write off _ _ ltac:(lia) Sk) as [C1 C2]. rewrite Lh in C1, C2. rewrite C1, Lh.
    unfold os_writeData. rewrite Ew. unfold os_write. cbn [os_data os_pos].
    assert (Sk2 : exists rest', skipn (Z.to_nat (off + h_header_size hd)) data = w_os w ++ rest').
    { unfold payload_at in Ed. rewrite Ho in Ed. eexists. rewrite <- (firstn_skipn (Z.to_nat (header_getDataSize hd)) (skipn (Z.to_nat (off + h_header_size hd)) data)). rewrite Ed, <- app_assoc. reflexivity. }
    destruct Sk2 as (rest' & Sk2). destruct (cut_write (off + h_header_size hd) _ _ ltac:(lia) Sk2) as [C3 C4]. rewrite Lw in C3, C4. rewrite C3, Lw.
    rewrite write_leafs_all. replace (bits / 8) with (Box_getDataSize b) in Tk by lia.
    assert (G : forall pos, tiled_all data (list_eqb t [119; 97; 118; 101]) l pos -> 0 <= pos <= Zlen data ->
      BoxInfo_write_all l (mkOS (cut pos) pos) = Ok (l, mkOS (cut (pos + total_announced l)) (pos + total_announced l)) /\ pos + total_announced l <= Zlen data /\ 0 <= total_announced l).
    { clear - IH Fl Hb Hl Prl. induction IH as [|k l Hk _ IHl]; intros pos Tl Pp.
      - cbn. rewrite Z.add_0_r. split; [reflexivity|lia].
      - apply Forall_cons_iff in Fl as [Fk Fl]. apply Forall_cons_iff in Prl as [Pk Prl]. cbn [tiled_all] in Tl. destruct Tl as [Tk Tl]. cbn [total_announced fold_right]. fold (total_announced l).
        destruct (Hk _ _ Tk Pk Fk Pp pos) as [W1 W2].
        assert (An : 0 <= announced_size k). { destruct k as [kt kh kb kl]. apply reproducible_eq in Fk as (_ & _ & (hk & -> & _) & _). apply tiled_eq in Tk as ((Rk & _) & _).
          destruct (header_read_octets data pos hk Hb ltac:(lia) ltac:(lia) Rk) as (_ & _ & Hk' & _). unfold announced_size. cbn [n_header]. lia. }
        destruct (IHl Prl Fl _ Tl ltac:(lia)) as (W3 & W4 & W5).
        cbn [BoxInfo_write_all]. rewrite W1, W3. rewrite Z.add_assoc. split; [reflexivity|lia]. }
    pose proof (Zlen_nonneg (w_os w)) as Wn. destruct (G _ Tk ltac:(lia)) as (G1 & G2 & _). rewrite G1. unfold announced_size. cbn [n_header]. rewrite Hs, !Z.add_assoc. split; [|lia].
    f_equal. f_equal. f_equal. f_equal. destruct hd; cbn in *. congruence.
  Qed.
  Lemma forest_writes_back l : forall pos p, tiled_all data false l pos -> Forall (fun n => all_boxes prints (tree_of n)) l -> Forall (reproducible false) l -> 0 <= pos <= Zlen data ->
    exists p', BoxInfo_write_all l (mkOS (cut pos) p) = Ok (l, mkOS (cut (pos + total_announced l)) p').
  Proof.
    induction l as [|k l IH]; intros pos p Tl Pr F P; [cbn; rewrite Z.add_0_r; eauto|]. apply Forall_cons_iff in Pr as [Pk Pr].
    apply Forall_cons_iff in F as [Fk F]. cbn [tiled_all] in Tl. destruct Tl as [Tk Tl]. cbn [total_announced fold_right]. fold (total_announced l).
    destruct (writes_back _ _ _ Tk Pk Fk P p) as [W1 W2].
    assert (An : 0 <= announced_size k). { destruct k as [kt kh kb kl]. apply reproducible_eq in Fk as (_ & _ & (hk & -> & _) & _). apply tiled_eq in Tk as ((Rk & _) & _).
          destruct (header_read_octets data pos hk Hb ltac:(lia) ltac:(lia) Rk) as (_ & _ & Hk' & _). unfold announced_size. cbn [n_header]. lia. }
    destruct (IH _ (pos + announced_size k) Tl Pr F ltac:(lia)) as (p' & W3). exists p'. cbn [BoxInfo_write_all]. rewrite W1, W3, Z.add_assoc. reflexivity.
  Qed.
End Rewrite.

Lemma file_written_back file data ns text : bytes data -> Zlen data < 2 ^ 63 -> (file = true -> ~ has_overreporting data /\ ~ has_unversioned_alst data) ->
  SimpleReader_read file data = Some (Ok (ns, text)) -> Forall (reproducible false) ns ->
  exists p, BoxInfo_write_all ns (mkOS [] 0) = Ok (ns, mkOS data p).
Proof.
  intros Hb Hl Hf E F. destruct (read_inv _ _ _ _ E) as [E' Tx]. pose proof (print_inv _ _ Tx) as Pr. destruct (SimpleReader_tiles file data ns Hb Hl Hf E') as [T A]. pose proof (Zlen_nonneg data) as N.
  destruct (forest_writes_back data Hb Hl ns 0 0 T Pr F ltac:(lia)) as (p & W). exists p. change (cut data 0) with (firstn 0 data) in W. cbn [firstn] in W. rewrite W.
  f_equal. f_equal. f_equal. rewrite A, Z.add_0_l. unfold cut. rewrite firstn_all2; [reflexivity|unfold Zlen; lia].
Qed.
