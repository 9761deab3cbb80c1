(** Proofs about BoxInfo::adjustOffsetAndSize and BoxInfo::write (C16, C17). *)
From Verif Require Import Base BitIO BitFacts BitIOProofs Boxes WireFormat BoxTac BoxWrite BoxRead Box BoxSpec BoxIO BoxSize
  Print PrintSpec PrintProofs BoxTree TreeSpec TreeProofs.

(** Representable boxes have the right shape. *)
Lemma box_wf_shape ch b : box_wf ch b -> box_shape b.
Proof.
  destruct b; cbn [box_wf box_shape]; try (intros; exact I).
  - intros ((A & _) & _). exact A.
  - intros (((A & _) & _) & _). apply Forall_forall. intros d Hd. destruct d as [f s subs| | |]; auto. intros Hu.
    apply fields_ok_app in A. destruct A as [_ A]. apply (fields_ok_flat_map _ _ _ A) in Hd.
    cbn [descriptor_layout] in Hd. unfold es_layout in Hd. rewrite Hu in Hd. unfold fields_ok, opt in Hd.
    repeat match goal with H : Forall _ (_ ++ _) |- _ => apply Forall_app in H; destruct H end.
    match goal with H : Forall field_ok [FU 8 (Zlen _); _] |- _ => apply fields_ok_cons in H; destruct H as [H _]; cbn [field_ok] in H; unfold fits_u in H end. lia.
  - intros ((A & B & _) & _). auto.
  - intros ((A & _) & _). exact A.
  - intros (A & B & _). auto.
  - intros (A & B & _). auto.
  - intros (A & _). auto.
  - intros (A & _). auto.
  - intros A. unfold tfra_wf, tfra_layout in A. apply fields_ok_app in A. destruct A as [_ A].
    apply fields_ok_app in A. destruct A as [A _].
    do 2 (apply fields_ok_cons in A; destruct A as [_ A]).
    do 3 (apply fields_ok_cons in A; let H := fresh in destruct A as [H A]; cbn [field_ok] in H; unfold fits_u in H).
    lia.
  - intros (A & _). auto.
  - intros (A & _). auto.
  - intros ((_ & A & _) & _). exact A.
  - intros (A & _). exact A.
  - intros (A & _). exact A.
Qed.
Lemma wspec_fun m a b : wspec m a -> wspec m b -> a = b.
Proof.
  intros A B. destruct (A _ wwf_init) as (w1 & E1 & _ & F1). destruct (B _ wwf_init) as (w2 & E2 & _ & F2).
  rewrite wbits_init in *. cbn [app] in *. congruence.
Qed.
Lemma box_layout_size ch b : box_wf ch b -> Zlen (enc (box_layout b)) = 8 * Box_getDataSize b.
Proof.
  intros H. destruct (box_size b (box_wf_shape ch b H)) as (bs & W & L). rewrite (wspec_fun _ _ _ (box_write ch b H) W). exact L.
Qed.

(** * Payloads *)
Lemma written_spec b : box_shape b -> exists n, Box_writeData b writer_init = Ok (mkWriter (written b) 0 0, n) /\ Zlen (written b) = Box_getDataSize b.
Proof.
  intros H. destruct (box_size b H) as (bs & W & L). destruct (W _ wwf_init) as (w & E & Ww & Wb).
  rewrite wbits_init in Wb. cbn [app] in Wb. destruct (w_os_octets w bs Ww Wb) as (O & O0); [lia|].
  exists (Zlen bs). unfold written. rewrite E. assert (w = mkWriter (w_os w) 0 0) as Ew.
  { destruct w as [os oc wd]. cbn in *. subst wd. f_equal. destruct Ww as (_ & B & M & _). cbn [w_width w_octet] in *. unfold is_byte in B.
    change (2 ^ (8 - 0)) with 256 in M. rewrite Z.mod_small in M; lia. }
  split; [rewrite Ew at 1; reflexivity|]. rewrite O. destruct (octets_bits bs) as (_ & _ & Lo); [lia|]. lia.
Qed.
Lemma os_writeData_ok b o : box_shape b -> os_writeData b o = Ok (os_write (written b) o).
Proof. intros H. destruct (written_spec b H) as (n & E & _). unfold os_writeData. rewrite E. reflexivity. Qed.
Lemma written_wire ch b : box_wf ch b -> written b = wire_payload b.
Proof.
  intros H. destruct (box_write ch b H _ wwf_init) as (w & E & Ww & Wb). rewrite wbits_init in Wb. cbn [app] in Wb.
  unfold written. rewrite E. unfold wire_payload. apply w_os_octets; [exact Ww|exact Wb|].
  rewrite (box_layout_size ch b H). lia.
Qed.

(** * Induction on trees *)
Section NodeInd.
  Variable P : node -> Prop.
  Hypothesis H : forall t h b l, Forall P l -> P (Node t h b l).
  Fixpoint node_ind' (n : node) : P n :=
    match n with
    | Node t h b l => H t h b l ((fix go (l : list node) : Forall P l :=
        match l with [] => Forall_nil P | k :: l' => Forall_cons k (node_ind' k) (go l') end) l)
    end.
End NodeInd.

(** * The layout function *)
Definition sum_by {A} (f : A -> Z) (l : list A) : Z := fold_right (fun x s => f x + s) 0 l.
Fixpoint nsize (n : node) : Z :=
  let 'Node _ _ b l := n in
  let d := Box_getDataSize b + sum_by nsize l in d + frame_header_size d.
Definition dsize (n : node) : Z := let 'Node _ _ b l := n in Box_getDataSize b + sum_by nsize l.
Lemma nsize_eq n : nsize n = dsize n + frame_header_size (dsize n). Proof. destruct n; reflexivity. Qed.
Fixpoint place_all (pl : node -> Z -> node) (l : list node) (base acc : Z) : list node :=
  match l with [] => [] | k :: l' => pl k (u64 (base + acc)) :: place_all pl l' base (u64 (acc + nsize k)) end.
Fixpoint place (n : node) (off : Z) : node :=
  let 'Node t h b l := n in
  let h0 := makeHeader t h in
  let d := Box_getDataSize b + sum_by nsize l in
  let hs := frame_header_size d in
  Node t (Some (mk_header off (d + hs) hs (h_type h0) (h_extend_to_eof h0))) b
    ((fix go (l : list node) (base acc : Z) : list node :=
       match l with [] => [] | k :: l' => place k (u64 (base + acc)) :: go l' base (u64 (acc + nsize k)) end)
     l (u64 (off + hs + Box_getDataSize b)) 0).
Lemma place_eq t h b l off :
  place (Node t h b l) off =
  let h0 := makeHeader t h in
  let d := Box_getDataSize b + sum_by nsize l in
  let hs := frame_header_size d in
  Node t (Some (mk_header off (d + hs) hs (h_type h0) (h_extend_to_eof h0))) b (place_all place l (u64 (off + hs + Box_getDataSize b)) 0).
Proof.
  cbn [place]. cbv zeta. f_equal. generalize (u64 (off + frame_header_size (Box_getDataSize b + sum_by nsize l) + Box_getDataSize b)) as base.
  generalize 0 as acc. clear. induction l as [|k l IH]; intros acc base; [reflexivity|]. cbn [place_all]. f_equal. apply IH.
Qed.

(** Payload sizes are never negative. *)
Fixpoint sized (n : node) : Prop :=
  let 'Node _ _ b l := n in
  0 <= Box_getDataSize b /\ (fix all (l : list node) : Prop := match l with [] => True | k :: l' => sized k /\ all l' end) l.
Lemma sized_eq t h b l : sized (Node t h b l) <-> 0 <= Box_getDataSize b /\ Forall sized l.
Proof.
  cbn [sized]. assert (forall l, (fix all (l : list node) : Prop := match l with [] => True | k :: l' => sized k /\ all l' end) l <-> Forall sized l) as E.
  { clear. induction l as [|k l IH]; [split; [constructor|trivial]|]. rewrite IH. split; [intros [A B]; constructor; assumption|intros F; inversion F; auto]. }
  rewrite E. reflexivity.
Qed.
Lemma frame_hs n : frame_header_size n = 8 \/ frame_header_size n = 16.
Proof. unfold frame_header_size. destruct (_ <? _); auto. Qed.
Lemma nsize_pos n : sized n -> 8 <= nsize n /\ 0 <= dsize n.
Proof.
  induction n as [t h b l IH] using node_ind'. rewrite sized_eq. intros [S1 S2].
  assert (0 <= sum_by nsize l).
  { induction S2 as [|k l Hk Hl IHl]; [reflexivity|]. inversion IH; subst. cbn [sum_by fold_right].
    fold (sum_by nsize l). pose proof (proj1 (H1 Hk)). specialize (IHl H2). lia. }
  cbn [nsize dsize]. destruct (frame_hs (Box_getDataSize b + sum_by nsize l)); lia.
Qed.
Lemma sum_nsize_nonneg l : Forall sized l -> 0 <= sum_by nsize l.
Proof. induction 1 as [|k l Hk Hl IH]; [reflexivity|]. cbn [sum_by fold_right]. fold (sum_by nsize l). pose proof (nsize_pos k Hk). lia. Qed.

Lemma nsize_place n : forall off, nsize (place n off) = nsize n /\ height (place n off) = height n /\ (sized (place n off) <-> sized n).
Proof.
  induction n as [t h b l IH] using node_ind'. intros off. rewrite place_eq. cbv zeta.
  set (base := u64 _). clearbody base. generalize 0 as acc.
  assert (G : forall acc, sum_by nsize (place_all place l base acc) = sum_by nsize l /\
     fold_right (fun n a => Nat.max (height n) a) 0%nat (place_all place l base acc) = fold_right (fun n a => Nat.max (height n) a) 0%nat l /\
     (Forall sized (place_all place l base acc) <-> Forall sized l)).
  { induction IH as [|k l Hk Hl IHl]; intros acc; [repeat split; trivial|]. cbn [place_all sum_by fold_right].
    destruct (Hk (u64 (base + acc))) as (E1 & E2 & E3). destruct (IHl (u64 (acc + nsize k))) as (F1 & F2 & F3). unfold sum_by in F1.
    rewrite E1, E2, F1, F2. repeat split; intros F; inversion F; subst; constructor; tauto. }
  intros acc. destruct (G acc) as (G1 & G2 & G3). rewrite !sized_eq, G3. cbn [nsize height]. rewrite G1, G2. tauto.
Qed.
Lemma place_place n : forall o1 o2, place (place n o1) o2 = place n o2.
Proof.
  induction n as [t h b l IH] using node_ind'. intros o1 o2. rewrite (place_eq t h b l o1). cbv zeta. rewrite place_eq, (place_eq t h b l o2). cbv zeta.
  set (b1 := u64 _). clearbody b1. cbn [makeHeader h_type h_extend_to_eof].
  assert (G : forall a1 b2 a2, place_all place (place_all place l b1 a1) b2 a2 = place_all place l b2 a2 /\
              sum_by nsize (place_all place l b1 a1) = sum_by nsize l).
  { induction IH as [|k l Hk Hl IHl]; intros a1 b2 a2; [split; reflexivity|]. cbn [place_all sum_by fold_right].
    rewrite Hk. destruct (nsize_place k (u64 (b1 + a1))) as (E & _). rewrite E.
    destruct (IHl (u64 (a1 + nsize k)) b2 (u64 (a2 + nsize k))) as (F1 & F2). unfold sum_by in F2. rewrite F1, F2. split; reflexivity. }
  destruct (G 0 (u64 (o2 + frame_header_size (Box_getDataSize b + sum_by nsize l) + Box_getDataSize b)) 0) as (G1 & G2).
  rewrite G2, G1. reflexivity.
Qed.

(** * adjustOffsetAndSize computes [place] *)
Definition matches (n : node) : bool := let 'Node t h _ _ := n in h_header_size (makeHeader t h) =? frame_header_size (dsize n).
Definition need (n : node) : nat := if matches n then 2 * height n - 1 else 2 * height n.
Lemma u64_small v : 0 <= v < 2 ^ 64 -> u64 v = v. Proof. apply Z.mod_small. Qed.
Lemma fold_max_le l k : In k l -> (height k <= fold_right (fun n a => Nat.max (height n) a) 0 l)%nat.
Proof. induction l as [|x l IH]; intros []; cbn [fold_right]; [subst; lia|specialize (IH H); lia]. Qed.
Lemma adjust_leafs_place adj l base : forall acc,
  (forall k o, In k l -> adj k o = Some (place k o, nsize k)) -> Forall sized l -> 0 <= acc -> acc + sum_by nsize l < 2 ^ 64 ->
  adjust_leafs adj base acc l = Some (place_all place l base acc, acc + sum_by nsize l).
Proof.
  induction l as [|k l IH]; intros acc H S A B; [cbn; rewrite Z.add_0_r; reflexivity|].
  cbn [adjust_leafs place_all sum_by fold_right] in *. fold (sum_by nsize l) in *. rewrite (H k) by (left; reflexivity).
  inversion S as [|? ? Sk Sl]; subst. pose proof (nsize_pos k Sk). pose proof (sum_nsize_nonneg l Sl). rewrite (u64_small (acc + nsize k)) by lia.
  rewrite IH; [|intros; apply H; right; assumption|assumption|lia|lia]. rewrite Z.add_assoc. reflexivity.
Qed.
Lemma adjust_place fuel : forall n off, sized n -> nsize n < 2 ^ 64 -> (need n <= fuel)%nat -> adjust fuel n off = Some (place n off, nsize n).
Proof.
  induction fuel as [|f IH]; intros n off S B F.
  { exfalso. destruct n as [t h b l]. unfold need in F. cbn [height] in F. destruct (matches _); lia. }
  destruct n as [t h b l]. cbn [adjust].
  pose proof S as S'. rewrite sized_eq in S'. destruct S' as [S1 S2]. pose proof (sum_nsize_nonneg l S2) as S3.
  assert (Hd : dsize (Node t h b l) = Box_getDataSize b + sum_by nsize l) by reflexivity.
  pose proof (nsize_eq (Node t h b l)) as En. rewrite Hd in En. pose proof (frame_hs (Box_getDataSize b + sum_by nsize l)) as Fh.
  assert (K : forall k o, In k l -> adjust f k o = Some (place k o, nsize k)).
  { intros k o Hk. pose proof S2 as S4. rewrite Forall_forall in S4. specialize (S4 k Hk). apply IH; [exact S4| |].
    - assert (nsize k <= sum_by nsize l).
      { clear -Hk S2. induction S2 as [|x l Hx Hl IHl]; [destruct Hk|]. cbn [sum_by fold_right]. fold (sum_by nsize l).
        pose proof (nsize_pos x Hx). pose proof (sum_nsize_nonneg l Hl). destruct Hk as [->|Hk]; [lia|specialize (IHl Hk); lia]. }
      lia.
    - pose proof (fold_max_le l k Hk) as Hm. unfold need in *. cbn [height] in F. destruct (matches k); destruct (matches _); lia. }
  rewrite (adjust_leafs_place (adjust f) l _ 0 K S2) by lia. rewrite Z.add_0_l, (u64_small (Box_getDataSize b + _)) by lia.
  set (d := Box_getDataSize b + sum_by nsize l) in *.
  assert (Hh : (if d >? UINT32_MAX - SMALL_HEADER_SIZE then LARGE_HEADER_SIZE else SMALL_HEADER_SIZE) = frame_header_size d).
  { unfold frame_header_size, UINT32_MAX, SMALL_HEADER_SIZE, LARGE_HEADER_SIZE. destruct (Z.gtb_spec d (2 ^ 32 - 1 - 8)), (Z.ltb_spec (d + 8) (2 ^ 32)); lia. }
  unfold header_setOffsetAndDataSize. rewrite Hh. rewrite (u64_small (d + _)) by lia. cbn [h_header_size h_size].
  destruct (h_header_size (makeHeader t h) =? frame_header_size d) eqn:Em; cbn [negb].
  - apply Z.eqb_eq in Em. rewrite place_eq. cbv zeta. fold d. rewrite Em. cbn [nsize]. fold d. reflexivity.
  - set (base := u64 (off + _ + _)). set (hd := mk_header _ _ _ _ _).
    assert (P1 : forall o, place (Node t (Some hd) b (place_all place l base 0)) o = place (Node t h b l) o /\
                 sum_by nsize (place_all place l base 0) = sum_by nsize l /\
                 height (Node t (Some hd) b (place_all place l base 0)) = height (Node t h b l) /\
                 Forall sized (place_all place l base 0)).
    { intros o.
      assert (G : forall a1 b2 a2, place_all place (place_all place l base a1) b2 a2 = place_all place l b2 a2 /\
              sum_by nsize (place_all place l base a1) = sum_by nsize l /\
              fold_right (fun n a => Nat.max (height n) a) 0%nat (place_all place l base a1) = fold_right (fun n a => Nat.max (height n) a) 0%nat l /\
              Forall sized (place_all place l base a1)).
      { clear -S2. induction S2 as [|k l Hk Hl IHl]; intros a1 b2 a2; [repeat split; constructor|]. cbn [place_all sum_by fold_right].
        rewrite place_place. destruct (nsize_place k (u64 (base + a1))) as (E1 & E2 & E3). rewrite E1, E2.
        destruct (IHl (u64 (a1 + nsize k)) b2 (u64 (a2 + nsize k))) as (F1 & F2 & F3 & F4). unfold sum_by in F2. rewrite F1, F2, F3.
        repeat split. constructor; [tauto|exact F4]. }
      destruct (G 0 (u64 (o + frame_header_size d + Box_getDataSize b)) 0) as (G1 & G2 & G3 & G4).
      rewrite !place_eq. cbv zeta. rewrite G2. fold d. rewrite G1. cbn [height]. rewrite G3. cbn [makeHeader hd h_type h_extend_to_eof]. auto. }
    destruct (P1 off) as (P2 & P3 & P4 & P5).
    rewrite IH.
    + rewrite P2. cbn [nsize]. rewrite P3. reflexivity.
    + rewrite sized_eq. auto.
    + cbn [nsize]. rewrite P3. fold d. lia.
    + unfold need, matches in *. cbn [dsize] in *. rewrite P3, P4. fold d in F |- *. cbn [makeHeader hd h_header_size]. rewrite Z.eqb_refl.
      rewrite Em in F. lia.
Qed.
Lemma adjust_ok n off : sized n -> nsize n < 2 ^ 64 -> BoxInfo_adjustOffsetAndSize n off = Ok (place n off, nsize n).
Proof.
  intros S B. unfold BoxInfo_adjustOffsetAndSize, adjust_fuel. rewrite adjust_place; auto. unfold need. destruct (matches n); lia.
Qed.

(** * The result is laid out *)
Lemma headers_ok_eq t h b l : headers_ok (Node t h b l) <->
  match h with None => True | Some h => h_type h = t /\ h_extend_to_eof h = false end /\ Forall headers_ok l.
Proof.
  cbn [headers_ok]. assert (forall l, (fix all (l : list node) : Prop := match l with [] => True | k :: l' => headers_ok k /\ all l' end) l <-> Forall headers_ok l) as E.
  { clear. induction l as [|k l IH]; [split; [constructor|trivial]|]. rewrite IH. split; [intros [A B]; constructor; assumption|intros F; inversion F; auto]. }
  rewrite E. reflexivity.
Qed.
Lemma laid_out_eq t h b l off : laid_out (Node t (Some h) b l) off <->
  h_type h = t /\ h_offset h = off /\ h_header_size h = frame_header_size (Box_getDataSize b + total_announced l) /\
  h_size h = h_header_size h + (Box_getDataSize b + total_announced l) /\ laid_out_all l (off + h_header_size h + Box_getDataSize b).
Proof.
  cbn [laid_out]. cbv zeta. assert (forall l p, (fix go (l : list node) (p : Z) : Prop :=
         match l with [] => True | k :: l' => laid_out k p /\ go l' (p + announced_size k) end) l p <-> laid_out_all l p) as E.
  { clear. induction l as [|k l IH]; intros p; [reflexivity|]. cbn [laid_out_all]. rewrite IH. reflexivity. }
  rewrite E. reflexivity.
Qed.
Lemma announced_place n off : announced_size (place n off) = nsize n.
Proof. destruct n as [t h b l]. rewrite place_eq. cbv zeta. unfold announced_size. cbn [n_header h_size nsize]. reflexivity. Qed.
Lemma makeHeader_ok t h : match h with None => True | Some h => h_type h = t /\ h_extend_to_eof h = false end ->
  h_type (makeHeader t h) = t /\ h_extend_to_eof (makeHeader t h) = false.
Proof. destruct h; cbn; auto. Qed.
Lemma place_laid_out n : forall off, sized n -> headers_ok n -> 0 <= off -> off + nsize n < 2 ^ 64 -> laid_out (place n off) off.
Proof.
  induction n as [t h b l IH] using node_ind'. intros off S H O B. rewrite sized_eq in S. rewrite headers_ok_eq in H. destruct S as [S1 S2], H as [H1 H2].
  pose proof (sum_nsize_nonneg l S2) as S3. rewrite place_eq. cbv zeta. destruct (makeHeader_ok t h H1) as [M1 M2].
  set (d := Box_getDataSize b + sum_by nsize l) in *. cbn [nsize] in B. fold d in B. pose proof (frame_hs d) as Fd.
  set (hs := frame_header_size d) in *.
  assert (G : forall base acc, 0 <= base -> 0 <= acc -> base + acc + sum_by nsize l < 2 ^ 64 ->
     total_announced (place_all place l base acc) = sum_by nsize l /\ laid_out_all (place_all place l base acc) (base + acc)).
  { clear -IH S2 H2. induction IH as [|k l Hk Hl IHl]; intros base acc Hb Ha B; [split; [reflexivity|exact I]|].
    inversion S2 as [|? ? Sk Sl]; subst. inversion H2 as [|? ? Hhk Hhl]; subst.
    cbn [place_all total_announced fold_right sum_by laid_out_all] in *. fold (sum_by nsize l) in *. pose proof (nsize_pos k Sk). pose proof (sum_nsize_nonneg l Sl).
    rewrite (u64_small (base + acc)), (u64_small (acc + nsize k)) by lia. rewrite announced_place.
    destruct (IHl ltac:(assumption) ltac:(assumption) base (acc + nsize k)) as (A1 & A2); try lia. unfold total_announced in A1. rewrite A1. split; [reflexivity|].
    split; [apply Hk; auto; lia|]. rewrite <- Z.add_assoc. exact A2. }
  rewrite (u64_small (off + hs + Box_getDataSize b)) by lia.
  destruct (G (off + hs + Box_getDataSize b) 0) as (A1 & A2); [lia|lia|lia|]. rewrite Z.add_0_r in A2.
  rewrite laid_out_eq. rewrite A1. cbn [h_type h_offset h_header_size h_size]. fold d. fold hs. repeat split; auto. lia.
Qed.

Lemma tree_of_place n : forall off, tree_of (place n off) = tree_of n.
Proof.
  induction n as [t h b l IH] using node_ind'. intros off. rewrite place_eq. cbv zeta. cbn [tree_of]. f_equal.
  set (base := u64 _). clearbody base. generalize 0 as acc. induction IH as [|k l Hk Hl IHl]; intros acc; [reflexivity|].
  cbn [place_all map]. rewrite Hk, IHl. reflexivity.
Qed.
Lemma headers_ok_place n : forall off, headers_ok n -> headers_ok (place n off).
Proof.
  induction n as [t h b l IH] using node_ind'. intros off H. rewrite headers_ok_eq in H. destruct H as [H1 H2]. rewrite place_eq. cbv zeta. rewrite headers_ok_eq.
  destruct (makeHeader_ok t h H1) as [M1 M2]. split; [split; assumption|].
  set (base := u64 _). clearbody base. generalize 0 as acc. induction IH as [|k l Hk Hl IHl]; intros acc; [constructor|].
  inversion H2; subst. cbn [place_all]. constructor; auto.
Qed.

(** * Sizes agree with the serialisation *)
Lemma all_boxes_eq P t b l : all_boxes P (T t b l) <-> P b /\ Forall (all_boxes P) l.
Proof.
  cbn [all_boxes]. assert (forall l, (fix all (l : list tree) : Prop := match l with [] => True | k :: l' => all_boxes P k /\ all l' end) l <-> Forall (all_boxes P) l) as E.
  { clear. induction l as [|k l IH]; [split; [constructor|trivial]|]. rewrite IH. split; [intros [A B]; constructor; assumption|intros F; inversion F; auto]. }
  rewrite E. reflexivity.
Qed.
Lemma getDataSize_nonneg b : box_shape b -> 0 <= Box_getDataSize b.
Proof. intros H. destruct (written_spec b H) as (_ & _ & E). pose proof (Zlen_nonneg (written b)). lia. Qed.
Lemma shape_sized n : all_boxes box_shape (tree_of n) -> sized n.
Proof.
  induction n as [t h b l IH] using node_ind'. cbn [tree_of]. rewrite all_boxes_eq, sized_eq. intros [A B]. split; [apply getDataSize_nonneg, A|].
  rewrite Forall_map in B. clear A. induction IH as [|k l Hk Hl IHl]; [constructor|]. inversion B; subst. constructor; auto.
Qed.
Lemma be_octets_Zlen n v : Zlen (be_octets n v) = Z.of_nat n. Proof. unfold Zlen. rewrite be_octets_length. reflexivity. Qed.
Lemma frame_header_length t n : length t = 4%nat -> Zlen (frame_header t n) = frame_header_size n.
Proof.
  intros H. unfold frame_header, frame_header_size. destruct (_ <? _); rewrite !Zlen_app, !be_octets_Zlen; unfold Zlen; rewrite H; reflexivity.
Qed.
Lemma types_ok_eq t b l : types_ok (T t b l) <-> length t = 4%nat /\ Forall types_ok l.
Proof.
  cbn [types_ok]. assert (forall l, (fix all (l : list tree) : Prop := match l with [] => True | k :: l' => types_ok k /\ all l' end) l <-> Forall types_ok l) as E.
  { clear. induction l as [|k l IH]; [split; [constructor|trivial]|]. rewrite IH. split; [intros [A B]; constructor; assumption|intros F; inversion F; auto]. }
  rewrite E. reflexivity.
Qed.
Lemma Zlen_flat_map {A B} (f : A -> list B) l : Zlen (flat_map f l) = sum_by (fun x => Zlen (f x)) l.
Proof. induction l as [|x l IH]; [reflexivity|]. cbn [flat_map sum_by fold_right]. rewrite Zlen_app, IH. reflexivity. Qed.
Lemma nsize_serialize n : all_boxes box_shape (tree_of n) -> types_ok (tree_of n) -> Zlen (serialize_with written (tree_of n)) = nsize n.
Proof.
  induction n as [t h b l IH] using node_ind'. cbn [tree_of]. rewrite all_boxes_eq, types_ok_eq. intros [A B] [C D]. rewrite Forall_map in B, D.
  cbn [serialize_with nsize]. rewrite Zlen_app, frame_header_length by exact C. rewrite Zlen_app, Zlen_flat_map.
  destruct (written_spec b A) as (_ & _ & E). rewrite E.
  assert (F : sum_by (fun x => Zlen (serialize_with written x)) (map tree_of l) = sum_by nsize l).
  { clear -IH B D. induction IH as [|k l Hk Hl IHl]; [reflexivity|]. inversion B; inversion D; subst. unfold sum_by in *. cbn [map fold_right]. rewrite Hk, IHl; auto. }
  rewrite F. lia.
Qed.

(** * Writing *)
Lemma header_octets_frame off d t : 0 <= d ->
  header_octets (mk_header off (d + frame_header_size d) (frame_header_size d) t false) = frame_header t d.
Proof.
  intros H. unfold header_octets, frame_header, frame_header_size, UINT32_MAX, LARGE_HEADER_SIZE. cbn [h_extend_to_eof h_size h_header_size h_type].
  destruct (Z.ltb_spec (d + 8) (2 ^ 32)).
  - replace (d + 8 <=? 2 ^ 32 - 1) with true by lia. cbn [andb negb Z.eqb Pos.eqb]. rewrite uint32_to_be_octets. reflexivity.
  - replace (d + 16 <=? 2 ^ 32 - 1) with false by lia. cbn [andb]. rewrite uint64_to_be_octets. reflexivity.
Qed.
Lemma write_all_eq : forall l o, (fix leafs_write (l : list node) (o : ostream) : outcome (list node * ostream) :=
            match l with
            | [] => Ok ([], o)
            | n :: l' =>
                match BoxInfo_write n o with
                | Ok (n', o') => match leafs_write l' o' with Ok (r, o'') => Ok (n' :: r, o'') | Throw e => Throw e | UB => UB end
                | Throw e => Throw e
                | UB => UB
                end
            end) l o = BoxInfo_write_all l o.
Proof. induction l as [|n l IH]; intros o; [reflexivity|]. cbn [BoxInfo_write_all]. destruct (BoxInfo_write n o) as [[n' o']|e|]; auto; rewrite IH; reflexivity. Qed.
(** Boxes that can be printed. *)
Definition prints (b : box) : Prop := exists s, Box_toStringOnlyData b = Ok s.
Lemma Box_toString_ok h b : prints b -> exists s, Box_toString h b = Ok s.
Proof. intros (s & E). unfold Box_toString. rewrite E. eexists. reflexivity. Qed.
Lemma BoxInfo_write_eq t h b l o : prints b -> BoxInfo_write (Node t h b l) o =
  match h with
  | None => UB
  | Some h =>
      let '(h', o1) := header_write h o in
      match os_writeData b o1 with
      | Ok o2 => match BoxInfo_write_all l o2 with
                 | Ok (leafs', o3) => Ok (Node t (Some h') b leafs', o3)
                 | Throw e => Throw e
                 | UB => UB
                 end
      | Throw e => Throw e
      | UB => UB
      end
  end.
Proof. intros P. cbn [BoxInfo_write]. destruct (Box_toString_ok h b P) as (s & ->). cbn [obind]. destruct h as [h|]; [|reflexivity]. destruct (header_write h o) as [h' o1]. destruct (os_writeData b o1); reflexivity. Qed.
Lemma serialize_nonempty pay t : serialize_with pay t <> [].
Proof. destruct t as [ty b l]. cbn [serialize_with]. unfold frame_header. destruct (_ <? _); rewrite be_octets_S; discriminate. Qed.

Lemma write_place n : forall off o, all_boxes prints (tree_of n) -> all_boxes box_shape (tree_of n) -> types_ok (tree_of n) -> headers_ok n -> 0 <= off -> off + nsize n < 2 ^ 64 ->
  BoxInfo_write (place n off) o =
  Ok (place n off, mkOS (splice (os_data o) off (serialize_with written (tree_of n))) (off + Zlen (serialize_with written (tree_of n)))).
Proof.
  induction n as [t h b l IH] using node_ind'. intros off o P A C H O B. pose proof (shape_sized _ A) as S. pose proof S as S'.
  rewrite sized_eq in S. rewrite headers_ok_eq in H. destruct S as [S1 S2], H as [H1 H2].
  cbn [tree_of] in P, A, C. rewrite all_boxes_eq in P, A. rewrite types_ok_eq in C. rewrite Forall_map in P, A, C. destruct P as [P1 P2], A as [A1 A2], C as [C1 C2].
  pose proof (sum_nsize_nonneg l S2) as S3. rewrite place_eq. cbv zeta. destruct (makeHeader_ok t h H1) as [M1 M2]. rewrite M1, M2.
  destruct (written_spec b A1) as (_ & _ & W).
  set (d := Box_getDataSize b + sum_by nsize l) in *. cbn [nsize] in B. fold d in B. pose proof (frame_hs d) as Fd.
  set (hs := frame_header_size d) in *.
  assert (Lf : Zlen (flat_map (serialize_with written) (map tree_of l)) = sum_by nsize l).
  { rewrite Zlen_flat_map. clear -A2 C2. induction A2 as [|k l Hk Hl IHl]; [reflexivity|]. inversion C2; subst. unfold sum_by in *. cbn [map fold_right].
    rewrite nsize_serialize, IHl; auto. }
  assert (Ser : serialize_with written (tree_of (Node t h b l)) = frame_header t d ++ written b ++ flat_map (serialize_with written) (map tree_of l)).
  { cbn [tree_of serialize_with]. rewrite Zlen_app, W, Lf. reflexivity. }
  pose proof (frame_header_length t d C1) as Lh. fold hs in Lh.
  rewrite BoxInfo_write_eq by exact P1. unfold header_write. cbv zeta. cbn [h_offset h_size h_header_size h_type h_extend_to_eof].
  unfold hs. rewrite header_octets_frame by lia. fold hs. rewrite Lh, Z.sub_diag, Z.add_0_r, (u64_small (d + hs)) by lia.
  rewrite os_writeData_ok by exact A1.
  rewrite (u64_small (off + hs + Box_getDataSize b)) by lia.
  assert (G : forall base acc o', base + acc = os_pos o' -> 0 <= base -> 0 <= acc -> base + acc + sum_by nsize l < 2 ^ 64 ->
     BoxInfo_write_all (place_all place l base acc) o' =
     Ok (place_all place l base acc, os_write (flat_map (serialize_with written) (map tree_of l)) o')).
  { clear -IH S2 H2 A2 C2 P2. induction IH as [|k l Hk Hl IHl]; intros base acc o' Ho Hb Ha B.
    { cbn. unfold os_write. cbn [splice]. rewrite (@Zlen_nil Z), Z.add_0_r. destruct o'; reflexivity. }
    inversion S2 as [|? ? Sk Sl]; inversion H2 as [|? ? Hhk Hhl]; inversion A2 as [|? ? Ak Al]; inversion C2 as [|? ? Ck Cl]; inversion P2 as [|? ? Pk Pl]; subst.
    cbn [place_all sum_by fold_right map flat_map BoxInfo_write_all] in *. fold (sum_by nsize l) in *. pose proof (nsize_pos k Sk). pose proof (sum_nsize_nonneg l Sl).
    rewrite (u64_small (base + acc)), (u64_small (acc + nsize k)) by lia.
    rewrite (Hk (base + acc) o' Pk Ak Ck Hhk) by lia.
    specialize (IHl ltac:(assumption) ltac:(assumption) ltac:(assumption) ltac:(assumption) ltac:(assumption)).
    rewrite (IHl base (acc + nsize k)); cbn [os_pos os_data]; [|rewrite nsize_serialize by assumption; lia|lia|lia|lia].
    f_equal. f_equal. unfold os_write. cbn [os_pos os_data]. rewrite Ho, splice_app by (try apply serialize_nonempty; lia).
    rewrite Zlen_app. f_equal. lia. }
  rewrite G; [| |lia|lia|lia].
  2:{ unfold os_write, os_seekp. cbn [os_pos os_data]. rewrite Lh, W. lia. }
  f_equal. rewrite Ser. f_equal. unfold os_write, os_seekp. cbn [os_pos os_data].
  assert (Hn : frame_header t d <> []) by (intros E; rewrite E in Lh; unfold Zlen in Lh; cbn in Lh; lia).
  rewrite (splice_app (os_data o) off (frame_header t d) (written b) O Hn). rewrite <- Z.add_assoc, <- Zlen_app. rewrite splice_app; [|lia|destruct (frame_header t d); [congruence|discriminate]].
  rewrite !Zlen_app, <- !app_assoc. f_equal. lia.
Qed.
