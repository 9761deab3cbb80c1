(** A file that is read successfully is tiled exactly by the boxes found (C48). *)
From Verif Require Import Base BitIO BitFacts BitIOProofs Boxes WireFormat Box BoxSpec BoxTree TreeSpec TreeProofs TreeLayout TreeRead ReaderTotal.

Section Tiling.
  Variables (file : bool) (data : list Z).
  Hypothesis Hb : bytes data.
  Hypothesis Hl : Zlen data < 2 ^ 63.
  Hypothesis Hf : file = true -> ~ has_overreporting data /\ ~ has_unversioned_alst data.

  Lemma tiled_eq uw t h b l off : tiled data uw (Node t (Some h) b l) off <->
    (read_box_header data off = Ok h /\ h_type h = t /\ h_offset h = off) /\
    exists r bits, Box_readData (BoxMap_getBoxInstance BoxMap_registered t) t uw (reader_init (payload_at data h)) = Ok (r, bits, b) /\
      h_size h = h_header_size h + bits / 8 + total_announced l /\
      tiled_all data (list_eqb t [119; 97; 118; 101]) l (off + h_header_size h + bits / 8).
  Proof.
    cbn [tiled]. assert (forall u l p, (fix go (l : list node) (p : Z) : Prop :=
      match l with [] => True | k :: l' => tiled data u k p /\ go l' (p + announced_size k) end) l p <-> tiled_all data u l p) as E.
    { clear. intros u. induction l as [|k l IH]; intros p; [reflexivity|]. cbn [tiled_all]. rewrite IH. reflexivity. }
    split; intros (A & r & bits & B & C & D); (split; [exact A|]); exists r, bits; (split; [exact B|]); (split; [exact C|]); apply E; exact D.
  Qed.

  Definition box_t (uw : bool) (pos : Z) (res : option (outcome (node * Z * Z))) : Prop :=
    match res with
    | Some (Ok (n, pos1, size)) =>
        pos1 <= Zlen data /\ size = announced_size n /\ 8 <= size <= Zlen data /\ pos + size <= pos1 /\ (pos1 = pos + size -> tiled data uw n pos)
    | _ => True
    end.
  Definition leafs_t (uw : bool) (bound rbytes pos : Z) (res : option (outcome (list node * Z))) : Prop :=
    match res with
    | Some (Ok (ns, pos1)) =>
        pos1 <= Zlen data /\ bound <= rbytes + total_announced ns /\ pos + total_announced ns <= pos1 /\
        (pos1 = pos + total_announced ns -> tiled_all data uw ns pos)
    | _ => True
    end.
  Lemma reader_tiles : forall fuel,
    (forall uw pos, 0 <= pos <= Zlen data -> box_t uw pos (readBox fuel file data uw pos)) /\
    (forall uw bound rbytes pos, 0 <= pos <= Zlen data -> 0 <= rbytes -> bound <= Zlen data ->
       leafs_t uw bound rbytes pos (readLeafs fuel file data uw bound rbytes pos)).
  Proof.
    induction fuel as [|f [IHb IHl]]; split; try (intros; exact I).
    - intros uw pos P. cbn [readBox].
      pose proof (read_header_cases data pos ltac:(lia) ltac:(lia) Hb) as R.
      destruct (read_box_header data pos) as [h|e|] eqn:Eh; [|exact I|contradiction].
      destruct R as (R1 & R2 & R3 & R4 & R5). cbv zeta. rewrite R1.
      destruct (negb file && _); [exact I|].
      rewrite (u64_small (Zlen data - pos)) by lia. rewrite (u64_small (Zlen data - pos - h_header_size h)) by lia.
      destruct (Z.gtb_spec (header_getDataSize h) (Zlen data - pos - h_header_size h)) as [C|C]; [exact I|].
      assert (Ds : h_size h = header_getDataSize h + h_header_size h /\ 0 <= header_getDataSize h).
      { unfold header_getDataSize, u64 in *. destruct (Z_lt_ge_dec (h_size h) (h_header_size h)) as [Q|Q].
        - exfalso. assert (E : (h_size h - h_header_size h) mod 2 ^ 64 = h_size h - h_header_size h + 2 ^ 64).
          { rewrite <- (Z.mod_add _ 1) by lia. rewrite Z.mul_1_l. apply Z.mod_small. lia. }
          rewrite E in C. lia.
        - rewrite Z.mod_small by lia. lia. }
      destruct Ds as [Ds Dn].
      destruct (Z.gtb_spec (pos + h_header_size h + header_getDataSize h) (Zlen data)) as [C2|C2]; [exfalso; lia|].
      assert (Epl : firstn (Z.to_nat (header_getDataSize h)) (skipn (Z.to_nat (pos + h_header_size h)) data) = payload_at data h) by (unfold payload_at; rewrite R1; reflexivity).
      rewrite Epl.
      assert (Bp : bytes (payload_at data h)).
      { unfold payload_at, bytes in *. rewrite Forall_forall in Hb |- *. intros x Hx. apply Hb. eapply In_firstn_aux; exact Hx. }
      assert (Lp : Zlen (payload_at data h) = header_getDataSize h).
      { unfold payload_at, Zlen in *. rewrite R1, firstn_length, skipn_length. lia. }
      pose proof (readData_facts (BoxMap_getBoxInstance BoxMap_registered (h_type h)) (h_type h) uw (payload_at data h) Bp) as Rd.
      destruct (Box_readData _ _ _ _) as [[[r n] b]|e|] eqn:Ed; [|exact I|exact I].
      destruct Rd as [Rn Rd].
      destruct (negb file && (pos + h_header_size h + n / 8 >? Zlen data)) eqn:Es; [exact I|].
      assert (P1 : pos + h_header_size h + n / 8 <= Zlen data).
      { destruct file eqn:Ef; cbn [negb andb] in Es.
        - destruct (Hf eq_refl) as [Hov Hal]. destruct Rd as [Rd|[Rd|[Ks U]]]; [lia| |].
          + exfalso. apply Hov. exists pos, h. apply kind_overreports in Rd. repeat split; auto; lia.
          + exfalso. apply Hal. exists pos, h. apply kind_sgpd in Ks. repeat split; auto; try lia; apply U.
        - destruct (Z.gtb_spec (pos + h_header_size h + n / 8) (Zlen data)); [discriminate|lia]. }
      specialize (IHl (list_eqb (h_type h) type_wave) (header_getDataSize h) (n / 8) (pos + h_header_size h + n / 8) ltac:(lia) ltac:(lia) ltac:(lia)).
      destruct (readLeafs _ _ _ _ _ _ _) as [[[ns pos2]|e|]|]; try exact I. cbn [leafs_t box_t] in *.
      destruct IHl as (L1 & L2 & L3 & L4). unfold announced_size at 1. cbn [n_header].
      split; [exact L1|]. split; [reflexivity|]. split; [lia|]. split; [lia|]. intros E. apply tiled_eq. split; [split; [exact Eh|split; [reflexivity|exact R1]]|].
      exists r, n. split; [exact Ed|]. split; [lia|]. apply L4. lia.
    - intros uw bound rbytes pos P Pr Pb. cbn [readLeafs]. destruct (Z.gtb_spec bound rbytes) as [C|C].
      2:{ cbn. lia. }
      specialize (IHb uw pos P). destruct (readBox f file data uw pos) as [[[[n pos1] size]|e|]|]; try exact I. cbn [box_t leafs_t] in *.
      destruct IHb as (B1 & B2 & B3 & B4 & B5).
      rewrite (u64_small (rbytes + size)) by lia. specialize (IHl uw bound (rbytes + size) pos1 ltac:(lia) ltac:(lia) Pb).
      destruct (readLeafs f file data uw bound _ pos1) as [[[ns pos2]|e|]|]; try exact I. cbn [leafs_t] in *.
      destruct IHl as (L1 & L2 & L3 & L4). cbn [total_announced fold_right]. fold (total_announced ns). rewrite <- B2.
      split; [exact L1|]. split; [lia|]. split; [lia|]. intros E. cbn [tiled_all]. rewrite <- B2. split; [apply B5; lia|].
      replace (pos + size) with pos1 by lia. apply L4. lia.
  Qed.
End Tiling.

Lemma SimpleReader_tiles file data ns : bytes data -> Zlen data < 2 ^ 63 -> (file = true -> ~ has_overreporting data /\ ~ has_unversioned_alst data) ->
  SimpleReader_parse file data = Some (Ok ns) -> tiled_all data false ns 0 /\ total_announced ns = Zlen data.
Proof.
  intros Hb Hl Hf. unfold SimpleReader_parse.
  destruct (reader_tiles file data Hb Hl Hf (length data + 2)) as [_ R]. pose proof (Zlen_nonneg data) as N.
  specialize (R false (Zlen data) 0 0 ltac:(lia) ltac:(lia) ltac:(lia)).
  destruct (readLeafs _ _ _ _ _ _ _) as [[[ns' pos]|e|]|]; cbn [leafs_t] in R; try discriminate. intros E. injection E as <-.
  destruct R as (L1 & L2 & L3 & L4). assert (T : total_announced ns' = Zlen data) by lia. split; [apply L4; lia|exact T].
Qed.
