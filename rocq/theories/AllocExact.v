(** C79: what was asked for when a box was read. *)
From Coq Require Import ZifyBool.
From Verif Require Import Base BitIO BitFacts BitIOProofs Boxes WireFormat BoxTac BoxWrite BoxRead Box BoxSpec BoxSafe BoxTree TreeSpec TreeProofs TreeLayout TreeRead ReaderTotal TreeLemmas WeightSpec Weight Alloc AllocSpec AllocProofs.
From Coq Require Import List.
Import ListNotations.
Open Scope Z_scope.

(** [m] asks for exactly [s a] when it returns [a]. *)
Definition exact {A} (s : A -> Z) (m : L A) : Prop := forall r, rwf r -> match m r with (q, Ok (r', _, a)) => rwf r' /\ total q = s a | _ => True end.
Lemma ex_lift {A} (m : R A) : rsafe m -> exact (fun _ => 0) (lift m).
Proof. intros H r Hr. specialize (H r Hr). unfold lift. destruct (m r) as [[[r' n] a]|e|]; auto. split; [apply H|reflexivity]. Qed.
Lemma ex_none {A} (m : R A) s : (forall r, match m r with Ok _ => False | _ => True end) -> exact s (lift m).
Proof. intros H r Hr. specialize (H r). unfold lift. destruct (m r); [contradiction|auto..]. Qed.
Lemma ex_tick n : exact (fun _ => 0) (lift (rtick n)). Proof. intros r Hr. split; [exact Hr|reflexivity]. Qed.
Lemma ex_ret {A} (a : A) s : s a = 0 -> exact s (lret a).
Proof. intros H r Hr. unfold lret, lift, rret. split; [exact Hr|]. rewrite H. reflexivity. Qed.
Lemma ex_bind {A B} (m : L A) (f : A -> L B) s h : exact s m -> (forall a, exact (fun b => h b - s a) (f a)) -> exact h (lbind m f).
Proof.
  intros Hm Hf r Hr. specialize (Hm r Hr). unfold lbind. destruct (m r) as [q [[[r1 n1] a]|e|]]; auto. destruct Hm as [W T]. specialize (Hf a r1 W).
  destruct (f a r1) as [q2 [[[r2 n2] b]|e|]]; auto. destruct Hf as [W2 T2]. split; [exact W2|]. rewrite tot_app. lia.
Qed.
Lemma ex_bind_post {A B} (m : R A) P (f : A -> L B) h : rsafe m -> rpost m P -> (forall a, P a -> exact h (f a)) -> exact h (lbind (lift m) f).
Proof.
  intros Hm Hp Hf r Hr. specialize (Hm r Hr). specialize (Hp r Hr). unfold lbind, lift. destruct (m r) as [[[r1 n1] a]|e|]; auto. destruct Hm as [W _]. specialize (Hf a Hp r1 W).
  destruct (f a r1) as [q2 [[[r2 n2] b]|e|]]; exact Hf.
Qed.
Lemma ex_weaken {A} s t (m : L A) : exact s m -> (forall a, s a = t a) -> exact t m.
Proof. intros H E r Hr. specialize (H r Hr). destruct (m r) as [q [[[r1 n1] a]|e|]]; auto. rewrite <- E. exact H. Qed.
Lemma ex_entries {A} n (m : R A) : rsafe m -> 0 <= n -> exact (fun l => Zlen l) (entries_l n m).
Proof.
  intros Hm Hn r Hr. pose proof (rsafe_repeat (Z.to_nat n) m Hm r Hr) as S. pose proof (rrepeat_length (Z.to_nat n) m r) as Le. unfold entries_l, lbind, resize, lift. change ([n] ++ []) with [n].
  destruct (rrepeat (Z.to_nat n) m r) as [[[r' k] l]|e|]; auto. split; [apply S|]. rewrite tot_one. symmetry. apply len_of; [exact Hn|exact (Le _ _ _ eq_refl)].
Qed.
Lemma ex_vector w n : 0 < w -> 0 <= n -> exact (fun l => Zlen l) (vector_l w n).
Proof. intros Hw Hn. apply (ex_entries n (read_uint w w)); [safe|exact Hn]. Qed.
Lemma ex_off {B} (f : Z -> L B) h : (forall n, 0 <= n -> exact h (f n)) -> exact h (lbind (lift offset_to_end) f).
Proof. intros H. eapply ex_bind_post; [apply rsafe_offset_to_end|apply offset_post|exact H]. Qed.
Lemma ex_rest : exact (fun l => Zlen l) rest_l.
Proof. apply ex_off. intros n Hn. apply ex_vector; [lia|exact Hn]. Qed.
Lemma lrepeat_length {A} n (m : L A) : forall r, match lrepeat n m r with (_, Ok (_, _, l)) => length l = n | _ => True end.
Proof.
  induction n as [|n IH]; intros r; cbn [lrepeat]; [reflexivity|]. unfold lbind at 1. destruct (m r) as [q [[[r1 n1] a]|e|]]; auto. specialize (IH r1). unfold lbind at 1.
  destruct (lrepeat n m r1) as [q2 [[[r2 n2] l]|e|]]; auto. unfold lret, lift, rret. cbn [length]. f_equal. exact IH.
Qed.
Lemma ex_repeat {A} n (m : L A) s : exact s m -> exact (sumZ s) (lrepeat n m).
Proof.
  intros H. induction n as [|n IH]; cbn [lrepeat]; [apply ex_ret; reflexivity|]. eapply ex_bind; [exact H|intros a]. eapply ex_bind; [exact IH|intros l]. apply ex_ret.
  cbn [sumZ fold_right]. change (fold_right _ 0 l) with (sumZ s l). lia.
Qed.
Lemma ex_nested {A} n (m : L A) s : exact s m -> 0 <= n -> exact (fun l => Zlen l + sumZ s l) (lbind (resize n) (fun _ => lrepeat (Z.to_nat n) m)).
Proof.
  intros H Hn r Hr. pose proof (ex_repeat (Z.to_nat n) m s H r Hr) as E. pose proof (lrepeat_length (Z.to_nat n) m r) as Le. unfold lbind, resize.
  destruct (lrepeat (Z.to_nat n) m r) as [q [[[r1 k] l]|e|]]; auto. destruct E as [W E]. split; [exact W|]. change ([n] ++ q) with (n :: q). change (total (n :: q)) with (n + total q). apply len_of in Le; lia.
Qed.
Ltac exfin := cbv beta; cbn [vectors co64_chunk_offsets colr_profile colr_unknown ctts_entries dopst_channel_mapping dops_table_ data_data elst_entries
  emsg_message_data ftyp_compatible_brands pssh_kids pssh_data sbgp_entries sdtp_samples sidx_references stco_chunk_offsets stsc_entries
  stss_sample_numbers stsz_entry_sizes stts_entries tfra_entries vpcc_codec_initialization_data av1c_config_OBUs ase_quick_time_data descriptor_vectors es_url_string
  sgpd_roll_distances sgpd_alternative_startup_entries sgpd_visual_random_access_entries sgpd_temporal_level_entries]; unfold count; repeat change (Zlen []) with 0; lia.
Ltac exstep :=
  match goal with
  | |- exact _ (lret _) => apply ex_ret; exfin
  | |- exact _ (lift (rthrow _)) => apply ex_none; intros ?; exact I
  | |- exact _ (lbind (lift (read_uint ?w _)) _) => eapply ex_bind_post; [solve [safe]|apply (uint_post w); lia|intros ? ?; cbv beta in *]
  | |- exact _ (lbind (lift (read_uvarint 32)) _) => eapply ex_bind_post; [solve [safe]|apply uvarint_post|intros ? ?; cbv beta in *]
  | |- exact _ (lbind (lift offset_to_end) _) => apply ex_off; intros ? ?
  | |- exact _ (lbind rest_l _) => eapply ex_bind; [apply ex_rest|intros ?]
  | |- exact _ (lbind (vector_l _ _) _) => eapply ex_bind; [apply ex_vector; [lia|first [lia|repeat match goal with |- context[if ?c then _ else _] => destruct c end; lia]]|intros ?]
  | |- exact _ (lbind (lift (rtick _)) _) => eapply ex_bind; [apply ex_tick|intros ?]
  | |- exact _ (lbind (lift ?m) _) => eapply ex_bind_post; [solve [safe]|apply rpost_any|intros ? _]
  | |- exact _ (if ?c then _ else _) => destruct c eqn:?
  | |- exact _ (let (_, _) := ?x in _) => destruct x
  end.
Ltac ex := repeat exstep.
Ltac exents := eapply ex_bind; [apply ex_entries; [solve [entsafe]|lia]|intros ?].
Lemma x_co64 : exact (fun x => vectors (B_co64 x)) Co64_l. Proof. unfold Co64_l. ex. Qed.
Lemma x_colr : exact (fun x => vectors (B_colr x)) Colr_l. Proof. unfold Colr_l. cbv zeta. ex. Qed.
Lemma x_ctts : exact (fun x => vectors (B_ctts x)) Ctts_l. Proof. unfold Ctts_l. ex. exents. ex. Qed.
Lemma x_dops : exact (fun x => vectors (B_dOps x)) DOps_l.
Proof. unfold DOps_l. ex. eapply (ex_bind _ _ (fun t => Zlen (dopst_channel_mapping t))); [ex|intros; ex]. Qed.
Lemma x_data : exact (fun x => vectors (B_data x)) Data_l. Proof. unfold Data_l. ex. Qed.
Lemma x_elst : exact (fun x => vectors (B_elst x)) Elst_l.
Proof. unfold Elst_l. ex. match goal with |- context[ElstEntry_readData ?fb] => pose proof (tsize_pos fb) end. exents. ex. Qed.
Lemma x_emsg : exact (fun x => vectors (B_emsg x)) Emsg_l. Proof. unfold Emsg_l. ex. Qed.
Lemma x_ftyp : exact (fun x => vectors (B_ftyp x)) Ftyp_l.
Proof. unfold Ftyp_l. ex. eapply ex_bind; [apply ex_entries; [apply rsafe_array4|apply Z.div_pos; lia]|intros]. ex. Qed.
Lemma x_pssh : exact (fun x => vectors (B_pssh x)) Pssh_l.
Proof. unfold Pssh_l. ex. eapply (ex_bind _ _ (fun k => Zlen k)); [|intros; ex]. ex. apply ex_entries; [entsafe|lia]. Qed.
Lemma x_sbgp : exact (fun x => vectors (B_sbgp x)) Sbgp_l. Proof. unfold Sbgp_l. ex. exents. ex. Qed.
Lemma x_sdtp : exact (fun x => vectors (B_sdtp x)) Sdtp_l. Proof. unfold Sdtp_l. ex. exents. ex. Qed.
Lemma x_sidx : exact (fun x => vectors (B_sidx x)) Sidx_l. Proof. unfold Sidx_l. ex. exents. ex. Qed.
Lemma x_stco : exact (fun x => vectors (B_stco x)) Stco_l. Proof. unfold Stco_l. ex. Qed.
Lemma x_stsc : exact (fun x => vectors (B_stsc x)) Stsc_l. Proof. unfold Stsc_l. ex. exents. ex. Qed.
Lemma x_stss : exact (fun x => vectors (B_stss x)) Stss_l. Proof. unfold Stss_l. ex. Qed.
Lemma x_stsz : exact (fun x => vectors (B_stsz x)) Stsz_l.
Proof. unfold Stsz_l. ex. eapply (ex_bind _ _ (fun k => Zlen k)); [|intros; ex]. ex. apply ex_vector; lia. Qed.
Lemma x_stts : exact (fun x => vectors (B_stts x)) Stts_l. Proof. unfold Stts_l. ex. exents. ex. Qed.
Lemma x_tfra : exact (fun x => vectors (B_tfra x)) Tfra_l.
Proof.
  unfold Tfra_l. ex. match goal with |- context[TfraEntry_readData ?fb ?a ?b ?c] => pose proof (tsize_pos fb); assert (rsafe (TfraEntry_readData fb a b c)) by entsafe end.
  eapply ex_bind; [apply ex_entries; [eassumption|lia]|intros]. ex.
Qed.
Lemma x_vpcc : exact (fun x => vectors (B_vpcC x)) Vpcc_l. Proof. unfold Vpcc_l. ex. Qed.
Lemma x_av1c : exact (fun x => vectors (B_av1C x)) Av1c_l. Proof. unfold Av1c_l. ex. Qed.
Lemma x_sets n : 0 <= n -> exact count2 (sets_l n).
Proof.
  intros Hn. unfold sets_l. eapply ex_weaken; [apply (ex_nested n _ (fun l => Zlen l)); [|exact Hn]|intros l; reflexivity]. unfold ParameterSet_l. exstep. apply ex_vector; lia.
Qed.
Lemma x_avcc : exact (fun x => vectors (B_avcC x)) Avcc_l.
Proof.
  unfold Avcc_l. ex. eapply ex_bind; [apply x_sets; lia|intros]. ex. eapply ex_bind; [apply x_sets; lia|intros]. ex; try (eapply ex_bind; [apply x_sets; lia|intros]; ex);
  apply ex_ret; cbn [vectors avcc_sps avcc_pps avcc_sps_ext]; change (count2 (@nil (list Z))) with 0; lia.
Qed.
Lemma x_audio t uw : exact (fun x => vectors (B_audio x)) (Audio_l t uw). Proof. unfold Audio_l. ex. Qed.
Lemma x_esd : exact descriptor_vectors ESDescriptor_l.
Proof. unfold ESDescriptor_l. cbv zeta. ex. eapply (ex_bind _ _ (fun u => Zlen u)); [|intros; ex]. ex. apply ex_vector; lia. Qed.
Lemma x_dsi : exact descriptor_vectors DecSpecificInfo_l. Proof. unfold DecSpecificInfo_l. ex. Qed.
Lemma x_dsl : exact descriptor_vectors SLConfigDescr_l. Proof. unfold SLConfigDescr_l. ex. Qed.
Lemma x_dcd : exact descriptor_vectors (lift DecoderConfigDescriptor_readData).
Proof.
  intros r Hr. unfold lift. pose proof (ltac:(unfold DecoderConfigDescriptor_readData; safe) : rsafe DecoderConfigDescriptor_readData) as S. specialize (S r Hr).
  assert (P : rpost DecoderConfigDescriptor_readData (fun d => descriptor_vectors d = 0)).
  { unfold DecoderConfigDescriptor_readData. repeat (eapply rpost_bind; [safe|apply rpost_any|intros ? _]). intros r' _. reflexivity. }
  specialize (P r Hr). destruct (DecoderConfigDescriptor_readData r) as [[[r' n] d]|e|]; auto. split; [apply S|]. rewrite P. reflexivity.
Qed.
Lemma x_esds_loop fuel : forall acc, exact (fun l => sumZ descriptor_vectors l - sumZ descriptor_vectors acc) (Esds_loop_l fuel acc).
Proof.
  induction fuel as [|f IH]; intros acc; cbn [Esds_loop_l]; [apply ex_none; intros r; exact I|]. apply ex_off. intros n Hn. destruct (n =? 0); [apply ex_ret; lia|].
  eapply ex_bind_post; [safe|apply rpost_any|intros t _].
  assert (G : forall m, exact descriptor_vectors m -> exact (fun l => sumZ descriptor_vectors l - sumZ descriptor_vectors acc) (lbind m (fun d => Esds_loop_l f (acc ++ [d])))).
  { intros m Hm. eapply ex_bind; [exact Hm|intros d]. eapply ex_weaken; [apply IH|]. intros l. cbv beta. rewrite sumZ_snoc. lia. }
  destruct (t =? ESDescrTag); [apply G, x_esd|]. destruct (t =? DecoderConfigDescrTag); [apply G, x_dcd|].
  destruct (t =? DecSpecificInfoTag); [apply G, x_dsi|]. destruct (t =? SLConfigDescrTag); [apply G, x_dsl|].
  eapply ex_bind; [apply ex_tick|intros]. apply ex_ret. lia.
Qed.
Lemma x_esds : exact (fun x => vectors (B_esds x)) Esds_l.
Proof.
  intros r Hr. unfold Esds_l.
  assert (G : exact (fun x => vectors (B_esds x)) (lbind (lift readVersionAndFlag) (fun fb => lbind (Esds_loop_l (S (length (r_data r))) []) (fun l => lret (mk_esds fb l))))); [|exact (G r Hr)].
  exstep. eapply ex_bind; [apply x_esds_loop|intros l]. apply ex_ret. cbn [vectors esds_descriptors]. change (sumZ descriptor_vectors []) with 0. lia.
Qed.
Lemma x_count {A B} (m : L A) (f : Z * A -> L B) s h : exact s m -> (forall n a, exact (fun b => h b - s a) (f (n, a))) -> exact h (lbind (lcount m) f).
Proof.
  intros Hm Hf. apply (ex_bind _ _ (fun p => s (snd p))); [|intros [n a]; apply Hf].
  intros r Hr. specialize (Hm r Hr). unfold lcount. destruct (m r) as [q [[[r1 n1] a]|e|]]; auto.
Qed.
Lemma x_alst len wl : exact (fun e => alst_holds e - 1) (AlstEntry_l len wl).
Proof.
  unfold AlstEntry_l. destruct len as [len|]; [|intros r Hr; exact I]. apply (x_count _ _ (fun p => Zlen (snd p))).
  - eapply ex_bind_post; [unfold rwhen; destruct wl; safe|apply rpost_any|intros n _]. ex. apply ex_ret. cbn [snd]. lia.
  - intros bits [[[n c] f] offs]. cbv beta iota zeta. match goal with |- exact _ (if ?c then _ else _) => destruct c eqn:C end; [apply ex_none; intros r; exact I|].
    eapply ex_bind; [apply ex_entries; [entsafe|apply Z.div_pos; lia]|intros opts]. apply ex_ret. unfold alst_holds, count. cbn [alste_sample_offsets alste_opts snd]. lia.
Qed.
Lemma sumZ_less {A} (f : A -> Z) l : Zlen l + sumZ (fun a => f a - 1) l = sumZ f l.
Proof. induction l as [|x l IH]; [reflexivity|]. rewrite Zlen_cons. unfold sumZ in *. cbn [fold_right]. lia. Qed.
Lemma x_sgpd : exact (fun x => vectors (B_sgpd x)) Sgpd_l.
Proof.
  unfold Sgpd_l. do 3 (eapply ex_bind_post; [solve [safe]|apply rpost_any|intros ? _]). cbv zeta.
  assert (R1 : forall wl, rsafe (RollDistance_readData wl)) by (intros; entsafe). assert (R2 : forall wl, rsafe (VraEntry_readData wl)) by (intros; entsafe). assert (R3 : forall wl, rsafe (TeleEntry_readData wl)) by (intros; entsafe).
  assert (S0 : sumZ alst_holds [] = 0) by reflexivity.
  destruct (gt_is_roll _). { exstep. eapply ex_bind; [apply ex_entries; [apply R1|lia]|intros]. apply ex_ret. exfin. }
  destruct (list_eqb _ gt_alst).
  { exstep. eapply ex_bind; [apply (ex_nested _ _ (fun e => alst_holds e - 1)); [apply x_alst|lia]|intros l]. apply ex_ret. cbv beta. rewrite sumZ_less. exfin. }
  destruct (list_eqb _ gt_rap). { exstep. eapply ex_bind; [apply ex_entries; [apply R2|lia]|intros]. apply ex_ret. exfin. }
  destruct (list_eqb _ gt_tele). { exstep. eapply ex_bind; [apply ex_entries; [apply R3|lia]|intros]. apply ex_ret. exfin. }
  apply ex_ret. exfin.
Qed.

(** Every class. *)
Lemma ex_map {A} (f : A -> box) (m : L A) data : bytes data -> exact (fun a => vectors (f a)) m ->
  match lmap f m (reader_init data) with (q, Ok (_, _, b)) => total q = vectors b | _ => True end.
Proof.
  intros Hb H. specialize (H _ (rwf_init data Hb)). unfold lmap, lbind, lret, lift, rret. destruct (m (reader_init data)) as [q [[[r n] a]|e|]]; auto. rewrite app_nil_r. apply H.
Qed.
Lemma box_exact k type uw data q r n b : bytes data -> Box_readData_l k type uw (reader_init data) = (q, Ok (r, n, b)) -> total q = vectors b.
Proof.
  intros Hb E.
  assert (Er : Box_readData k type uw (reader_init data) = Ok (r, n, b)) by (rewrite <- (er_box k type uw (reader_init data)), E; reflexivity).
  assert (Lf : lift (Box_readData k type uw) (reader_init data) = (q, Ok (r, n, b)) -> q = []) by (unfold lift; congruence).
  destruct k;
  match type of E with ?rd _ = _ => let t := eval cbn [Box_readData_l] in rd in assert (Eq : rd = t) by (unfold Box_readData_l; reflexivity);
  lazymatch t with
  | lift _ =>
    rewrite Eq in E; rewrite (Lf E);
    match type of Er with ?rd2 _ = _ => let t2 := eval cbn [Box_readData] in rd2 in assert (Eq2 : rd2 = t2) by (unfold Box_readData; reflexivity);
      destruct (rmap_box _ _ rd2 _ _ _ _ Eq2 Er) as (? & ? & -> & ?); reflexivity end
  | lmap B_trun _ => rewrite Eq in E
  | lmap B_hdlr _ => rewrite Eq in E
  | lmap ?f ?m =>
    rewrite Eq in E;
    let La := lazymatch m with
      | Co64_l => x_co64 | Colr_l => x_colr | Ctts_l => x_ctts | DOps_l => x_dops | Data_l => x_data | Elst_l => x_elst | Emsg_l => x_emsg | Esds_l => x_esds
      | rest_l => ex_rest | Ftyp_l => x_ftyp | Pssh_l => x_pssh | Sbgp_l => x_sbgp | Sdtp_l => x_sdtp | Sgpd_l => x_sgpd | Sidx_l => x_sidx
      | Stco_l => x_stco | Stsc_l => x_stsc | Stss_l => x_stss | Stsz_l => x_stsz | Stts_l => x_stts | Tfra_l => x_tfra | Vpcc_l => x_vpcc | Av1c_l => x_av1c
      | Avcc_l => x_avcc | Audio_l ?t ?u => constr:(x_audio t u)
      end in
    let H := fresh in assert (H := ex_map f m data Hb La); rewrite E in H; exact H
  end end; clear Lf.
  - pose proof (aft_hdlr data _ (rwf_init data Hb) eq_refl eq_refl) as H. unfold lmap, lbind, lret, lift, rret in E. destruct (Hdlr_l (reader_init data)) as [q0 [[[r0 n0] x]|e|]]; [|discriminate..].
    rewrite app_nil_r in E. assert (q = q0 /\ b = B_hdlr x) as [-> ->] by (split; congruence). rewrite H, tot_one. reflexivity.
  - pose proof (aft_trun data _ (rwf_init data Hb) eq_refl eq_refl) as H. unfold lmap, lbind, lret, lift, rret in E. destruct (Trun_l (reader_init data)) as [q0 [[[r0 n0] x]|e|]]; [|discriminate..].
    rewrite app_nil_r in E. assert (q = q0 /\ b = B_trun x) as [-> ->] by (split; congruence). destruct H as [_ H]. rewrite H, tot_one. reflexivity.
Qed.

(** Files. *)
Definition precise (x : reading) : Prop := forall b, got x = Some b -> total (asked x) = vectors b.
Lemma reader_exact file data : bytes data -> forall fuel,
  (forall uw pos l o, readBox_l fuel file data uw pos = Some (l, o) -> Forall precise l /\ match o with Ok (n, _, _) => map got l = map Some (boxes_in n) | _ => True end) /\
  (forall uw bound rb pos l o, readLeafs_l fuel file data uw bound rb pos = Some (l, o) -> Forall precise l /\ match o with Ok (ns, _) => map got l = map Some (flat_map boxes_in ns) | _ => True end).
Proof.
  intros Hb. induction fuel as [|f [IHb IHl]]; [split; intros; discriminate|]. split.
  - intros uw pos l o. cbn [readBox_l].
    assert (Em : forall e, Some (@nil reading, Throw e) = Some (l, o) -> Forall precise l /\ match o with Ok (n, _, _) => map got l = map Some (boxes_in n) | _ => True end).
    { intros e Q. assert (l = [] /\ o = Throw e) as [-> ->] by (split; congruence). split; [constructor|exact I]. }
    assert (Eu : Some (@nil reading, UB) = Some (l, o) -> Forall precise l /\ match o with Ok (n, _, _) => map got l = map Some (boxes_in n) | _ => True end).
    { intros Q. assert (l = [] /\ o = UB) as [-> ->] by (split; congruence). split; [constructor|exact I]. }
    destruct (read_box_header data pos) as [h|e|]; [|apply Em|apply Eu]. cbv zeta. destruct (negb file && _); [apply Em|]. destruct (_ >? _); [apply Em|]. destruct (_ >? _); [apply Eu|].
    set (payload := firstn (Z.to_nat (header_getDataSize h)) (skipn (Z.to_nat (h_offset h + h_header_size h)) data)).
    assert (Bp : bytes payload).
    { unfold payload, bytes in *. rewrite Forall_forall in Hb |- *. intros x Hx. apply Hb. eapply In_firstn_aux; exact Hx. }
    pose proof (fun q r n b => box_exact (BoxMap_getBoxInstance BoxMap_registered (h_type h)) (h_type h) uw payload q r n b Bp) as X.
    destruct (Box_readData_l _ _ _ _) as [q [[[r nb] b]|e|]].
    2:{ intros Q. assert (l = [mk_reading q None] /\ o = Throw e) as [-> ->] by (split; congruence). split; [constructor; [intros b Q2; discriminate Q2|constructor]|exact I]. }
    2:{ intros Q. assert (l = [mk_reading q None] /\ o = UB) as [-> ->] by (split; congruence). split; [constructor; [intros b Q2; discriminate Q2|constructor]|exact I]. }
    specialize (X q r nb b eq_refl). assert (P1 : precise (mk_reading q (Some b))) by (intros b' Q; injection Q as <-; exact X).
    destruct (negb file && _).
    { intros Q. assert (l = [mk_reading q (Some b)] /\ o = Throw RuntimeError) as [-> ->] by (split; congruence). split; [constructor; [exact P1|constructor]|exact I]. }
    destruct (readLeafs_l f file data _ _ _ _) as [[ll ol]|] eqn:El; [|discriminate]. apply IHl in El. destruct El as [L1 L2].
    intros Q. destruct ol as [[leafs pos2]|e|].
    + assert (l = mk_reading q (Some b) :: ll /\ o = Ok (Node (h_type h) (Some h) b leafs, pos2, h_size h)) as [-> ->] by (split; congruence).
      split; [constructor; assumption|]. cbn [map boxes_in got]. f_equal. exact L2.
    + assert (l = mk_reading q (Some b) :: ll /\ o = Throw e) as [-> ->] by (split; congruence). split; [constructor; assumption|exact I].
    + assert (l = mk_reading q (Some b) :: ll /\ o = UB) as [-> ->] by (split; congruence). split; [constructor; assumption|exact I].
  - intros uw bound rb pos l o. cbn [readLeafs_l]. destruct (bound >? rb).
    2:{ intros Q. assert (l = [] /\ o = Ok ([], pos)) as [-> ->] by (split; congruence). split; [constructor|reflexivity]. }
    destruct (readBox_l f file data uw pos) as [[lb ob]|] eqn:Eb; [|discriminate]. apply IHb in Eb. destruct Eb as [B1 B2].
    destruct ob as [[[n pos1] size]|e|].
    2:{ intros Q. assert (l = lb /\ o = Throw e) as [-> ->] by (split; congruence). split; [exact B1|exact I]. }
    2:{ intros Q. assert (l = lb /\ o = UB) as [-> ->] by (split; congruence). split; [exact B1|exact I]. }
    destruct (readLeafs_l f file data uw bound _ pos1) as [[ll ol]|] eqn:El; [|discriminate]. apply IHl in El. destruct El as [L1 L2].
    intros Q. destruct ol as [[ns pos2]|e|].
    + assert (l = lb ++ ll /\ o = Ok (n :: ns, pos2)) as [-> ->] by (split; congruence). split; [apply Forall_app; split; assumption|]. cbn [flat_map]. rewrite !map_app. f_equal; assumption.
    + assert (l = lb ++ ll /\ o = Throw e) as [-> ->] by (split; congruence). split; [apply Forall_app; split; assumption|exact I].
    + assert (l = lb ++ ll /\ o = UB) as [-> ->] by (split; congruence). split; [apply Forall_app; split; assumption|exact I].
Qed.
