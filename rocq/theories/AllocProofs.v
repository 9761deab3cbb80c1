(** Proofs about the storage readers ask for (C79). *)
From Coq Require Import ZifyBool.
From Verif Require Import Base BitIO BitFacts BitIOProofs Boxes WireFormat BoxTac BoxWrite BoxRead Box BoxSpec BoxSafe BoxTree TreeSpec TreeProofs TreeLayout TreeRead ReaderTotal TreeLemmas WeightSpec Weight Alloc AllocSpec.
From Coq Require Import List.
Import ListNotations.
Open Scope Z_scope.

(** * Without the calls of resize it is the reader *)
Definition erases {A} (l : L A) (m : R A) : Prop := forall r, snd (l r) = m r.
Lemma er_lift {A} (m : R A) : erases (lift m) m. Proof. intros r. reflexivity. Qed.
Lemma er_ret {A} (a : A) : erases (lret a) (rret a). Proof. intros r. reflexivity. Qed.
Lemma er_bind {A B} (l : L A) m (f : A -> L B) g : erases l m -> (forall a, erases (f a) (g a)) -> erases (lbind l f) (rbind m g).
Proof.
  intros H G r. specialize (H r). unfold lbind, rbind. destruct (l r) as [q o]. cbn [snd] in H. subst o. destruct (m r) as [[[r1 n1] a]|e|]; [|reflexivity..].
  specialize (G a r1). destruct (f a r1) as [q2 o2]. cbn [snd] in *. subst o2. reflexivity.
Qed.
Lemma er_resize {A} n (m : R A) : erases (lbind (resize n) (fun _ => lift m)) m.
Proof. intros r. unfold lbind, resize, lift. cbn [snd]. destruct (m r) as [[[r2 n2] b]|e|]; reflexivity. Qed.
Lemma er_resize' {A} n (l : L A) (m : R A) : erases l m -> erases (lbind (resize n) (fun _ => l)) m.
Proof. intros H r. specialize (H r). unfold lbind, resize. destruct (l r) as [q o]. cbn [snd] in *. subst o. destruct (m r) as [[[r2 n2] b]|e|]; reflexivity. Qed.
Lemma er_vector w n : erases (vector_l w n) (read_vector_uint w (Z.to_nat n)). Proof. apply er_resize. Qed.
Lemma er_entries {A} n (m : R A) : erases (entries_l n m) (rrepeat (Z.to_nat n) m). Proof. apply er_resize. Qed.
Lemma er_rest : erases rest_l read_rest. Proof. apply er_bind; [apply er_lift|intros n; apply er_vector]. Qed.
Lemma er_repeat {A} n (l : L A) m : erases l m -> erases (lrepeat n l) (rrepeat n m).
Proof. intros H. induction n as [|n IH]; cbn [lrepeat rrepeat]; [apply er_ret|]. apply er_bind; [exact H|intros a]. apply er_bind; [exact IH|intros k; apply er_ret]. Qed.
Lemma er_count {A} (l : L A) m : erases l m -> erases (lcount l) (rcount m).
Proof. intros H r. specialize (H r). unfold lcount, rcount. destruct (l r) as [q o]. cbn [snd] in *. subst o. reflexivity. Qed.
Ltac er := repeat match goal with
  | |- erases (lbind _ _) (rbind _ _) => apply er_bind; [|intros ?]
  | |- erases (lift _) _ => apply er_lift
  | |- erases (lret _) _ => apply er_ret
  | |- erases rest_l _ => apply er_rest
  | |- erases (vector_l _ _) _ => apply er_vector
  | |- erases (entries_l _ _) _ => apply er_entries
  | |- erases (lcount _) _ => apply er_count
  | |- erases (if ?c then _ else _) _ => destruct c
  | |- erases (let (_, _) := ?x in _) _ => destruct x
  end.
Lemma er_co64 : erases Co64_l Co64_readData. Proof. unfold Co64_l, Co64_readData. er. Qed.
Lemma er_colr : erases Colr_l Colr_readData. Proof. unfold Colr_l, Colr_readData. cbv zeta. er. Qed.
Lemma er_ctts : erases Ctts_l Ctts_readData. Proof. unfold Ctts_l, Ctts_readData. er. Qed.
Lemma er_dops : erases DOps_l DOps_readData. Proof. unfold DOps_l, DOps_readData, DOpsChannelMappingTable_readData. er. Qed.
Lemma er_data : erases Data_l Data_readData. Proof. unfold Data_l, Data_readData. er. Qed.
Lemma er_elst : erases Elst_l Elst_readData. Proof. unfold Elst_l, Elst_readData. er. Qed.
Lemma er_emsg : erases Emsg_l Emsg_readData. Proof. unfold Emsg_l, Emsg_readData. er. Qed.
Lemma er_ftyp : erases Ftyp_l Ftyp_readData. Proof. unfold Ftyp_l, Ftyp_readData. er. Qed.
Lemma er_hdlr : erases Hdlr_l Hdlr_readData.
Proof. unfold Hdlr_l, Hdlr_readData. do 8 (apply er_bind; [apply er_lift|intros ?]). er. Qed.
Lemma er_pssh : erases Pssh_l Pssh_readData. Proof. unfold Pssh_l, Pssh_readData. er. Qed.
Lemma er_sbgp : erases Sbgp_l Sbgp_readData. Proof. unfold Sbgp_l, Sbgp_readData. er. Qed.
Lemma er_sdtp : erases Sdtp_l Sdtp_readData. Proof. unfold Sdtp_l, Sdtp_readData. er. Qed.
Lemma er_sidx : erases Sidx_l Sidx_readData. Proof. unfold Sidx_l, Sidx_readData. er. Qed.
Lemma er_stco : erases Stco_l Stco_readData. Proof. unfold Stco_l, Stco_readData. er. Qed.
Lemma er_stsc : erases Stsc_l Stsc_readData. Proof. unfold Stsc_l, Stsc_readData. er. Qed.
Lemma er_stss : erases Stss_l Stss_readData. Proof. unfold Stss_l, Stss_readData. er. Qed.
Lemma er_stsz : erases Stsz_l Stsz_readData. Proof. unfold Stsz_l, Stsz_readData. er. Qed.
Lemma er_stts : erases Stts_l Stts_readData. Proof. unfold Stts_l, Stts_readData. er. Qed.
Lemma er_tfra : erases Tfra_l Tfra_readData. Proof. unfold Tfra_l, Tfra_readData. er. Qed.
Lemma er_trun : erases Trun_l Trun_readData. Proof. unfold Trun_l, Trun_readData. er. Qed.
Lemma er_vpcc : erases Vpcc_l VPCodecConfiguration_readData. Proof. unfold Vpcc_l, VPCodecConfiguration_readData. er. Qed.
Lemma er_av1c : erases Av1c_l AV1CodecConfiguration_readData. Proof. unfold Av1c_l, AV1CodecConfiguration_readData. er. Qed.
Lemma er_set : erases ParameterSet_l AVCParameterSet_readData. Proof. unfold ParameterSet_l, AVCParameterSet_readData. er. Qed.
Lemma er_sets n : erases (sets_l n) (rrepeat (Z.to_nat n) AVCParameterSet_readData). Proof. apply er_resize', er_repeat, er_set. Qed.
Lemma er_avcc : erases Avcc_l AVCDecoderConfiguration_readData.
Proof.
  unfold Avcc_l, AVCDecoderConfiguration_readData. do 8 (apply er_bind; [apply er_lift|intros ?]). apply er_bind; [apply er_sets|intros ?].
  apply er_bind; [apply er_lift|intros ?]. apply er_bind; [apply er_sets|intros ?]. er. apply er_sets.
Qed.
Lemma er_audio t uw : erases (Audio_l t uw) (AudioSampleEntry_readData t uw). Proof. unfold Audio_l, AudioSampleEntry_readData. er. Qed.
Lemma er_esd : erases ESDescriptor_l ESDescriptor_readData. Proof. unfold ESDescriptor_l, ESDescriptor_readData. cbv zeta. er. Qed.
Lemma er_dsi : erases DecSpecificInfo_l DecSpecificInfo_readData. Proof. unfold DecSpecificInfo_l, DecSpecificInfo_readData. er. Qed.
Lemma er_dsl : erases SLConfigDescr_l SLConfigDescr_readData. Proof. unfold SLConfigDescr_l, SLConfigDescr_readData. er. Qed.
Lemma er_esds_loop fuel : forall acc, erases (Esds_loop_l fuel acc) (Esds_loop fuel acc).
Proof.
  induction fuel as [|f IH]; intros acc; cbn [Esds_loop Esds_loop_l]; [apply er_lift|]. apply er_bind; [apply er_lift|intros n]. destruct (n =? 0); [apply er_ret|].
  apply er_bind; [apply er_lift|intros t].
  destruct (t =? ESDescrTag); [apply er_bind; [apply er_esd|intros; apply IH]|]. destruct (t =? DecoderConfigDescrTag); [apply er_bind; [apply er_lift|intros; apply IH]|].
  destruct (t =? DecSpecificInfoTag); [apply er_bind; [apply er_dsi|intros; apply IH]|]. destruct (t =? SLConfigDescrTag); [apply er_bind; [apply er_dsl|intros; apply IH]|]. er.
Qed.
Lemma er_esds : erases Esds_l Esds_readData.
Proof.
  intros r. unfold Esds_l, Esds_readData. revert r.
  assert (G : forall k, erases (lbind (lift readVersionAndFlag) (fun fb => lbind (Esds_loop_l k []) (fun l => lret (mk_esds fb l)))) (fb <- readVersionAndFlag; l <- Esds_loop k []; rret (mk_esds fb l))).
  { intros k. apply er_bind; [apply er_lift|intros fb]. apply er_bind; [apply er_esds_loop|intros l]. apply er_ret. }
  intros r. apply G.
Qed.
Lemma er_alst len wl : erases (AlstEntry_l len wl) (AlstEntry_readData len wl).
Proof. unfold AlstEntry_l, AlstEntry_readData. destruct len as [len|]; [|apply er_lift]. apply er_bind; [er|]. intros [bits [[[n c] f] offs]]. cbv zeta. er. Qed.
Lemma er_sgpd : erases Sgpd_l Sgpd_readData.
Proof.
  unfold Sgpd_l, Sgpd_readData. do 3 (apply er_bind; [apply er_lift|intros ?]). cbv zeta. destruct (gt_is_roll _); [er|].
  destruct (list_eqb _ gt_alst). { apply er_bind; [apply er_lift|intros n]. apply er_bind; [apply er_resize', er_repeat, er_alst|intros l]. apply er_ret. }
  er.
Qed.
Lemma er_map {A B} (f : A -> B) l m : erases l m -> erases (lmap f l) (rmap f m).
Proof. intros H. apply er_bind; [exact H|intros a; apply er_ret]. Qed.
Lemma er_box k t uw : erases (Box_readData_l k t uw) (Box_readData k t uw).
Proof.
  destruct k; unfold Box_readData_l; try apply er_lift; unfold Box_readData; apply er_map;
  first [apply er_co64|apply er_colr|apply er_ctts|apply er_dops|apply er_data|apply er_elst|apply er_emsg|apply er_esds|apply er_rest|apply er_ftyp|apply er_hdlr|apply er_pssh|apply er_sbgp
    |apply er_sdtp|apply er_sgpd|apply er_sidx|apply er_stco|apply er_stsc|apply er_stss|apply er_stsz|apply er_stts|apply er_tfra|apply er_trun|apply er_vpcc|apply er_av1c|apply er_avcc|apply er_audio].
Qed.
Lemma reader_erase file data : forall fuel,
  (forall uw pos, option_map snd (readBox_l fuel file data uw pos) = readBox fuel file data uw pos) /\
  (forall uw bound rb pos, option_map snd (readLeafs_l fuel file data uw bound rb pos) = readLeafs fuel file data uw bound rb pos).
Proof.
  induction fuel as [|f [IHb IHl]]; [split; reflexivity|]. split.
  - intros uw pos. cbn [readBox readBox_l]. destruct (read_box_header data pos) as [h|e|]; [|reflexivity..]. cbv zeta.
    destruct (negb file && _); [reflexivity|]. destruct (_ >? _); [reflexivity|]. destruct (_ >? _); [reflexivity|].
    pose proof (er_box (BoxMap_getBoxInstance BoxMap_registered (h_type h)) (h_type h) uw (reader_init (firstn (Z.to_nat (header_getDataSize h)) (skipn (Z.to_nat (h_offset h + h_header_size h)) data)))) as E.
    destruct (Box_readData_l _ _ _ _) as [q o]. cbn [snd] in E. rewrite <- E. destruct o as [[[r n] b]|e|]; [|reflexivity..]. destruct (negb file && _); [reflexivity|].
    rewrite <- IHl. destruct (readLeafs_l f _ _ _ _ _ _) as [[c [[l p]|e|]]|]; reflexivity.
  - intros uw bound rb pos. cbn [readLeafs readLeafs_l]. destruct (bound >? rb); [|reflexivity].
    rewrite <- IHb. destruct (readBox_l f _ _ _ _) as [[c [[[n p] s]|e|]]|]; cbn [option_map snd]; [|reflexivity..].
    rewrite <- IHl. destruct (readLeafs_l f _ _ _ _ _ _) as [[c' [[l p']|e|]]|]; reflexivity.
Qed.

(** * How much is asked for *)
Notation tot := total.
Lemma tot_app a b : tot (a ++ b) = tot a + tot b.
Proof. induction a as [|x a IH]; [reflexivity|]. change (tot ((x :: a) ++ b)) with (x + tot (a ++ b)). change (tot (x :: a)) with (x + tot a). lia. Qed.
Lemma tot_one n : tot [n] = n. Proof. unfold total. cbn [fold_right]. lia. Qed.
Lemma tot_nonneg q : Forall (Z.le 0) q -> 0 <= tot q.
Proof. induction 1 as [|x q H _ IH]; [unfold total; cbn [fold_right]; lia|]. change (tot (x :: q)) with (x + tot q). lia. Qed.
(** What [m] asks for started in [r]: when it returns, together with [s] bits no more than it consumed and reported; otherwise
    no more than there was, and [K]. *)
Definition askat {A} (r : reader) (K s : Z) (m : L A) : Prop :=
  let (q, o) := m r in Forall (Z.le 0) q /\
  match o with
  | Ok (r', n, _) => rwf r' /\ 8 * tot q + s + Zlen (rbits r') <= Zlen (rbits r) /\ 8 * tot q + s <= n
  | _ => 8 * tot q <= Zlen (rbits r) + 8 * K
  end.
Definition asks {A} (K s : Z) (m : L A) : Prop := forall r, rwf r -> askat r K s m.
Lemma asks_lift {A} K s (m : R A) : 0 <= K -> rsafe m -> spends m (fun _ => s) -> 0 <= s -> asks K s (lift m).
Proof.
  intros HK Hm Hs Ps r Hr. unfold askat, lift. split; [constructor|]. specialize (Hm r Hr). specialize (Hs r Hr). change (tot []) with 0. pose proof (Zlen_nonneg (rbits r)).
  destruct (m r) as [[[r' n] a]|e|]; [|lia..]. destruct Hm as (W & _ & bs & E & Ln). destruct Hs as [_ S]. split; [exact W|]. rewrite E, Zlen_app in S |- *. lia.
Qed.
Lemma asks_safe {A} K (m : R A) : 0 <= K -> rsafe m -> asks K 0 (lift m).
Proof. intros HK Hm. apply asks_lift; [exact HK|exact Hm|apply spends_free; exact Hm|lia]. Qed.
Lemma asks_none {A} K (m : R A) : 0 <= K -> (forall r, match m r with Ok _ => False | _ => True end) -> forall s, asks K s (lift m).
Proof.
  intros HK Hm s r Hr. unfold askat, lift. split; [constructor|]. specialize (Hm r). change (tot []) with 0. pose proof (Zlen_nonneg (rbits r)). destruct (m r) as [[[r' n] a]|e|]; [contradiction|lia|lia].
Qed.
Lemma asks_tick K n : 0 <= K -> 0 <= n -> asks K 0 (lift (rtick n)).
Proof. intros HK Hn r Hr. unfold askat, lift, rtick. split; [constructor|]. change (tot []) with 0. split; [exact Hr|lia]. Qed.
Lemma asks_ret {A} K (a : A) : asks K 0 (lret a).
Proof. intros r Hr. unfold askat, lret, lift, rret. split; [constructor|]. change (tot []) with 0. split; [exact Hr|lia]. Qed.
Lemma askat_bind {A B} r K s1 s (m : L A) (f : A -> L B) : 0 <= s1 -> askat r K s1 m -> (forall a, asks K (s - s1) (f a)) -> askat r K s (lbind m f).
Proof.
  intros P1 Hm Hf. unfold askat, lbind in *. destruct (m r) as [q [[[r1 n1] a]|e|]]; [|exact Hm..]. destruct Hm as (Q & W & C & N).
  specialize (Hf a r1 W). unfold askat in Hf. destruct (f a r1) as [q2 [[[r2 n2] b]|e|]]; destruct Hf as (Q2 & H2); (split; [apply Forall_app; split; assumption|]); rewrite tot_app; try lia. destruct H2 as (W2 & H2). split; [exact W2|lia].
Qed.
Lemma asks_bind {A B} K s1 s (m : L A) (f : A -> L B) : 0 <= s1 -> asks K s1 m -> (forall a, asks K (s - s1) (f a)) -> asks K s (lbind m f).
Proof. intros P1 Hm Hf r Hr. apply (askat_bind r K s1); [exact P1|apply Hm; exact Hr|exact Hf]. Qed.
Lemma asks_bind_post {A B} K s1 s (m : R A) P (f : A -> L B) : 0 <= s1 -> asks K s1 (lift m) -> rpost m P -> (forall a, P a -> asks K (s - s1) (f a)) -> asks K s (lbind (lift m) f).
Proof.
  intros P1 Hm Hp Hf r Hr. specialize (Hm r Hr). specialize (Hp r Hr). unfold askat, lbind, lift in *. destruct (m r) as [[[r1 n1] a]|e|]; [|exact Hm..]. destruct Hm as (Q & W & C & N).
  specialize (Hf a Hp r1 W). unfold askat in Hf. destruct (f a r1) as [q2 [[[r2 n2] b]|e|]]; destruct Hf as (Q2 & H2); (split; [exact Q2|]); change ([] ++ q2) with q2; change (tot []) with 0 in *; try lia. destruct H2 as (W2 & H2). split; [exact W2|lia].
Qed.
Lemma asks_weaken {A} K K' s s' (m : L A) : asks K s m -> K <= K' -> s' <= s -> asks K' s' m.
Proof. intros H Lk Ls r Hr. specialize (H r Hr). unfold askat in *. destruct (m r) as [q [[[r1 n1] a]|e|]]; destruct H as (Q & H); (split; [exact Q|]); try lia. destruct H as (W & H). split; [exact W|lia]. Qed.
Lemma asks_count {A} K s (m : L A) : asks K s m -> asks K s (lcount m).
Proof. intros H r Hr. specialize (H r Hr). unfold askat, lcount in *. destruct (m r) as [q [[[r1 n1] a]|e|]]; exact H. Qed.
Lemma askat_resize {A} r K n (m : R A) : 0 <= n -> rwf r -> rsafe m -> spends m (fun _ => 8 * n) -> 8 * n <= Zlen (rbits r) + 8 * K -> askat r K 0 (lbind (resize n) (fun _ => lift m)).
Proof.
  intros Hn Hr Hm Hs Hb. unfold askat, lbind, resize, lift. specialize (Hm r Hr). specialize (Hs r Hr). change ([n] ++ []) with [n].
  destruct (m r) as [[[r' k] a]|e|]; (split; [constructor; [exact Hn|constructor]|]); rewrite tot_one; [|exact Hb..].
  destruct Hm as (W & _ & bs & E & Ln). destruct Hs as [_ S]. split; [exact W|]. rewrite E, Zlen_app in S |- *. lia.
Qed.
Lemma spends_sized {A} n (m : R A) c : 0 <= n -> spends m (fun _ => c) -> 8 <= c -> spends (rrepeat (Z.to_nat n) m) (fun _ => 8 * n).
Proof.
  intros Hn Hm Hc r Hr. pose proof (spends_repeat_const (Z.to_nat n) m c Hm r Hr) as S. pose proof (rrepeat_length (Z.to_nat n) m r) as Le.
  destruct (rrepeat (Z.to_nat n) m r) as [[[r' k] l]|e|]; auto. specialize (Le _ _ _ eq_refl). destruct S as [W S]. split; [exact W|]. unfold Zlen at 1 in S. rewrite Le in S. nia.
Qed.
Lemma askat_vector r K w n : 8 <= w -> 0 <= n -> rwf r -> 8 * n <= Zlen (rbits r) + 8 * K -> askat r K 0 (vector_l w n).
Proof. intros Hw Hn Hr Hb. apply askat_resize; [exact Hn|exact Hr|apply rsafe_vector; lia| |exact Hb]. unfold read_vector_uint. apply (spends_sized n _ w); [exact Hn|apply spends_uint; lia|exact Hw]. Qed.
Lemma askat_entries {A} r K n (m : R A) : costs8 m -> rsafe m -> 0 <= n -> rwf r -> 8 * n <= Zlen (rbits r) + 8 * K -> askat r K 0 (entries_l n m).
Proof. intros Hc Hm Hn Hr Hb. apply askat_resize; [exact Hn|exact Hr|apply rsafe_repeat; exact Hm| |exact Hb]. apply (spends_sized n _ 8); [exact Hn|exact Hc|lia]. Qed.
Lemma asks_vector K w n : 8 <= w -> 0 <= n <= K -> asks K 0 (vector_l w n).
Proof. intros Hw Hn r Hr. apply askat_vector; [exact Hw|lia|exact Hr|]. pose proof (Zlen_nonneg (rbits r)). lia. Qed.
Lemma asks_entries {A} K n (m : R A) : costs8 m -> rsafe m -> 0 <= n <= K -> asks K 0 (entries_l n m).
Proof. intros Hc Hm Hn r Hr. apply askat_entries; [exact Hc|exact Hm|lia|exact Hr|]. pose proof (Zlen_nonneg (rbits r)). lia. Qed.
Lemma asks_off {B} K s (f : Z -> L B) : (forall n r, rwf r -> 0 <= n -> 8 * n <= Zlen (rbits r) -> askat r K s (f n)) -> asks K s (lbind (lift offset_to_end) f).
Proof.
  intros H r Hr. assert (Hn : 0 <= Zlen (r_data r) - Z.of_nat (r_pos r) /\ 8 * (Zlen (r_data r) - Z.of_nat (r_pos r)) <= Zlen (rbits r)).
  { destruct Hr as (H1 & H2 & H3). unfold rbits. rewrite Zlen_app, Zlen_bits_of. pose proof (Zlen_nonneg (be (Z.to_nat (r_width r)) (r_octet r))). unfold Zlen in *. rewrite skipn_length. lia. }
  specialize (H _ r Hr (proj1 Hn) (proj2 Hn)). unfold askat, lbind, lift, offset_to_end in *. destruct (f _ r) as [q [[[r1 n1] a]|e|]]; exact H.
Qed.
Lemma asks_rest K : 0 <= K -> asks K 0 rest_l.
Proof. intros HK. apply asks_off. intros n r Hr Hn Hb. apply askat_vector; [lia|exact Hn|exact Hr|lia]. Qed.
Lemma asks_repeat {A} K s n (m : L A) : 0 <= s -> asks K s m -> asks K (s * Z.of_nat n) (lrepeat n m).
Proof.
  intros Ps H. induction n as [|n IH]; cbn [lrepeat]; [apply (asks_weaken K K 0); [apply asks_ret|lia|lia]|].
  apply (asks_bind K s); [exact Ps|exact H|intros a]. apply (asks_bind K (s * Z.of_nat n)); [nia|exact IH|intros l]. apply (asks_weaken K K 0); [apply asks_ret|lia|lia].
Qed.
Lemma asks_nested {A} K K0 n (m : L A) : asks K0 8 m -> 0 <= n -> n + K0 <= K -> asks K 0 (lbind (resize n) (fun _ => lrepeat (Z.to_nat n) m)).
Proof.
  intros Hm Hn HK r Hr. pose proof (asks_repeat K0 8 (Z.to_nat n) m ltac:(lia) Hm r Hr) as H. unfold askat, lbind, resize in *.
  destruct (lrepeat (Z.to_nat n) m r) as [q [[[r1 n1] a]|e|]]; destruct H as (Q & H); (split; [constructor; [exact Hn|exact Q]|]); change ([n] ++ q) with (n :: q); change (tot (n :: q)) with (n + tot q); try lia. destruct H as (W & H). split; [exact W|lia].
Qed.

(** * The classes *)
Definition slack : Z := 2 ^ 33.
Lemma uint_post w s : 0 < w -> rpost (read_uint w s) (fun a => 0 <= a < 2 ^ w).
Proof. intros Hw r Hr. unfold read_uint. destruct (s =? 0); [exact I|]. destruct (readBits s r) as [[r1 d]|e|]; auto. unfold to_u. apply Z.mod_pos_bound. lia. Qed.
Lemma uvarint_loop_post fuel : forall v, 0 <= v < 2 ^ 32 -> rpost (read_uvarint_loop 32 fuel v) (fun a => 0 <= a < 2 ^ 32).
Proof.
  induction fuel as [|f IH]; intros v Hv; cbn [read_uvarint_loop]; [intros r Hr; exact I|]. eapply rpost_bind; [apply rsafe_octet8|apply rpost_any|intros b _]. cbv zeta.
  assert (B : 0 <= to_u 32 (Z.shiftl v 7 + Z.land b 127) < 2 ^ 32) by (unfold to_u; apply Z.mod_pos_bound; lia).
  destruct (Z.land b 128 =? 0); [intros r Hr; exact B|apply IH; exact B].
Qed.
Lemma uvarint_post : rpost (read_uvarint 32) (fun a => 0 <= a < 2 ^ 32).
Proof. intros r Hr. unfold read_uvarint. apply uvarint_loop_post; [lia|exact Hr]. Qed.
Lemma slack_big : 2 ^ 32 + 2 ^ 32 <= slack. Proof. unfold slack. lia. Qed.
Lemma slack_pos : 0 <= slack. Proof. unfold slack. lia. Qed.
Lemma rsafe_times A n (m : R A) : rsafe m -> rsafe (rrepeat n m). Proof. apply rsafe_repeat. Qed.
Ltac asl := pose proof slack_big; pose proof slack_pos; lia.
Ltac akstep :=
  match goal with
  | |- asks ?K _ (lret _) => apply (asks_weaken K K 0); [apply asks_ret|lia|lia]
  | |- asks _ _ (lift (rthrow _)) => apply asks_none; [asl|intros ?; exact I]
  | |- asks ?K _ (lbind (lift (read_uint ?w _)) _) => eapply (asks_bind_post K 0); [lia|apply asks_safe; [asl|solve [safe]]|apply (uint_post w); lia|intros ? ?; cbv beta in *]
  | |- asks ?K _ (lbind (lift (read_uvarint 32)) _) => eapply (asks_bind_post K 0); [lia|apply asks_safe; [asl|solve [safe]]|apply uvarint_post|intros ? ?; cbv beta in *]
  | |- asks ?K _ (lbind rest_l _) => eapply (asks_bind K 0); [lia|apply asks_rest; asl|intros ?]
  | |- asks ?K _ (lbind (vector_l _ _) _) => eapply (asks_bind K 0); [lia|apply asks_vector; [lia|asl]|intros ?]
  | |- asks ?K _ (lbind (lift ?m) _) => eapply (asks_bind K 0); [lia|apply asks_safe; [asl|solve [safe]]|intros ?]
  | |- asks _ _ (if ?c then _ else _) => destruct c
  | |- asks _ _ (let (_, _) := ?x in _) => destruct x
  end.
Ltac ak := repeat akstep.
Ltac aents C := match goal with |- asks ?K _ _ => eapply (asks_bind K 0); [lia|apply asks_entries; [apply C|first [solve [safe]|idtac]|asl]|intros ?] end.
Ltac entsafe := cbv beta delta [CttsEntry_readData ElstEntry_readData SbgpEntry_readData SdtpSample_readData SidxReference_readData StscEntry_readData SttsEntry_readData
   TfraEntry_readData RollDistance_readData VraEntry_readData TeleEntry_readData AlstOpt_readData PsshKID_readData TrunEntry_readData]; safe.
Lemma ask_co64 : asks slack 0 Co64_l. Proof. unfold Co64_l. ak. Qed.
Lemma ask_colr : asks slack 0 Colr_l. Proof. unfold Colr_l. cbv zeta. ak. Qed.
Lemma ask_ctts : asks slack 0 Ctts_l. Proof. unfold Ctts_l. ak. aents ctts_entry_costs. ak. Qed.
Lemma ask_dops : asks slack 0 DOps_l.
Proof. unfold DOps_l. ak. eapply (asks_bind slack 0); [lia| |intros; ak]. ak. Qed.
Lemma ask_data : asks slack 0 Data_l. Proof. unfold Data_l. ak. Qed.
Lemma ask_elst : asks slack 0 Elst_l. Proof. unfold Elst_l. ak. aents elst_entry_costs. ak. Qed.
Lemma ask_emsg : asks slack 0 Emsg_l. Proof. unfold Emsg_l. ak. Qed.
Lemma ask_stco : asks slack 0 Stco_l. Proof. unfold Stco_l. ak. Qed.
Lemma ask_stss : asks slack 0 Stss_l. Proof. unfold Stss_l. ak. Qed.
Lemma ask_stsz : asks slack 0 Stsz_l.
Proof. unfold Stsz_l. ak. eapply (asks_bind slack 0); [lia| |intros; ak]. destruct (_ =? 0); [apply asks_vector; [lia|asl]|ak]. Qed.
Lemma ask_sbgp : asks slack 0 Sbgp_l. Proof. unfold Sbgp_l. ak. aents sbgp_entry_costs. ak. Qed.
Lemma ask_sidx : asks slack 0 Sidx_l. Proof. unfold Sidx_l. ak. aents sidx_ref_costs. ak. Qed.
Lemma ask_stsc : asks slack 0 Stsc_l. Proof. unfold Stsc_l. ak. aents stsc_entry_costs. ak. Qed.
Lemma ask_stts : asks slack 0 Stts_l. Proof. unfold Stts_l. ak. aents stts_entry_costs. ak. Qed.
Lemma ask_vpcc : asks slack 0 Vpcc_l. Proof. unfold Vpcc_l. ak. Qed.
Lemma ask_av1c : asks slack 0 Av1c_l. Proof. unfold Av1c_l. ak. Qed.
Lemma array4_costs : costs8 read_array_uint8_4.
Proof.
  unfold costs8. change read_array_uint8_4 with (rrepeat 4 (read_uint 8 8)). cbn [rrepeat]. eapply spends_bind; [apply spends_uint; lia|intros].
  eapply spends_weaken; [apply spends_free; safe|intros; cbv beta; lia].
Qed.
Lemma ask_ftyp : asks slack 0 Ftyp_l.
Proof.
  unfold Ftyp_l. do 2 akstep. apply asks_off. intros n r Hr Hn Hb. destruct (negb _).
  { refine (_ : askat r slack _ _). apply (asks_none slack (A := ftyp) (rthrow RuntimeError)); [asl|intros ?; exact I|exact Hr]. }
  apply (askat_bind r slack 0); [lia| |intros; ak]. apply askat_entries; [apply array4_costs|apply rsafe_array4|apply Z.div_pos; lia|exact Hr|].
  pose proof slack_pos. pose proof (Z.div_le_upper_bound n 4 n ltac:(lia) ltac:(lia)). lia.
Qed.
Lemma ask_pssh : asks slack 0 Pssh_l.
Proof.
  unfold Pssh_l. do 2 akstep. eapply (asks_bind slack 0); [lia| |intros; ak]. destruct (negb _); [|ak]. akstep. apply asks_entries; [apply kid_costs|entsafe|asl].
Qed.
Lemma ask_sdtp : asks slack 0 Sdtp_l.
Proof.
  unfold Sdtp_l. akstep. apply asks_off. intros n r Hr Hn Hb. apply (askat_bind r slack 0); [lia| |intros; ak].
  apply askat_entries; [apply sdtp_sample_costs|entsafe|exact Hn|exact Hr|]. pose proof slack_pos. lia.
Qed.
Lemma ask_tfra : asks slack 0 Tfra_l.
Proof.
  unfold Tfra_l. do 7 akstep.
  match goal with |- asks _ _ (lbind (entries_l ?n (TfraEntry_readData ?fb ?a ?b ?c)) _) => eapply (asks_bind slack 0); [lia|apply asks_entries; [apply tfra_entry_costs; lia| |asl]|intros; ak] end.
  match goal with |- rsafe (TfraEntry_readData ?fb _ _ _) => pose proof (tsize_pos fb) end. entsafe.
Qed.
Lemma ask_set : asks (2 ^ 16) 8 ParameterSet_l.
Proof.
  unfold ParameterSet_l. apply (asks_weaken (2 ^ 16) _ 16); [|lia|lia]. intros r Hr.
  eapply (asks_bind_post (2 ^ 16) 16); [lia|apply asks_lift; [lia|safe|apply spends_uint; lia|lia]|apply (uint_post 16); lia| |exact Hr].
  intros n Hn. cbv beta in Hn. apply (asks_weaken (2 ^ 16) _ 0); [apply asks_vector; lia|lia|lia].
Qed.
Lemma ask_sets n : 0 <= n < 2 ^ 8 -> asks slack 0 (sets_l n).
Proof. intros Hn. unfold sets_l. apply (asks_nested slack (2 ^ 16)); [apply ask_set|lia|asl]. Qed.
Lemma ask_avcc : asks slack 0 Avcc_l.
Proof.
  unfold Avcc_l. do 8 akstep. eapply (asks_bind slack 0); [lia|apply ask_sets; lia|intros]. akstep. eapply (asks_bind slack 0); [lia|apply ask_sets; lia|intros].
  destruct (negb _); [ak|]. apply asks_off. intros n r Hr Hn Hb. destruct (n <? 4).
  - apply (askat_bind r slack 0); [lia|apply asks_tick; [asl|lia|exact Hr]|intros; ak].
  - match goal with |- askat _ ?K ?s ?m => assert (G : asks K s m); [|exact (G r Hr)] end.
    do 7 akstep. eapply (asks_bind slack 0); [lia|apply ask_sets; lia|intros; ak].
Qed.
Lemma ask_audio t uw : asks slack 0 (Audio_l t uw).
Proof.
  unfold Audio_l. destruct uw; [ak|]. do 9 akstep. destruct (_ || _); [ak|]. apply asks_off. intros n r Hr Hn Hb. destruct (n =? 0).
  { match goal with |- askat _ ?K ?s ?m => assert (G : asks K s m); [ak|exact (G r Hr)] end. }
  apply (askat_bind r slack 0); [lia| |intros; ak]. pose proof slack_big. pose proof (Zlen_nonneg (rbits r)).
  apply askat_vector; [lia| |exact Hr|]; destruct (_ =? 1); try destruct (_ =? 2); lia.
Qed.
Lemma ask_esd : asks slack 0 ESDescriptor_l.
Proof.
  unfold ESDescriptor_l. do 7 akstep. cbv zeta. eapply (asks_bind slack 0); [lia| |intros; ak]. match goal with |- asks _ _ (if ?c then _ else _) => destruct c end; [|ak].
  akstep. apply asks_vector; [lia|asl].
Qed.
Lemma ask_dsi : asks slack 0 DecSpecificInfo_l. Proof. unfold DecSpecificInfo_l. ak. Qed.
Lemma ask_dsl : asks slack 0 SLConfigDescr_l. Proof. unfold SLConfigDescr_l. ak. Qed.
Lemma ask_esds_loop fuel : forall acc, asks slack 0 (Esds_loop_l fuel acc).
Proof.
  induction fuel as [|f IH]; intros acc; cbn [Esds_loop_l]; [apply asks_none; [asl|intros r; exact I]|]. apply asks_off. intros n r Hr Hn Hb.
  match goal with |- askat _ ?K ?s ?m => assert (G : asks K s m); [|exact (G r Hr)] end. clear r Hr Hb.
  destruct (n =? 0); [ak|]. apply (asks_bind slack 0); [lia|apply asks_safe; [asl|safe]|intros t].
  destruct (t =? ESDescrTag); [apply (asks_bind slack 0); [lia|apply ask_esd|intros; apply IH]|].
  destruct (t =? DecoderConfigDescrTag); [apply (asks_bind slack 0); [lia|apply asks_safe; [asl|unfold DecoderConfigDescriptor_readData; safe]|intros; apply IH]|].
  destruct (t =? DecSpecificInfoTag); [apply (asks_bind slack 0); [lia|apply ask_dsi|intros; apply IH]|].
  destruct (t =? SLConfigDescrTag); [apply (asks_bind slack 0); [lia|apply ask_dsl|intros; apply IH]|].
  apply (asks_bind slack 0); [lia|apply asks_tick; [asl|lia]|intros; ak].
Qed.
Lemma ask_esds : asks slack 0 Esds_l.
Proof.
  intros r Hr. unfold askat, Esds_l.
  assert (G : asks slack 0 (lbind (lift readVersionAndFlag) (fun fb => lbind (Esds_loop_l (S (length (r_data r))) []) (fun l => lret (mk_esds fb l))))); [|exact (G r Hr)].
  akstep. eapply (asks_bind slack 0); [lia|apply ask_esds_loop|intros; ak].
Qed.
Lemma count_post {A} (m : L A) (f : Z * A -> L alst_entry) K s : 0 <= s -> asks K s m -> (forall n a, s <= n -> asks K 0 (f (n, a))) -> asks K s (lbind (lcount m) f).
Proof.
  intros Ps Hm Hf r Hr. specialize (Hm r Hr). unfold askat, lbind, lcount in *. destruct (m r) as [q [[[r1 n1] a]|e|]]; [|exact Hm..]. destruct Hm as (Q & W & C & N).
  pose proof (tot_nonneg q Q). specialize (Hf n1 a ltac:(lia) r1 W). unfold askat in Hf.
  destruct (f (n1, a) r1) as [q2 [[[r2 n2] b]|e|]]; destruct Hf as (Q2 & H2); (split; [apply Forall_app; split; assumption|]); rewrite tot_app; try lia. destruct H2 as (W2 & H2). split; [exact W2|lia].
Qed.
Lemma ask_alst len wl : 0 <= match len with Some n => n | None => 0 end < 2 ^ 32 -> asks (2 ^ 28) 8 (AlstEntry_l len wl).
Proof.
  intros Hl. unfold AlstEntry_l. destruct len as [len|]; [|apply asks_none; [lia|intros r; exact I]].
  apply (asks_weaken (2 ^ 28) _ (if wl then 64 else 32)); [|lia|destruct wl; lia]. apply count_post; [destruct wl; lia| |].
  - eapply (asks_bind (2 ^ 28) (if wl then 32 else 0)); [destruct wl; lia| |intros n].
    { destruct wl; [apply asks_lift; [lia|unfold rwhen; safe|unfold rwhen; apply spends_uint; lia|lia]|apply asks_safe; [lia|unfold rwhen; safe]]. }
    eapply (asks_bind_post (2 ^ 28) 16); [lia|apply asks_lift; [lia|safe|apply spends_uint; lia|lia]|apply (uint_post 16); lia|intros c Hc; cbv beta in Hc].
    eapply (asks_bind (2 ^ 28) 16); [lia|apply asks_lift; [lia|safe|apply spends_uint; lia|lia]|intros f].
    apply (asks_bind (2 ^ 28) 0); [lia|apply asks_vector; lia|intros offs]. apply (asks_weaken (2 ^ 28) _ 0); [apply asks_ret|lia|destruct wl; lia].
  - intros bits [[[n c] f] offs] Hbits. cbv beta iota zeta.
    assert (U : 0 <= to_u 32 (n * 8) < 2 ^ 32) by (unfold to_u; apply Z.mod_pos_bound; lia). assert (U2 : 0 <= to_u 32 (len * 8) < 2 ^ 32) by (unfold to_u; apply Z.mod_pos_bound; lia).
    set (offset := if wl then to_u 32 (n * 8) - (bits - 32) else to_u 32 (len * 8) - bits). assert (Ho : offset < 2 ^ 32) by (unfold offset; destruct wl; lia). clearbody offset.
    destruct ((offset <? 0) || negb (Z.rem offset 32 =? 0)) eqn:C; [apply asks_none; [lia|intros r; exact I]|].
    assert (0 <= offset) by lia. assert (0 <= offset / 32) by (apply Z.div_pos; lia). assert (offset / 32 < 2 ^ 27) by (apply Z.div_lt_upper_bound; lia).
    apply (asks_bind (2 ^ 28) 0); [lia|apply asks_entries; [apply opt_costs|entsafe|lia]|intros opts]. apply (asks_weaken (2 ^ 28) _ 0); [apply asks_ret|lia|lia].
Qed.
Lemma ask_sgpd : asks slack 0 Sgpd_l.
Proof.
  unfold Sgpd_l. do 3 akstep. cbv zeta.
  assert (R1 : forall wl, rsafe (RollDistance_readData wl)) by (intros; entsafe). assert (R2 : forall wl, rsafe (VraEntry_readData wl)) by (intros; entsafe). assert (R3 : forall wl, rsafe (TeleEntry_readData wl)) by (intros; entsafe).
  destruct (gt_is_roll _). { akstep. eapply (asks_bind slack 0); [lia|apply asks_entries; [apply roll_costs|apply R1|asl]|intros; ak]. }
  destruct (list_eqb _ gt_alst).
  { akstep. eapply (asks_bind slack 0); [lia| |intros; ak]. apply (asks_nested slack (2 ^ 28)); [apply ask_alst|lia|unfold slack; lia]. destruct (_ =? 1); lia. }
  destruct (list_eqb _ gt_rap). { akstep. eapply (asks_bind slack 0); [lia|apply asks_entries; [apply vra_costs|apply R2|asl]|intros; ak]. }
  destruct (list_eqb _ gt_tele). { akstep. eapply (asks_bind slack 0); [lia|apply asks_entries; [apply tele_costs|apply R3|asl]|intros; ak]. }
  ak.
Qed.
(** 'trun' and 'hdlr' ask once: with at most [K] when they fail. *)
Definition aft {A} (D : list Z) (K : Z) (Q : list Z -> A -> Prop) (m : L A) : Prop := forall r, rwf r -> r_width r = 0 -> r_data r = D ->
  let (q, o) := m r in match o with Ok (_, _, a) => Q q a | _ => Forall (Z.le 0) q /\ tot q <= K end.
Definition apost {A} (D : list Z) (m : R A) (P : A -> Prop) : Prop := forall r, rwf r -> r_width r = 0 -> r_data r = D -> match m r with Ok (_, _, a) => P a | _ => True end.
Lemma aft_lift {A B} D K (Q : list Z -> B -> Prop) (m : R A) P f : 0 <= K -> asafe m -> apost D m P -> (forall a, P a -> aft D K Q (f a)) -> aft D K Q (lbind (lift m) f).
Proof.
  intros HK Hm Hp Hf r Hr W E. specialize (Hm r Hr W). specialize (Hp r Hr W E). unfold lbind, lift. destruct (m r) as [[[r1 n1] a]|e|]; [|split; [constructor|exact HK]..].
  destruct Hm as (W1 & V1 & D1 & _). specialize (Hf a Hp r1 W1 V1 ltac:(congruence)). destruct (f a r1) as [q [[[r2 n2] b]|e|]]; exact Hf.
Qed.
Lemma apost_any {A} D (m : R A) : apost D m (fun _ => True).
Proof. intros r _ _ _. destruct (m r) as [[[r1 n1] a]|e|]; exact I. Qed.
Lemma aft_resize {A B} D K (Q : list Z -> B -> Prop) n (m : R A) (f : A -> B) : 0 <= n <= K -> (forall r r' k a, m r = Ok (r', k, a) -> Q [n] (f a)) ->
  aft D K Q (lbind (lbind (resize n) (fun _ => lift m)) (fun a => lret (f a))).
Proof.
  intros Hn HQ r Hr W E. unfold lbind, resize, lift, lret, rret. destruct (m r) as [[[r1 k] a]|e|] eqn:Em; [exact (HQ _ _ _ _ Em)|split; [constructor; [lia|constructor]|change ([n] ++ []) with [n]; rewrite tot_one; lia]..].
Qed.
Lemma len_of {A} n (l : list A) : 0 <= n -> length l = Z.to_nat n -> Zlen l = n. Proof. intros H E. unfold Zlen. lia. Qed.
Lemma aft_trun D : aft D slack (fun q x => 0 <= Zlen (trun_entries x) < 2 ^ 32 /\ q = [Zlen (trun_entries x)]) Trun_l.
Proof.
  assert (S : forall A (m : R A), rsafe m -> oct m -> asafe m) by (intros; apply asafe_of; assumption). unfold Trun_l.
  eapply aft_lift; [asl|apply S; [apply rsafe_fb|apply oct_fb]|apply apost_any|intros fb _].
  eapply (aft_lift D slack _ _ (fun a => 0 <= a < 2 ^ 32)); [asl|apply S; [safe|apply oct_uint; reflexivity]|intros r Hr _ _; apply uint_post; [lia|exact Hr]|intros n Hn; cbv beta in Hn].
  assert (OI : forall w s, 0 < s -> s mod 8 = 0 -> asafe (read_int w s)).
  { intros w s Hs Ho. apply S; [safe|]. intros r. pose proof (oct_uint w s Ho r) as O. unfold read_uint in O. unfold read_int. destruct (s =? 0); [exact I|].
    destruct (readBits s r) as [[r1 d]|e|]; [|exact I..]. destruct d; first [exact I|exact O]. }
  eapply aft_lift; [asl| |apply apost_any|intros o _].
  { unfold rwhen. destruct (checkFlag fb 1); [apply OI; [lia|reflexivity]|apply S; [safe|apply oct_ret]]. }
  eapply aft_lift; [asl| |apply apost_any|intros f _].
  { unfold rwhen. destruct (checkFlag fb 4); [apply S; [safe|apply oct_uint; reflexivity]|apply S; [safe|apply oct_ret]]. }
  apply aft_resize; [asl|]. intros r r' k l E. apply rrepeat_length in E. apply len_of in E; [|lia]. cbn [trun_entries]. rewrite E. split; [exact Hn|reflexivity].
Qed.
Lemma aft_hdlr D : aft D (8 * Zlen D) (fun q x => q = [Zlen (hdlr_padding x)]) Hdlr_l.
Proof.
  assert (S : forall A (m : R A), rsafe m -> oct m -> asafe m) by (intros; apply asafe_of; assumption). unfold Hdlr_l.
  assert (P : 0 <= 8 * Zlen D) by (pose proof (Zlen_nonneg D); lia).
  eapply aft_lift; [exact P|apply S; [apply rsafe_fb|apply oct_fb]|apply apost_any|intros fb _].
  eapply aft_lift; [exact P|apply S; [safe|apply oct_uint; reflexivity]|apply apost_any|intros p _].
  do 4 (eapply aft_lift; [exact P|apply S; [safe|apply oct_repeat, oct_uint; reflexivity]|apply apost_any|intros ? _]).
  eapply (aft_lift D _ _ _ (fun n => n <= Zlen D)); [exact P|apply S; [safe|apply oct_offset]| |intros n Hn; cbv beta in Hn].
  { intros r _ _ E. unfold offset_to_end. rewrite E. lia. }
  match goal with |- aft _ _ _ (lbind (lift (rcount ?m)) _) => assert (As : asafe m) by (destruct (negb (p =? 0)); [apply asafe_pascal|apply asafe_string]) end.
  eapply (aft_lift D _ _ _ (fun bn => 0 <= fst bn)); [exact P|apply asafe_rcount; exact As| |intros [nb name] Hnb; cbn [fst] in Hnb].
  { intros r Hr W _. specialize (As r Hr W). unfold rcount. match goal with |- match match ?x with _ => _ end with _ => _ end => destruct x as [[[r1 kk] nm]|e|] end; [|exact I..].
    destruct As as (_ & _ & _ & bs & _ & Ln). cbn [fst]. pose proof (Zlen_nonneg bs). lia. }
  destruct ((n * 8 <? nb) || _) eqn:C.
  { intros r _ _ _. unfold lift, rthrow. split; [constructor|exact P]. }
  apply aft_resize; [lia|]. intros r r' k l E. apply rrepeat_length in E. apply len_of in E; [|lia]. cbn [hdlr_padding]. rewrite E. reflexivity.
Qed.

(** Every class. *)
Lemma asked_by_map {A} (f : A -> box) (m : L A) data : bytes data -> asks slack 0 m -> (forall a, blank_run (f a) = false) ->
  let (q, o) := lmap f m (reader_init data) in Forall (Z.le 0) q /\
  match o with
  | Ok (_, n, b) => blank_run b = false /\ tot q <= Zlen data /\ 8 * tot q <= n
  | _ => tot q <= 8 * Zlen data + slack
  end.
Proof.
  intros Hb H Nb. specialize (H _ (rwf_init data Hb)). unfold askat, lmap, lbind, lret, lift, rret in *. rewrite rbits_init, Zlen_bits_of in H. pose proof (Zlen_nonneg data).
  destruct (m (reader_init data)) as [q [[[r n] a]|e|]]; destruct H as [Q H].
  - destruct H as (W & C & N). rewrite app_nil_r. split; [exact Q|]. split; [apply Nb|]. pose proof (Zlen_nonneg (rbits r)). lia.
  - split; [exact Q|lia].
  - split; [exact Q|lia].
Qed.
Lemma box_asks k type uw data : bytes data ->
  let (q, o) := Box_readData_l k type uw (reader_init data) in Forall (Z.le 0) q /\
  match o with
  | Ok (_, n, b) => (blank_run b = false -> tot q <= Zlen data /\ 8 * tot q <= n) /\ (blank_run b = true -> k = K_trun /\ exists c, q = [c] /\ 0 <= c < 2 ^ 32)
  | _ => tot q <= 8 * Zlen data + slack
  end.
Proof.
  intros Hb. pose proof (Zlen_nonneg data) as P.
  assert (M : forall A (f : A -> box) (m : L A), asks slack 0 m -> (forall a, blank_run (f a) = false) ->
    let (q, o) := lmap f m (reader_init data) in Forall (Z.le 0) q /\
    match o with
    | Ok (_, n, b) => (blank_run b = false -> tot q <= Zlen data /\ 8 * tot q <= n) /\ (blank_run b = true -> k = K_trun /\ exists c, q = [c] /\ 0 <= c < 2 ^ 32)
    | _ => tot q <= 8 * Zlen data + slack
    end).
  { intros A f m Hm Nb. pose proof (asked_by_map f m data Hb Hm Nb) as H. destruct (lmap f m (reader_init data)) as [q [[[r n] b]|e|]]; [|exact H..].
    destruct H as (Q & B & H). split; [exact Q|]. split; [intros _; exact H|congruence]. }
  destruct (Box_readData_l k type uw (reader_init data)) as [q o] eqn:E.
  assert (Er : o = Box_readData k type uw (reader_init data)) by (rewrite <- (er_box k type uw (reader_init data)), E; reflexivity).
  assert (Lf : lift (Box_readData k type uw) (reader_init data) = (q, o) -> k <> K_trun -> Forall (Z.le 0) q /\
    match o with
    | Ok (_, n, b) => (blank_run b = false -> tot q <= Zlen data /\ 8 * tot q <= n) /\ (blank_run b = true -> k = K_trun /\ exists c, q = [c] /\ 0 <= c < 2 ^ 32)
    | _ => tot q <= 8 * Zlen data + slack
    end).
  { unfold lift. intros Eq Nk. apply (f_equal fst) in Eq. cbn [fst] in Eq. subst q. change (tot []) with 0. split; [constructor|]. pose proof slack_pos. destruct o as [[[r n] b]|e|]; [|lia..].
    symmetry in Er. pose proof (readData_facts k type uw data Hb) as F. rewrite Er in F. destruct F as [F _]. split; [lia|]. intros Bl. exfalso. apply Nk.
    assert (B : exists x, b = B_trun x) by (destruct b; try discriminate Bl; eexists; reflexivity). destruct B as (x & ->).
    clear - Er. destruct k; try reflexivity;
    match type of Er with ?rd _ = _ => let t := eval cbn [Box_readData] in rd in assert (Eq : rd = t) by (unfold Box_readData; reflexivity); destruct (rmap_box _ _ rd _ _ _ _ Eq Er) as (? & ? & Ea & ?); discriminate Ea end. }
  destruct k;
  match type of E with ?rd _ = _ => let t := eval cbn [Box_readData_l] in rd in assert (Eq : rd = t) by (unfold Box_readData_l; reflexivity);
  lazymatch t with
  | lift _ => rewrite Eq in E; exact (Lf E ltac:(discriminate))
  | lmap B_trun _ => rewrite Eq in E
  | lmap B_hdlr _ => rewrite Eq in E
  | lmap ?f ?m =>
    rewrite Eq in E;
    let La := lazymatch m with
      | Co64_l => ask_co64 | Colr_l => ask_colr | Ctts_l => ask_ctts | DOps_l => ask_dops | Data_l => ask_data | Elst_l => ask_elst | Emsg_l => ask_emsg | Esds_l => ask_esds
      | rest_l => constr:(asks_rest slack slack_pos) | Ftyp_l => ask_ftyp | Pssh_l => ask_pssh | Sbgp_l => ask_sbgp | Sdtp_l => ask_sdtp | Sgpd_l => ask_sgpd | Sidx_l => ask_sidx
      | Stco_l => ask_stco | Stsc_l => ask_stsc | Stss_l => ask_stss | Stsz_l => ask_stsz | Stts_l => ask_stts | Tfra_l => ask_tfra | Vpcc_l => ask_vpcc | Av1c_l => ask_av1c
      | Avcc_l => ask_avcc | Audio_l ?t ?u => constr:(ask_audio t u)
      end in
    let H := fresh in assert (H := M _ f m La (fun a => eq_refl)); rewrite E in H; exact H
  end end; clear Lf.
  - (* hdlr *)
    pose proof (aft_hdlr data _ (rwf_init data Hb) eq_refl eq_refl) as H. unfold lmap, lbind, lret, lift, rret in E. destruct (Hdlr_l (reader_init data)) as [q0 [[[r n] x]|e|]]; (assert (Q0 : q = q0) by (rewrite ?app_nil_r in E; congruence)); subst q0.
    + assert (o = Ok (r, n + 0, B_hdlr x)) as -> by congruence. symmetry in Er. pose proof (held_facts K_hdlr type uw data _ _ _ Hb Er) as G. pose proof (box_reports K_hdlr type uw data _ _ _ Hb Er eq_refl) as G2.
      unfold held in G. cbn [blank_run holds] in G, G2. unfold count in G, G2. subst q. rewrite tot_one. pose proof (Zlen_nonneg (hdlr_name x)). pose proof (Zlen_nonneg (hdlr_padding x)).
      split; [constructor; [lia|constructor]|]. split; [intros _; lia|discriminate].
    + assert (o = Throw e) as -> by congruence. pose proof slack_pos. split; [apply H|lia].
    + assert (o = UB) as -> by congruence. pose proof slack_pos. split; [apply H|lia].
  - (* trun *)
    pose proof (aft_trun data _ (rwf_init data Hb) eq_refl eq_refl) as H. unfold lmap, lbind, lret, lift, rret in E. destruct (Trun_l (reader_init data)) as [q0 [[[r n] x]|e|]]; (assert (Q0 : q = q0) by (rewrite ?app_nil_r in E; congruence)); subst q0.
    + assert (o = Ok (r, n + 0, B_trun x)) as -> by congruence. symmetry in Er. destruct H as [H1 ->]. rewrite tot_one.
      split; [constructor; [lia|constructor]|]. split.
      * intros Bl. pose proof (held_facts K_trun type uw data _ _ _ Hb Er) as G. pose proof (box_reports K_trun type uw data _ _ _ Hb Er Bl) as G2. unfold held in G. rewrite Bl in G. cbn [holds] in G, G2. unfold count in G, G2. lia.
      * intros _. split; [reflexivity|]. eexists. split; [reflexivity|exact H1].
    + assert (o = Throw e) as -> by congruence. pose proof (Zlen_nonneg data). split; [apply H|lia].
    + assert (o = UB) as -> by congruence. pose proof (Zlen_nonneg data). split; [apply H|lia].
Qed.

(** * Files *)
Lemma counted_app a b : counted_all (a ++ b) = counted_all a + counted_all b.
Proof. induction a as [|x a IH]; [reflexivity|]. change (counted_all ((x :: a) ++ b)) with (counted x + counted_all (a ++ b)). change (counted_all (x :: a)) with (counted x + counted_all a). lia. Qed.
Lemma counted_cons x a : counted_all (x :: a) = counted x + counted_all a. Proof. reflexivity. Qed.
Definition sane (x : reading) : Prop := Forall (Z.le 0) (asked x) /\ forall b, got x = Some b -> blank_run b = true -> exists c, asked x = [c] /\ 0 <= c < 2 ^ 32.
Definition returned (x : reading) : Prop := got x <> None.
(** Readings of which only the last may have failed. *)
Definition failing (room : Z) (top : Z) (l : list reading) : Prop := exists l1 tl, l = l1 ++ tl /\ Forall returned l1 /\ 8 * Zlen l + counted_all l1 <= room /\
  (tl = [] \/ exists q, tl = [mk_reading q None] /\ tot q <= 8 * top + slack).
Section Files.
  Variables (file : bool) (data : list Z).
  Hypothesis Hb : bytes data.
  Hypothesis Hl : Zlen data < 2 ^ 63.
  Lemma reader_asks : forall fuel,
    (forall uw pos l o, 0 <= pos -> readBox_l fuel file data uw pos = Some (l, o) -> Forall sane l /\
       match o with
       | Ok (_, pos1, _) => Forall returned l /\ pos <= pos1 /\ 8 * Zlen l + counted_all l <= Z.max 0 (Z.min (Zlen data) pos1 - pos)
       | _ => failing (Z.max 0 (Zlen data - pos)) (Zlen data) l
       end) /\
    (forall uw bound rb pos l o, 0 <= pos -> readLeafs_l fuel file data uw bound rb pos = Some (l, o) -> Forall sane l /\
       match o with
       | Ok (_, pos1) => Forall returned l /\ pos <= pos1 /\ 8 * Zlen l + counted_all l <= Z.max 0 (Z.min (Zlen data) pos1 - pos)
       | _ => failing (Z.max 0 (Zlen data - pos)) (Zlen data) l
       end).
  Proof.
    assert (F0 : forall room, 0 <= room -> failing room (Zlen data) []).
    { intros room P. exists [], []. split; [reflexivity|]. split; [constructor|]. split; [change (Zlen (@nil reading)) with 0; change (counted_all []) with 0; lia|left; reflexivity]. }
    induction fuel as [|f [IHb IHl]]; [split; intros; discriminate|]. split.
    - intros uw pos l o P. cbn [readBox_l].
      assert (Em : forall e, Some (@nil reading, Throw e) = Some (l, o) -> Forall sane l /\ match o with Ok (_, pos1, _) => Forall returned l /\ pos <= pos1 /\ 8 * Zlen l + counted_all l <= Z.max 0 (Z.min (Zlen data) pos1 - pos) | _ => failing (Z.max 0 (Zlen data - pos)) (Zlen data) l end).
      { intros e Q. assert (l = [] /\ o = Throw e) as [-> ->] by (split; congruence). split; [constructor|apply F0; lia]. }
      assert (Eu : Some (@nil reading, UB) = Some (l, o) -> Forall sane l /\ match o with Ok (_, pos1, _) => Forall returned l /\ pos <= pos1 /\ 8 * Zlen l + counted_all l <= Z.max 0 (Z.min (Zlen data) pos1 - pos) | _ => failing (Z.max 0 (Zlen data - pos)) (Zlen data) l end).
      { intros Q. assert (l = [] /\ o = UB) as [-> ->] by (split; congruence). split; [constructor|apply F0; lia]. }
      destruct (Z_gt_le_dec pos (Zlen data)) as [Pl|Pl].
      { pose proof (read_header_past data pos ltac:(lia)) as R. destruct (read_box_header data pos); [contradiction|apply Em|apply Eu]. }
      pose proof (read_header_cases data pos ltac:(lia) ltac:(lia) Hb) as R.
      destruct (read_box_header data pos) as [h|e|] eqn:Eh; [|apply Em|apply Eu].
      destruct R as (R1 & R2 & R3 & R4 & R5). cbv zeta. rewrite R1.
      destruct (negb file && _); [apply Em|].
      rewrite (u64_small (Zlen data - pos)) by lia. rewrite (u64_small (Zlen data - pos - h_header_size h)) by lia.
      destruct (Z.gtb_spec (header_getDataSize h) (Zlen data - pos - h_header_size h)) as [C|C]; [apply Em|].
      assert (Dn : 0 <= header_getDataSize h) by (unfold header_getDataSize, u64; apply Z.mod_pos_bound; reflexivity).
      destruct (Z.gtb_spec (pos + h_header_size h + header_getDataSize h) (Zlen data)) as [C2|C2]; [apply Eu|]. clear Em Eu.
      set (payload := firstn (Z.to_nat (header_getDataSize h)) (skipn (Z.to_nat (pos + h_header_size h)) data)).
      assert (Bp : bytes payload).
      { unfold payload, bytes in *. rewrite Forall_forall in Hb |- *. intros x Hx. apply Hb. eapply In_firstn_aux; exact Hx. }
      assert (Lp : Zlen payload = header_getDataSize h) by (unfold payload, Zlen in *; rewrite firstn_length, skipn_length; lia).
      set (k := BoxMap_getBoxInstance BoxMap_registered (h_type h)).
      pose proof (box_asks k (h_type h) uw payload Bp) as A. pose proof (er_box k (h_type h) uw (reader_init payload)) as Er.
      pose proof (readData_facts k (h_type h) uw payload Bp) as Rd.
      destruct (Box_readData_l k (h_type h) uw (reader_init payload)) as [q ob]. cbn [snd] in Er. rewrite <- Er in Rd. clear Er. destruct A as [Aq A].
      assert (One : forall q', mk_reading q' None = mk_reading q' None -> Forall (Z.le 0) q' -> tot q' <= 8 * Zlen payload + slack -> failing (Z.max 0 (Zlen data - pos)) (Zlen data) [mk_reading q' None]).
      { intros q' _ Q0 Q1. exists [], [mk_reading q' None]. split; [reflexivity|]. split; [constructor|]. change (Zlen [mk_reading q' None]) with 1. change (counted_all []) with 0. split; [lia|]. right. exists q'. split; [reflexivity|lia]. }
      destruct ob as [[[r nb] b]|e|].
      2:{ intros Q. assert (l = [mk_reading q None] /\ o = Throw e) as [-> ->] by (split; congruence). split; [constructor; [split; [exact Aq|discriminate]|constructor]|apply One; auto]. }
      2:{ intros Q. assert (l = [mk_reading q None] /\ o = UB) as [-> ->] by (split; congruence). split; [constructor; [split; [exact Aq|discriminate]|constructor]|apply One; auto]. }
      destruct Rd as [Rn _]. clear One.
      assert (S1 : sane (mk_reading q (Some b))).
      { split; [exact Aq|]. cbn [got asked]. intros b' Eb Bl. injection Eb as <-. destruct (proj2 A Bl) as [_ X]. exact X. }
      assert (W1 : counted (mk_reading q (Some b)) <= Zlen payload /\ counted (mk_reading q (Some b)) <= nb / 8).
      { unfold counted. cbn [got asked]. destruct (blank_run b) eqn:Bl; [pose proof (Zlen_nonneg payload); lia|]. destruct (proj1 A eq_refl). lia. }
      assert (Rt : returned (mk_reading q (Some b))) by (unfold returned; cbn [got]; discriminate).
      destruct (negb file && _).
      { intros Q. assert (l = [mk_reading q (Some b)] /\ o = Throw RuntimeError) as [-> ->] by (split; congruence). split; [constructor; [exact S1|constructor]|].
        exists [mk_reading q (Some b)], []. split; [reflexivity|]. split; [constructor; [exact Rt|constructor]|]. split; [|left; reflexivity].
        rewrite counted_cons. change (counted_all []) with 0. change (Zlen [mk_reading q (Some b)]) with 1. lia. }
      destruct (readLeafs_l f file data _ _ _ _) as [[ll ol]|] eqn:El; [|discriminate].
      apply IHl in El; [|lia]. destruct El as (L1 & L2).
      assert (Fl : failing (Z.max 0 (Zlen data - (pos + h_header_size h + nb / 8))) (Zlen data) ll -> failing (Z.max 0 (Zlen data - pos)) (Zlen data) (mk_reading q (Some b) :: ll)).
      { intros (l1 & tl & E1 & E2 & E3 & E4). exists (mk_reading q (Some b) :: l1), tl. split; [rewrite E1; reflexivity|]. split; [constructor; assumption|]. split; [|exact E4].
        rewrite counted_cons, Zlen_cons. lia. }
      intros Q. destruct ol as [[leafs pos2]|e|].
      + assert (l = mk_reading q (Some b) :: ll /\ o = Ok (Node (h_type h) (Some h) b leafs, pos2, h_size h)) as [-> ->] by (split; congruence). destruct L2 as (L2 & L3 & L4).
        split; [constructor; assumption|]. split; [constructor; assumption|]. split; [lia|]. rewrite counted_cons, Zlen_cons. lia.
      + assert (l = mk_reading q (Some b) :: ll /\ o = Throw e) as [-> ->] by (split; congruence). split; [constructor; assumption|apply Fl; exact L2].
      + assert (l = mk_reading q (Some b) :: ll /\ o = UB) as [-> ->] by (split; congruence). split; [constructor; assumption|apply Fl; exact L2].
    - intros uw bound rb pos l o P. cbn [readLeafs_l]. destruct (bound >? rb).
      2:{ intros Q. assert (l = [] /\ o = Ok ([], pos)) as [-> ->] by (split; congruence). split; [constructor|]. split; [constructor|]. split; [lia|]. change (Zlen (@nil reading)) with 0. change (counted_all []) with 0. lia. }
      destruct (readBox_l f file data uw pos) as [[lb ob]|] eqn:Eb; [|discriminate]. apply IHb in Eb; [|exact P]. destruct Eb as [B1 B2].
      destruct ob as [[[n pos1] size]|e|].
      2:{ intros Q. assert (l = lb /\ o = Throw e) as [-> ->] by (split; congruence). split; assumption. }
      2:{ intros Q. assert (l = lb /\ o = UB) as [-> ->] by (split; congruence). split; assumption. }
      destruct B2 as (B2 & B3 & B4).
      destruct (readLeafs_l f file data uw bound _ pos1) as [[ll ol]|] eqn:El; [|discriminate]. apply IHl in El; [|lia]. destruct El as [L1 L2].
      assert (Fl : failing (Z.max 0 (Zlen data - pos1)) (Zlen data) ll -> failing (Z.max 0 (Zlen data - pos)) (Zlen data) (lb ++ ll)).
      { intros (l1 & tl & E1 & E2 & E3 & E4). exists (lb ++ l1), tl. split; [rewrite E1, app_assoc; reflexivity|]. split; [apply Forall_app; split; assumption|]. split; [|exact E4].
        rewrite counted_app, Zlen_app. lia. }
      intros Q. destruct ol as [[ns pos2]|e|].
      + assert (l = lb ++ ll /\ o = Ok (n :: ns, pos2)) as [-> ->] by (split; congruence). destruct L2 as (L2 & L3 & L4).
        split; [apply Forall_app; split; assumption|]. split; [apply Forall_app; split; assumption|]. split; [lia|]. rewrite counted_app, Zlen_app. lia.
      + assert (l = lb ++ ll /\ o = Throw e) as [-> ->] by (split; congruence). split; [apply Forall_app; split; assumption|apply Fl; exact L2].
      + assert (l = lb ++ ll /\ o = UB) as [-> ->] by (split; congruence). split; [apply Forall_app; split; assumption|apply Fl; exact L2].
  Qed.
End Files.
