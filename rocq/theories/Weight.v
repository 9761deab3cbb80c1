(** C70: readers hold no more elements than the octets they consume. *)
From Coq Require Import ZifyBool.
From Verif Require Import Base BitIO BitFacts BitIOProofs Boxes WireFormat BoxTac BoxWrite BoxRead Box BoxSpec BoxSafe BoxTree TreeSpec TreeProofs TreeLayout TreeRead ReaderTotal TreeLemmas WeightSpec.

(** [spends m s]: when [m] returns [a] it has consumed at least [s a] bits. *)
Definition spends {A} (m : R A) (s : A -> Z) : Prop :=
  forall r, rwf r -> match m r with Ok (r', _, a) => rwf r' /\ s a + Zlen (rbits r') <= Zlen (rbits r) | _ => True end.

Lemma spends_ret {A} (a : A) (s : A -> Z) : s a <= 0 -> spends (rret a) s.
Proof. intros H r Hr. cbn. split; [exact Hr|lia]. Qed.
Lemma spends_throw {A} e (s : A -> Z) : spends (rthrow e) s.
Proof. intros r Hr. exact I. Qed.
Lemma spends_ub {A} (s : A -> Z) : spends rub s.
Proof. intros r Hr. exact I. Qed.
Lemma spends_bind {A B} (m : R A) (f : A -> R B) s h : spends m s -> (forall a, spends (f a) (fun b => h b - s a)) -> spends (rbind m f) h.
Proof.
  intros Hm Hf r Hr. specialize (Hm r Hr). unfold rbind. destruct (m r) as [[[r1 n1] a]|e|]; auto. destruct Hm as [W1 L1].
  specialize (Hf a r1 W1). destruct (f a r1) as [[[r2 n2] b]|e|]; auto. destruct Hf as [W2 L2]. split; [exact W2|lia].
Qed.
Lemma spends_bind_post {A B} (m : R A) (f : A -> R B) (P : A -> Prop) s h : rpost m P -> spends m s -> (forall a, P a -> spends (f a) (fun b => h b - s a)) -> spends (rbind m f) h.
Proof.
  intros Hp Hm Hf r Hr. specialize (Hm r Hr). specialize (Hp r Hr). unfold rbind. destruct (m r) as [[[r1 n1] a]|e|]; auto. destruct Hm as [W1 L1].
  specialize (Hf a Hp r1 W1). destruct (f a r1) as [[[r2 n2] b]|e|]; auto. destruct Hf as [W2 L2]. split; [exact W2|lia].
Qed.
Lemma spends_weaken {A} (m : R A) (s t : A -> Z) : spends m s -> (forall a, t a <= s a) -> spends m t.
Proof. intros H L r Hr. specialize (H r Hr). destruct (m r) as [[[r1 n1] a]|e|]; auto. destruct H as [W H]. split; [exact W|specialize (L a); lia]. Qed.
Lemma spends_free {A} (m : R A) : rsafe m -> spends m (fun _ => 0).
Proof.
  intros H r Hr. specialize (H r Hr). destruct (m r) as [[[r' n] a]|e|]; auto. destruct H as (W & D & bs & E & L). split; [exact W|].
  rewrite E, Zlen_app. pose proof (Zlen_nonneg bs). lia.
Qed.
Lemma spends_exact {A} (m : R A) size : rsafe m -> (forall r r' n a, m r = Ok (r', n, a) -> n = size) -> spends m (fun _ => size).
Proof.
  intros H N r Hr. specialize (H r Hr). destruct (m r) as [[[r' n] a]|e|] eqn:E; auto. destruct H as (W & D & bs & E' & L). split; [exact W|].
  rewrite E', Zlen_app, L, (N _ _ _ _ E). lia.
Qed.
Lemma spends_uint w s : 0 < s -> spends (read_uint w s) (fun _ => s).
Proof.
  intros Hs. apply spends_exact; [apply rsafe_read_uint; exact Hs|]. intros r r' n a. unfold read_uint. destruct (s =? 0); [discriminate|].
  destruct (readBits s r) as [[r1 d]|e|]; try discriminate. intros E. congruence.
Qed.
Lemma spends_int w s : 0 < s -> spends (read_int w s) (fun _ => s).
Proof.
  intros Hs r Hr. pose proof (read_int_progress w s r Hs Hr) as P. destruct (read_int w s r) as [[[r1 n] a]|e|]; auto. destruct P as [W P]. split; [exact W|lia].
Qed.
Lemma spends_octet8 : spends read_octet8 (fun _ => 8).
Proof.
  apply spends_exact; [apply rsafe_octet8|]. intros r r' n a. unfold read_octet8. destruct (readBits 8 r) as [[r1 d]|e|]; try discriminate.
  destruct d; try discriminate. intros E. congruence.
Qed.
Lemma spends_bool : spends read_bool (fun _ => 1).
Proof.
  apply spends_exact; [apply rsafe_bool|]. intros r r' n a. unfold read_bool. destruct (readBits 1 r) as [[r1 d]|e|]; try discriminate.
  destruct d; try discriminate. intros E. congruence.
Qed.
Lemma spends_repeat {A} n (m : R A) s : spends m s -> spends (rrepeat n m) (sumZ s).
Proof.
  intros H. induction n as [|n IH]; cbn [rrepeat]; [apply spends_ret; reflexivity|].
  eapply spends_bind; [exact H|]. intros a. eapply spends_bind; [exact IH|]. intros l. apply spends_ret. cbn [sumZ fold_right]. change (fold_right _ 0 l) with (sumZ s l). lia.
Qed.
Lemma sumZ_const {A} c (l : list A) : sumZ (fun _ => c) l = c * Zlen l.
Proof. induction l as [|x l IH]; [unfold sumZ; cbn [fold_right]; change (Zlen (@nil A)) with 0; lia|]. rewrite Zlen_cons. unfold sumZ in *. cbn [fold_right]. rewrite IH. lia. Qed.
Lemma spends_repeat_const {A} n (m : R A) c : spends m (fun _ => c) -> spends (rrepeat n m) (fun l => c * Zlen l).
Proof. intros H. eapply spends_weaken; [apply spends_repeat; exact H|]. intros l. rewrite sumZ_const. lia. Qed.
Lemma spends_vector w n : 0 < w -> spends (read_vector_uint w n) (fun l => w * Zlen l).
Proof. intros H. apply (spends_repeat_const n _ w), spends_uint. exact H. Qed.
Lemma spends_rest : spends read_rest (fun l => 8 * Zlen l).
Proof.
  unfold read_rest. eapply spends_bind; [apply spends_free, rsafe_offset_to_end|]. intros n. eapply spends_weaken; [apply spends_vector; lia|]. intros l. cbv beta. lia.
Qed.
Lemma spends_string_loop fuel : forall n m, spends (read_string_loop fuel n m) (fun l => 8 * Zlen l).
Proof.
  induction fuel as [|fuel IH]; intros n m; cbn [read_string_loop]; [apply spends_ub|]. destruct (n <? m); [|apply spends_ret; change (Zlen (@nil Z)) with 0; lia].
  eapply spends_bind; [apply spends_octet8|]. intros b. destruct (b =? 0); [apply spends_ret; change (Zlen (@nil Z)) with 0; lia|].
  eapply spends_bind; [apply IH|]. intros s. apply spends_ret. rewrite Zlen_cons. lia.
Qed.
Lemma spends_string m : spends (read_string m) (fun l => 8 * Zlen l).
Proof. intros r Hr. unfold read_string. apply spends_string_loop. exact Hr. Qed.
Lemma spends_rcount {A} (m : R A) s : spends m s -> spends (rcount m) (fun p => s (snd p)).
Proof. intros H r Hr. specialize (H r Hr). unfold rcount. destruct (m r) as [[[r1 n1] a]|e|]; auto. Qed.
Lemma spends_rwhen c m s : spends m (fun _ => s) -> spends (rwhen c m) (fun _ => if c then s else 0).
Proof. intros H. unfold rwhen. destruct c; [exact H|]. apply spends_ret. lia. Qed.
Lemma spends_tick n : spends (rtick n) (fun _ => 0).
Proof. intros r Hr. cbn. split; [exact Hr|lia]. Qed.

(** Step through a reader; the entries of a repeated reader cost at least 8 bits. *)
Ltac spfin := cbn [snd fst]; change (Zlen (@nil Z)) with 0; lia.
Ltac sptime := unfold tsize; repeat match goal with |- context[if ?c then _ else _] => destruct c end.
Ltac spstep :=
  match goal with
  | |- spends (rret _) _ => apply spends_ret
  | |- spends (rthrow _) _ => apply spends_throw
  | |- spends (rbind read_rest _) _ => eapply spends_bind; [apply spends_rest|intros ?]
  | |- spends (rbind (read_string _) _) _ => eapply spends_bind; [apply spends_string|intros ?]
  | |- spends (rbind (rcount (read_string _)) _) _ => eapply spends_bind; [apply spends_rcount, spends_string|intros [? ?]]
  | |- spends (rbind (read_vector_uint _ _) _) _ => eapply spends_bind; [apply spends_vector; lia|intros ?]
  | |- spends (rbind (rrepeat _ (read_uint _ _)) _) _ => eapply spends_bind; [apply spends_free; safe|intros ?]
  | |- spends (rbind ?m _) _ => eapply spends_bind; [solve [apply spends_free; safe]|intros ?]
  | |- spends (if ?c then _ else _) _ => destruct c
  end.
Ltac sp := repeat spstep.
Ltac entrystep :=
  match goal with
  | |- spends (rret _) _ => apply spends_ret; cbv beta; try lia
  | |- spends (rbind (read_uint _ _) _) _ => eapply spends_bind; [apply spends_uint; tpos|intros ?]
  | |- spends (rbind (read_int _ _) _) _ => eapply spends_bind; [apply spends_int; tpos|intros ?]
  | |- spends (rbind read_bool _) _ => eapply spends_bind; [apply spends_bool|intros ?]
  | |- spends (rbind (rwhen _ _) _) _ => eapply spends_bind; [apply spends_rwhen|intros ?]
  | |- spends (read_uint _ _) _ => apply spends_uint; tpos
  | |- spends (read_int _ _) _ => apply spends_int; tpos
  end.
Definition costs8 {A} (m : R A) : Prop := spends m (fun _ => 8).
Ltac entry := cbv beta delta [costs8 CttsEntry_readData ElstEntry_readData SbgpEntry_readData SdtpSample_readData SidxReference_readData StscEntry_readData SttsEntry_readData
   TfraEntry_readData RollDistance_readData VraEntry_readData TeleEntry_readData AlstOpt_readData]; repeat entrystep.
Lemma spends_entries {A} n (m : R A) : costs8 m -> spends (rrepeat n m) (fun l => 8 * Zlen l).
Proof. apply spends_repeat_const. Qed.
Lemma tsize_pos fb : 32 <= tsize fb. Proof. unfold tsize. destruct (v0 fb); lia. Qed.


(** Finish: unfold what is held and use that lengths are not negative. *)
Ltac nonneg := repeat match goal with |- context[Zlen ?l] => lazymatch goal with H : 0 <= Zlen l |- _ => fail | _ => pose proof (Zlen_nonneg l) end end.
Ltac spdone := cbn [holds snd fst]; unfold count; cbn [co64_chunk_offsets colr_profile colr_unknown ctts_entries dopst_channel_mapping dops_table_ data_data elst_entries
  emsg_scheme_uri emsg_value emsg_message_data ftyp_compatible_brands pssh_kids pssh_data sbgp_entries sdtp_samples sidx_references stco_chunk_offsets stsc_entries
  stss_sample_numbers stsz_entry_sizes stts_entries tfra_entries url_location urn_name urn_location vpcc_codec_initialization_data av1c_config_OBUs ase_quick_time_data
  sgpd_roll_distances sgpd_alternative_startup_entries sgpd_visual_random_access_entries sgpd_temporal_level_entries]; repeat change (Zlen []) with 0; nonneg; try lia.
Lemma ctts_entry_costs : costs8 CttsEntry_readData. Proof. entry. Qed.
Lemma elst_entry_costs fb : costs8 (ElstEntry_readData fb). Proof. pose proof (tsize_pos fb). entry. Qed.
Lemma sbgp_entry_costs : costs8 SbgpEntry_readData. Proof. entry. Qed.
Lemma sdtp_sample_costs : costs8 SdtpSample_readData. Proof. entry. Qed.
Lemma sidx_ref_costs : costs8 SidxReference_readData. Proof. entry. Qed.
Lemma stsc_entry_costs : costs8 StscEntry_readData. Proof. entry. Qed.
Lemma stts_entry_costs : costs8 SttsEntry_readData. Proof. entry. Qed.
Lemma roll_costs wl : costs8 (RollDistance_readData wl). Proof. entry. destruct wl; lia. Qed.
Lemma vra_costs wl : costs8 (VraEntry_readData wl). Proof. entry. destruct wl; lia. Qed.
Lemma tele_costs wl : costs8 (TeleEntry_readData wl). Proof. entry. destruct wl; lia. Qed.
Lemma opt_costs : costs8 AlstOpt_readData. Proof. entry. Qed.
Lemma rrepeat_length {A} n (m : R A) : forall r r' k l, rrepeat n m r = Ok (r', k, l) -> length l = n.
Proof.
  induction n as [|n IH]; intros r r' k l; cbn [rrepeat]; [intros E; injection E as <- <- <-; reflexivity|].
  unfold rbind at 1. destruct (m r) as [[[r1 n1] a]|e|]; try discriminate. unfold rbind at 1. destruct (rrepeat n m r1) as [[[r2 n2] l2]|e|] eqn:E2; try discriminate.
  unfold rret. intros E. apply IH in E2. injection E as <- <- <-. cbn [length]. f_equal. exact E2.
Qed.
Lemma kid_costs : costs8 PsshKID_readData.
Proof.
  unfold PsshKID_readData. intros r Hr. pose proof (spends_repeat_const 16 _ 8 (spends_uint 8 8 ltac:(lia)) r Hr) as H.
  pose proof (rrepeat_length 16 (read_uint 8 8) r) as L.
  destruct (rrepeat 16 (read_uint 8 8) r) as [[[r1 n1] l]|e|]; auto. specialize (L _ _ _ eq_refl).
  destruct H as [W H]. split; [exact W|]. unfold Zlen at 1 in H. rewrite L in H. lia.
Qed.
Ltac ents L := eapply spends_bind; [apply spends_entries, L|intros ?].

Lemma co64_spends : spends Co64_readData (fun x => 8 * holds (B_co64 x)).
Proof. unfold Co64_readData. sp. spdone. Qed.
Lemma colr_spends : spends Colr_readData (fun x => 8 * holds (B_colr x)).
Proof. unfold Colr_readData. cbv zeta. sp; spdone. Qed.
Lemma ctts_spends : spends Ctts_readData (fun x => 8 * holds (B_ctts x)).
Proof. unfold Ctts_readData. spstep. spstep. ents ctts_entry_costs. sp; spdone. Qed.
Lemma dops_spends : spends DOps_readData (fun x => 8 * holds (B_dOps x)).
Proof.
  unfold DOps_readData. do 6 spstep. destruct (_ =? 0); [sp; spdone|].
  eapply (spends_bind _ _ (fun t => 8 * Zlen (dopst_channel_mapping t))); [unfold DOpsChannelMappingTable_readData; sp; spdone|intros]. sp; spdone.
Qed.
Lemma data_spends : spends Data_readData (fun x => 8 * holds (B_data x)).
Proof. unfold Data_readData. sp; spdone. Qed.
Lemma elst_spends : spends Elst_readData (fun x => 8 * holds (B_elst x)).
Proof. unfold Elst_readData. spstep. spstep. ents elst_entry_costs. sp; spdone. Qed.
Lemma emsg_spends : spends Emsg_readData (fun x => 8 * holds (B_emsg x)).
Proof. unfold Emsg_readData. sp; spdone. Qed.
Lemma ftyp_spends : spends Ftyp_readData (fun x => 8 * holds (B_ftyp x)).
Proof.
  unfold Ftyp_readData. spstep. spstep. spstep. destruct (negb _); [sp|]. eapply spends_bind; [apply (spends_repeat_const _ _ 8)|intros; sp; spdone].
  change read_array_uint8_4 with (rrepeat 4 (read_uint 8 8)). cbn [rrepeat]. eapply spends_bind; [apply spends_uint; lia|intros]. eapply spends_bind; [apply spends_free|intros; sp; lia].
  safe.
Qed.
Lemma pssh_spends : spends Pssh_readData (fun x => 8 * holds (B_pssh x)).
Proof.
  unfold Pssh_readData. spstep. spstep. eapply (spends_bind _ _ (fun k => 8 * Zlen k)).
  - destruct (negb _); [|sp; spdone]. spstep. eapply spends_weaken; [apply spends_entries, kid_costs|]. intros; cbv beta; lia.
  - intros. sp; spdone.
Qed.
Lemma sbgp_spends : spends Sbgp_readData (fun x => 8 * holds (B_sbgp x)).
Proof. unfold Sbgp_readData. do 4 spstep. ents sbgp_entry_costs. sp; spdone. Qed.
Lemma sdtp_spends : spends Sdtp_readData (fun x => 8 * holds (B_sdtp x)).
Proof. unfold Sdtp_readData. do 2 spstep. ents sdtp_sample_costs. sp; spdone. Qed.
Lemma sidx_spends : spends Sidx_readData (fun x => 8 * holds (B_sidx x)).
Proof. unfold Sidx_readData. do 7 spstep. ents sidx_ref_costs. sp; spdone. Qed.
Lemma stco_spends : spends Stco_readData (fun x => 8 * holds (B_stco x)).
Proof. unfold Stco_readData. sp; spdone. Qed.
Lemma stsc_spends : spends Stsc_readData (fun x => 8 * holds (B_stsc x)).
Proof. unfold Stsc_readData. do 2 spstep. ents stsc_entry_costs. sp; spdone. Qed.
Lemma stss_spends : spends Stss_readData (fun x => 8 * holds (B_stss x)).
Proof. unfold Stss_readData. sp; spdone. Qed.
Lemma stsz_spends : spends Stsz_readData (fun x => 8 * holds (B_stsz x)).
Proof.
  unfold Stsz_readData. do 3 spstep. eapply (spends_bind _ _ (fun k => 8 * Zlen k)).
  - destruct (_ =? 0); [|sp; spdone]. eapply spends_weaken; [apply spends_vector; lia|]. intros l; cbv beta; spdone.
  - intros. sp; spdone.
Qed.
Lemma stts_spends : spends Stts_readData (fun x => 8 * holds (B_stts x)).
Proof. unfold Stts_readData. do 2 spstep. ents stts_entry_costs. sp; spdone. Qed.
Lemma url_spends : spends Url_readData (fun x => 8 * holds (B_url x)).
Proof. unfold Url_readData. sp; spdone. Qed.
Lemma urn_spends : spends Urn_readData (fun x => 8 * holds (B_urn x)).
Proof. unfold Urn_readData. sp; spdone. Qed.
Lemma vpcc_spends : spends VPCodecConfiguration_readData (fun x => 8 * holds (B_vpcC x)).
Proof. unfold VPCodecConfiguration_readData. sp; spdone. Qed.
Lemma av1c_spends : spends AV1CodecConfiguration_readData (fun x => 8 * holds (B_av1C x)).
Proof. unfold AV1CodecConfiguration_readData. sp; spdone. Qed.
Lemma audio_spends type uw : spends (AudioSampleEntry_readData type uw) (fun x => 8 * holds (B_audio x)).
Proof. unfold AudioSampleEntry_readData. sp; spdone. Qed.
Lemma tfra_entry_costs fb a b c : 0 <= a -> 0 <= b -> 0 <= c -> costs8 (TfraEntry_readData fb a b c).
Proof. intros. pose proof (tsize_pos fb). entry. Qed.
Lemma tfra_spends : spends Tfra_readData (fun x => 8 * holds (B_tfra x)).
Proof.
  unfold Tfra_readData. do 3 spstep. do 3 (eapply spends_bind_post; [apply read_uint_nonneg; lia|apply spends_free; safe|intros ? ?; cbv beta]). spstep.
  eapply spends_bind; [apply spends_entries, tfra_entry_costs; assumption|intros]. sp; spdone.
Qed.

(** Bits 8 to 11 of the flags. *)
Definition sample_flags (fb : fullbox) : bool := flag fb 8 || flag fb 9 || flag fb 10 || flag fb 11.
Lemma fb_post : rpost readVersionAndFlag (fun fb => fields_ok (fb_layout fb)).
Proof.
  assert (U : rpost (read_uint 8 8) (fun a => fits_u 8 a)).
  { intros r Hr. unfold read_uint. destruct (8 =? 0); [exact I|]. destruct (readBits 8 r) as [[r1 d]|e|]; auto. unfold to_u, fits_u. apply Z.mod_pos_bound. lia. }
  assert (B : forall A (m : R Z) (f : Z -> R A) P Q, rsafe m -> rpost m P -> (forall a, P a -> rpost (f a) Q) -> rpost (rbind m f) Q).
  { intros A m f P Q Hs Hm Hf r Hr. specialize (Hm r Hr). specialize (Hs r Hr). unfold rbind. destruct (m r) as [[[r1 n1] a]|e|]; auto. destruct Hs as (W & _).
    specialize (Hf a Hm r1 W). destruct (f a r1) as [[[r2 n2] b]|e|]; auto. }
  unfold readVersionAndFlag. do 4 (eapply B; [safe|exact U|intros ? ?]). intros r Hr. cbn [rret]. unfold fb_layout. cbn [fb_version fb_f0 fb_f1 fb_f2]. do 4 (constructor; [assumption|]). constructor.
Qed.
Lemma trun_spends : spends Trun_readData (fun x => if sample_flags (trun_fb x) then 8 * holds (B_trun x) else 0).
Proof.
  unfold Trun_readData. eapply spends_bind_post; [apply fb_post|apply spends_free; safe|intros a Ha; cbv beta]. do 3 spstep. eapply (spends_bind _ _ (fun l => if sample_flags a then 8 * Zlen l else 0)).
  - destruct (sample_flags a) eqn:F; [|apply spends_free; safe]. apply spends_entries. unfold costs8, TrunEntry_readData. repeat entrystep.
    pose proof (checkFlag_fb a Ha 8 ltac:(lia)) as C1. pose proof (checkFlag_fb a Ha 9 ltac:(lia)) as C2. pose proof (checkFlag_fb a Ha 10 ltac:(lia)) as C3. pose proof (checkFlag_fb a Ha 11 ltac:(lia)) as C4.
    change (2 ^ 8) with 256 in C1. change (2 ^ 9) with 512 in C2. change (2 ^ 10) with 1024 in C3. change (2 ^ 11) with 2048 in C4. rewrite C1, C2, C3, C4.
    unfold sample_flags in F. destruct (flag a 8), (flag a 9), (flag a 10), (flag a 11); try discriminate F; lia.
  - intros l. sp. cbn [holds trun_fb trun_entries]. unfold count. destruct (sample_flags a); lia.
Qed.
Lemma rpost_bind {A C} (m : R A) (f : A -> R C) P Q : rsafe m -> rpost m P -> (forall a, P a -> rpost (f a) Q) -> rpost (rbind m f) Q.
Proof.
  intros Hs Hm Hf r Hr. specialize (Hm r Hr). specialize (Hs r Hr). unfold rbind. destruct (m r) as [[[r1 n1] a]|e|]; auto. destruct Hs as (W & _).
  specialize (Hf a Hm r1 W). destruct (f a r1) as [[[r2 n2] b]|e|]; auto.
Qed.
Lemma rpost_any {A} (m : R A) : rpost m (fun _ => True).
Proof. intros r _. destruct (m r) as [[[r1 n1] a]|e|]; exact I. Qed.
Lemma rpost_repeat {A} n (m : R A) : rpost (rrepeat n m) (fun l => length l = n).
Proof. intros r _. destruct (rrepeat n m r) as [[[r1 k] l]|e|] eqn:E; auto. exact (rrepeat_length _ _ _ _ _ _ E). Qed.
Lemma rpost_uint w s : 0 <= w -> rpost (read_uint w s) (fun a => fits_u w a).
Proof.
  intros Hw r Hr. unfold read_uint. destruct (s =? 0); [exact I|]. destruct (readBits s r) as [[r1 d]|e|]; auto. unfold to_u, fits_u. apply Z.mod_pos_bound. lia.
Qed.
Lemma trun_entries_bound : rpost Trun_readData (fun x => fits_u 32 (Zlen (trun_entries x))).
Proof.
  unfold Trun_readData. eapply rpost_bind; [safe|apply rpost_any|intros fb _]. eapply rpost_bind; [safe|apply rpost_uint; lia|intros n Hn].
  eapply rpost_bind; [safe|apply rpost_any|intros o _]. eapply rpost_bind; [safe|apply rpost_any|intros f _].
  eapply rpost_bind; [safe|apply rpost_repeat|intros l Hl]. cbv beta in *. intros r _. cbn [rret trun_entries].
  assert (E : Zlen l = n) by (unfold Zlen, fits_u in *; lia). rewrite E. exact Hn.
Qed.

Lemma ps_spends : spends AVCParameterSet_readData (fun l => 8 * (1 + Zlen l)).
Proof. unfold AVCParameterSet_readData. eapply spends_bind; [apply spends_uint; lia|intros]. eapply spends_weaken; [apply spends_vector; lia|]. intros l; cbv beta. lia. Qed.
Lemma sumZ_nonneg {A} (f : A -> Z) l : (forall a, 0 <= f a) -> 0 <= sumZ f l.
Proof. intros H. induction l as [|x l IH]; [reflexivity|]. unfold sumZ in *. cbn [fold_right]. specialize (H x). lia. Qed.
Lemma sumZ_scale {A} (f : A -> Z) c l : sumZ (fun a => c * f a) l = c * sumZ f l.
Proof. induction l as [|x l IH]; [unfold sumZ; cbn [fold_right]; lia|]. unfold sumZ in *. cbn [fold_right]. rewrite IH. lia. Qed.
Lemma sumZ_plus1 {A} (f : A -> Z) l : sumZ (fun a => 1 + f a) l = Zlen l + sumZ f l.
Proof. induction l as [|x l IH]; [reflexivity|]. rewrite Zlen_cons. unfold sumZ in *. cbn [fold_right]. rewrite IH. lia. Qed.
Lemma sumZ_snoc {A} (f : A -> Z) l x : sumZ f (l ++ [x]) = sumZ f l + f x.
Proof. induction l as [|y l IH]; [unfold sumZ; cbn [app fold_right]; lia|]. unfold sumZ in *. cbn [app fold_right]. rewrite IH. lia. Qed.
Lemma count2_nonneg {A} (l : list (list A)) : 0 <= count2 l.
Proof. unfold count2, count. pose proof (Zlen_nonneg l). pose proof (sumZ_nonneg (fun x : list A => Zlen x) l ltac:(intros; apply Zlen_nonneg)). lia. Qed.
Lemma sets_spends n : spends (rrepeat n AVCParameterSet_readData) (fun l => 8 * count2 l).
Proof.
  eapply spends_weaken; [apply spends_repeat, ps_spends|]. intros l. cbv beta. rewrite (sumZ_scale (fun l => 1 + Zlen l)), (sumZ_plus1 (fun l => Zlen l)). apply Z.le_refl.
Qed.
Lemma avcc_spends : spends AVCDecoderConfiguration_readData (fun x => 8 * holds (B_avcC x)).
Proof.
  unfold AVCDecoderConfiguration_readData. do 8 spstep. eapply spends_bind; [apply sets_spends|intros sps]. spstep. eapply spends_bind; [apply sets_spends|intros pps].
  pose proof (count2_nonneg sps). pose proof (count2_nonneg pps). destruct (negb _).
  { sp. cbn [holds avcc_sps avcc_pps avcc_sps_ext]. change (count2 (@nil (list Z))) with 0. lia. }
  spstep. destruct (_ <? 4).
  { eapply spends_bind; [apply spends_tick|intros]. sp. cbn [holds avcc_sps avcc_pps avcc_sps_ext]. change (count2 (@nil (list Z))) with 0. lia. }
  do 7 spstep. eapply spends_bind; [apply sets_spends|intros ext]. sp. cbn [holds avcc_sps avcc_pps avcc_sps_ext]. lia.
Qed.

Lemma es_spends : spends ESDescriptor_readData (fun d => 8 * (descriptor_holds d - 1)).
Proof.
  unfold ESDescriptor_readData. do 7 spstep. eapply (spends_bind _ _ (fun k => 8 * Zlen k)).
  - match goal with |- spends (if ?c then _ else _) _ => destruct c end; [|sp; spdone]. spstep. eapply spends_weaken; [apply spends_vector; lia|]. intros l; cbv beta; spdone.
  - intros u. spstep. cbv zeta. sp. unfold descriptor_holds, count. cbn [es_url_string]. lia.
Qed.
Lemma dcd_spends : spends DecoderConfigDescriptor_readData (fun d => 8 * (descriptor_holds d - 1)).
Proof. unfold DecoderConfigDescriptor_readData. sp. unfold descriptor_holds. lia. Qed.
Lemma dsi_spends : spends DecSpecificInfo_readData (fun d => 8 * (descriptor_holds d - 1)).
Proof. unfold DecSpecificInfo_readData. sp. unfold descriptor_holds, count. lia. Qed.
Lemma dsl_spends : spends SLConfigDescr_readData (fun d => 8 * (descriptor_holds d - 1)).
Proof. unfold SLConfigDescr_readData. sp. unfold descriptor_holds, count. lia. Qed.
Lemma esds_loop_spends fuel : forall acc, spends (Esds_loop fuel acc) (fun l => 8 * (sumZ descriptor_holds l - sumZ descriptor_holds acc)).
Proof.
  induction fuel as [|fuel IH]; intros acc; cbn [Esds_loop]; [apply spends_ub|]. spstep. destruct (_ =? 0); [apply spends_ret; lia|].
  eapply spends_bind; [apply spends_int; lia|intros tag].
  assert (G : forall m, spends m (fun d => 8 * (descriptor_holds d - 1)) ->
    spends (d <- m; Esds_loop fuel (acc ++ [d])) (fun b => 8 * (sumZ descriptor_holds b - sumZ descriptor_holds acc) - 0 - 8)).
  { intros m Hm. eapply spends_bind; [exact Hm|]. intros d. eapply spends_weaken; [apply IH|]. intros l. cbv beta. rewrite sumZ_snoc. lia. }
  destruct (tag =? ESDescrTag); [apply G, es_spends|]. destruct (tag =? DecoderConfigDescrTag); [apply G, dcd_spends|].
  destruct (tag =? DecSpecificInfoTag); [apply G, dsi_spends|]. destruct (tag =? SLConfigDescrTag); [apply G, dsl_spends|].
  eapply spends_bind; [apply spends_tick|intros]. apply spends_ret. lia.
Qed.
Lemma esds_spends : spends Esds_readData (fun x => 8 * holds (B_esds x)).
Proof.
  intros r Hr. unfold Esds_readData.
  assert (G : spends (fb <- readVersionAndFlag; l <- Esds_loop (S (length (r_data r))) []; rret (mk_esds fb l)) (fun x => 8 * holds (B_esds x))); [|apply G; exact Hr].
  spstep. eapply spends_bind; [apply esds_loop_spends|intros l]. sp. cbn [holds esds_descriptors]. change (sumZ descriptor_holds []) with 0. lia.
Qed.

Lemma alst_spends len wl : spends (AlstEntry_readData len wl) (fun e => 8 * alst_holds e).
Proof.
  unfold AlstEntry_readData. destruct len as [len|]; [|apply spends_ub].
  eapply spends_bind.
  - apply spends_rcount. instantiate (1 := fun p => 32 + 8 * Zlen (snd p)). eapply spends_bind; [apply spends_free; safe|intros n]. eapply spends_bind; [apply spends_uint; lia|intros c].
    eapply spends_bind; [apply spends_uint; lia|intros f]. eapply spends_bind; [apply spends_vector; lia|intros l]. sp. spdone.
  - intros [bits [[[n c] f] offs]]. cbv zeta. destruct (_ || _); [apply spends_throw|]. eapply spends_bind; [apply spends_entries, opt_costs|intros opts]. sp.
    unfold alst_holds, count. cbn [alste_sample_offsets alste_opts snd]. lia.
Qed.
Lemma sgpd_spends : spends Sgpd_readData (fun x => 8 * holds (B_sgpd x)).
Proof.
  unfold Sgpd_readData. do 3 spstep. cbv zeta. destruct (gt_is_roll _).
  { spstep. ents roll_costs. sp. spdone; change (sumZ alst_holds []) with 0; lia. }
  destruct (list_eqb _ gt_alst).
  { spstep. eapply spends_bind; [apply spends_repeat, alst_spends|intros l]. sp. cbv beta. rewrite sumZ_scale. spdone. }
  destruct (list_eqb _ gt_rap).
  { spstep. ents vra_costs. sp. spdone; change (sumZ alst_holds []) with 0; lia. }
  destruct (list_eqb _ gt_tele).
  { spstep. ents tele_costs. sp. spdone; change (sumZ alst_holds []) with 0; lia. }
  sp. spdone; change (sumZ alst_holds []) with 0; lia.
Qed.

(** hdlr: the Pascal string reader goes back, which is right when the reader is at an octet boundary. *)
Definition aspends {A} (m : R A) (s : A -> Z) : Prop :=
  forall r, rwf r -> r_width r = 0 -> match m r with Ok (r', _, a) => rwf r' /\ r_width r' = 0 /\ s a + Zlen (rbits r') <= Zlen (rbits r) | _ => True end.
Lemma aspends_of {A} (m : R A) s : asafe m -> spends m s -> aspends m s.
Proof.
  intros H S r Hr W. specialize (H r Hr W). specialize (S r Hr). destruct (m r) as [[[r' n] a]|e|]; auto. destruct H as (W1 & W2 & _). split; [exact W1|]. split; [exact W2|apply S].
Qed.
Lemma aspends_bind {A B} (m : R A) (f : A -> R B) s h : aspends m s -> (forall a, aspends (f a) (fun b => h b - s a)) -> aspends (rbind m f) h.
Proof.
  intros Hm Hf r Hr W. specialize (Hm r Hr W). unfold rbind. destruct (m r) as [[[r1 n1] a]|e|]; auto. destruct Hm as (W1 & V1 & L1).
  specialize (Hf a r1 W1 V1). destruct (f a r1) as [[[r2 n2] b]|e|]; auto. destruct Hf as (W2 & V2 & L2). split; [exact W2|]. split; [exact V2|lia].
Qed.
Lemma aspends_rcount {A} (m : R A) s : aspends m s -> aspends (rcount m) (fun p => s (snd p)).
Proof. intros H r Hr W. specialize (H r Hr W). unfold rcount. destruct (m r) as [[[r1 n1] a]|e|]; auto. Qed.
Lemma aspends_pascal m : aspends (read_pascal_string m) (fun l => 8 * Zlen l).
Proof.
  intros r Hr W. unfold read_pascal_string. destruct (m <? 2 * 8); [apply aspends_of; [apply asafe_string|apply spends_string|exact Hr|exact W]|].
  pose proof (asafe_octet8 r Hr W) as O. destruct (read_octet8 r) as [[[r1 n] v]|e|] eqn:E8; auto.
  destruct O as (W1 & V1 & D1 & bs & E & L). destruct (negb (v * 8 =? m - 8)).
  - assert (F : rbits (mkReader (r_data r1) (r_pos r) (r_octet r1) (r_width r1)) = rbits r).
    { unfold rbits. cbn [r_width r_pos r_data r_octet]. rewrite V1, W, D1. reflexivity. }
    rewrite <- F. apply aspends_of; [apply asafe_string|apply spends_string| |exact V1].
    destruct Hr as (H1 & H2 & H3). unfold rwf. cbn [r_width r_pos r_data]. rewrite D1, V1. split; [lia|split; [exact H2|exact H3]].
  - assert (Rp : aspends (rrepeat (Z.to_nat v) read_octet8) (fun l => 8 * Zlen l)).
    { apply aspends_of; [apply asafe_of; [apply rsafe_repeat, rsafe_octet8|apply oct_repeat, oct_octet8]|apply spends_repeat_const, spends_octet8]. }
    specialize (Rp r1 W1 V1). unfold rbind. destruct (rrepeat (Z.to_nat v) read_octet8 r1) as [[[r2 n2] b]|e|]; auto. cbn [rtick rret].
    destruct Rp as (A1 & A2 & A3). split; [exact A1|]. split; [exact A2|]. rewrite E, Zlen_app. pose proof (Zlen_nonneg bs). lia.
Qed.
Lemma hdlr_spends : aspends Hdlr_readData (fun x => 8 * holds (B_hdlr x)).
Proof.
  unfold Hdlr_readData.
  eapply aspends_bind; [apply aspends_of; [apply asafe_of; [apply rsafe_fb|apply oct_fb]|apply spends_free; safe]|intros fb].
  eapply aspends_bind; [apply aspends_of; [apply asafe_of; [safe|apply oct_uint; reflexivity]|apply spends_free; safe]|intros p].
  do 4 (eapply aspends_bind; [apply aspends_of; [apply asafe_of; [safe|apply oct_repeat, oct_uint; reflexivity]|apply spends_free; safe]|intros]).
  eapply aspends_bind; [apply aspends_of; [apply asafe_of; [safe|apply oct_offset]|apply spends_free; safe]|intros n].
  eapply aspends_bind; [apply aspends_rcount; instantiate (1 := fun l => 8 * Zlen l); destruct (negb (p =? 0)); [apply aspends_pascal|apply aspends_of; [apply asafe_string|apply spends_string]]|intros [nb name]].
  destruct (_ || _); [intros r _ _; exact I|].
  eapply aspends_bind; [apply aspends_of; [apply asafe_of; [safe|apply oct_repeat, oct_uint; reflexivity]|apply spends_vector; lia]|intros pad].
  apply aspends_of; [apply asafe_of; [apply rsafe_ret|apply oct_ret]|]. apply spends_ret. cbn [holds hdlr_name hdlr_padding snd]. unfold count. lia.
Qed.

(** Every box. *)
Lemma rmap_spends {A} (f : A -> box) (m : R A) s (rd : R box) r r' n b : rd = rmap f m -> spends m s -> rwf r -> rd r = Ok (r', n, b) ->
  exists a, b = f a /\ s a + Zlen (rbits r') <= Zlen (rbits r).
Proof.
  intros -> H Hr E. specialize (H r Hr). unfold rmap, rbind, rret in E. destruct (m r) as [[[r1 n1] a]|e|]; try discriminate E. exists a. destruct H as [_ H].
  assert (r1 = r' /\ b = f a) as [-> ->] by (split; congruence). split; [reflexivity|exact H].
Qed.
Lemma rmap_aspends {A} (f : A -> box) (m : R A) s (rd : R box) r r' n b : rd = rmap f m -> aspends m s -> rwf r -> r_width r = 0 -> rd r = Ok (r', n, b) ->
  exists a, b = f a /\ s a + Zlen (rbits r') <= Zlen (rbits r).
Proof.
  intros -> H Hr W E. specialize (H r Hr W). unfold rmap, rbind, rret in E. destruct (m r) as [[[r1 n1] a]|e|]; try discriminate E. exists a. destruct H as (_ & _ & H).
  assert (r1 = r' /\ b = f a) as [-> ->] by (split; congruence). split; [reflexivity|exact H].
Qed.
Lemma rest_spends : spends read_rest (fun x => 8 * count x). Proof. exact spends_rest. Qed.
Lemma iods_spends : spends Iods_readData (fun _ => 0).
Proof.
  intros r Hr. pose proof (iods_safe r Hr) as S. destruct (Iods_readData r) as [[[r' n] a]|e|]; auto. destruct S as (W & _ & bs & E & _). split; [exact W|].
  rewrite E, Zlen_app. pose proof (Zlen_nonneg bs). lia.
Qed.
Lemma box_spends k type uw data r n b : bytes data -> Box_readData k type uw (reader_init data) = Ok (r, n, b) -> blank_run b = false ->
  8 * holds b + Zlen (rbits r) <= 8 * Zlen data.
Proof.
  intros Hb E Nb. pose proof (rwf_init data Hb) as W. assert (D : Zlen (rbits (reader_init data)) = 8 * Zlen data) by (rewrite rbits_init, Zlen_bits_of; reflexivity). rewrite <- D. clear D.
  destruct k;
  match type of E with ?rd _ = _ => let t := eval cbn [Box_readData] in rd in
  assert (Eq : rd = t) by (unfold Box_readData; reflexivity);
  match t with
  | rmap B_hdlr _ => destruct (rmap_aspends B_hdlr _ _ rd _ _ _ _ Eq hdlr_spends W eq_refl E) as (a & -> & H); exact H
  | rmap B_trun _ =>
    destruct (rmap_spends B_trun _ _ rd _ _ _ _ Eq trun_spends W E) as (a & -> & H); unfold blank_run in Nb; apply negb_false_iff in Nb; change (sample_flags (trun_fb a) = true) in Nb; rewrite Nb in H; exact H
  | rmap ?f ?m =>
    let L := lazymatch m with
      | Co64_readData => co64_spends | Colr_readData => colr_spends | Ctts_readData => ctts_spends | DOps_readData => dops_spends
      | Data_readData => data_spends | Elst_readData => elst_spends | Emsg_readData => emsg_spends | Esds_readData => esds_spends
      | Free_readData => rest_spends | Mdat_readData => rest_spends | Skip_readData => rest_spends | Unsupported_readData => rest_spends
      | Ftyp_readData => ftyp_spends | Pssh_readData => pssh_spends | Sbgp_readData => sbgp_spends | Sdtp_readData => sdtp_spends
      | Sgpd_readData => sgpd_spends | Sidx_readData => sidx_spends | Stco_readData => stco_spends | Stsc_readData => stsc_spends
      | Stss_readData => stss_spends | Stsz_readData => stsz_spends | Stts_readData => stts_spends | Tfra_readData => tfra_spends
      | Url_readData => url_spends | Urn_readData => urn_spends | VPCodecConfiguration_readData => vpcc_spends
      | AV1CodecConfiguration_readData => av1c_spends | AVCDecoderConfiguration_readData => avcc_spends
      | AudioSampleEntry_readData ?t ?u => constr:(audio_spends t u)
      | Iods_readData => iods_spends
      | _ => constr:(spends_free m ltac:(safe)) end in
    destruct (rmap_spends f m _ rd _ _ _ _ Eq L W E) as (a & -> & H); exact H
  end end.
Qed.
Lemma rmap_box {A} (f : A -> box) (m : R A) (rd : R box) r r' n b : rd = rmap f m -> rd r = Ok (r', n, b) -> exists a n', b = f a /\ m r = Ok (r', n', a).
Proof.
  intros ->. unfold rmap, rbind, rret. destruct (m r) as [[[r1 n1] a]|e|]; try discriminate. intros E. assert (r1 = r' /\ b = f a) as [-> ->] by (split; congruence). exists a, n1. split; reflexivity.
Qed.
Lemma trun_from k type uw r0 r n x : Box_readData k type uw r0 = Ok (r, n, B_trun x) -> exists n', Trun_readData r0 = Ok (r, n', x).
Proof.
  intros E. destruct k;
  match type of E with ?rd _ = _ => let t := eval cbn [Box_readData] in rd in
  assert (Eq : rd = t) by (unfold Box_readData; reflexivity); destruct (rmap_box _ _ rd _ _ _ _ Eq E) as (a & n' & Ea & E'); try discriminate Ea end.
  injection Ea as ->. exists n'. exact E'.
Qed.
Lemma rpost_at {A} (m : R A) P r r' n a : rpost m P -> rwf r -> m r = Ok (r', n, a) -> P a.
Proof. intros H W E. specialize (H r W). rewrite E in H. exact H. Qed.
Lemma blank_bound k type uw data r n b : bytes data -> Box_readData k type uw (reader_init data) = Ok (r, n, b) -> blank_run b = true -> fits_u 32 (holds b).
Proof.
  intros Hb E Bl. assert (B : exists x, b = B_trun x) by (destruct b; try discriminate Bl; eexists; reflexivity). destruct B as (x & ->).
  destruct (trun_from _ _ _ _ _ _ _ E) as (n' & K). exact (rpost_at _ _ _ _ _ _ trun_entries_bound (rwf_init data Hb) K).
Qed.

(** * Files *)
(** [reports m s]: when [m] returns [a] it reports at least [s a] bits. *)
Definition reports {A} (m : R A) (s : A -> Z) : Prop := forall r, match m r with Ok (_, n, a) => s a <= n | _ => True end.
Lemma reports_ret {A} (a : A) s : s a <= 0 -> reports (rret a) s.
Proof. intros H r. exact H. Qed.
Lemma reports_throw {A} e s : reports (A := A) (rthrow e) s. Proof. intros r. exact I. Qed.
Lemma reports_ub {A} s : reports (A := A) rub s. Proof. intros r. exact I. Qed.
Lemma reports_bind {A B} (m : R A) (f : A -> R B) s h : reports m s -> (forall a, reports (f a) (fun b => h b - s a)) -> reports (rbind m f) h.
Proof. intros Hm Hf r. specialize (Hm r). unfold rbind. destruct (m r) as [[[r1 n1] a]|e|]; auto. specialize (Hf a r1). destruct (f a r1) as [[[r2 n2] b]|e|]; auto. lia. Qed.
Lemma reports_weaken {A} (m : R A) s t : reports m s -> (forall a, t a <= s a) -> reports m t.
Proof. intros H L r. specialize (H r). destruct (m r) as [[[r1 n1] a]|e|]; auto. specialize (L a). lia. Qed.
Lemma reports_uint w s : reports (read_uint w s) (fun _ => s).
Proof. intros r. unfold read_uint. destruct (s =? 0); [exact I|]. destruct (readBits s r) as [[r1 d]|e|]; auto. lia. Qed.
Lemma reports_int w s : reports (read_int w s) (fun _ => s).
Proof. intros r. unfold read_int. destruct (s =? 0); [exact I|]. destruct (readBits s r) as [[r1 d]|e|]; auto. destruct d; cbn; auto; lia. Qed.
Lemma reports_bool : reports read_bool (fun _ => 1).
Proof. intros r. unfold read_bool. destruct (readBits 1 r) as [[r1 d]|e|]; auto. destruct d; auto. lia. Qed.
Lemma reports_repeat {A} n (m : R A) s : reports m s -> reports (rrepeat n m) (sumZ s).
Proof.
  intros H. induction n as [|n IH]; cbn [rrepeat]; [apply reports_ret; reflexivity|].
  eapply reports_bind; [exact H|]. intros a. eapply reports_bind; [exact IH|]. intros l. apply reports_ret. cbn [sumZ fold_right]. change (fold_right _ 0 l) with (sumZ s l). lia.
Qed.
Lemma reports_const {A} n (m : R A) c : reports m (fun _ => c) -> reports (rrepeat n m) (fun l => c * Zlen l).
Proof. intros H. eapply reports_weaken; [apply reports_repeat; exact H|]. intros l. rewrite sumZ_const. lia. Qed.
Lemma reports_rwhen c m s : reports m (fun _ => s) -> reports (rwhen c m) (fun _ => if c then s else 0).
Proof. intros H. unfold rwhen. destruct c; [exact H|]. apply reports_ret. lia. Qed.
Lemma reports_rcount {A} (m : R A) s : reports m s -> reports (rcount m) (fun p => s (snd p)).
Proof. intros H r. specialize (H r). unfold rcount. destruct (m r) as [[[r1 n1] a]|e|]; auto. Qed.
Ltac rp := repeat match goal with
  | |- reports (rret _) _ => apply reports_ret; cbv beta; try lia
  | |- reports (rbind (read_uint _ _) _) _ => eapply reports_bind; [apply reports_uint|intros ?]
  | |- reports (rbind (read_int _ _) _) _ => eapply reports_bind; [apply reports_int|intros ?]
  | |- reports (rbind read_bool _) _ => eapply reports_bind; [apply reports_bool|intros ?]
  | |- reports (rbind (rwhen _ _) _) _ => eapply reports_bind; [apply reports_rwhen|intros ?]
  | |- reports (read_uint _ _) _ => apply reports_uint
  | |- reports (read_int _ _) _ => apply reports_int
  end.
Lemma sgpd_reports : reports Sgpd_readData (fun x => 8 * holds (B_sgpd x)).
Proof.
  assert (R1 : forall wl, reports (RollDistance_readData wl) (fun _ => 8)) by (intros wl; unfold RollDistance_readData; rp; destruct wl; lia).
  assert (R2 : forall wl, reports (VraEntry_readData wl) (fun _ => 8)) by (intros wl; unfold VraEntry_readData; rp; destruct wl; lia).
  assert (R3 : forall wl, reports (TeleEntry_readData wl) (fun _ => 8)) by (intros wl; unfold TeleEntry_readData; rp; destruct wl; lia).
  assert (R4 : reports AlstOpt_readData (fun _ => 8)) by (unfold AlstOpt_readData; rp).
  assert (R5 : forall len wl, reports (AlstEntry_readData len wl) (fun e => 8 * alst_holds e)).
  { intros len wl. unfold AlstEntry_readData. destruct len as [len|]; [|apply reports_ub].
    eapply reports_bind.
    - apply reports_rcount. instantiate (1 := fun p => 32 + 8 * Zlen (snd p)). rp.
      eapply reports_bind; [apply (reports_const _ _ 32), reports_uint|intros l]. apply reports_ret. cbn [snd]. nonneg. destruct wl; lia.
    - intros [bits [[[n c] f] offs]]. cbv zeta. destruct (_ || _); [apply reports_throw|]. eapply reports_bind; [apply reports_const, R4|intros opts]. apply reports_ret.
      unfold alst_holds, count. cbn [alste_sample_offsets alste_opts snd]. lia. }
  unfold Sgpd_readData, readVersionAndFlag. eapply reports_bind; [instantiate (1 := fun _ => 0); rp|intros fb].
  eapply reports_bind; [instantiate (1 := fun _ => 0); eapply reports_weaken; [apply reports_const, reports_uint|intros l; cbv beta; nonneg; lia]|intros g]. rp. cbv zeta.
  destruct (gt_is_roll _).
  { rp. eapply reports_bind; [apply reports_const, R1|intros l]. apply reports_ret. spdone; change (sumZ alst_holds []) with 0; lia. }
  destruct (list_eqb _ gt_alst).
  { rp. eapply reports_bind; [apply reports_repeat, R5|intros l]. apply reports_ret. cbv beta. rewrite sumZ_scale. spdone. }
  destruct (list_eqb _ gt_rap).
  { rp. eapply reports_bind; [apply reports_const, R2|intros l]. apply reports_ret. spdone; change (sumZ alst_holds []) with 0; lia. }
  destruct (list_eqb _ gt_tele).
  { rp. eapply reports_bind; [apply reports_const, R3|intros l]. apply reports_ret. spdone; change (sumZ alst_holds []) with 0; lia. }
  apply reports_ret. spdone; change (sumZ alst_holds []) with 0; lia.
Qed.
Lemma box_reports k type uw data r n b : bytes data -> Box_readData k type uw (reader_init data) = Ok (r, n, b) -> blank_run b = false -> 8 * holds b <= n.
Proof.
  intros Hb E Nb. assert (D : {k = K_sgpd} + {k <> K_sgpd}) by (destruct k; ((left; reflexivity) || (right; discriminate))). destruct D as [-> |D].
  - assert (Eq : Box_readData K_sgpd type uw = rmap B_sgpd Sgpd_readData) by reflexivity. rewrite Eq in E. pose proof (sgpd_reports (reader_init data)) as P.
    unfold rmap, rbind, rret in E. destruct (Sgpd_readData (reader_init data)) as [[[r1 n1] a]|e|]; try discriminate E. assert (n1 + 0 = n /\ b = B_sgpd a) as [<- ->] by (split; congruence). lia.
  - pose proof (box_spends _ _ _ _ _ _ _ Hb E Nb) as L. pose proof (box_safe k type uw data Hb ltac:(congruence)) as S. rewrite E in S. destruct S as (_ & _ & bs & S1 & S2 & _).
    apply (f_equal Zlen) in S1. rewrite Zlen_bits_of, Zlen_app in S1. lia.
Qed.
Lemma count_nonneg {A} (l : list A) : 0 <= count l. Proof. apply Zlen_nonneg. Qed.
Lemma holds_nonneg b : 0 <= holds b.
Proof.
  assert (D : forall d, 0 <= descriptor_holds d) by (intros []; unfold descriptor_holds; pose proof (@count_nonneg Z); nonneg; try match goal with |- context[count ?l] => pose proof (count_nonneg l) end; lia).
  assert (L : forall d, 0 <= alst_holds d) by (intros d; unfold alst_holds; pose proof (count_nonneg (alste_sample_offsets d)); pose proof (count_nonneg (alste_opts d)); lia).
  destruct b; cbn [holds]; try lia; repeat first [apply count_nonneg|apply count2_nonneg|apply sumZ_nonneg; assumption|apply Z.add_nonneg_nonneg].
Qed.
Definition held_all (l : list node) : Z := fold_right (fun k s => held_in k + s) 0 l.
Definition held (b : box) : Z := if blank_run b then 0 else holds b.
Lemma held_facts k type uw data r n b : bytes data -> Box_readData k type uw (reader_init data) = Ok (r, n, b) -> 0 <= held b <= Zlen data /\ held b <= n / 8.
Proof.
  intros Hb E. pose proof (readData_facts k type uw data Hb) as F. rewrite E in F. destruct F as [F _]. unfold held. destruct (blank_run b) eqn:Bl; [pose proof (Zlen_nonneg data); lia|].
  pose proof (box_reports _ _ _ _ _ _ _ Hb E Bl). pose proof (box_spends _ _ _ _ _ _ _ Hb E Bl). pose proof (holds_nonneg b). pose proof (Zlen_nonneg (rbits r)). lia.
Qed.
Section Held.
  Variables (file : bool) (data : list Z).
  Hypothesis Hb : bytes data.
  Hypothesis Hl : Zlen data < 2 ^ 63.
  Lemma reader_holds : forall fuel,
    (forall uw pos n pos1 size, 0 <= pos -> readBox fuel file data uw pos = Some (Ok (n, pos1, size)) ->
       pos + 8 <= Zlen data /\ pos + 8 <= pos1 /\ 8 * boxes n + held_in n <= Z.min (Zlen data) pos1 - pos) /\
    (forall uw bound rbytes pos ns pos1, 0 <= pos -> readLeafs fuel file data uw bound rbytes pos = Some (Ok (ns, pos1)) ->
       pos <= pos1 /\ 8 * boxes_all ns + held_all ns <= Z.max 0 (Z.min (Zlen data) pos1 - pos)).
  Proof.
    induction fuel as [|f [IHb IHl]]; split; try (intros; discriminate).
    - intros uw pos n pos1 size P0. cbn [readBox].
      destruct (Z_gt_le_dec pos (Zlen data)) as [Pl|Pl].
      { pose proof (read_header_past data pos ltac:(lia)) as R. destruct (read_box_header data pos); [contradiction|discriminate|discriminate]. }
      pose proof (read_header_cases data pos ltac:(lia) ltac:(lia) Hb) as R.
      destruct (read_box_header data pos) as [h|e|] eqn:Eh; [|discriminate|discriminate].
      destruct R as (R1 & R2 & R3 & R4 & R5). cbv zeta. rewrite R1.
      destruct (negb file && _); [discriminate|].
      rewrite (u64_small (Zlen data - pos)) by lia. rewrite (u64_small (Zlen data - pos - h_header_size h)) by lia.
      destruct (Z.gtb_spec (header_getDataSize h) (Zlen data - pos - h_header_size h)) as [C|C]; [discriminate|].
      assert (Dn : 0 <= header_getDataSize h) by (unfold header_getDataSize, u64; apply Z.mod_pos_bound; reflexivity).
      destruct (Z.gtb_spec (pos + h_header_size h + header_getDataSize h) (Zlen data)) as [C2|C2]; [discriminate|].
      set (payload := firstn (Z.to_nat (header_getDataSize h)) (skipn (Z.to_nat (pos + h_header_size h)) data)).
      assert (Bp : bytes payload).
      { unfold payload, bytes in *. rewrite Forall_forall in Hb |- *. intros x Hx. apply Hb. eapply In_firstn_aux; exact Hx. }
      assert (Lp : Zlen payload = header_getDataSize h).
      { unfold payload, Zlen in *. rewrite firstn_length, skipn_length. lia. }
      destruct (Box_readData _ _ _ _) as [[[r nb] b]|e|] eqn:Ed; [|discriminate|discriminate].
      pose proof (readData_facts (BoxMap_getBoxInstance BoxMap_registered (h_type h)) (h_type h) uw payload Bp) as Rd. rewrite Ed in Rd. destruct Rd as [Rn _]. destruct (held_facts _ _ _ _ _ _ _ Bp Ed) as [G1 G2].
      destruct (negb file && _); [discriminate|].
      destruct (readLeafs f file data _ _ _ _) as [[[ns pos2]|e|]|] eqn:El; try discriminate. intros H. injection H as <- <- <-.
      apply IHl in El; [|lia]. destruct El as (L2 & L3). split; [lia|split; [lia|]].
      cbn [boxes held_in]. fold (held b). unfold boxes_all, held_all in L3. lia.
    - intros uw bound rbytes pos ns pos1 P0. cbn [readLeafs]. destruct (bound >? rbytes).
      2:{ intros H. injection H as <- <-. cbn. lia. }
      destruct (readBox f file data uw pos) as [[[[n pos2] size]|e|]|] eqn:Eb; try discriminate.
      destruct (readLeafs f file data uw bound _ pos2) as [[[l pos3]|e|]|] eqn:El; try discriminate. intros H. injection H as <- <-.
      apply IHb in Eb; [|exact P0]. destruct Eb as (B2 & B3 & B4). apply IHl in El; [|lia]. destruct El as (L2 & L3).
      split; [lia|]. cbn [boxes_all held_all fold_right]. unfold boxes_all, held_all in L3. lia.
  Qed.
End Held.
Lemma file_holds file data ns : bytes data -> Zlen data < 2 ^ 63 -> SimpleReader_parse file data = Some (Ok ns) -> 8 * boxes_all ns + held_all ns <= Zlen data.
Proof.
  intros B L. unfold SimpleReader_parse. destruct (readLeafs _ _ _ _ _ _ _) as [[[l pos]|e|]|] eqn:E; try discriminate. intros H. injection H as <-.
  destruct (reader_holds file data B L (length data + 2)) as [_ R]. apply R in E; [|lia]. destruct E as (C & D). pose proof (Zlen_nonneg data). lia.
Qed.
