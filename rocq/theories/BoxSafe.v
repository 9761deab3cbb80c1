(** C42, C11: on every payload, readData throws or consumes what it reports; it never reads outside the payload. *)
From Coq Require Import ZifyBool.
From Verif Require Import Base BitIO BitFacts BitIOProofs Boxes WireFormat BoxTac BoxWrite BoxRead Box BoxSpec.

(** Results of a reader. *)
Definition rpost {A} (m : R A) (P : A -> Prop) : Prop :=
  forall r, rwf r -> match m r with Ok (_, _, a) => P a | _ => True end.
Lemma rsafe_bind_post {A B} (m : R A) (f : A -> R B) (P : A -> Prop) :
  rsafe m -> rpost m P -> (forall a, P a -> rsafe (f a)) -> rsafe (rbind m f).
Proof.
  intros Hm Hp Hf r Hr. specialize (Hm r Hr). specialize (Hp r Hr). unfold rbind. destruct (m r) as [[[r1 n1] a]|e|]; auto.
  destruct Hm as (W1 & D1 & bs & E & L). specialize (Hf a Hp r1 W1). destruct (f a r1) as [[[r2 n2] b]|e|]; auto.
  destruct Hf as (W2 & D2 & bs2 & E2 & L2). split; [exact W2|]. split; [congruence|].
  exists (bs ++ bs2). rewrite E, E2, app_assoc, Zlen_app. split; [reflexivity|lia].
Qed.
Lemma rsafe_rcount {A} (m : R A) : rsafe m -> rsafe (rcount m).
Proof.
  intros H r Hr. specialize (H r Hr). unfold rcount. destruct (m r) as [[[r1 n1] a]|e|]; auto.
Qed.
Lemma rsafe_rwhen c m : rsafe m -> rsafe (rwhen c m).
Proof. intros H. unfold rwhen. destruct c; [exact H|apply rsafe_ret]. Qed.
Lemma rsafe_fb : rsafe readVersionAndFlag.
Proof. unfold readVersionAndFlag. repeat (apply rsafe_bind; [apply rsafe_read_uint; lia|intros ?]). apply rsafe_ret. Qed.
Lemma rsafe_rest : rsafe read_rest.
Proof. unfold read_rest. apply rsafe_bind; [apply rsafe_offset_to_end|intros]. apply rsafe_vector. lia. Qed.
Lemma rsafe_uint_s w s : 0 < s -> rsafe (read_uint_s w s).
Proof. intros. apply rsafe_bind; [apply rsafe_read_uint; assumption|intros; apply rsafe_ret]. Qed.
Lemma read_uint_nonneg w s : 0 <= w -> rpost (read_uint w s) (fun a => 0 <= a).
Proof.
  intros Hw r Hr. unfold read_uint. destruct (s =? 0); [exact I|]. destruct (readBits s r) as [[r1 d]|e|]; auto.
  unfold to_u. apply Z.mod_pos_bound. lia.
Qed.

Ltac tpos := first [lia | unfold tsize; match goal with |- context[if ?c then _ else _] => destruct c end; lia].
Ltac safestep :=
  match goal with
  | |- rsafe (rret _) => apply rsafe_ret
  | |- rsafe (rthrow _) => apply rsafe_throw
  | |- rsafe (rbind _ _) => apply rsafe_bind; [|intros ?]
  | |- rsafe (let '(_, _) := ?p in _) => destruct p
  | |- rsafe (match ?p with (_, _) => _ end) => destruct p
  | |- rsafe (if ?c then _ else _) => destruct c
  | |- rsafe (read_uint _ _) => apply rsafe_read_uint; tpos
  | |- rsafe (read_int _ _) => apply rsafe_read_int; tpos
  | |- rsafe (read_uint_s _ _) => apply rsafe_uint_s; tpos
  | |- rsafe read_octet8 => apply rsafe_octet8
  | |- rsafe read_bool => apply rsafe_bool
  | |- rsafe readVersionAndFlag => apply rsafe_fb
  | |- rsafe read_rest => apply rsafe_rest
  | |- rsafe read_array_uint8_4 => apply rsafe_array4
  | |- rsafe (read_vector_uint _ _) => apply rsafe_vector; lia
  | |- rsafe (rrepeat _ _) => apply rsafe_repeat
  | |- rsafe offset_to_end => apply rsafe_offset_to_end
  | |- rsafe (read_string _) => apply rsafe_string
  | |- rsafe (read_uvarint _) => apply rsafe_uvarint
  | |- rsafe (rcount _) => apply rsafe_rcount
  | |- rsafe (rwhen _ _) => apply rsafe_rwhen
  | |- rsafe ?m => let h := head m in unfold h; cbv zeta
  end
with head t := match t with ?f _ => head f | ?f => constr:(f) end.
Ltac safe := repeat safestep.

Lemma btrt_safe : rsafe Btrt_readData. Proof. safe. Qed.
Lemma co64_safe : rsafe Co64_readData. Proof. safe. Qed.
Lemma colr_safe : rsafe Colr_readData. Proof. safe. Qed.
Lemma ctts_safe : rsafe Ctts_readData. Proof. safe. Qed.
Lemma dops_safe : rsafe DOps_readData. Proof. safe. Qed.
Lemma data_safe : rsafe Data_readData. Proof. safe. Qed.
Lemma dref_safe : rsafe Dref_readData. Proof. safe. Qed.
Lemma elst_safe : rsafe Elst_readData. Proof. safe. Qed.
Lemma emsg_safe : rsafe Emsg_readData. Proof. safe. Qed.
Lemma fiel_safe : rsafe Fiel_readData. Proof. safe. Qed.
Lemma free_safe : rsafe Free_readData. Proof. safe. Qed.
Lemma mdat_safe : rsafe Mdat_readData. Proof. safe. Qed.
Lemma skip_safe : rsafe Skip_readData. Proof. safe. Qed.
Lemma unsupported_safe : rsafe Unsupported_readData. Proof. safe. Qed.
Lemma ftyp_safe : rsafe Ftyp_readData. Proof. safe. Qed.
Lemma mdhd_safe : rsafe Mdhd_readData. Proof. safe. Qed.
Lemma mehd_safe : rsafe Mehd_readData. Proof. safe. Qed.
Lemma meta_safe : rsafe Meta_readData. Proof. safe. Qed.
Lemma mfhd_safe : rsafe Mfhd_readData. Proof. safe. Qed.
Lemma mfro_safe : rsafe Mfro_readData. Proof. safe. Qed.
Lemma mvhd_safe : rsafe Mvhd_readData. Proof. safe. Qed.
Lemma pasp_safe : rsafe PixelAspectRatio_readData. Proof. safe. Qed.
Lemma pssh_safe : rsafe Pssh_readData. Proof. safe. Qed.
Lemma sbgp_safe : rsafe Sbgp_readData. Proof. safe. Qed.
Lemma sdtp_safe : rsafe Sdtp_readData. Proof. safe. Qed.
Lemma sidx_safe : rsafe Sidx_readData. Proof. safe. Qed.
Lemma smhd_safe : rsafe Smhd_readData. Proof. safe. Qed.
Lemma stco_safe : rsafe Stco_readData. Proof. safe. Qed.
Lemma stsc_safe : rsafe Stsc_readData. Proof. safe. Qed.
Lemma stsd_safe : rsafe Stsd_readData. Proof. safe. Qed.
Lemma stss_safe : rsafe Stss_readData. Proof. safe. Qed.
Lemma stsz_safe : rsafe Stsz_readData. Proof. safe. Qed.
Lemma stts_safe : rsafe Stts_readData. Proof. safe. Qed.
Lemma tfdt_safe : rsafe Tfdt_readData. Proof. safe. Qed.
Lemma tfhd_safe : rsafe Tfhd_readData. Proof. safe. Qed.
Lemma tkhd_safe : rsafe Tkhd_readData. Proof. safe. Qed.
Lemma trex_safe : rsafe Trex_readData. Proof. safe. Qed.
Lemma trun_safe : rsafe Trun_readData. Proof. safe. Qed.
Lemma url_safe : rsafe Url_readData. Proof. safe. Qed.
Lemma urn_safe : rsafe Urn_readData. Proof. safe. Qed.
Lemma vmhd_safe : rsafe Vmhd_readData. Proof. safe. Qed.
Lemma vpcc_safe : rsafe VPCodecConfiguration_readData. Proof. safe. Qed.
Lemma av1c_safe : rsafe AV1CodecConfiguration_readData. Proof. safe. Qed.
Lemma visual_entry_safe : rsafe VisualSampleEntry_readData. Proof. safe. Qed.
Lemma audio_entry_safe type uw : rsafe (AudioSampleEntry_readData type uw). Proof. safe. Qed.
Lemma tfra_safe : rsafe Tfra_readData.
Proof.
  unfold Tfra_readData. apply rsafe_bind; [safe|intros fb]. apply rsafe_bind; [safe|intros i]. apply rsafe_bind; [safe|intros r].
  eapply rsafe_bind_post; [apply rsafe_read_uint; lia|apply read_uint_nonneg; lia|cbv beta; intros a Ha].
  eapply rsafe_bind_post; [apply rsafe_read_uint; lia|apply read_uint_nonneg; lia|cbv beta; intros b Hb].
  eapply rsafe_bind_post; [apply rsafe_read_uint; lia|apply read_uint_nonneg; lia|cbv beta; intros c Hc].
  apply rsafe_bind; [safe|intros n]. apply rsafe_bind; [|intros; apply rsafe_ret]. apply rsafe_repeat.
  unfold TfraEntry_readData. do 2 (apply rsafe_bind; [safe|intros]).
  do 3 (apply rsafe_bind; [apply rsafe_read_uint; lia|intros]). apply rsafe_ret.
Qed.

(** Whole octets: hdlr needs an aligned reader because read_pascal_string rewinds the stream. *)
Definition oct {A} (m : R A) : Prop := forall r, match m r with Ok (_, n, _) => n mod 8 = 0 | _ => True end.
Definition asafe {A} (m : R A) : Prop :=
  forall r, rwf r -> r_width r = 0 ->
  match m r with
  | Ok (r', n, _) => rwf r' /\ r_width r' = 0 /\ r_data r' = r_data r /\ exists bs, rbits r = bs ++ rbits r' /\ Zlen bs = n
  | Throw _ => True
  | UB => False
  end.
Lemma asafe_of {A} (m : R A) : rsafe m -> oct m -> asafe m.
Proof.
  intros H O r Hr W. specialize (H r Hr). specialize (O r). destruct (m r) as [[[r' n] a]|e|]; auto.
  destruct H as (W' & D & bs & E & L). split; [exact W'|]. split; [|split; [exact D|exists bs; auto]].
  pose proof (rbits_length r Hr) as L1. rewrite E, Zlen_app, L, (rbits_length r' W') in L1. destruct W' as (W1 & _). lia.
Qed.
Lemma asafe_bind {A B} (m : R A) (f : A -> R B) : asafe m -> (forall a, asafe (f a)) -> asafe (rbind m f).
Proof.
  intros Hm Hf r Hr W. specialize (Hm r Hr W). unfold rbind. destruct (m r) as [[[r1 n1] a]|e|]; auto.
  destruct Hm as (W1 & V1 & D1 & bs & E & L). specialize (Hf a r1 W1 V1). destruct (f a r1) as [[[r2 n2] b]|e|]; auto.
  destruct Hf as (W2 & V2 & D2 & bs2 & E2 & L2). split; [exact W2|]. split; [exact V2|]. split; [congruence|].
  exists (bs ++ bs2). rewrite E, E2, app_assoc, Zlen_app. split; [reflexivity|lia].
Qed.
Lemma asafe_rcount {A} (m : R A) : asafe m -> asafe (rcount m).
Proof. intros H r Hr W. specialize (H r Hr W). unfold rcount. destruct (m r) as [[[r1 n1] a]|e|]; auto. Qed.
Lemma oct_bind {A B} (m : R A) (f : A -> R B) : oct m -> (forall a, oct (f a)) -> oct (rbind m f).
Proof.
  intros Hm Hf r. specialize (Hm r). unfold rbind. destruct (m r) as [[[r1 n1] a]|e|]; auto.
  specialize (Hf a r1). destruct (f a r1) as [[[r2 n2] b]|e|]; auto. lia.
Qed.
Lemma oct_uint w s : s mod 8 = 0 -> oct (read_uint w s).
Proof. intros H r. unfold read_uint. destruct (s =? 0); [exact I|]. destruct (readBits s r) as [[r1 d]|e|]; auto. Qed.
Lemma oct_octet8 : oct read_octet8.
Proof. intros r. unfold read_octet8. destruct (readBits 8 r) as [[r1 [|d l]]|e|]; auto. Qed.
Lemma oct_ret {A} (a : A) : oct (rret a). Proof. intros r. reflexivity. Qed.
Lemma oct_offset : oct offset_to_end. Proof. intros r. reflexivity. Qed.
Lemma oct_repeat {A} n (m : R A) : oct m -> oct (rrepeat n m).
Proof. intros H. induction n as [|n IH]; cbn [rrepeat]; [apply oct_ret|]. apply oct_bind; [exact H|intros]. apply oct_bind; [exact IH|intros; apply oct_ret]. Qed.
Lemma oct_string_loop fuel : forall n m, oct (read_string_loop fuel n m).
Proof.
  induction fuel as [|fuel IH]; intros n m; cbn [read_string_loop]; [intros r; exact I|].
  destruct (n <? m); [|apply oct_ret]. apply oct_bind; [apply oct_octet8|intros b]. destruct (b =? 0); [apply oct_ret|].
  apply oct_bind; [apply IH|intros; apply oct_ret].
Qed.
Lemma oct_string m : oct (read_string m). Proof. intros r. unfold read_string. apply oct_string_loop. Qed.
Lemma asafe_string m : asafe (read_string m). Proof. apply asafe_of; [apply rsafe_string|apply oct_string]. Qed.
Lemma asafe_octet8 : asafe read_octet8. Proof. apply asafe_of; [apply rsafe_octet8|apply oct_octet8]. Qed.
Lemma oct_uvarint_loop w fuel : forall acc, oct (read_uvarint_loop w fuel acc).
Proof.
  induction fuel as [|fuel IH]; intros acc; cbn [read_uvarint_loop]; [intros r; exact I|].
  apply oct_bind; [apply oct_octet8|intros b]. cbv zeta. destruct (_ =? 0); [apply oct_ret|apply IH].
Qed.
Lemma asafe_pascal m : asafe (read_pascal_string m).
Proof.
  intros r Hr W. unfold read_pascal_string. destruct (m <? 2 * 8); [apply asafe_string; assumption|].
  pose proof (asafe_octet8 r Hr W) as O. pose proof (oct_octet8 r) as O8. destruct (read_octet8 r) as [[[r1 n] v]|e|] eqn:E8; auto.
  destruct O as (W1 & V1 & D1 & bs & E & L). destruct (negb (v * 8 =? m - 8)).
  - assert (F : rbits (mkReader (r_data r1) (r_pos r) (r_octet r1) (r_width r1)) = rbits r).
    { unfold rbits. cbn [r_width r_pos r_data r_octet]. rewrite V1, W, D1. reflexivity. }
    pose proof (asafe_string m (mkReader (r_data r1) (r_pos r) (r_octet r1) (r_width r1))) as S.
    rewrite F in S. cbn [r_width r_data] in S.
    assert (Hr' : rwf (mkReader (r_data r1) (r_pos r) (r_octet r1) (r_width r1))).
    { destruct Hr as (H1 & H2 & H3). unfold rwf. cbn [r_width r_pos r_data]. rewrite D1, V1. split; [lia|split; [exact H2|exact H3]]. }
    specialize (S Hr' V1). destruct (read_string m _) as [[[r2 n2] b]|e|]; auto.
    destruct S as (A1 & A2 & A3 & A4). split; [exact A1|]. split; [exact A2|]. split; [congruence|exact A4].
  - assert (Rp : asafe (rrepeat (Z.to_nat v) read_octet8)) by (apply asafe_of; [apply rsafe_repeat, rsafe_octet8|apply oct_repeat, oct_octet8]).
    specialize (Rp r1 W1 V1). unfold rbind. destruct (rrepeat (Z.to_nat v) read_octet8 r1) as [[[r2 n2] b]|e|]; auto. cbn [rtick rret].
    destruct Rp as (A1 & A2 & A3 & bs2 & A4 & A5). split; [exact A1|]. split; [exact A2|]. split; [congruence|].
    assert (N : n = 8). { unfold read_octet8 in E8. destruct (readBits 8 r) as [[? [|? ?]]|?|]; try discriminate. congruence. }
    exists (bs ++ bs2). rewrite E, A4, app_assoc, Zlen_app. split; [reflexivity|lia].
Qed.
Lemma oct_fb : oct readVersionAndFlag.
Proof. unfold readVersionAndFlag. repeat (apply oct_bind; [apply oct_uint; reflexivity|intros]). apply oct_ret. Qed.
Lemma hdlr_safe : asafe Hdlr_readData.
Proof.
  unfold Hdlr_readData.
  apply asafe_bind; [apply asafe_of; [apply rsafe_fb|apply oct_fb]|intros fb].
  apply asafe_bind; [apply asafe_of; [safe|apply oct_uint; reflexivity]|intros p].
  do 4 (apply asafe_bind; [apply asafe_of; [safe|apply oct_repeat, oct_uint; reflexivity]|intros]).
  apply asafe_bind; [apply asafe_of; [safe|apply oct_offset]|intros n].
  apply asafe_bind; [apply asafe_rcount; destruct (negb (p =? 0)); [apply asafe_pascal|apply asafe_string]|intros [nb name]].
  destruct (_ || _); [intros r _ _; exact I|].
  apply asafe_bind; [apply asafe_of; [safe|apply oct_repeat, oct_uint; reflexivity]|intros pad].
  apply asafe_of; [apply rsafe_ret|apply oct_ret].
Qed.

(** Readers that may report more than they consumed (iods, esds, avcC). *)
Definition rover {A} (m : R A) : Prop :=
  forall r, rwf r ->
  match m r with
  | Ok (r', n, _) => rwf r' /\ r_data r' = r_data r /\ exists bs, rbits r = bs ++ rbits r' /\ Zlen bs <= n
  | Throw _ => True
  | UB => False
  end.
Lemma rover_of {A} (m : R A) : rsafe m -> rover m.
Proof.
  intros H r Hr. specialize (H r Hr). destruct (m r) as [[[r' n] a]|e|]; auto.
  destruct H as (W & D & bs & E & L). split; [exact W|split; [exact D|]]. exists bs. split; [exact E|lia].
Qed.
Lemma rover_bind {A B} (m : R A) (f : A -> R B) : rover m -> (forall a, rover (f a)) -> rover (rbind m f).
Proof.
  intros Hm Hf r Hr. specialize (Hm r Hr). unfold rbind. destruct (m r) as [[[r1 n1] a]|e|]; auto.
  destruct Hm as (W1 & D1 & bs & E & L). specialize (Hf a r1 W1). destruct (f a r1) as [[[r2 n2] b]|e|]; auto.
  destruct Hf as (W2 & D2 & bs2 & E2 & L2). split; [exact W2|]. split; [congruence|].
  exists (bs ++ bs2). rewrite E, E2, app_assoc, Zlen_app. split; [reflexivity|lia].
Qed.
Lemma rover_bind_post {A B} (m : R A) (f : A -> R B) P : rover m -> rpost m P -> (forall a, P a -> rover (f a)) -> rover (rbind m f).
Proof.
  intros Hm Hp Hf r Hr. specialize (Hm r Hr). specialize (Hp r Hr). unfold rbind. destruct (m r) as [[[r1 n1] a]|e|]; auto.
  destruct Hm as (W1 & D1 & bs & E & L). specialize (Hf a Hp r1 W1). destruct (f a r1) as [[[r2 n2] b]|e|]; auto.
  destruct Hf as (W2 & D2 & bs2 & E2 & L2). split; [exact W2|]. split; [congruence|].
  exists (bs ++ bs2). rewrite E, E2, app_assoc, Zlen_app. split; [reflexivity|lia].
Qed.
Lemma rover_tick n : 0 <= n -> rover (rtick n).
Proof. intros H r Hr. cbn. split; [exact Hr|split; [reflexivity|]]. exists []. rewrite (@Zlen_nil bool). auto. Qed.
Lemma offset_post : rpost offset_to_end (fun n => 0 <= n).
Proof. intros r (H1 & H2 & H3). cbn. unfold Zlen. lia. Qed.
Lemma iods_safe : rover Iods_readData.
Proof.
  unfold Iods_readData. do 9 (apply rover_bind; [apply rover_of; safe|intros ?]).
  apply rover_bind; [apply rover_tick; unfold to_u; lia|intros _]. apply rover_of, rsafe_ret.
Qed.
Lemma avcc_safe : rover AVCDecoderConfiguration_readData.
Proof.
  unfold AVCDecoderConfiguration_readData. do 11 (apply rover_bind; [apply rover_of; safe|intros ?]).
  destruct (negb _); [apply rover_of; safe|].
  eapply rover_bind_post; [apply rover_of; safe|apply offset_post|cbv beta; intros n Hn].
  destruct (n <? 4); [|apply rover_of; safe]. apply rover_bind; [apply rover_tick; lia|intros; apply rover_of; safe].
Qed.
Lemma read_int_progress w s r : 0 < s -> rwf r ->
  match read_int w s r with Ok (r', _, _) => rwf r' /\ Zlen (rbits r') + s = Zlen (rbits r) | _ => True end.
Proof.
  intros Hs Hr. pose proof (rsafe_read_int w s Hs r Hr) as S. unfold read_int in *. destruct (s =? 0); [exact I|].
  destruct (readBits s r) as [[r' d]|e|]; auto. destruct d; destruct S as (W & D & bs & E & L); (split; [exact W|]); rewrite E, Zlen_app; lia.
Qed.
Lemma esds_loop_safe fuel : forall acc r, rwf r -> Zlen (rbits r) < 8 * Z.of_nat fuel ->
  match Esds_loop fuel acc r with
  | Ok (r', n, _) => rwf r' /\ r_data r' = r_data r /\ exists bs, rbits r = bs ++ rbits r' /\ Zlen bs <= n
  | Throw _ => True
  | UB => False
  end.
Proof.
  induction fuel as [|fuel IH]; intros acc r Hr L; [pose proof (Zlen_nonneg (rbits r)); lia|].
  cbn [Esds_loop].
  match goal with |- context[rbind ?m0 ?k0] => set (m := m0); set (k := k0) end. unfold rbind at 1.
  change (m r) with (Ok (r, 0, Zlen (r_data r) - Z.of_nat (r_pos r))). cbv beta iota. subst k. cbv beta.
  assert (Hn : 0 <= Zlen (r_data r) - Z.of_nat (r_pos r)) by (destruct Hr as (_ & Hp & _); unfold Zlen; lia).
  set (n := Zlen (r_data r) - Z.of_nat (r_pos r)) in *. destruct (n =? 0).
  { cbn. split; [exact Hr|split; [reflexivity|]]. exists []. rewrite (@Zlen_nil bool). split; [reflexivity|lia]. }
  unfold rbind at 1. pose proof (rsafe_read_int 8 8 ltac:(lia) r Hr) as S. pose proof (read_int_progress 8 8 r ltac:(lia) Hr) as P8.
  destruct (read_int 8 8 r) as [[[r1 n1] tag]|e|]; auto. destruct S as (W1 & D1 & bs & E & Lb). destruct P8 as (_ & P8).
  assert (K : forall m : R descriptor, rsafe m ->
    match (d <- m; Esds_loop fuel (acc ++ [d])) r1 with
    | Ok (r', n, _) => rwf r' /\ r_data r' = r_data r1 /\ exists bs, rbits r1 = bs ++ rbits r' /\ Zlen bs <= n
    | Throw _ => True | UB => False end).
  { clear m. intros m Hm. specialize (Hm r1 W1). unfold rbind. destruct (m r1) as [[[r2 n2] d]|e|]; auto.
    destruct Hm as (W2 & D2 & bs2 & E2 & L2). specialize (IH (acc ++ [d]) r2 W2).
    assert (L' : Zlen (rbits r2) < 8 * Z.of_nat fuel) by (pose proof (Zlen_nonneg bs2); rewrite E2, Zlen_app in P8; lia).
    specialize (IH L'). destruct (Esds_loop fuel (acc ++ [d]) r2) as [[[r3 n3] x]|e|]; auto.
    destruct IH as (W3 & D3 & bs3 & E3 & L3). split; [exact W3|split; [congruence|]].
    exists (bs2 ++ bs3). rewrite E2, E3, app_assoc, Zlen_app. split; [reflexivity|lia]. }
  assert (G : match (if tag =? ESDescrTag then d <- ESDescriptor_readData; Esds_loop fuel (acc ++ [d])
           else if tag =? DecoderConfigDescrTag then d <- DecoderConfigDescriptor_readData; Esds_loop fuel (acc ++ [d])
           else if tag =? DecSpecificInfoTag then d <- DecSpecificInfo_readData; Esds_loop fuel (acc ++ [d])
           else if tag =? SLConfigDescrTag then d <- SLConfigDescr_readData; Esds_loop fuel (acc ++ [d])
           else _ <- rtick (n * 8); rret acc) r1 with
    | Ok (r', n, _) => rwf r' /\ r_data r' = r_data r1 /\ exists bs, rbits r1 = bs ++ rbits r' /\ Zlen bs <= n
    | Throw _ => True | UB => False end).
  { destruct (tag =? ESDescrTag); [apply K; safe|]. destruct (tag =? DecoderConfigDescrTag); [apply K; safe|].
    destruct (tag =? DecSpecificInfoTag); [apply K; safe|]. destruct (tag =? SLConfigDescrTag); [apply K; safe|].
    cbn. split; [exact W1|split; [reflexivity|]]. exists []. rewrite (@Zlen_nil bool). split; [reflexivity|lia]. }
  match type of G with match ?x with _ => _ end => destruct x as [[[r2 n2] x2]|e|] end; auto.
  destruct G as (W2 & D2 & bs2 & E2 & L2). split; [exact W2|split; [congruence|]].
  exists (bs ++ bs2). rewrite E, E2, app_assoc, Zlen_app. split; [reflexivity|lia].
Qed.
Lemma esds_safe : rover Esds_readData.
Proof.
  intros r Hr. unfold Esds_readData.
  assert (F : forall m : R fullbox, rsafe m -> match (fb <- m; l <- Esds_loop (S (length (r_data r))) []; rret (mk_esds fb l)) r with
    | Ok (r', n, _) => rwf r' /\ r_data r' = r_data r /\ exists bs, rbits r = bs ++ rbits r' /\ Zlen bs <= n
    | Throw _ => True | UB => False end); [|apply F, rsafe_fb].
  intros m Hm. specialize (Hm r Hr). unfold rbind. destruct (m r) as [[[r1 n1] fb]|e|]; auto.
  destruct Hm as (W1 & D1 & bs & E & L).
  assert (Lf : Zlen (rbits r1) < 8 * Z.of_nat (S (length (r_data r)))).
  { rewrite (rbits_length r1 W1), D1. destruct W1 as (H1 & H2 & H3). unfold Zlen. lia. }
  pose proof (esds_loop_safe (S (length (r_data r))) [] r1 W1 Lf) as Hs.
  destruct (Esds_loop (S (length (r_data r))) [] r1) as [[[r2 n2] l]|e|]; auto. cbn [rret].
  destruct Hs as (W2 & D2 & bs2 & E2 & L2). split; [exact W2|split; [congruence|]].
  exists (bs ++ bs2). rewrite E, E2, app_assoc, Zlen_app. split; [reflexivity|lia].
Qed.

(** sgpd: safe unless an 'alst' group is read from a box whose version is not 1. *)
Lemma alst_entry_safe len wl : rsafe (AlstEntry_readData (Some len) wl).
Proof.
  unfold AlstEntry_readData. apply rsafe_bind; [safe|intros [bits [[[n c] f] offs]]]. cbv zeta.
  destruct (_ || _); [apply rsafe_throw|]. apply rsafe_bind; [safe|intros]. apply rsafe_ret.
Qed.
Lemma sgpd_body_safe fb g v : (list_eqb g gt_alst = true -> fb_version fb = 1) -> rsafe (
  let one := fb_version fb =? 1 in
  let len := if one then v else 0 in
  let idx := if one then 0 else v in
  let ndl := one && (len =? 0) in
  if gt_is_roll g then
    n <- read_uint 32 32; l <- rrepeat (Z.to_nat n) (RollDistance_readData ndl); rret (mk_sgpd fb g len idx l [] [] [])
  else if list_eqb g gt_alst then
    n <- read_uint 32 32; l <- rrepeat (Z.to_nat n) (AlstEntry_readData (if one then Some len else None) ndl);
    rret (mk_sgpd fb g len idx [] l [] [])
  else if list_eqb g gt_rap then
    n <- read_uint 32 32; l <- rrepeat (Z.to_nat n) (VraEntry_readData ndl); rret (mk_sgpd fb g len idx [] [] l [])
  else if list_eqb g gt_tele then
    n <- read_uint 32 32; l <- rrepeat (Z.to_nat n) (TeleEntry_readData ndl); rret (mk_sgpd fb g len idx [] [] [] l)
  else rret (mk_sgpd fb g len idx [] [] [] [])).
Proof.
  intros H. cbv zeta. set (wl := (_ =? 1) && _). clearbody wl. destruct (gt_is_roll g); [safe|].
  destruct (list_eqb g gt_alst); [|safe]. rewrite (H eq_refl). cbn [Z.eqb Pos.eqb].
  apply rsafe_bind; [safe|intros]. apply rsafe_bind; [apply rsafe_repeat, alst_entry_safe|intros]. safe.
Qed.

Lemma rbits_init data : rbits (reader_init data) = bits_of data. Proof. reflexivity. Qed.
Lemma data8 (data : list Z) : 8 <= Zlen data -> exists v f0 f1 f2 a b c d rest, data = v :: f0 :: f1 :: f2 :: a :: b :: c :: d :: rest.
Proof.
  unfold Zlen. intros H. do 8 (destruct data as [|? data]; [cbn in H; lia|]). repeat eexists.
Qed.
Lemma sgpd_safe data : bytes data -> ~ sgpd_reads_uninitialised data ->
  match Sgpd_readData (reader_init data) with
  | Ok (r', n, _) => rwf r' /\ r_data r' = data /\ exists bs, bits_of data = bs ++ rbits r' /\ Zlen bs = n
  | Throw _ => True
  | UB => False
  end.
Proof.
  intros Hb Hn. pose proof (rwf_init data Hb) as W. rewrite <- rbits_init.
  unfold Sgpd_readData. cbv zeta.
  destruct (Z_lt_ge_dec (Zlen data) 8) as [Hl|Hl].
  - (* too short: one of the first two reads throws *)
    unfold rbind. pose proof (rsafe_fb _ W) as S1. destruct (readVersionAndFlag (reader_init data)) as [[[r1 n1] fb]|e|] eqn:E1; auto.
    destruct S1 as (W1 & D1 & bs1 & B1 & L1). assert (N1 : n1 = 32).
    { clear -E1. unfold readVersionAndFlag, rbind in E1.
      repeat match type of E1 with context[read_uint 8 8 ?r] => let E := fresh "E" in destruct (read_uint 8 8 r) as [[[? ?] ?]|?|] eqn:E; [|discriminate|discriminate];
        unfold read_uint in E; cbn [Z.eqb] in E; destruct (readBits 8 r) as [[? ?]|?|]; try discriminate; injection E as <- <- <- end.
      cbn [rret] in E1. injection E1 as <- <- <-. reflexivity. }
    pose proof (rsafe_array4 r1 W1) as S2. destruct (read_array_uint8_4 r1) as [[[r2 n2] g]|e|] eqn:E2; auto. exfalso.
    destruct S2 as (W2 & D2 & bs2 & B2 & L2). assert (N2 : n2 = 32).
    { clear -E2. unfold read_array_uint8_4 in E2. cbn [rrepeat] in E2. unfold rbind in E2.
      repeat match type of E2 with context[read_uint 8 8 ?r] => let E := fresh "E" in destruct (read_uint 8 8 r) as [[[? ?] ?]|?|] eqn:E; [|discriminate|discriminate];
        unfold read_uint in E; cbn [Z.eqb] in E; destruct (readBits 8 r) as [[? ?]|?|]; try discriminate; injection E as <- <- <- end.
      cbn [rret] in E2. injection E2 as <- <- <-. reflexivity. }
    rewrite rbits_init, B2 in B1. apply (f_equal Zlen) in B1. rewrite !Zlen_app, Zlen_bits_of in B1. pose proof (Zlen_nonneg (rbits r2)). lia.
  - destruct (data8 data ltac:(lia)) as (v & f0 & f1 & f2 & a & b & c & d & rest & ->).
    set (fb := mk_fullbox v f0 f1 f2).
    assert (Hv : forall x, In x [v; f0; f1; f2; a; b; c; d] -> is_byte x).
    { intros x Hx. unfold bytes in Hb. rewrite Forall_forall in Hb. apply Hb. cbn in Hx |- *. tauto. }
    assert (H1 : fields_ok (fb_layout fb)) by (repeat constructor; cbn; apply Hv; cbn; tauto).
    destruct (renc_fb fb (bits_of (a :: b :: c :: d :: rest)) H1 _ W) as (r1 & E1 & W1 & B1 & D1).
    { rewrite rbits_init. cbn [fb_layout enc flat_map field_bits fb fb_version fb_f0 fb_f1 fb_f2]. rewrite !app_nil_r, <- !app_assoc. reflexivity. }
    rewrite (rbind_ok _ _ _ _ _ _ E1).
    destruct (read_array4_spec [a; b; c; d] (bits_of rest)) with (r := r1) as (r2 & E2 & W2 & B2 & D2); [|reflexivity|exact W1|exact B1|].
    { repeat constructor; apply Hv; cbn; tauto. }
    rewrite (rbind_ok _ _ _ _ _ _ E2).
    assert (A : list_eqb [a; b; c; d] gt_alst = true -> fb_version fb = 1).
    { intros E. cbn. destruct (Z.eq_dec v 1) as [->|Nv]; [reflexivity|]. exfalso. apply Hn. split; [exact E|exact Nv]. }
    match goal with |- context[rbind (read_uint 32 32) ?k r2] => assert (S3 : rsafe (rbind (read_uint 32 32) k)) end.
    { apply rsafe_bind; [safe|intros x]. exact (sgpd_body_safe fb [a; b; c; d] x A). }
    specialize (S3 r2 W2). match type of S3 with match ?x with _ => _ end => destruct x as [[[r3 n3] y]|e|] end; auto.
    destruct S3 as (W3 & D3 & bs3 & B3 & L3). split; [exact W3|]. split; [rewrite D3, D2, D1; reflexivity|].
    exists (bits_of [v; f0; f1; f2; a; b; c; d] ++ bs3). rewrite <- app_assoc, <- B3, B2. split; [reflexivity|].
    rewrite Zlen_app, Zlen_bits_of, L3.
    assert (Lf : Zlen (enc (fb_layout fb)) = 32) by (unfold fb_layout, enc; cbn [flat_map field_bits]; rewrite !Zlen_app, !Zlen_be; reflexivity).
    rewrite Lf, Zlen_bits_of. unfold Zlen. cbn [length]. lia.
Qed.

Lemma rsafe_rmap {A B} (f : A -> B) m : rsafe m -> rsafe (rmap f m).
Proof. intros H. apply rsafe_bind; [exact H|intros; apply rsafe_ret]. Qed.
Lemma rover_rmap {A B} (f : A -> B) m : rover m -> rover (rmap f m).
Proof. intros H. apply rover_bind; [exact H|intros; apply rover_of, rsafe_ret]. Qed.

(** Every class, every payload. *)
Lemma box_safe k type uw data : bytes data -> (k = K_sgpd -> ~ sgpd_reads_uninitialised data) ->
  match Box_readData k type uw (reader_init data) with
  | Ok (r', n, _) => rwf r' /\ r_data r' = data /\ exists bs, bits_of data = bs ++ rbits r' /\ Zlen bs <= n /\ (overreports k = false -> Zlen bs = n)
  | Throw _ => True
  | UB => False
  end.
Proof.
  intros Hb Hs. pose proof (rwf_init data Hb) as W.
  assert (G1 : forall m : R box, rsafe m ->
    match m (reader_init data) with
    | Ok (r', n, _) => rwf r' /\ r_data r' = data /\ exists bs, bits_of data = bs ++ rbits r' /\ Zlen bs <= n /\ (overreports k = false -> Zlen bs = n)
    | Throw _ => True | UB => False end).
  { intros m Hm. specialize (Hm _ W). destruct (m (reader_init data)) as [[[r' n] x]|e|]; auto.
    destruct Hm as (W' & D & bs & E & L). split; [exact W'|split; [exact D|]]. exists bs. split; [exact E|]. split; [lia|auto]. }
  assert (G2 : forall m : R box, rover m -> overreports k = true ->
    match m (reader_init data) with
    | Ok (r', n, _) => rwf r' /\ r_data r' = data /\ exists bs, bits_of data = bs ++ rbits r' /\ Zlen bs <= n /\ (overreports k = false -> Zlen bs = n)
    | Throw _ => True | UB => False end).
  { intros m Hm Ho. specialize (Hm _ W). destruct (m (reader_init data)) as [[[r' n] x]|e|]; auto.
    destruct Hm as (W' & D & bs & E & L). split; [exact W'|split; [exact D|]]. exists bs. split; [exact E|]. split; [lia|congruence]. }
  destruct k; cbn [Box_readData].
  - apply G1, rsafe_rmap. safe.
  - apply G1, rsafe_rmap, btrt_safe.
  - apply G1, rsafe_rmap, co64_safe.
  - apply G1, rsafe_rmap, colr_safe.
  - apply G1, rsafe_rmap, ctts_safe.
  - apply G1, rsafe_rmap, dops_safe.
  - apply G1, rsafe_rmap, data_safe.
  - apply G1, rsafe_rmap, dref_safe.
  - apply G1, rsafe_rmap, elst_safe.
  - apply G1, rsafe_rmap, emsg_safe.
  - apply G2; [apply rover_rmap, esds_safe|reflexivity].
  - apply G1, rsafe_rmap, fiel_safe.
  - apply G1, rsafe_rmap, free_safe.
  - apply G1, rsafe_rmap, mdat_safe.
  - apply G1, rsafe_rmap, skip_safe.
  - apply G1, rsafe_rmap, unsupported_safe.
  - apply G1, rsafe_rmap, ftyp_safe.
  - unfold rmap, rbind. pose proof (hdlr_safe _ W eq_refl) as H. destruct (Hdlr_readData (reader_init data)) as [[[r' n] x]|e|]; auto.
    cbn [rret]. destruct H as (W' & _ & D & bs & E & L). split; [exact W'|split; [exact D|]]. exists bs. split; [exact E|]. split; lia.
  - apply G2; [apply rover_rmap, iods_safe|reflexivity].
  - apply G1, rsafe_rmap, mdhd_safe.
  - apply G1, rsafe_rmap, mehd_safe.
  - apply G1, rsafe_rmap, meta_safe.
  - apply G1, rsafe_rmap, mfhd_safe.
  - apply G1, rsafe_rmap, mfro_safe.
  - apply G1, rsafe_rmap, mvhd_safe.
  - apply G1, rsafe_rmap, pasp_safe.
  - apply G1, rsafe_rmap, pssh_safe.
  - apply G1, rsafe_rmap, sbgp_safe.
  - apply G1, rsafe_rmap, sdtp_safe.
  - unfold rmap, rbind. pose proof (sgpd_safe data Hb (Hs eq_refl)) as H. destruct (Sgpd_readData (reader_init data)) as [[[r' n] x]|e|]; auto.
    cbn [rret]. destruct H as (W' & D & bs & E & L). split; [exact W'|split; [exact D|]]. exists bs. split; [exact E|]. split; lia.
  - apply G1, rsafe_rmap, sidx_safe.
  - apply G1, rsafe_rmap, smhd_safe.
  - apply G1, rsafe_rmap, stco_safe.
  - apply G1, rsafe_rmap, stsc_safe.
  - apply G1, rsafe_rmap, stsd_safe.
  - apply G1, rsafe_rmap, stss_safe.
  - apply G1, rsafe_rmap, stsz_safe.
  - apply G1, rsafe_rmap, stts_safe.
  - apply G1, rsafe_rmap, tfdt_safe.
  - apply G1, rsafe_rmap, tfhd_safe.
  - apply G1, rsafe_rmap, tfra_safe.
  - apply G1, rsafe_rmap, tkhd_safe.
  - apply G1, rsafe_rmap, trex_safe.
  - apply G1, rsafe_rmap, trun_safe.
  - apply G1, rsafe_rmap, url_safe.
  - apply G1, rsafe_rmap, urn_safe.
  - apply G1, rsafe_rmap, vmhd_safe.
  - apply G1, rsafe_rmap, vpcc_safe.
  - apply G1, rsafe_rmap, av1c_safe.
  - apply G2; [apply rover_rmap, avcc_safe|reflexivity].
  - apply G1, rsafe_rmap, visual_entry_safe.
  - apply G1, rsafe_rmap, audio_entry_safe.
Qed.

