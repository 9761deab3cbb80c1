(** The text of a box shows its fields. *)
From Coq Require Import ZifyBool.
From Verif Require Import Base BitIO BitFacts BitIOProofs Boxes Box TimeSpec Time TimeProofs Print PrintSpec PrintInj TextSpec BoxRead RegistryProofs.
From Coq Require Import Ascii String List.
Import ListNotations.
Open Scope string_scope.
Open Scope Z_scope.
Open Scope list_scope.

(** * Numbers *)
Lemma hex_digit_is base d : 2 <= base <= 16 -> 0 <= d < base -> is_digit base (hex_digit d) /\ digit (hex_digit d) = d.
Proof. intros B H. unfold is_digit, digit, hex_digit. destruct (Z.ltb_spec d 10); [destruct (Z.ltb_spec (48 + d) 58)|destruct (Z.ltb_spec (87 + d) 58)]; lia. Qed.
Lemma digits_is base fuel : 2 <= base <= 16 -> forall n acc, 0 <= n -> Forall (is_digit base) acc -> Forall (is_digit base) (digits base fuel n acc).
Proof.
  intros B. induction fuel as [|f IH]; intros n acc N A; cbn [digits]; [exact A|].
  destruct (Z.ltb_spec n base) as [L|L]; [constructor; [apply hex_digit_is; lia|exact A]|]. apply IH; [apply Z.div_pos; lia|]. constructor; [|exact A].
  apply hex_digit_is; [exact B|]. apply Z.mod_pos_bound. lia.
Qed.
(** The first digit of a positive number is not zero. *)
Lemma digits_head base fuel : 2 <= base <= 16 -> forall n acc, 0 < n < base ^ Z.of_nat fuel -> hd 0 (digits base fuel n acc) <> 48.
Proof.
  intros B. induction fuel as [|f IH]; intros n acc N; [cbn in N; lia|]. cbn [digits]. rewrite Nat2Z.inj_succ, Z.pow_succ_r in N by lia.
  destruct (Z.ltb_spec n base) as [L|L].
  - cbn [hd]. unfold hex_digit. destruct (Z.ltb_spec n 10); lia.
  - apply IH. split; [apply Z.div_str_pos; lia|apply Z.div_lt_upper_bound; lia].
Qed.
Lemma number_of_value base l : number_of base l = PrintInj.value base l.
Proof. reflexivity. Qed.
Lemma number_ok base n : 2 <= base <= 16 -> 0 <= n -> numeral base (number base n) /\ number_of base (number base n) = n.
Proof.
  intros B N. destruct (number_facts base n B N) as (_ & V & E). split; [|rewrite number_of_value; exact V].
  split; [exact E|]. split; [apply digits_is; [exact B|exact N|constructor]|].
  intros H. destruct (Z.eq_dec n 0) as [->|Z]; [unfold number; cbn [digits]; destruct (Z.ltb_spec 0 base); [reflexivity|lia]|].
  exfalso. revert H. unfold number. apply digits_head; [exact B|]. split; [lia|].
  rewrite Nat2Z.inj_succ, Z2Nat.id by apply Z.log2_nonneg. pose proof (Z.log2_spec n ltac:(lia)) as [_ H].
  eapply Z.lt_le_trans; [exact H|]. apply Z.pow_le_mono_l. lia.
Qed.
Lemma dec_ok n : printed (Dec n) (dec n).
Proof.
  replace (dec n) with (sign n ++ number 10 (Z.abs n)).
  - destruct (number_ok 10 (Z.abs n) ltac:(lia) ltac:(lia)) as (A & B). apply P_dec; assumption.
  - unfold dec, sign. destruct (Z.ltb_spec n 0); [rewrite Z.abs_neq by lia; reflexivity|rewrite Z.abs_eq by lia; reflexivity].
Qed.
Lemma hex_ok n : printed (Hex n) (hex n).
Proof.
  replace (hex n) with (sign n ++ characters "0x" ++ number 16 (Z.abs n)).
  - destruct (number_ok 16 (Z.abs n) ltac:(lia) ltac:(lia)) as (A & B). apply P_hex; assumption.
  - unfold hex, sign. destruct (Z.ltb_spec n 0); [rewrite Z.abs_neq by lia; reflexivity|rewrite Z.abs_eq by lia; reflexivity].
Qed.
Lemma number_of_app base a b : number_of base (a ++ b) = number_of base a * base ^ Zlen b + number_of base b.
Proof.
  assert (V : forall l a, fold_left (fun v c => base * v + digit c) l a = a * base ^ Zlen l + number_of base l).
  { induction l as [|c l IH]; intros v; [unfold number_of; cbn [fold_left]; rewrite Zlen_nil; lia|]. unfold number_of. cbn [fold_left]. rewrite IH, (IH (base * 0 + _)), Zlen_cons.
    pose proof (Zlen_nonneg l). rewrite Z.pow_add_r, Z.pow_1_r by lia. ring. }
  unfold number_of at 1. rewrite fold_left_app. apply V.
Qed.
Lemma hex2_ok x : 0 <= x < 256 -> length (hex2 x) = 2%nat /\ Forall (is_digit 16) (hex2 x) /\ number_of 16 (hex2 x) = x.
Proof.
  intros H. assert (D : 0 <= x / 16 < 16) by (split; [apply Z.div_pos; lia|apply Z.div_lt_upper_bound; lia]). pose proof (Z.mod_pos_bound x 16 ltac:(lia)) as M.
  destruct (hex_digit_is 16 _ ltac:(lia) D) as (A & A'). destruct (hex_digit_is 16 _ ltac:(lia) M) as (C & C').
  split; [reflexivity|]. split; [repeat (apply Forall_cons; [assumption|]); apply Forall_nil|]. unfold number_of, hex2. cbn [fold_left]. rewrite A', C'. lia.
Qed.
Lemma decimal_ok n : forall v, 0 <= v -> length (decimal n v) = n /\ Forall (is_digit 10) (decimal n v) /\ number_of 10 (decimal n v) = v mod 10 ^ Z.of_nat n.
Proof.
  induction n as [|n IH]; intros v H.
  - split; [reflexivity|]. split; [constructor|]. change (10 ^ Z.of_nat 0) with 1. rewrite Z.mod_1_r. reflexivity.
  - cbn [decimal]. destruct (IH (v / 10) ltac:(apply Z.div_pos; lia)) as (A & B & C). pose proof (Z.mod_pos_bound v 10 ltac:(lia)) as M. split; [rewrite app_length, A; cbn [length]; lia|]. split.
    + apply Forall_app. split; [exact B|]. constructor; [|constructor]. unfold is_digit, digit. destruct (Z.ltb_spec (48 + v mod 10) 58); lia.
    + rewrite number_of_app, C. change (Zlen [48 + v mod 10]) with 1. unfold number_of. cbn [fold_left]. rewrite Nat2Z.inj_succ, Z.pow_succ_r by lia.
      rewrite Z.rem_mul_r by (try apply Z.pow_pos_nonneg; lia). unfold digit. destruct (Z.ltb_spec (48 + v mod 10) 58); lia.
Qed.
Lemma fixed_ok n d places : 0 < d -> printed (Quotient n d places) (fixed places d n).
Proof.
  intros D. unfold fixed. set (P := 10 ^ Z.of_nat places). assert (P0 : 0 < P) by (apply Z.pow_pos_nonneg; lia).
  set (m := Z.abs n * P). cbv zeta.
  set (q' := if (2 * (m mod d) >? d) || ((2 * (m mod d) =? d) && Z.odd (m / d)) then m / d + 1 else m / d).
  assert (Q0 : 0 <= m / d) by (apply Z.div_pos; [unfold m; lia|lia]).
  assert (Q : 0 <= q' /\ (2 * Z.abs (q' * d - m) < d \/ (2 * Z.abs (q' * d - m) = d /\ Z.even q' = true))).
  { unfold q'. pose proof (Z.div_mod m d ltac:(lia)) as E. pose proof (Z.mod_pos_bound m d D) as M.
    destruct ((2 * (m mod d) >? d) || ((2 * (m mod d) =? d) && Z.odd (m / d))) eqn:C; (split; [lia|]).
    - replace ((m / d + 1) * d - m) with (d - m mod d) by lia. apply orb_true_iff in C as [C|C]; [lia|]. apply andb_prop in C as [C O]. right. split; [lia|].
      rewrite Z.add_1_r, Z.even_succ. exact O.
    - replace (m / d * d - m) with (- (m mod d)) by lia. apply orb_false_iff in C as [C C']. apply andb_false_iff in C' as [C'|C']; [lia|].
      destruct (Z.eq_dec (2 * (m mod d)) d) as [X|X]; [right; split; [lia|]; rewrite <- Z.negb_odd, C'; reflexivity|left; lia]. }
  destruct Q as (Q1 & Q2). destruct (number_ok 10 (q' / P) ltac:(lia) ltac:(apply Z.div_pos; lia)) as (A1 & A2). destruct (decimal_ok places q' Q1) as (B1 & B2 & B3).
  change (if n <? 0 then [45] else []) with (sign n). change [46] with (characters ".").
  apply P_quotient; [exact A1|exact B1|exact B2|]. cbv zeta.
  assert (V : number_of 10 (number 10 (q' / P) ++ decimal places q') = q').
  { rewrite number_of_app, A2, B3. unfold Zlen. rewrite B1. fold P. pose proof (Z.div_mod q' P ltac:(lia)). lia. }
  rewrite V. exact Q2.
Qed.

(** * How a value is written *)
Definition date (t : Z) : list Z := match format_epoch_19040101 t with Ok s => s | _ => [] end.
Fixpoint render (v : TextSpec.value) : list Z :=
  match v with
  | Dec n => dec n
  | Hex n => hex n
  | Bool b => boolean b
  | Word w => w
  | Octets l => flat_map hex2 l
  | Flags fb => lit "0x" ++ hex2 (fb_f0 fb) ++ hex2 (fb_f1 fb) ++ hex2 (fb_f2 fb)
  | Quotient n d places => fixed places d n
  | Time t => date t
  | Quoted v => lit """" ++ render v ++ lit """"
  | Items sep l => lit "[" ++ join (lit sep) (map render l) ++ lit "]"
  | Fields l => lit "{" ++ join (lit " ") (map (fun f => lit (fst f) ++ lit "=" ++ render (snd f)) l) ++ lit "}"
  end.
Definition rendered (l : list field) : list Z := join (lit " ") (map (fun f => lit (fst f) ++ lit "=" ++ render (snd f)) l).

(** Denominators are positive. *)
Fixpoint sound (v : TextSpec.value) : Prop :=
  match v with
  | Quotient _ d _ => 0 < d
  | Quoted v => sound v
  | Items _ l => (fix all l := match l with [] => True | x :: r => sound x /\ all r end) l
  | Fields l => (fix all (l : list (string * TextSpec.value)) := match l with [] => True | x :: r => sound (snd x) /\ all r end) l
  | _ => True
  end.
Lemma join_separated sep l : join sep l = separated sep l.
Proof. destruct l as [|x r]; [reflexivity|]. apply join_cons. Qed.
Lemma named_map (l : list field) : named (map fst l) (map (fun f => render (snd f)) l) = map (fun f => lit (fst f) ++ lit "=" ++ render (snd f)) l.
Proof. unfold named. induction l as [|x l IH]; [reflexivity|]. cbn [map combine fst snd]. rewrite IH. reflexivity. Qed.
Lemma render_printed : forall v, sound v -> printed v (render v).
Proof.
  fix IH 1. intros v S. destruct v as [n|n|b|w|l|fb|n d places|t|v|sep l|l]; cbn [render].
  - apply dec_ok.
  - apply hex_ok.
  - destruct b; constructor.
  - constructor.
  - rewrite flat_map_concat_map. apply P_octets. intros B. clear IH S. induction l as [|x l IHl]; cbn [map]; [constructor|]. apply Forall_cons_iff in B as [B1 B2].
    constructor; [apply hex2_ok; exact B1|apply IHl, B2].
  - apply P_flags. intros B. apply Forall_cons_iff in B as [B0 B]. apply Forall_cons_iff in B as [B1 B]. apply Forall_cons_iff in B as [B2 _].
    destruct (hex2_ok _ B0) as (L0 & D0 & V0). destruct (hex2_ok _ B1) as (L1 & D1 & V1). destruct (hex2_ok _ B2) as (L2 & D2 & V2).
    split; [reflexivity|]. split; [repeat (apply Forall_app; split); assumption|]. rewrite !number_of_app, V0, V1, V2.
    rewrite Zlen_app. unfold Zlen. rewrite L1, L2. change (16 ^ (Z.of_nat 2 + Z.of_nat 2)) with 65536. change (16 ^ Z.of_nat 2) with 256. lia.
  - apply fixed_ok. exact S.
  - apply P_time; intros T; unfold date; [rewrite (format_ok t T)|rewrite (format_far t T)]; reflexivity.
  - apply P_quoted. apply IH. exact S.
  - rewrite join_separated. apply P_items. cbn [sound] in S. induction l as [|x l IHl]; cbn [map]; [constructor|]. destruct S as (S1 & S2). constructor; [apply IH; exact S1|apply IHl; exact S2].
  - rewrite join_separated, <- named_map. apply P_fields. cbn [sound] in S. induction l as [|x l IHl]; cbn [map]; [constructor|]. destruct S as (S1 & S2). constructor; [apply IH; exact S1|apply IHl; exact S2].
Qed.
Lemma rendered_text l : Forall (fun f => sound (snd f)) l -> text_of l (rendered l).
Proof.
  intros S. exists (map (fun f => render (snd f)) l). split.
  - induction S as [|x l S1 _ IH]; cbn [map]; constructor; [apply render_printed; exact S1|exact IH].
  - rewrite named_map. unfold rendered. apply join_separated.
Qed.

(** * Lists and flags *)
Lemma render_list {A} (f : A -> TextSpec.value) (g : A -> list Z) l : (forall a, render (f a) = g a) -> render (list_of f l) = lit "[" ++ texts g l ++ lit "]".
Proof. intros H. unfold list_of. cbn [render]. rewrite map_map. unfold texts. do 3 f_equal. apply map_ext. exact H. Qed.
Lemma render_hexs l : render (hex_list l) = lit "[" ++ hexs l ++ lit "]".
Proof. apply (render_list Hex hex). reflexivity. Qed.
Lemma render_decs l : render (list_of Dec l) = lit "[" ++ decs l ++ lit "]".
Proof. apply (render_list Dec dec). reflexivity. Qed.
Lemma check_bit fb k : 0 <= k -> checkFlag fb (2 ^ k) = has_flag fb k.
Proof.
  intros K. unfold has_flag. destruct (checkFlag fb (2 ^ k)) eqn:C.
  - apply check_flag in C as (j & A & B); [|apply Z.pow_nonneg; lia]. rewrite Z.pow2_bits_eqb in B by exact K. apply Z.eqb_eq in B. subst j. symmetry. exact A.
  - destruct (Z.testbit (getFlags fb) k) eqn:T; [|reflexivity]. exfalso. assert (X : checkFlag fb (2 ^ k) = true); [|congruence].
    apply check_flag; [apply Z.pow_nonneg; lia|]. exists k. split; [exact T|]. rewrite Z.pow2_bits_eqb by exact K. apply Z.eqb_refl.
Qed.
Lemma says_eqb w s : list_eqb w (lit s) = says w s.
Proof.
  unfold says. destruct (list_eq_dec Z.eq_dec w (characters s)) as [E|N].
  - rewrite E. apply list_eqb_eq. reflexivity.
  - destruct (list_eqb w (lit s)) eqn:E; [|reflexivity]. apply list_eqb_eq in E. contradiction.
Qed.

(** * Entries *)
Lemma render_count {A} (l : list A) : render (count l) = dec (Zlen l).
Proof. reflexivity. Qed.
Ltac spread := cbn [render rendered map join app fst snd optional text full]; rewrite ?render_hexs, ?render_decs, ?render_count; rewrite <- ?app_assoc.
Lemma ctts_entry_text e : render (ctts_value e) = CttsEntry_toString e.
Proof. unfold ctts_value, CttsEntry_toString. spread. reflexivity. Qed.
Lemma elst_entry_text e : render (elst_value e) = ElstEntry_toString e.
Proof. unfold elst_value, ElstEntry_toString. spread. reflexivity. Qed.
Lemma brand_text w : render (brand_value w) = lit "{CompatibleBrand=""" ++ w ++ lit """}".
Proof. unfold brand_value. spread. reflexivity. Qed.
Lemma sbgp_entry_text e : render (sbgp_value e) = SbgpEntry_toString e.
Proof. unfold sbgp_value, SbgpEntry_toString. spread. reflexivity. Qed.
Lemma sdtp_sample_text e : render (sdtp_value e) = SdtpSample_toString e.
Proof. unfold sdtp_value, SdtpSample_toString. spread. reflexivity. Qed.
Lemma roll_text e : render (roll_value e) = RollDistance_toString e.
Proof. unfold roll_value, RollDistance_toString. destruct (rd_with_length e); spread; reflexivity. Qed.
Lemma opt_text e : render (opt_value e) = AlstOpt_toString e.
Proof. unfold opt_value, AlstOpt_toString. spread. reflexivity. Qed.
Lemma alst_entry_text e : render (alst_value e) = AlstEntry_toString e.
Proof.
  unfold alst_value, AlstEntry_toString, entry_open. destruct (alste_with_length e); spread; rewrite (render_list opt_value _ _ opt_text); rewrite <- ?app_assoc; reflexivity.
Qed.
Lemma rap_entry_text e : render (rap_value e) = VraEntry_toString e.
Proof. unfold rap_value, VraEntry_toString, entry_open. destruct (vra_with_length e); spread; reflexivity. Qed.
Lemma tele_entry_text e : render (tele_value e) = TeleEntry_toString e.
Proof. unfold tele_value, TeleEntry_toString, entry_open. destruct (tele_with_length e); spread; reflexivity. Qed.
Lemma sidx_ref_text e : render (sidx_value e) = SidxReference_toString e.
Proof. unfold sidx_value, SidxReference_toString. spread. reflexivity. Qed.
Lemma stsc_entry_text e : render (stsc_value e) = StscEntry_toString e.
Proof. unfold stsc_value, StscEntry_toString. spread. reflexivity. Qed.
Lemma stts_entry_text e : render (stts_value e) = SttsEntry_toString e.
Proof. unfold stts_value, SttsEntry_toString. spread. reflexivity. Qed.
Lemma tfra_entry_text e : render (tfra_value e) = TfraEntry_toString e.
Proof. unfold tfra_value, TfraEntry_toString. spread. reflexivity. Qed.
Lemma trun_entry_text fb e : render (trun_value fb e) = TrunEntry_toString fb e.
Proof.
  unfold trun_value, TrunEntry_toString. change 256 with (2 ^ 8). change 512 with (2 ^ 9). change 1024 with (2 ^ 10). change 2048 with (2 ^ 11).
  rewrite !check_bit by lia. destruct (has_flag fb 8), (has_flag fb 9), (has_flag fb 10), (has_flag fb 11); spread; reflexivity.
Qed.
Lemma nal_text s : render (nal_value s) = AVCParameterSet_toString s.
Proof. unfold nal_value, AVCParameterSet_toString. spread. reflexivity. Qed.
Lemma descriptor_text d : render (descriptor_value d) = Descriptor_toString d.
Proof.
  destruct d as [f sds subs|f sds subs|l|l]; cbn [descriptor_value Descriptor_toString].
  - unfold ESDescriptor_getDataSize, to_u. destruct (es_stream_dependence_flag f), (es_url_flag f), (es_ocr_stream_flag f); spread; reflexivity.
  - spread. reflexivity.
  - unfold to_u. spread. reflexivity.
  - unfold to_u. spread. reflexivity.
Qed.

(** * Boxes *)
Lemma dated (f : list Z -> list Z -> list Z) a b t : with_times a b f = Ok t -> t = f (date a) (date b).
Proof.
  unfold with_times, date. destruct (format_epoch_19040101 a) as [x|?|]; [|discriminate|discriminate].
  destruct (format_epoch_19040101 b) as [y|?|]; [|discriminate|discriminate]. intros E. injection E as <-. reflexivity.
Qed.
Ltac literals := repeat match goal with |- context [lit ?s] => let v := eval vm_compute in (lit s) in change (lit s) with v end; cbn [app].
Ltac entries := rewrite ?(render_list ctts_value _ _ ctts_entry_text), ?(render_list elst_value _ _ elst_entry_text), ?(render_list brand_value _ _ brand_text),
  ?(render_list sbgp_value _ _ sbgp_entry_text), ?(render_list sdtp_value _ _ sdtp_sample_text), ?(render_list roll_value _ _ roll_text), ?(render_list alst_value _ _ alst_entry_text),
  ?(render_list rap_value _ _ rap_entry_text), ?(render_list tele_value _ _ tele_entry_text), ?(render_list sidx_value _ _ sidx_ref_text), ?(render_list stsc_value _ _ stsc_entry_text),
  ?(render_list stts_value _ _ stts_entry_text), ?(render_list tfra_value _ _ tfra_entry_text), ?(render_list nal_value _ _ nal_text), ?(render_list descriptor_value _ _ descriptor_text).
Ltac shown := spread; entries; rewrite <- ?app_assoc, ?app_nil_r; literals; reflexivity.
Ltac flags := repeat match goal with |- context [checkFlag ?fb ?n] => lazymatch n with 2 ^ _ => fail | _ => idtac end; let k := eval compute in (Z.log2 n) in change (checkFlag fb n) with (checkFlag fb (2 ^ k)); rewrite (check_bit fb k) by lia end.
Lemma colr_shown x : Colr_toString x = rendered (fields_of (B_colr x)).
Proof.
  unfold Colr_toString. cbn [fields_of]. rewrite !says_eqb. destruct (says (colr_colour_type x) "nclx"); [shown|].
  destruct (says (colr_colour_type x) "rICC" || says (colr_colour_type x) "prof"); shown.
Qed.
Lemma dOps_shown x : DOps_toString x = rendered (fields_of (B_dOps x)).
Proof. unfold DOps_toString. cbn [fields_of]. destruct (dops_channel_mapping_family x =? 0); cbn [negb]; shown. Qed.
Lemma data_type_shown t : data_type_to_string t = characters (data_type_name t).
Proof.
  assert (C : t = 0 \/ t = 1 \/ t = 2 \/ t = 3 \/ t = 14 \/ t = 21 \/ t = 22 \/ t = 23 \/
    (data_type_to_string t = [] /\ data_type_name t = "")).
  { unfold data_type_to_string. destruct (Z.eqb_spec t 0); [tauto|]. destruct (Z.eqb_spec t 1); [tauto|]. destruct (Z.eqb_spec t 2); [tauto|]. destruct (Z.eqb_spec t 3); [tauto|].
    destruct (Z.eqb_spec t 14); [tauto|]. destruct (Z.eqb_spec t 21); [tauto|]. destruct (Z.eqb_spec t 22); [tauto|]. destruct (Z.eqb_spec t 23); [tauto|].
    do 8 right. split; [reflexivity|]. destruct t as [|p|p]; [contradiction| |reflexivity].
    do 5 (try (destruct p as [p|p|]; try reflexivity; try contradiction)). }
  repeat (destruct C as [->|C]; [reflexivity|]). destruct C as [-> ->]. reflexivity.
Qed.
Lemma data_shown x : Data_toString x = rendered (fields_of (B_data x)).
Proof. unfold Data_toString. cbn [fields_of]. rewrite data_type_shown. destruct (data_type x =? 1); shown. Qed.
Lemma emsg_shown x : Emsg_toString x = rendered (fields_of (B_emsg x)).
Proof. unfold Emsg_toString, version_flags, v0. cbn [fields_of]. unfold is_version_0. destruct (fb_version (emsg_fb x) =? 0); shown. Qed.
Lemma render_kids l : render (Items " " (map (fun k => Quoted (Octets k)) l)) = lit "[" ++ join (lit " ") (map (fun k => lit """" ++ flat_map hex2 k ++ lit """") l) ++ lit "]".
Proof. cbn [render]. rewrite map_map. reflexivity. Qed.
Lemma pssh_shown x : Pssh_toString x = rendered (fields_of (B_pssh x)).
Proof.
  unfold Pssh_toString, version_flags, v0. cbn [fields_of]. unfold is_version_0. destruct (fb_version (pssh_fb x) =? 0); cbn [negb]; [shown|].
  unfold rendered. cbn [optional full app map fst snd]. rewrite render_kids. shown.
Qed.
Lemma sbgp_shown x : Sbgp_toString x = rendered (fields_of (B_sbgp x)).
Proof. unfold Sbgp_toString, version_flags, v0. cbn [fields_of]. unfold is_version_0. destruct (fb_version (sbgp_fb x) =? 0); cbn [negb]; shown. Qed.
Lemma sgpd_shown x : Sgpd_toString x = rendered (fields_of (B_sgpd x)).
Proof.
  unfold Sgpd_toString, version_flags, gt_is_roll. change gt_roll with (lit "roll"). change gt_prol with (lit "prol"). change gt_alst with (lit "alst"). change gt_rap with (lit "rap ").
  change gt_tele with (lit "tele"). cbn [fields_of]. rewrite !says_eqb. cbv zeta. unfold group.
  destruct (fb_version (sgpd_fb x) =? 1); cbn [andb].
  - destruct (sgpd_default_length x =? 0);
    (destruct (says (sgpd_grouping_type x) "roll" || says (sgpd_grouping_type x) "prol"); [shown|]; destruct (says (sgpd_grouping_type x) "alst"); [shown|];
     destruct (says (sgpd_grouping_type x) "rap "); [shown|]; destruct (says (sgpd_grouping_type x) "tele"); shown).
  - destruct (says (sgpd_grouping_type x) "roll" || says (sgpd_grouping_type x) "prol"); [shown|]; destruct (says (sgpd_grouping_type x) "alst"); [shown|];
    destruct (says (sgpd_grouping_type x) "rap "); [shown|]; destruct (says (sgpd_grouping_type x) "tele"); shown.
Qed.
Lemma tfhd_shown x : Tfhd_toString x = rendered (fields_of (B_tfhd x)).
Proof.
  unfold Tfhd_toString, version_flags. cbn [fields_of]. cbv zeta. flags.
  destruct (has_flag (tfhd_fb x) 0), (has_flag (tfhd_fb x) 1), (has_flag (tfhd_fb x) 3), (has_flag (tfhd_fb x) 4), (has_flag (tfhd_fb x) 5);
    spread; rewrite <- ?app_assoc, ?app_nil_r; literals; reflexivity.
Qed.
Lemma trun_shown x : Trun_toString x = rendered (fields_of (B_trun x)).
Proof.
  unfold Trun_toString, version_flags. cbn [fields_of]. flags.
  assert (E : render (list_of (trun_value (trun_fb x)) (trun_entries x)) = lit "[" ++ texts (TrunEntry_toString (trun_fb x)) (trun_entries x) ++ lit "]") by (apply render_list, trun_entry_text).
  destruct (has_flag (trun_fb x) 0), (has_flag (trun_fb x) 2); spread; rewrite E; rewrite <- ?app_assoc, ?app_nil_r; literals; reflexivity.
Qed.
Lemma url_shown x : Url_toString x = rendered (fields_of (B_url x)).
Proof. unfold Url_toString, version_flags. cbn [fields_of]. flags. destruct (has_flag (url_fb x) 0); cbn [negb]; shown. Qed.
Lemma urn_shown x : Urn_toString x = rendered (fields_of (B_urn x)).
Proof. unfold Urn_toString, version_flags. cbn [fields_of]. flags. destruct (has_flag (urn_fb x) 0); cbn [negb]; shown. Qed.
Lemma av1C_shown x : AV1CodecConfiguration_toString x = rendered (fields_of (B_av1C x)).
Proof. unfold AV1CodecConfiguration_toString. cbn [fields_of]. destruct (av1c_initial_presentation_delay_present x); shown. Qed.
Lemma avcC_shown x : AVCDecoderConfiguration_toString x = rendered (fields_of (B_avcC x)).
Proof. unfold AVCDecoderConfiguration_toString. cbn [fields_of]. destruct (is_avc_high_profile (avcc_profile x) && avcc_high_profile_fields_enabled x); shown. Qed.
Lemma compressor_ok l : firstn (Z.to_nat (Z.min (nth 0 l 0) 31)) (tl l) = compressor l.
Proof. unfold compressor. destruct l; reflexivity. Qed.
Lemma visual_shown x : VisualSampleEntry_toString x = rendered (fields_of (B_visual x)).
Proof. unfold VisualSampleEntry_toString. cbn [fields_of]. cbv zeta. rewrite compressor_ok. shown. Qed.
Lemma audio_shown x : AudioSampleEntry_toString x = rendered (fields_of (B_audio x)).
Proof. unfold AudioSampleEntry_toString. cbn [fields_of]. destruct (ase_under_wave x); [shown|]. destruct (ase_is_quick_time_compatible x); shown. Qed.
Lemma box_text b t : Box_toStringOnlyData b = Ok t -> t = rendered (fields_of b).
Proof.
  destruct b as [|x|x|x|x|x|x|x|x|x|x|x|x|x|x|x|x|x|x|x|x|x|x|x|x|x|x|x|x|x|x|x|x|x|x|x|x|x|x|x|x|x|x|x|x|x|x|x|x|x|x|x]; cbn [Box_toStringOnlyData].
  all: try (cbn [fields_of]; unfold Mdhd_toString, Mvhd_toString, Tkhd_toString; intros E; apply dated in E; subst t; unfold version_flags; shown).
  all: intros E; injection E as <-.
  all: lazymatch goal with
    | |- Colr_toString _ = _ => apply colr_shown
    | |- DOps_toString _ = _ => apply dOps_shown
    | |- Data_toString _ = _ => apply data_shown
    | |- Emsg_toString _ = _ => apply emsg_shown
    | |- Pssh_toString _ = _ => apply pssh_shown
    | |- Sbgp_toString _ = _ => apply sbgp_shown
    | |- Sgpd_toString _ = _ => apply sgpd_shown
    | |- Tfhd_toString _ = _ => apply tfhd_shown
    | |- Trun_toString _ = _ => apply trun_shown
    | |- Url_toString _ = _ => apply url_shown
    | |- Urn_toString _ = _ => apply urn_shown
    | |- AV1CodecConfiguration_toString _ = _ => apply av1C_shown
    | |- AVCDecoderConfiguration_toString _ = _ => apply avcC_shown
    | |- VisualSampleEntry_toString _ = _ => apply visual_shown
    | |- AudioSampleEntry_toString _ = _ => apply audio_shown
    | _ => idtac end.
  all: cbn [fields_of]; try reflexivity.
  all: cbv beta delta [Btrt_toString Co64_toString Ctts_toString Dref_toString Stsd_toString Elst_toString Esds_toString Fiel_toString Raw_toString Unsupported_toString
    Ftyp_toString Hdlr_toString Iods_toString Mehd_toString Mfhd_toString Mfro_toString PixelAspectRatio_toString Sdtp_toString Sidx_toString Smhd_toString Stco_toString Stsc_toString Stss_toString
    Stsz_toString Stts_toString Tfdt_toString Tfra_toString Trex_toString Vmhd_toString VPCodecConfiguration_toString version_flags]; shown.
Qed.
