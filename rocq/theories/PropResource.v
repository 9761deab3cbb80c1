(** The resources of mp4-muxer: C65. *)
From Verif Require Import Base BitIOProofs Boxes Box BoxRead BoxSpec BoxTree TreeSpec Track Writers MovieSpec FileLemmas Muxer MuxerSpec Resource PropMuxer.
From Coq Require Import Ascii String List Lia.
Import ListNotations.
Open Scope Z_scope.
Open Scope list_scope.

(** * Specification *)
(** [c] is a digit of value [d]: 0-9, a-f, A-F. *)
Definition digit_of (c d : Z) : Prop := (0 <= d <= 9 /\ c = 48 + d) \/ (10 <= d <= 15 /\ (c = 97 + (d - 10) \/ c = 65 + (d - 10))).
(** The text spells the octets in hexadecimal, two digits each. *)
Fixpoint spells (text data : list Z) : Prop :=
  match text, data with
  | [], [] => True
  | h :: l :: text, b :: data => digit_of h (b / 16) /\ digit_of l (b mod 16) /\ spells text data
  | _, _ => False
  end.
(** A line that describes a resource: the timestamp, the number of octets, the octets in hexadecimal, and, if the file has this column, "true" for key frames and
    anything else for others; without it all are. *)
Definition describes (columns : bool) (w : row) (r : resource) : Prop :=
  row_timestamp w = r_timestamp r /\ row_length w = Zlen (r_data r) /\ spells (row_data w) (r_data r) /\
  if columns then exists s, row_key w = Some s /\ (s = str "true" <-> r_key r = true) else r_key r = true.

(** What std::istringstream makes of any two characters: two digits are read as above; a digit and something else, or a space or a plus sign and a digit, as the digit;
    a minus sign and a digit as the negative number, of which 8 bits are kept; nothing can be read from anything else, and the octet remains 0. *)
Definition no_digit (c : Z) : Prop := forall d, ~ digit_of c d.
Inductive octet_of : Z -> Z -> Z -> Prop :=
| two_read h l d d' : digit_of h d -> digit_of l d' -> octet_of h l (16 * d + d')
| one_read h l d : digit_of h d -> no_digit l -> octet_of h l d
| second_read h l d : In h [9; 10; 11; 12; 13; 32; 43] -> digit_of l d -> octet_of h l d
| negative_read h l d : h = 45 -> digit_of l d -> octet_of h l ((256 - d) mod 256)
| none_read h l : no_digit h -> no_digit l \/ ~ In h [9; 10; 11; 12; 13; 32; 43; 45] -> octet_of h l 0.
(** Two characters an octet; one that remains is ignored. *)
Fixpoint octets_of_text (text data : list Z) : Prop :=
  match text, data with
  | [], [] | [_], [] => True
  | h :: l :: text, b :: data => octet_of h l b /\ octets_of_text text data
  | _, _ => False
  end.
(** A line that is read as a resource. *)
Definition read_as (columns : bool) (w : row) (r : resource) : Prop :=
  row_timestamp w = r_timestamp r /\ row_length w = Zlen (r_data r) /\ octets_of_text (row_data w) (r_data r) /\
  if columns then exists s, row_key w = Some s /\ (s = str "true" <-> r_key r = true) else r_key r = true.

Lemma digit_value c d : digit_of c d -> hex_digit c = Some d /\ is_space c = false /\ c <> 45 /\ c <> 43.
Proof.
  intros D. assert (R : 48 <= c <= 57 /\ d = c - 48 \/ 97 <= c <= 102 /\ d = c - 87 \/ 65 <= c <= 70 /\ d = c - 55) by (unfold digit_of in D; lia). unfold hex_digit, is_space.
  destruct R as [(R & ->)|[(R & ->)|(R & ->)]].
  - replace (48 <=? c) with true by lia. replace (c <=? 57) with true by lia. cbn [andb]. split; [reflexivity|]. replace (c =? 32) with false by lia. replace (c <=? 13) with false by lia. rewrite andb_false_r. split; [reflexivity|lia].
  - replace (48 <=? c) with true by lia. replace (c <=? 57) with false by lia. cbn [andb]. replace (97 <=? c) with true by lia. replace (c <=? 102) with true by lia. cbn [andb]. split; [reflexivity|].
    replace (c =? 32) with false by lia. replace (c <=? 13) with false by lia. rewrite andb_false_r. split; [reflexivity|lia].
  - replace (48 <=? c) with true by lia. replace (c <=? 57) with false by lia. cbn [andb]. replace (97 <=? c) with false by lia. replace (65 <=? c) with true by lia. replace (c <=? 70) with true by lia. cbn [andb]. split; [reflexivity|].
    replace (c =? 32) with false by lia. replace (c <=? 13) with false by lia. rewrite andb_false_r. split; [reflexivity|lia].
Qed.
Lemma two_digits h l b : digit_of h (b / 16) -> digit_of l (b mod 16) -> extract_hex [h; l] = Some b /\ 0 <= b < 256.
Proof.
  intros H L. destruct (digit_value _ _ H) as (Hh & Sh & Nh & Ph). destruct (digit_value _ _ L) as (Hl & _). unfold extract_hex. cbn [skip_spaces]. rewrite Sh.
  assert (V : hex_digits [h; l] None = Some b).
  { cbn [hex_digits]. rewrite Hh, Hl. f_equal. pose proof (Z.div_mod b 16 ltac:(lia)). lia. }
  split; [|unfold digit_of in H; pose proof (Z.div_mod b 16 ltac:(lia)); pose proof (Z.mod_pos_bound b 16 ltac:(lia)); lia].
  replace (h =? 45) with false by lia. replace (h =? 43) with false by lia. exact V.
Qed.
Lemma spells_even text data : spells text data -> List.length text = (2 * List.length data)%nat.
Proof.
  revert text. induction data as [|b data IH]; intros [|h [|l text]] S; try contradiction S; [reflexivity|]. destruct S as (_ & _ & S). cbn [List.length]. rewrite (IH _ S). lia.
Qed.
Lemma skip2 {A} i (x y : A) l : skipn (2 * S i) (x :: y :: l) = skipn (2 * i) l.
Proof. replace (2 * S i)%nat with (S (S (2 * i))) by lia. reflexivity. Qed.
Lemma hex2bin_spells data : forall text, spells text data -> hex2bin text = data.
Proof.
  induction data as [|b data IH]; intros [|h [|l text]] Sp; try contradiction Sp; [reflexivity|]. destruct Sp as (H & L & Sp). pose proof (spells_even _ _ Sp) as E. specialize (IH text Sp). unfold hex2bin in *.
  cbn [List.length]. rewrite E in *. replace (S (S (2 * List.length data))) with (S (List.length data) * 2)%nat by lia. rewrite Nat.div_mul by lia.
  replace (2 * List.length data)%nat with (List.length data * 2)%nat in IH by lia. rewrite Nat.div_mul in IH by lia. cbn [seq map]. rewrite Nat.mul_0_r. cbn [skipn firstn].
  destruct (two_digits _ _ _ H L) as (V & B). rewrite V, Z.mod_small by lia. f_equal. rewrite <- seq_shift, map_map. rewrite <- IH at 2. apply map_ext. intros i. rewrite skip2. reflexivity.
Qed.

(** * C65 *)
(** Loading a file that describes resources gives these, with digits of either case. *)
Theorem C65_load : forall columns rows resources, Forall2 (describes columns) rows resources -> load_resources columns rows = Ok resources.
Proof.
  intros columns rows resources F. induction F as [|w r rows resources (T & N & S & K) F IH]; [reflexivity|]. cbn [load_resources]. rewrite (hex2bin_spells _ _ S), N, Z.eqb_refl. cbn [negb].
  rewrite IH. cbn [obind]. destruct columns.
  - destruct K as (s & -> & K). rewrite T. replace (list_eqb s (str "true")) with (r_key r); [destruct r; reflexivity|].
    destruct (r_key r).
    + symmetry. apply list_eqb_eq. apply K. reflexivity.
    + destruct (list_eqb s (str "true")) eqn:E; [|reflexivity]. apply list_eqb_eq in E. apply K in E. discriminate E.
  - rewrite T, <- K. destruct r; reflexivity.
Qed.
Print Assumptions C65_load.
Lemma digit_range c d : digit_of c d -> 0 <= d <= 15.
Proof. unfold digit_of. lia. Qed.
Lemma hex_digit_iff c d : hex_digit c = Some d <-> digit_of c d.
Proof.
  split; [|intros D; apply digit_value; exact D]. unfold hex_digit, digit_of. intros E.
  destruct (Z.leb_spec 48 c), (Z.leb_spec c 57), (Z.leb_spec 97 c), (Z.leb_spec c 102), (Z.leb_spec 65 c), (Z.leb_spec c 70); cbn [andb] in E; inversion E; lia.
Qed.
Lemma hex_digit_none c : hex_digit c = None <-> no_digit c.
Proof.
  unfold no_digit. split.
  - intros E d D. apply hex_digit_iff in D. congruence.
  - intros N. destruct (hex_digit c) as [d|] eqn:E; [|reflexivity]. apply hex_digit_iff in E. destruct (N d E).
Qed.
Lemma is_space_iff c : is_space c = true <-> In c [9; 10; 11; 12; 13; 32].
Proof. unfold is_space. cbn [In]. destruct (Z.eqb_spec c 32), (Z.leb_spec 9 c), (Z.leb_spec c 13); cbn [orb andb]; split; intros; lia || discriminate || reflexivity. Qed.
Definition pair_value (h l : Z) : Z := match extract_hex [h; l] with Some v => v mod 256 | None => 0 end.
Lemma pair_octet h l : octet_of h l (pair_value h l).
Proof.
  unfold pair_value, extract_hex. cbn [skip_spaces]. destruct (is_space h) eqn:S.
  - apply is_space_iff in S. destruct (is_space l) eqn:S2.
    + apply is_space_iff in S2. apply none_read; [|left]; intros d D; unfold digit_of in D; cbn [In] in *; lia.
    + assert (Hl : l = 45 \/ l = 43 \/ l <> 45 /\ l <> 43) by lia. destruct Hl as [->|[->|(N1 & N2)]].
      1, 2: apply none_read; [|left]; intros d D; unfold digit_of in D; cbn [In] in *; lia.
      replace (l =? 45) with false by lia. replace (l =? 43) with false by lia. cbn [hex_digits]. destruct (hex_digit l) as [d|] eqn:E.
      * apply hex_digit_iff in E. pose proof (digit_range _ _ E). rewrite Z.mod_small by lia. cbn [Z.mul Z.add]. replace (16 * 0 + d) with d by lia. apply second_read; [cbn [In] in *; tauto|exact E].
      * apply hex_digit_none in E. apply none_read; [|left; exact E]. intros d D. unfold digit_of in D. cbn [In] in *. lia.
  - assert (N : ~ In h [9; 10; 11; 12; 13; 32]) by (intros I; apply is_space_iff in I; congruence).
    destruct (Z.eqb_spec h 45) as [->|N1]; [|destruct (Z.eqb_spec h 43) as [->|N2]].
    + cbn [hex_digits]. destruct (hex_digit l) as [d|] eqn:E; cbn [option_map].
      * apply hex_digit_iff in E. replace (- (16 * 0 + d)) with (256 - d + (-1) * 256) by lia. rewrite Z.mod_add by lia. apply negative_read; [reflexivity|exact E].
      * apply hex_digit_none in E. apply none_read; [|left; exact E]. intros d D. unfold digit_of in D. lia.
    + cbn [hex_digits]. destruct (hex_digit l) as [d|] eqn:E.
      * apply hex_digit_iff in E. pose proof (digit_range _ _ E). rewrite Z.mod_small by lia. replace (16 * 0 + d) with d by lia. apply second_read; [cbn [In]; tauto|exact E].
      * apply hex_digit_none in E. apply none_read; [|left; exact E]. intros d D. unfold digit_of in D. lia.
    + cbn [hex_digits]. destruct (hex_digit h) as [d|] eqn:E.
      * apply hex_digit_iff in E. pose proof (digit_range _ _ E). destruct (hex_digit l) as [d'|] eqn:E2.
        -- apply hex_digit_iff in E2. pose proof (digit_range _ _ E2). replace (16 * (16 * 0 + d) + d') with (16 * d + d') by lia. rewrite Z.mod_small by lia. apply two_read; assumption.
        -- apply hex_digit_none in E2. replace (16 * 0 + d) with d by lia. rewrite Z.mod_small by lia. apply one_read; assumption.
      * apply hex_digit_none in E. apply none_read; [exact E|]. right. intros I. apply N. cbn [In] in *. lia.
Qed.
Lemma digit_same c d d' : digit_of c d -> digit_of c d' -> d = d'.
Proof. unfold digit_of. lia. Qed.
Lemma octet_same h l b b' : octet_of h l b -> octet_of h l b' -> b = b'.
Proof.
  assert (X : forall c d, digit_of c d -> In c [9; 10; 11; 12; 13; 32; 43] -> False) by (intros c d D I; unfold digit_of in D; cbn [In] in I; lia).
  assert (Y : forall d, digit_of 45 d -> False) by (intros d D; unfold digit_of in D; lia).
  intros A B. inversion A; inversion B; subst; try reflexivity;
    repeat match goal with
    | H : no_digit ?c, D : digit_of ?c ?d |- _ => destruct (H d D)
    | D : digit_of ?c ?d, D' : digit_of ?c ?d' |- _ => pose proof (digit_same _ _ _ D D'); clear D'
    | D : digit_of 45 ?d |- _ => destruct (Y d D)
    | D : digit_of ?c ?d, I : In ?c _ |- _ => destruct (X c d D I)
    | H : no_digit ?c \/ _ |- _ => destruct H
    end; subst; try reflexivity; cbn [In] in *; try lia.
Qed.
Lemma hex2bin_step h l text : hex2bin (h :: l :: text) = pair_value h l :: hex2bin text.
Proof.
  unfold hex2bin. cbn [List.length]. replace (S (S (List.length text))) with (List.length text + 1 * 2)%nat by lia. rewrite Nat.div_add by lia.
  rewrite Nat.add_1_r. cbn [seq map]. rewrite Nat.mul_0_r. cbn [skipn firstn]. unfold pair_value at 1. f_equal. rewrite <- seq_shift, map_map. apply map_ext. intros i. rewrite skip2. reflexivity.
Qed.
Lemma hex2bin_text n : forall text data, (List.length text <= n)%nat -> octets_of_text text data <-> hex2bin text = data.
Proof.
  induction n as [|n IH]; intros text data N.
  - destruct text; [|cbn [List.length] in N; lia]. destruct data; cbn [octets_of_text]; split; intros; try reflexivity; try exact I; try contradiction; discriminate.
  - destruct text as [|h [|l text]].
    1, 2: destruct data; cbn [octets_of_text]; split; intros; try reflexivity; try exact I; try contradiction; discriminate.
    cbn [List.length] in N. rewrite hex2bin_step. destruct data as [|b data]; cbn [octets_of_text]; [split; [intros []|discriminate]|]. rewrite (IH text data) by lia. split.
    + intros (O & E). rewrite E. f_equal. exact (octet_same _ _ _ _ (pair_octet h l) O).
    + intros E. inversion E; subst. split; [apply pair_octet|reflexivity].
Qed.
(** Exactly: a file is loaded if and only if every line is read as a resource, and the resources are these. *)
Theorem C65_load_any : forall columns rows resources, load_resources columns rows = Ok resources <-> Forall2 (read_as columns) rows resources.
Proof.
  intros columns rows. induction rows as [|w rows IH]; intros resources.
  { cbn [load_resources]. split; [intros E; inversion E; constructor|intros F; inversion F; reflexivity]. }
  cbn [load_resources]. pose proof (hex2bin_text _ (row_data w) (hex2bin (row_data w)) (le_n _)) as (_ & T). specialize (T eq_refl). split.
  - intros E. destruct (Z.eqb_spec (row_length w) (Zlen (hex2bin (row_data w)))) as [L|]; cbn [negb] in E; [|discriminate].
    destruct (if columns then _ else _) as [key| |] eqn:K; try discriminate. destruct (load_resources columns rows) as [l| |]; cbn [obind] in E; try discriminate. inversion E; subst.
    constructor; [|apply IH; reflexivity]. split; [reflexivity|]. split; [exact L|]. split; [exact T|]. cbn [r_key]. destruct columns; [|inversion K; reflexivity].
    destruct (row_key w) as [s|]; [|discriminate]. exists s. split; [reflexivity|]. inversion K; subst. split; intros; apply list_eqb_eq; assumption.
  - intros F. inversion F as [|? r ? rs (T1 & N & S & K) F2]; subst. apply IH in F2. rewrite F2. cbn [obind]. apply (hex2bin_text _ _ _ (le_n _)) in S. rewrite S, N, Z.eqb_refl. cbn [negb].
    destruct columns.
    + destruct K as (s & -> & K). rewrite T1. replace (list_eqb s (str "true")) with (r_key r); [destruct r; reflexivity|].
      destruct (r_key r).
      * symmetry. apply list_eqb_eq. apply K. reflexivity.
      * destruct (list_eqb s (str "true")) eqn:E; [|reflexivity]. apply list_eqb_eq in E. apply K in E. discriminate E.
    + rewrite T1, <- K. destruct r; reflexivity.
Qed.
Print Assumptions C65_load_any.
(** Characters that are no digits: "4 " is 4, " 7", "\t7" and "+7" are 7, "-1" is 255, "zz" is 0, and the last one is ignored. *)
Example C65_odd_text : load_resources false [mk_row 5 7 ([52; 32; 32; 55; 9; 55; 43; 55; 45; 49; 122; 122; 48; 120] ++ [49]) None] = Ok [mk_resource 5 [4; 7; 7; 7; 255; 0; 0] true].
Proof. reflexivity. Qed.

(** A line whose number of octets is not half the number of digits is refused, whatever the digits. *)
Theorem C65_wrong_length : forall columns rows w rest, In w rows -> row_length w <> Zlen (row_data w) / 2 -> Forall (fun w => row_key w <> None) rows ->
  load_resources columns (rows ++ rest) = Throw RuntimeError.
Proof.
  intros columns rows w rest I N K. induction rows as [|v rows IH]; [contradiction I|]. cbn [app load_resources].
  assert (L : forall v, Zlen (hex2bin (row_data v)) = Zlen (row_data v) / 2).
  { intros u. unfold hex2bin, Zlen. rewrite map_length, seq_length. rewrite Nat2Z.inj_div. reflexivity. }
  destruct I as [->|I]; [rewrite L; replace (row_length w =? Zlen (row_data w) / 2) with false by lia; reflexivity|].
  inversion K as [|? ? K1 K2]; subst. destruct (negb _); [reflexivity|]. rewrite (IH I K2). destruct columns; [|reflexivity]. destruct (row_key v); [reflexivity|contradiction K1; reflexivity].
Qed.
Print Assumptions C65_wrong_length.
(** The whole program, from the cells to the file (C63). *)
Theorem C65_program : forall cmd time ca cv ra rv a v, has_h264 cmd = false -> Forall2 (describes ca) ra a -> Forall2 (describes cv) rv v ->
  (fst (resources_used cmd) <= List.length a)%nat -> (snd (resources_used cmd) <= List.length v)%nat -> Forall resource_ok a -> Forall resource_ok v -> fits_u 32 time ->
  exists file, obind (load_resources ca ra) (fun a => obind (load_resources cv rv) (muxer cmd time a)) = Ok file /\ plays cmd time file (expected_tracks cmd a v) (expected_media cmd a r_data v) /\ exact_contents cmd time a v file.
Proof.
  intros cmd time ca cv ra rv a v H A V La Lv Oa Ov T. rewrite (C65_load _ _ _ A), (C65_load _ _ _ V). cbn [obind]. exact (C63_muxer cmd time a v H La Lv Oa Ov T).
Qed.
Print Assumptions C65_program.
(** A line of a file with four columns. *)
Example C65_case : describes true (mk_row 1600 3 (str "00fFA7") (Some (str "false"))) (mk_resource 1600 [0; 255; 167] false) /\
  load_resources true [mk_row 0 2 (str "0a0B") (Some (str "true")); mk_row 1600 3 (str "00fFA7") (Some (str "false"))] = Ok [mk_resource 0 [10; 11] true; mk_resource 1600 [0; 255; 167] false].
Proof.
  split; [|reflexivity]. split; [reflexivity|]. split; [reflexivity|]. split.
  { change (str "00fFA7") with [48; 48; 102; 70; 65; 55]. cbn [r_data spells row_data]. change (0 / 16) with 0. change (0 mod 16) with 0. change (255 / 16) with 15. change (255 mod 16) with 15. change (167 / 16) with 10. change (167 mod 16) with 7.
    unfold digit_of. repeat split; lia. }
  exists (str "false"). split; [reflexivity|]. split; discriminate.
Qed.
