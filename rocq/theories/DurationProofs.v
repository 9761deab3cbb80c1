(** Durations in finished files (C54). *)
From Coq Require Import ZifyBool.
From Verif Require Import Base BitIO Boxes WireFormat DescriptorSpec Box BoxSpec BoxTree TreeSpec AnnexBSpec H264 Track Writers MovieSpec FaststartFile BitIOProofs FileLemmas RoundTrip PropFile Time TimeSpec Print PrintInj Float FloatProofs DurationSpec.
From Flocq Require Import IEEE754.BinarySingleNaN.
From Coq Require Import Reals Lra Lia Ascii String List.
Import ListNotations.
Open Scope Z_scope.
Open Scope list_scope.

Lemma announced t d v : 0 <= t < 2 ^ 32 -> (0 <= seconds d)%R -> duration_in t d = Ok v -> announces v t (seconds d).
Proof. intros A B C. destruct (duration_ok_close t d v A B C) as (_ & _ & H). exact H. Qed.

Lemma kids_as_read ty l : kids_of_type ty (map tree_as_read l) = map tree_as_read (kids_of_type ty l).
Proof.
  induction l as [|[a b k] l IH]; [reflexivity|]. unfold kids_of_type in *. cbn [map filter].
  replace (is_type ty (tree_as_read (T a b k))) with (is_type ty (T a b k)) by reflexivity.
  destruct (is_type ty (T a b k)); [cbn [map]; f_equal; exact IH|exact IH].
Qed.
Lemma the_kid_as_read ty l : the_kid ty (map tree_as_read l) = option_map tree_as_read (the_kid ty l).
Proof. unfold the_kid. rewrite kids_as_read. destruct (kids_of_type ty l) as [|x [|y l']]; reflexivity. Qed.
Lemma tree_kids_as_read t : tree_kids (tree_as_read t) = map tree_as_read (tree_kids t).
Proof. destruct t; reflexivity. Qed.
Lemma movie_header_as_read l : movie_header (map tree_as_read l) = movie_header l.
Proof.
  unfold movie_header. rewrite the_kid_as_read. destruct (the_kid t_moov l) as [m|]; [|reflexivity]. cbn [option_map]. rewrite tree_kids_as_read, the_kid_as_read.
  destruct (the_kid (str "mvhd") (tree_kids m)) as [[a b k]|]; [|reflexivity]. destruct b; reflexivity.
Qed.
Lemma trak_boxes_as_read l : trak_boxes (map tree_as_read l) = map tree_as_read (trak_boxes l).
Proof.
  unfold trak_boxes. rewrite the_kid_as_read. destruct (the_kid t_moov l) as [m|]; [|reflexivity]. cbn [option_map]. rewrite tree_kids_as_read, kids_as_read. reflexivity.
Qed.
Lemma trak_headers_as_read t : trak_headers (tree_as_read t) = trak_headers t.
Proof.
  unfold trak_headers. rewrite tree_kids_as_read, !the_kid_as_read.
  destruct (the_kid t_mdia (tree_kids t)) as [m|]; [|reflexivity]. cbn [option_map obnd].
  destruct (the_kid t_edts (tree_kids t)) as [e|]; [|reflexivity]. cbn [option_map obnd]. rewrite !tree_kids_as_read, !the_kid_as_read.
  destruct (the_kid t_tkhd (tree_kids t)) as [[? b1 ?]|]; [|reflexivity]. cbn [option_map tree_as_read]. destruct b1; try reflexivity. cbn [box_as_read].
  destruct (the_kid t_elst (tree_kids e)) as [[? b1 ?]|]; [|reflexivity]. cbn [option_map tree_as_read]. destruct b1; try reflexivity. cbn [box_as_read].
  destruct (the_kid t_mdhd (tree_kids m)) as [[? q1 ?]|]; [|reflexivity]. cbn [option_map tree_as_read]. destruct q1; try reflexivity. cbn [box_as_read].
  destruct (the_kid t_hdlr (tree_kids m)) as [[? q2 ?]|]; [|reflexivity]. cbn [option_map tree_as_read]. destruct q2; reflexivity.
Qed.

Lemma movie_header_of pre post timescale duration time traks id :
  Forall (fun t => is_type t_moov t = false) pre -> Forall (fun t => is_type t_moov t = false) post ->
  Forall (fun t => tree_type t = str "trak") traks -> movie_header (pre ++ [moov_tree timescale duration time id traks] ++ post) = Some (mvhd_of timescale duration time id).
Proof.
  intros A B C. unfold movie_header, the_kid, kids_of_type. rewrite !filter_app.
  assert (N : forall l, Forall (fun t => is_type t_moov t = false) l -> filter (is_type t_moov) l = []) by (induction 1 as [|x l Hx H IH]; [reflexivity|]; cbn [filter]; rewrite Hx; exact IH).
  rewrite (N _ A), (N _ B). change (filter (is_type t_moov) [moov_tree timescale duration time id traks]) with [moov_tree timescale duration time id traks]. cbn [app].
  unfold moov_tree. cbn [tree_kids filter]. change (is_type (str "mvhd") (T (str "mvhd") (B_mvhd (mvhd_of timescale duration time id)) [])) with true. cbv iota.
  rewrite filter_app. replace (filter (is_type (str "mvhd")) traks) with (@nil tree).
  2:{ clear -C. induction C as [|x l Hx H IH]; [reflexivity|]. cbn [filter]. unfold is_type at 1. rewrite Hx. exact IH. }
  reflexivity.
Qed.

Section Movie.
Context (timescale duration time : Z) (ops : list op) (sel : list nat) (d : f32) (dur : nat -> f32).
Hypothesis Ts : fits_u 32 timescale.
Hypothesis Len : duration_in timescale d = Ok duration.
Hypothesis Pos : (0 <= seconds d)%R.
Hypothesis Fit : Forall (track_fits ops) sel.
Hypothesis Tracks : Forall (fun i => exists o, nth_error (created ops) i = Some o /\ lasting timescale (dur i) o /\ (0 <= seconds (dur i))%R) sel.

Lemma u32_range v : fits_u 32 v -> 0 <= v < 2 ^ 32.
Proof. unfold fits_u. change (2 ^ Z.of_nat 32) with (2 ^ 32). tauto. Qed.

Lemma track_ok file i tr : In i sel -> tree_type tr = str "trak" /\ (exists info, read_trak tr = Some info /\ describes file ops i info) /\ configured time ops i tr ->
  track_announces timescale (seconds (dur i)) (tree_as_read tr).
Proof.
  intros Hi (_ & _ & c & tsc & dts & dmv & mt & id & e & h & E & _ & _ & H1 & H2 & _).
  rewrite Forall_forall in Tracks, Fit. destruct (Tracks i Hi) as (o & Eo & L & P). rewrite E in Eo. injection Eo as <-. destruct L as (L1 & L2).
  destruct (Fit i Hi) as (c' & tsc' & dts' & dmv' & mt' & id' & E' & F1 & _). rewrite E in E'. injection E' as <- <- <- <- <- <-.
  destruct h as [[[tk el] md] hd]. exists tk, el, md, hd. rewrite trak_headers_as_read. split; [exact H1|].
  destruct H2 as (c' & tsc' & dts' & dmv' & mt' & id' & E' & H2). rewrite E in E'. injection E' as <- <- <- <- <- <-.
  destruct H2 as (_ & _ & _ & K1 & _ & _ & _ & _ & _ & _ & _ & _ & K2 & _ & _ & _ & _ & K3 & K4 & _).
  rewrite K1, K2, K3, K4. split; [|split].
  - apply announced; [|exact P|exact L1]. destruct c; try (apply u32_range; exact F1). split; [discriminate|reflexivity].
  - apply announced; [apply u32_range, Ts|exact P|exact L2].
  - eexists. split; reflexivity.
Qed.

Lemma movie_ok pre post file traks :
  Forall (fun t => is_type t_moov t = false) pre -> Forall (fun t => is_type t_moov t = false) post -> describes_all time file ops sel traks ->
  let boxes := map tree_as_read (pre ++ [moov_tree timescale duration time ((1 + ids_issued ops) mod 2 ^ 32) traks] ++ post) in
  movie_announces timescale (seconds d) boxes /\ Forall2 (fun i tr => track_announces timescale (seconds (dur i)) tr) sel (trak_boxes boxes).
Proof.
  intros A B D. cbv zeta. pose proof (traks_typed _ _ _ _ _ D) as T. split.
  - exists (mvhd_of timescale duration time ((1 + ids_issued ops) mod 2 ^ 32)). rewrite movie_header_as_read, movie_header_of by assumption. split; [reflexivity|]. split; [reflexivity|].
    cbn [mvhd_of mvhd_duration mvhd_timescale]. apply announced; [apply u32_range, Ts|exact Pos|exact Len].
  - rewrite trak_boxes_as_read. unfold trak_boxes. fold (traks_of (pre ++ [moov_tree timescale duration time ((1 + ids_issued ops) mod 2 ^ 32) traks] ++ post)). rewrite traks_of_ok by assumption.
    assert (G : forall l ts, (forall i, In i l -> In i sel) -> Forall2 (fun i tr => tree_type tr = str "trak" /\ (exists info, read_trak tr = Some info /\ describes file ops i info) /\ configured time ops i tr) l ts ->
                Forall2 (fun i tr => track_announces timescale (seconds (dur i)) tr) l (map tree_as_read ts)).
    { intros l ts Hl H. induction H as [|i tr l ts H H' IH]; cbn [map]; constructor.
      - apply (track_ok file); [apply Hl; left; reflexivity|exact H].
      - apply IH. intros j Hj. apply Hl. right. exact Hj. }
    apply (G sel traks); [auto|exact D].
Qed.
End Movie.

(** The samples of a track *)
Lemma increasing_longer ts a b : MovieSpec.increasing ts a -> a <= b -> b < 2 ^ 32 -> Forall (fun t => 0 <= t) ts -> MovieSpec.increasing ts b.
Proof.
  revert a b. induction ts as [|t l IH]; intros a b H L B N; [exact I|]. cbn [MovieSpec.increasing] in *. inversion N as [|? ? N1 N2]; subst. destruct H as (H1 & H2).
  destruct l as [|t' l']; [split; [lia|exact I]|]. split; [exact H1|]. apply (IH a b); assumption.
Qed.

(** * Printed numbers *)
Lemma decimal_value_app a b : decimal_value (a ++ b) = decimal_value a * 10 ^ Zlen b + decimal_value b.
Proof.
  assert (V : forall l a, fold_left (fun v c => 10 * v + (c - 48)) l a = a * 10 ^ Zlen l + decimal_value l).
  { induction l as [|c l IH]; intros v; [unfold decimal_value; cbn [fold_left]; rewrite Zlen_nil; lia|]. unfold decimal_value. cbn [fold_left]. rewrite IH, (IH (10 * 0 + _)), Zlen_cons.
    pose proof (Zlen_nonneg l). rewrite Z.pow_add_r, Z.pow_1_r by lia. ring. }
  unfold decimal_value at 1. rewrite fold_left_app. apply V.
Qed.
Lemma decimal_facts n : forall v, 0 <= v -> length (decimal n v) = n /\ Forall (fun c => 48 <= c < 58) (decimal n v) /\ decimal_value (decimal n v) = v mod 10 ^ Z.of_nat n.
Proof.
  induction n as [|n IH]; intros v H.
  - split; [reflexivity|]. split; [constructor|]. change (10 ^ Z.of_nat 0) with 1. rewrite Z.mod_1_r. reflexivity.
  - cbn [decimal]. destruct (IH (v / 10) ltac:(apply Z.div_pos; lia)) as (A & B & C). split; [rewrite app_length, A; cbn [length]; lia|]. split.
    + apply Forall_app. split; [exact B|]. constructor; [|constructor]. pose proof (Z.mod_pos_bound v 10). lia.
    + rewrite decimal_value_app, C. change (Zlen [48 + v mod 10]) with 1. unfold decimal_value. cbn [fold_left]. rewrite Nat2Z.inj_succ, Z.pow_succ_r by lia.
      rewrite Z.rem_mul_r by (try apply Z.pow_pos_nonneg; lia). lia.
Qed.
Lemma digits_decimal fuel : forall n acc, 0 <= n -> Forall (fun c => 48 <= c < 58) acc -> Forall (fun c => 48 <= c < 58) (digits 10 fuel n acc).
Proof.
  induction fuel as [|f IH]; intros n acc H A; cbn [digits]; [exact A|].
  assert (D : forall d, 0 <= d < 10 -> 48 <= hex_digit d < 58) by (intros d Hd; unfold hex_digit; destruct (Z.ltb_spec d 10); lia).
  destruct (Z.ltb_spec n 10) as [L|L]; [constructor; [apply D; lia|exact A]|]. apply IH; [apply Z.div_pos; lia|]. constructor; [|exact A]. apply D. apply Z.mod_pos_bound. lia.
Qed.
Lemma number_decimal n : 0 <= n -> Forall (fun c => 48 <= c < 58) (number 10 n) /\ decimal_value (number 10 n) = n /\ number 10 n <> [].
Proof.
  intros H. assert (A : Forall (fun c => 48 <= c < 58) (number 10 n)) by (apply digits_decimal; [exact H|constructor]).
  destruct (number_facts 10 n ltac:(lia) H) as (_ & B & C). split; [exact A|]. split; [|exact C]. rewrite <- B at 2. unfold value, decimal_value.
  revert A. generalize (number 10 n) 0. induction l as [|c l IH]; intros v A; [reflexivity|]. cbn [fold_left]. inversion A as [|? ? A1 A2]; subst.
  rewrite IH by exact A2. f_equal. unfold digit_of. destruct (Z.ltb_spec c 58); lia.
Qed.
Lemma fixed_shows places den z : 0 < den -> shows_decimal places (IZR z / IZR den) (fixed places den z).
Proof.
  intros D. unfold fixed. set (P := 10 ^ Z.of_nat places). assert (P0 : 0 < P) by (apply Z.pow_pos_nonneg; lia).
  set (n := Z.abs z * P). cbv zeta.
  set (q' := if (2 * (n mod den) >? den) || ((2 * (n mod den) =? den) && Z.odd (n / den)) then n / den + 1 else n / den).
  assert (Q0 : 0 <= n / den) by (apply Z.div_pos; [unfold n; lia|lia]).
  assert (Q : 0 <= q' /\ Z.abs (2 * (n - q' * den)) <= den).
  { unfold q'. pose proof (Z.div_mod n den ltac:(lia)) as E. pose proof (Z.mod_pos_bound n den D) as M.
    destruct ((2 * (n mod den) >? den) || ((2 * (n mod den) =? den) && Z.odd (n / den))) eqn:C; (split; [lia|]).
    - replace (n - (n / den + 1) * den) with (n mod den - den) by lia. apply orb_true_iff in C as [C|C]; [lia|]. apply andb_prop in C as [C _]. lia.
    - replace (n - n / den * den) with (n mod den) by lia. apply orb_false_iff in C as [C _]. lia. }
  destruct Q as (Q1 & Q2). destruct (number_decimal (q' / P) ltac:(apply Z.div_pos; lia)) as (A1 & A2 & A3). destruct (decimal_facts places q' Q1) as (B1 & B2 & B3).
  exists (z <? 0), (number 10 (q' / P)), (decimal places q'). split; [reflexivity|]. split; [exact A3|]. split; [exact B1|]. split; [apply Forall_app; split; assumption|].
  assert (V : decimal_value (number 10 (q' / P) ++ decimal places q') = q').
  { rewrite decimal_value_app, A2, B3. unfold Zlen. rewrite B1. fold P. pose proof (Z.div_mod q' P ltac:(lia)). lia. }
  rewrite V. fold P. assert (Pr : (0 < IZR P)%R) by (apply IZR_lt; exact P0). assert (Dr : (0 < IZR den)%R) by (apply IZR_lt; exact D).
  assert (Zs : IZR z = ((if z <? 0 then -1 else 1) * IZR (Z.abs z))%R).
  { destruct (Z.ltb_spec z 0); [rewrite Z.abs_neq by lia; rewrite opp_IZR; lra|rewrite Z.abs_eq by lia; lra]. }
  rewrite Zs.
  replace ((if z <? 0 then -1 else 1) * IZR (Z.abs z) / IZR den - (if z <? 0 then -1 else 1) * IZR q' / IZR P)%R
    with ((if z <? 0 then -1 else 1) * (IZR (n - q' * den) * / (IZR den * IZR P)))%R.
  2:{ rewrite minus_IZR. unfold n. rewrite !mult_IZR. field. lra. }
  rewrite Rabs_mult. replace (Rabs (if z <? 0 then -1 else 1)) with 1%R by (destruct (z <? 0); [rewrite Rabs_left; lra|rewrite Rabs_pos_eq; lra]). rewrite Rmult_1_l.
  assert (DP : (0 < IZR den * IZR P)%R) by (apply Rmult_lt_0_compat; assumption).
  rewrite Rabs_mult, (Rabs_pos_eq (/ _)) by (apply Rlt_le, Rinv_0_lt_compat; exact DP).
  assert (H2 : (Rabs (IZR (n - q' * den)) <= / 2 * IZR den)%R).
  { rewrite <- abs_IZR. assert (X : 2 * Z.abs (n - q' * den) <= den) by lia. apply IZR_le in X. rewrite mult_IZR in X. lra. }
  apply Rle_trans with (/ 2 * IZR den * / (IZR den * IZR P))%R.
  - apply Rmult_le_compat_r; [apply Rlt_le, Rinv_0_lt_compat; exact DP|exact H2].
  - right. field. lra.
Qed.
Lemma text_has b f places den z name x : 0 < den -> (IZR z / IZR den)%R = x ->
  (forall t, Box_toStringOnlyData b = Ok t -> exists before after, t = before ++ (str " " ++ str name ++ str "=") ++ f ++ after) -> f = fixed places den z ->
  text_shows b name places x.
Proof.
  intros D X H F t E. destruct (H t E) as (p & a & ->). exists p, f, a. split; [rewrite <- !app_assoc; reflexivity|]. rewrite F, <- X. apply fixed_shows. exact D.
Qed.
Definition has (n f t : list Z) : Prop := exists before after, t = before ++ n ++ f ++ after.
Lemma has_skip x n f t : has n f t -> has n f (x ++ t).
Proof. intros (b & a & ->). exists (x ++ b), a. rewrite <- app_assoc. reflexivity. Qed.
Lemma has_here n f t : has n f (n ++ f ++ t).
Proof. exists [], t. reflexivity. Qed.
Lemma has_last n f : has n f (n ++ f).
Proof. exists [], []. rewrite app_nil_r. reflexivity. Qed.
Lemma has_text f (l : list elst_entry) n g e : In e l -> has n g (f e) -> forall r, has n g (texts f l ++ r).
Proof.
  intros I H r. unfold texts. destruct l as [|x l]; [contradiction|]. cbn [map]. rewrite join_cons, <- app_assoc. destruct I as [->|I].
  - destruct H as (b & a & ->). exists b. eexists. rewrite <- !app_assoc. reflexivity.
  - apply has_skip. induction l as [|y l IH]; [contradiction|]. cbn [map flat_map]. rewrite <- !app_assoc. apply has_skip. destruct I as [->|I].
    + destruct H as (b & a & ->). exists b. eexists. rewrite <- !app_assoc. reflexivity.
    + apply has_skip. apply IH. exact I.
Qed.
Lemma printed_fields :
  (forall b, fits_s 32 (mvhd_rate b) -> text_shows (B_mvhd b) "Rate" 4 (B2R (Mvhd_getRate b))) /\
  (forall b, fits_u 32 (tkhd_width b) -> text_shows (B_tkhd b) "Width" 4 (B2R (Tkhd_getWidth b))) /\
  (forall b, fits_u 32 (tkhd_height b) -> text_shows (B_tkhd b) "Height" 4 (B2R (Tkhd_getHeight b))) /\
  (forall b, fits_s 16 (smhd_balance b) -> text_shows (B_smhd b) "Balance" 2 (B2R (Smhd_getBalance b))) /\
  (forall b e, In e (elst_entries b) -> fits_s 32 (elste_media_rate e) -> text_shows (B_elst b) "MediaRate" 4 (B2R (ElstEntry_getMediaRate e))).
Proof.
  destruct getters_exact as (G1 & G2 & G3 & G4 & G5).
  assert (M : forall a b f t, with_times a b f = Ok t -> exists c m, t = f c m).
  { intros a b f t. unfold with_times. destruct (format_epoch_19040101 a); try discriminate. destruct (format_epoch_19040101 b); try discriminate. cbn [obind]. intros E. injection E as <-. eauto. }
  split; [|split; [|split; [|split]]].
  - intros b F. apply (text_has _ (fixed 4 65536 (mvhd_rate b)) 4 65536 (mvhd_rate b)); [reflexivity|symmetry; exact (proj1 (G3 b F))| |reflexivity].
    intros t E. cbn [Box_toStringOnlyData] in E. unfold Mvhd_toString in E. apply M in E as (c & m & ->). change (str " " ++ str "Rate" ++ str "=") with (lit " Rate="). do 9 apply has_skip. apply has_here.
  - intros b F. apply (text_has _ (fixed 4 65536 (tkhd_width b)) 4 65536 (tkhd_width b)); [reflexivity|symmetry; exact (proj1 (G1 b F))| |reflexivity].
    intros t E. cbn [Box_toStringOnlyData] in E. unfold Tkhd_toString in E. apply M in E as (c & m & ->). change (lit "] Width=") with (lit "]" ++ str " " ++ str "Width" ++ str "="). do 17 apply has_skip. rewrite <- (app_assoc (lit "]")). apply has_skip. apply has_here.
  - intros b F. apply (text_has _ (fixed 4 65536 (tkhd_height b)) 4 65536 (tkhd_height b)); [reflexivity|symmetry; exact (proj1 (G2 b F))| |reflexivity].
    intros t E. cbn [Box_toStringOnlyData] in E. unfold Tkhd_toString in E. apply M in E as (c & m & ->). change (str " " ++ str "Height" ++ str "=") with (lit " Height="). do 19 apply has_skip. apply has_last.
  - intros b F. apply (text_has _ (fixed 2 256 (smhd_balance b)) 2 256 (smhd_balance b)); [reflexivity|symmetry; exact (proj1 (G5 b F))| |reflexivity].
    intros t E. cbn [Box_toStringOnlyData] in E. injection E as <-. unfold Smhd_toString. change (str " " ++ str "Balance" ++ str "=") with (lit " Balance="). apply has_skip. apply has_last.
  - intros b e I F. apply (text_has _ (fixed 4 65536 (elste_media_rate e)) 4 65536 (elste_media_rate e)); [reflexivity|symmetry; exact (proj1 (G4 e F))| |reflexivity].
    intros t E. cbn [Box_toStringOnlyData] in E. injection E as <-. unfold Elst_toString. change (str " " ++ str "MediaRate" ++ str "=") with (lit " MediaRate="). do 4 apply has_skip. apply (has_text _ _ _ _ e I).
    unfold ElstEntry_toString. do 4 apply has_skip. apply has_here.
Qed.
