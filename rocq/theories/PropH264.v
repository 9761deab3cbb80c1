(** Properties of H.264 tracks: C35, C36. *)
From Verif Require Import Base Boxes BoxTree TreeSpec H264 Track Writers MovieSpec AnnexBSpec H264Proofs.

(** C35: the units of an access unit in Annex B format are handled one by one as specified (AnnexBSpec): slices become
    length-prefixed samples, parameter sets are recorded, SEI ignored; a unit of another type raises an error, after the
    preceding ones have been handled. *)
Theorem C35_annexb_split : forall units, access_unit_ok units -> Zlen (annexb units) < 2 ^ 64 ->
  h264_split (annexb units) = Some (expected_actions units).
Proof. exact h264_split_units. Qed.

(** In terms of what a call of addData stores (C28, C29) and of the parameter sets received (C45). *)
Definition slices (units : list unit_) : list (list Z) :=
  map u_octets (filter (fun u => (1 <=? nal_type (u_octets u)) && (nal_type (u_octets u) <=? 5)) units).
Definition of_type (n : Z) (units : list unit_) : list (list Z) := map u_octets (filter (fun u => nal_type (u_octets u) =? n) units).
Definition usual (u : unit_) : Prop := 1 <= nal_type (u_octets u) <= 8.
Lemma usual_actions units : Forall usual units ->
  stored_in (fst (expected_actions units)) = map avc_sample (slices units) /\
  sps_in (fst (expected_actions units)) = of_type 7 units /\ pps_in (fst (expected_actions units)) = of_type 8 units.
Proof.
  induction 1 as [|u l Hu H (A & B & C)]; [repeat split; reflexivity|]. cbn [expected_actions]. destruct (expected_actions l) as [acts r]. cbn [fst] in *. unfold slices, of_type in *. cbn [filter].
  unfold usual in Hu. set (n := nal_type (u_octets u)) in *.
  destruct ((1 <=? n) && (n <=? 5)) eqn:E1; cbn [fst].
  { apply andb_true_iff in E1 as [E1 E2]. rewrite (proj2 (Z.eqb_neq n 7)), (proj2 (Z.eqb_neq n 8)) by lia. unfold stored_in, sps_in, pps_in in *. cbn [flat_map app map]. rewrite A, B, C. auto. }
  apply andb_false_iff in E1. destruct (Z.eqb_spec n 6) as [->|N6]; cbn [fst]; [auto|]. 
  destruct (Z.eqb_spec n 7) as [->|N7]; cbn [fst].
  { unfold stored_in, sps_in, pps_in in *. cbn [flat_map app map Z.eqb Pos.eqb]. rewrite A, B, C. auto. }
  destruct (Z.eqb_spec n 8) as [->|N8]; cbn [fst].
  { unfold stored_in, sps_in, pps_in in *. cbn [flat_map app map]. rewrite A, B, C. auto. }
  exfalso. lia.
Qed.
Theorem C35_samples_stored : forall w h cv pr co lv sps pps units,
  access_unit_ok units -> Zlen (annexb units) < 2 ^ 64 -> Forall usual units ->
  let e := effects (H264 w h cv pr co lv sps pps) (annexb units) in
  stored_in e = map avc_sample (slices units) /\ sps_in e = of_type 7 units /\ pps_in e = of_type 8 units.
Proof.
  intros w h cv pr co lv sps pps units A B U. cbv zeta. cbn [effects]. rewrite (h264_split_units units A B). destruct (expected_actions units) as [acts r] eqn:E.
  pose proof (usual_actions units U) as X. rewrite E in X. exact X.
Qed.

(** C36: on every buffer the scan ends, inside the buffer (an access outside would be UB), by returning or with
    runtime_error. *)
Theorem C36_scan_total : forall data, exists acts r, h264_split data = Some (acts, r) /\ (r = Ok tt \/ r = Throw RuntimeError).
Proof. exact h264_split_total. Qed.

(** An access unit that meets the hypotheses: SPS, PPS, SEI and a slice, with both start codes. *)
Definition sample_units : list unit_ :=
  [mk_unit true [103; 66; 0; 30; 171]; mk_unit false [104; 206]; mk_unit false [6; 5; 1; 128]; mk_unit true [101; 136; 0; 0; 3; 1; 132]].
Lemma no_code (l : list Z) : (forall n, (n <= length l)%nat -> firstn 3 (skipn n l) <> [0; 0; 1]) -> forall a b, l <> a ++ [0; 0; 1] ++ b.
Proof.
  intros H a b ->. apply (H (length a)); [rewrite !app_length; lia|]. rewrite skipn_app, skipn_all, Nat.sub_diag. reflexivity.
Qed.
Example C35_case : access_unit_ok sample_units /\ Zlen (annexb sample_units) < 2 ^ 64 /\ Forall usual sample_units /\
  map avc_sample (slices sample_units) = [[0; 0; 0; 7; 101; 136; 0; 0; 3; 1; 132]].
Proof.
  split; [split|].
  - unfold sample_units. repeat apply Forall_cons; try apply Forall_nil;
      (split; [unfold bytes, is_byte; cbn [u_octets]; repeat (apply Forall_cons; [lia|]); apply Forall_nil|]);
      (split; [eexists _, _; split; [reflexivity|discriminate]|]); (split; [discriminate|]); apply no_code; cbn [u_octets length]; intros n Hn;
      do 8 (destruct n as [|n]; [discriminate|]); lia.
  - exists (firstn 3 sample_units), (mk_unit true [101; 136; 0; 0; 3; 1; 132]). split; [reflexivity|]. apply Z.leb_le. reflexivity.
  - split; [reflexivity|]. split; [|reflexivity]. unfold sample_units. repeat apply Forall_cons; try apply Forall_nil; split; apply Z.leb_le; reflexivity.
Qed.
Print Assumptions C35_annexb_split.
Print Assumptions C35_samples_stored.
Print Assumptions C36_scan_total.
