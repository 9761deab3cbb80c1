(** C72: what an H.264 track makes of an arbitrary buffer. *)
From Verif Require Import Base Boxes BoxTree TreeSpec H264 Track Writers MovieSpec AnnexBSpec H264Proofs ScanSpec ScanProofs PropH264.

(** C72.  In every buffer (without a zero octet right after a start code) the track handles, in order, units that lie one after
    the other from the first octet on, each after a start code, each as long as possible, as C35 says; it returns when, and only
    when, they make up the whole buffer, and raises runtime_error when what remains does not start with a unit it knows (or is
    shorter than six octets): no octet is skipped, handled twice or invented. *)
Theorem C72_any_buffer : forall data, Zlen data < 2 ^ 64 -> no_null_unit data ->
  exists units rest r, h264_split data = Some (fst (expected_actions units), r) /\ data = annexb units ++ rest /\
    Forall known_unit units /\ maximal units rest /\
    ((r = Ok tt /\ rest = [] /\ units <> []) \/ (r = Throw RuntimeError /\ ~ starts_unit rest /\ (units = [] \/ rest <> []))).
Proof. exact split_any_buffer. Qed.
Print Assumptions C72_any_buffer.

(** In terms of what the call stores and of the parameter sets it records, whether it returns or raises. *)
Theorem C72_stored : forall w h cv pr co lv sps pps data, Zlen data < 2 ^ 64 -> no_null_unit data ->
  exists units rest, data = annexb units ++ rest /\ Forall known_unit units /\ maximal units rest /\ ~ starts_unit rest /\
    let e := effects (H264 w h cv pr co lv sps pps) data in
    stored_in e = map avc_sample (slices units) /\ sps_in e = of_type 7 units /\ pps_in e = of_type 8 units.
Proof.
  intros w h cv pr co lv sps pps data L NN. destruct (split_any_buffer data L NN) as (units & rest & r & E & D & K & M & R). exists units, rest.
  split; [exact D|]. split; [exact K|]. split; [exact M|]. split; [destruct R as [(_ & -> & _)|(_ & R & _)]; [exact nothing_starts|exact R]|].
  cbv zeta. cbn [effects]. rewrite E. apply usual_actions. eapply Forall_impl; [|exact K]. intros u (x & tl & Eu & T). unfold usual, nal_type. rewrite Eu. exact T.
Qed.
Print Assumptions C72_stored.

(** Without that hypothesis: the units still lie one after the other, each after three or four octets. *)
Theorem C72_conservation : forall data, Zlen data < 2 ^ 64 ->
  exists pieces rest r, h264_split data = Some (flat_map piece_action pieces, r) /\ data = flat_map piece_octets pieces ++ rest /\
    Forall (fun p => length (p_code p) = 3%nat \/ length (p_code p) = 4%nat) pieces /\ (r = Ok tt \/ r = Throw RuntimeError) /\ (r = Ok tt -> rest = []).
Proof. exact split_pieces_buffer. Qed.
Print Assumptions C72_conservation.

(** C72 determines what happens: there is only one list of units that go as far as possible, followed by something that is not
    a unit (nothing, for instance), in a given buffer. *)
Theorem C72_determined : forall l m rest rest', Forall known_unit l -> Forall known_unit m -> maximal l rest -> maximal m rest' ->
  ~ starts_unit rest -> ~ starts_unit rest' -> annexb l ++ rest = annexb m ++ rest' -> l = m /\ rest = rest'.
Proof. exact only_one. Qed.
Print Assumptions C72_determined.
(** So a buffer of units followed by something that is not a unit has the effects of its units, and is accepted if nothing follows. *)
Theorem C72_exact : forall units rest, let data := annexb units ++ rest in Zlen data < 2 ^ 64 -> no_null_unit data -> Forall known_unit units -> maximal units rest -> ~ starts_unit rest ->
  exists r, h264_split data = Some (fst (expected_actions units), r) /\
    ((units <> [] /\ rest = [] /\ r = Ok tt) \/ ((units = [] \/ rest <> []) /\ r = Throw RuntimeError)).
Proof.
  cbv zeta. intros units rest L NN K M S0. destruct (split_any_buffer _ L NN) as (us & rest' & r & E & D & K' & M' & R).
  assert (S1 : ~ starts_unit rest') by (destruct R as [(_ & -> & _)|(_ & R & _)]; [exact nothing_starts|exact R]).
  destruct (only_one units us rest rest' K K' M M' S0 S1 D) as [<- <-]. exists r. split; [exact E|].
  destruct R as [(-> & -> & N)|(-> & _ & N)]; [left; repeat split; exact N|right; split; [exact N|reflexivity]].
Qed.
Print Assumptions C72_exact.

(** A buffer that ends in junk: two units are stored before the error. *)
Definition junk_buffer : list Z := [0; 0; 1; 65; 154; 0; 0; 0; 1; 103; 66; 0; 30; 0; 0; 1; 104; 206; 0; 0; 0; 1; 9; 240; 7; 7; 7].
Example C72_case : h264_split junk_buffer = Some ([StoreSample [0; 0; 0; 2; 65; 154]; AppendSPS [103; 66; 0; 30]; AppendPPS [104; 206]], Throw RuntimeError) /\
  no_null_unit junk_buffer /\ Zlen junk_buffer < 2 ^ 64.
Proof.
  split; [vm_compute; reflexivity|]. split; [|reflexivity]. intros a b E.
  assert (G : forall n, (n <= length junk_buffer)%nat -> firstn 4 (skipn n junk_buffer) <> [0; 0; 1; 0]).
  { intros n Hn. do 28 (destruct n as [|n]; [discriminate|]). cbn in Hn. lia. }
  apply (G (length a)); [rewrite E, !app_length; lia|]. rewrite E, skipn_app, skipn_all, Nat.sub_diag. reflexivity.
Qed.
Example C72_exact_case : let units := [mk_unit false [65; 154]; mk_unit true [103; 66; 0; 30]; mk_unit false [104; 206]] in let rest := [0; 0; 0; 1; 9; 240; 7; 7; 7] in
  annexb units ++ rest = junk_buffer /\ Forall known_unit units /\ maximal units rest /\ ~ starts_unit rest.
Proof.
  cbv zeta. split; [reflexivity|]. split; [|split].
  - repeat apply Forall_cons; try apply Forall_nil; do 2 eexists; (split; [reflexivity|]); split; apply Z.leb_le; reflexivity.
  - assert (N : forall (p : list Z) B, (forall four n, (n <= length p)%nat -> firstn (length (start_code four)) (skipn n p) <> start_code four) ->
        forall four a b, p = a ++ start_code four ++ b -> Zlen (start_code four ++ b ++ B) <= 5).
    { intros p B H four a b E. exfalso. apply (H four (length a)); [rewrite E, !app_length; lia|]. rewrite E, skipn_app, skipn_all, Nat.sub_diag. cbn [skipn app].
      rewrite firstn_app, firstn_all, Nat.sub_diag. cbn [firstn]. apply app_nil_r. }
    cbn [maximal]. cbv zeta. repeat match goal with |- _ /\ _ => split end; try exact I;
      try (apply Z.leb_le; reflexivity); try (apply N; intros [] n Hn; cbn [u_octets length start_code] in *; do 5 (destruct n as [|n]; [discriminate|]); lia);
      try (cbn [last u_octets]; discriminate).
    + right. split; [apply Z.leb_le; reflexivity|]. exists true. eexists. reflexivity.
    + right. split; [apply Z.leb_le; reflexivity|]. exists false. eexists. reflexivity.
    + right. split; [apply Z.leb_le; reflexivity|]. exists true. eexists. reflexivity.
  - intros (four & h & r & E & _ & T). destruct four; cbn [start_code app] in E; injection E; intros; subst; try discriminate. change (9 mod 32) with 9 in T. lia.
Qed.
