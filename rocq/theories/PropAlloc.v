(** C79: storage asked for before the data are seen. *)
From Coq Require Import ZifyBool.
From Verif Require Import Base BitIO BitFacts BitIOProofs Boxes WireFormat Box BoxSpec BoxTree TreeSpec TreeProofs TreeLayout TreeRead ReaderTotal TreeLemmas WeightSpec Weight Alloc AllocSpec AllocProofs AllocExact Track.
From Coq Require Import Ascii String List.
Import ListNotations.
Open Scope Z_scope.
Open Scope list_scope.

(** C79 (payloads).  Readers resize their vectors to counts taken from the data before they read the elements.  Whatever the
    payload: a reader that returns has asked for exactly the elements its vectors hold, together no more than the payload has
    octets - except for the entries of a 'trun' box without per-sample fields, asked for at once and fewer than 2^32 -, and one
    that fails has asked for fewer than 2^33 elements besides eight for each octet of the payload. *)
Theorem C79_payload : forall k type under_wave data, bytes data ->
  exists q o, Box_readData_l k type under_wave (reader_init data) = (q, o) /\ Box_readData k type under_wave (reader_init data) = o /\ Forall (Z.le 0) q /\
  match o with
  | Ok (_, _, b) => total q = vectors b /\ (blank_run b = false -> total q <= Zlen data) /\ (blank_run b = true -> exists n, q = [n] /\ n < 2 ^ 32)
  | _ => total q <= 8 * Zlen data + 2 ^ 33
  end.
Proof.
  intros k type uw data Hb. pose proof (box_asks k type uw data Hb) as A. pose proof (er_box k type uw (reader_init data)) as Er.
  pose proof (fun q r n b => box_exact k type uw data q r n b Hb) as X.
  destruct (Box_readData_l k type uw (reader_init data)) as [q o]. exists q, o. split; [reflexivity|]. split; [symmetry; exact Er|]. destruct A as [Q A]. split; [exact Q|].
  destruct o as [[[r n] b]|e|]; [|exact A..]. split; [exact (X q r n b eq_refl)|]. split.
  - intros Bl. exact (proj1 (proj1 A Bl)).
  - intros Bl. destruct (proj2 A Bl) as (_ & c & E & F). exists c. split; [exact E|]. exact (proj2 F).
Qed.
Print Assumptions C79_payload.

(** C79 (files).  While read() reads a file of any contents it calls readData for no more boxes than the file has groups of eight
    octets.  Of these calls only the last can fail.  Those that return are for the boxes in the tree, in their order when
    read() returns; each has asked for what the vectors of its box hold, and all together (leaving out 'trun' boxes without
    per-sample fields) for no more elements than the file has octets.  The one that fails has asked for fewer than 2^33 elements
    besides eight for each octet of the file. *)
Theorem C79_file : forall file data, bytes data -> Zlen data < 2 ^ 63 ->
  exists l r, SimpleReader_l file data = Some (l, r) /\ SimpleReader_parse file data = Some r /\
  Forall (fun x => Forall (Z.le 0) (asked x)) l /\
  Forall (fun x => forall b, got x = Some b -> total (asked x) = vectors b /\ (blank_run b = true -> total (asked x) < 2 ^ 32)) l /\
  (forall ns, r = Ok ns -> map got l = map Some (flat_map boxes_in ns)) /\
  exists l1 tl, l = l1 ++ tl /\ Forall (fun x => got x <> None) l1 /\
    8 * Zlen l + counted_all l1 <= Zlen data /\
    (tl = [] \/ exists q, tl = [mk_reading q None] /\ total q <= 8 * Zlen data + 2 ^ 33).
Proof.
  intros file data Hb Hl. pose proof (SimpleReader_total file data Hb Hl) as T. unfold SimpleReader_parse, SimpleReader_l in *.
  rewrite <- (proj2 (reader_erase file data (length data + 2))) in *.
  destruct (readLeafs_l (length data + 2) file data false (Zlen data) 0 0) as [[l o]|] eqn:E; [|exfalso; exact T]. cbn [option_map snd] in *.
  pose proof (proj2 (reader_asks file data Hb Hl (length data + 2)) false (Zlen data) 0 0 l o ltac:(lia) E) as [S A].
  pose proof (proj2 (reader_exact file data Hb (length data + 2)) false (Zlen data) 0 0 l o E) as [P X]. pose proof (Zlen_nonneg data) as Ln.
  assert (G1 : Forall (fun x => Forall (Z.le 0) (asked x)) l) by (eapply Forall_impl; [|exact S]; intros x [H _]; exact H).
  assert (G2 : Forall (fun x => forall b, got x = Some b -> total (asked x) = vectors b /\ (blank_run b = true -> total (asked x) < 2 ^ 32)) l).
  { rewrite Forall_forall in *. intros x Hx b G. split; [exact (P x Hx b G)|]. intros Bl. destruct (proj2 (S x Hx) b G Bl) as (c & Ea & Rc). rewrite Ea, tot_one. exact (proj2 Rc). }
  assert (F : failing (Z.max 0 (Zlen data - 0)) (Zlen data) l -> exists l1 tl, l = l1 ++ tl /\ Forall (fun x => got x <> None) l1 /\ 8 * Zlen l + counted_all l1 <= Zlen data /\
    (tl = [] \/ exists q, tl = [mk_reading q None] /\ total q <= 8 * Zlen data + 2 ^ 33)).
  { intros (l1 & tl & E1 & E2 & E3 & E4). exists l1, tl. split; [exact E1|]. split; [exact E2|]. split; [lia|exact E4]. }
  destruct o as [[ns p]|e|].
  - exists l, (Ok ns). split; [reflexivity|]. split; [reflexivity|]. split; [exact G1|]. split; [exact G2|]. split; [intros ns' Q; injection Q as <-; exact X|].
    destruct A as (A1 & A2 & A3). exists l, []. split; [symmetry; apply app_nil_r|]. split; [exact A1|]. split; [lia|left; reflexivity].
  - exists l, (Throw e). split; [reflexivity|]. split; [reflexivity|]. split; [exact G1|]. split; [exact G2|]. split; [intros ns Q; discriminate Q|]. apply F; exact A.
  - exists l, UB. split; [reflexivity|]. split; [reflexivity|]. split; [exact G1|]. split; [exact G2|]. split; [intros ns Q; discriminate Q|]. apply F; exact A.
Qed.
Print Assumptions C79_file.
(** A file of an 'mdat' box of five octets and an 'stts' box that announces three entries and has one. *)
Definition asking_file : list Z := be_octets 4 13 ++ str "mdat" ++ [1; 2; 3; 4; 5] ++ be_octets 4 24 ++ str "stts" ++ [0; 0; 0; 0] ++ be_octets 4 3 ++ be_octets 4 7 ++ be_octets 4 9.
Example C79_file_satisfiable : SimpleReader_l true asking_file = Some ([mk_reading [5] (Some (B_mdat [1; 2; 3; 4; 5])); mk_reading [3] None], Throw RuntimeError).
Proof. vm_compute. reflexivity. Qed.
Example C79_payload_satisfiable : exists r n, Box_readData_l K_stts (str "stts") false (reader_init ([0; 0; 0; 0] ++ be_octets 4 2 ++ be_octets 4 1 ++ be_octets 4 33 ++ be_octets 4 2 ++ be_octets 4 34)) =
  ([2], Ok (r, n, B_stts (mk_stts (mk_fullbox 0 0 0 0) [mk_stts_entry 1 33; mk_stts_entry 2 34]))).
Proof. do 2 eexists. vm_compute. reflexivity. Qed.
