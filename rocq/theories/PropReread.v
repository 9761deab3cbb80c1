(** C74: read() called again. *)
From Verif Require Import Base BitIO BitIOProofs Boxes Box BoxSpec BoxTree TreeSpec TreeProofs TreeRead ReaderTotal ReaderTiling Reread.
From Coq Require Import List.
Import ListNotations.
Open Scope Z_scope.

(** The first call does what C14-C21, C44, C48 say of reading. *)
Theorem C74_first : forall file data, bytes data -> Zlen data < 2 ^ 63 ->
  exists r, SimpleReader_read file data = Some r /\
    SimpleReader_calls 1 file data SimpleReader_new = [match r with Ok (_, text) => Ok text | Throw e => Throw e | UB => UB end].
Proof.
  intros file data Hb Hl. pose proof (SimpleReader_total file data Hb Hl) as T. unfold SimpleReader_read, SimpleReader_parse in *. cbn [SimpleReader_calls]. unfold SimpleReader_call. cbn [SimpleReader_new rd_pos rd_boxes].
  destruct (readLeafs _ _ _ _ _ _ _) as [[[l pos]|e|]|]; [| | |contradiction].
  - eexists. split; [reflexivity|]. cbn [app]. destruct (print_boxes l); reflexivity.
  - eexists. split; [reflexivity|]. destruct (_ && _); reflexivity.
  - eexists. split; reflexivity.
Qed.
(** C74.  A stream can be read once: when the boxes of a file that is not empty were read (whether or not printing them then raised),
    every later call of read() on the same reader raises invalid_argument and prints nothing. *)
Theorem C74_once : forall file data ns n, bytes data -> Zlen data < 2 ^ 63 -> data <> [] ->
  (file = true -> ~ has_overreporting data /\ ~ has_unversioned_alst data) ->
  SimpleReader_parse file data = Some (Ok ns) ->
  SimpleReader_calls (S n) file data SimpleReader_new = print_boxes ns :: repeat (Throw InvalidArgument) n.
Proof.
  intros file data ns n Hb Hl Ne Hf E. unfold SimpleReader_parse in E. cbn [SimpleReader_calls]. unfold SimpleReader_call at 1. cbn [SimpleReader_new rd_pos rd_boxes].
  destruct (reader_tiles file data Hb Hl Hf (length data + 2)) as (_ & T). specialize (T false (Zlen data) 0 0).
  pose proof (Zlen_nonneg data). specialize (T ltac:(lia) ltac:(lia) ltac:(lia)).
  destruct (readLeafs _ _ _ _ _ _ _) as [[[l pos]|e|]|]; [|discriminate..]. injection E as ->. destruct T as (T1 & T2 & T3 & _). assert (pos = Zlen data) by lia. subst pos. clear T1 T2 T3. f_equal. cbn [app].
  assert (P : 0 < Zlen data) by (destruct data; [congruence|rewrite Zlen_cons; pose proof (Zlen_nonneg data); lia]).
  assert (Hd : read_box_header data (Zlen data) = Throw InvalidArgument) by (unfold read_box_header; cbv zeta; rewrite Z.sub_diag; reflexivity).
  assert (C : SimpleReader_call file data (mk_reader (Zlen data) ns) = Some (Some (mk_reader (Zlen data) ns), Throw InvalidArgument)).
  { unfold SimpleReader_call. cbn [rd_pos rd_boxes]. replace (length data + 2)%nat with (S (S (length data))) by lia. cbn [readLeafs readBox]. replace (Zlen data >? 0) with true by lia. rewrite Hd, Z.sub_diag. reflexivity. }
  induction n as [|n IH]; [reflexivity|]. cbn [SimpleReader_calls repeat]. rewrite C. f_equal. exact IH.
Qed.
(** An empty stream can be read any number of times; nothing is printed. *)
Theorem C74_empty : forall file n, SimpleReader_calls n file [] SimpleReader_new = repeat (Ok []) n.
Proof.
  intros file. assert (C : SimpleReader_call file [] SimpleReader_new = Some (Some SimpleReader_new, Ok [])) by reflexivity.
  induction n as [|n IH]; [reflexivity|]. cbn [SimpleReader_calls repeat]. rewrite C. f_equal. exact IH.
Qed.
(** A call that does not begin at the beginning of the stream never returns: whatever it reads, the loop runs into the end. *)
Lemma call_elsewhere file data st : bytes data -> Zlen data < 2 ^ 63 -> (file = true -> ~ has_overreporting data /\ ~ has_unversioned_alst data) ->
  0 < rd_pos st <= Zlen data ->
  match SimpleReader_call file data st with
  | Some (Some st', r) => (exists e, r = Throw e) /\ rd_pos st' = Zlen data
  | Some (None, r) => (exists e, r = Throw e) \/ (r = UB /\ has_unversioned_alst data)
  | None => False
  end.
Proof.
  intros Hb Hl Hf P. unfold SimpleReader_call. destruct (reader_tiles file data Hb Hl Hf (length data + 2)) as (_ & T). specialize (T false (Zlen data) 0 (rd_pos st)).
  specialize (T ltac:(lia) ltac:(lia) ltac:(lia)). destruct (reader_total file data Hb Hl (length data + 2)) as (_ & R). specialize (R false (Zlen data) 0 (rd_pos st)).
  assert (G : good_pos file data (rd_pos st)) by (split; [lia|left; lia]). specialize (R G). assert (F : 2 * (Z.max 0 (Zlen data - rd_pos st) / 8) + 2 <= Z.of_nat (length data + 2)) by (unfold Zlen in *; lia).
  specialize (R F). destruct (readLeafs _ _ _ _ _ _ _) as [[[l pos]|e|]|]; cbn [leafs_post leafs_t] in *.
  - exfalso. destruct T as (T1 & T2 & T3 & _). lia.
  - destruct (_ && _); [split; [eauto|reflexivity]|left; eauto].
  - right. split; [reflexivity|]. destruct R as [R|(R1 & R2)]; [exact R|]. destruct (Hf R1) as (N & _). contradiction.
  - exact R.
Qed.
(** C74.  After the first call, whatever came of it, and whatever position or failure it has left behind, no call of read() on a stream that is not
    empty ever returns: each raises and prints nothing. *)
Theorem C74_later : forall file data r rs, bytes data -> Zlen data < 2 ^ 63 -> data <> [] ->
  (file = true -> ~ has_overreporting data /\ ~ has_unversioned_alst data) ->
  SimpleReader_history file data (Usable SimpleReader_new) (r :: rs) ->
  SimpleReader_read file data = Some (match r with Ok text => Ok (match SimpleReader_parse file data with Some (Ok ns) => ns | _ => [] end, text) | Throw e => Throw e | UB => UB end) /\
  Forall (fun r' => (exists e, r' = Throw e) \/ (r' = UB /\ has_unversioned_alst data)) rs.
Proof.
  intros file data r rs Hb Hl Ne Hf H. assert (P : 0 < Zlen data) by (destruct data; [congruence|rewrite Zlen_cons; pose proof (Zlen_nonneg data); lia]).
  assert (Later : forall c rs, match c with Usable st => 0 < rd_pos st <= Zlen data | Failed_stream _ => True end -> SimpleReader_history file data c rs ->
      Forall (fun r' => (exists e, r' = Throw e) \/ (r' = UB /\ has_unversioned_alst data)) rs).
  { intros c rs' I H'. clear H. induction H' as [c|c r' c' rs' M H' IH|st U]; [constructor| |].
    - destruct M as [st st' r'' E|st e p boxes E L|st e boxes E|boxes _].
      + pose proof (call_elsewhere file data st Hb Hl Hf I) as C. rewrite E in C. destruct C as (C1 & C2). constructor; [left; exact C1|]. apply IH. rewrite C2. lia.
      + constructor; [left; eauto|]. apply IH. cbn [rd_pos]. lia.
      + constructor; [left; eauto|]. apply IH. exact Logic.I.
      + constructor; [left; eauto|]. apply IH. exact Logic.I.
    - pose proof (call_elsewhere file data st Hb Hl Hf I) as C. rewrite U in C. constructor; [exact C|constructor]. }
  assert (First : forall o r0, SimpleReader_call file data SimpleReader_new = Some (o, r0) ->
      SimpleReader_read file data = Some (match r0 with Ok text => Ok (match SimpleReader_parse file data with Some (Ok ns) => ns | _ => [] end, text) | Throw e => Throw e | UB => UB end) /\
      match o with Some st' => 0 < rd_pos st' <= Zlen data | None => True end).
  { intros o r0 E. unfold SimpleReader_call in E. unfold SimpleReader_read, SimpleReader_parse. cbn [SimpleReader_new rd_pos rd_boxes app] in *.
    destruct (reader_tiles file data Hb Hl Hf (length data + 2)) as (_ & T). specialize (T false (Zlen data) 0 0 ltac:(lia) ltac:(lia) ltac:(lia)).
    destruct (readLeafs _ _ _ _ _ _ _) as [[[l pos]|e|]|]; [| | |discriminate].
    - injection E as <- <-. cbn [leafs_t] in T. split; [destruct (print_boxes l); reflexivity|]. cbn [rd_pos]. lia.
    - injection E as <- <-. split; [reflexivity|]. destruct (_ && _); [cbn [rd_pos]; lia|exact Logic.I].
    - injection E as <- <-. split; [reflexivity|exact Logic.I]. }
  inversion H as [|c r0 c' rs0 M H'|st U]; subst.
  - inversion M as [st st' r0 E|st e p boxes E L|st e boxes E|]; subst; destruct (First _ _ E) as (F1 & F2); (split; [exact F1|]); (eapply Later; [|exact H']); first [exact F2|exact Logic.I|cbn [SimpleReader_new rd_pos] in *; lia].
  - destruct (First _ _ U) as (F1 & _). split; [exact F1|constructor].
Qed.
(** There are such histories of any length. *)
Theorem C74_goes_on : forall file data n, bytes data -> Zlen data < 2 ^ 63 -> data <> [] ->
  (file = true -> ~ has_overreporting data) -> ~ has_unversioned_alst data ->
  exists rs, length rs = n /\ SimpleReader_history file data (Usable SimpleReader_new) rs.
Proof.
  intros file data n Hb Hl Ne Ho Ha. assert (P : 0 < Zlen data) by (destruct data; [congruence|rewrite Zlen_cons; pose proof (Zlen_nonneg data); lia]).
  assert (Hf : file = true -> ~ has_overreporting data /\ ~ has_unversioned_alst data) by auto.
  assert (Gen : forall n c, match c with Usable st => 0 <= rd_pos st <= Zlen data | Failed_stream _ => True end -> exists rs, length rs = n /\ SimpleReader_history file data c rs).
  { clear n. induction n as [|n IH]; intros c I; [exists []; split; [reflexivity|constructor]|].
    assert (S : exists r c', SimpleReader_may file data c r c' /\ match c' with Usable st => 0 <= rd_pos st <= Zlen data | Failed_stream _ => True end).
    { destruct c as [st|boxes]; [|exists (Throw RuntimeError), (Failed_stream boxes); split; [constructor; exact P|exact Logic.I]].
      destruct (reader_total file data Hb Hl (length data + 2)) as (_ & R). specialize (R false (Zlen data) 0 (rd_pos st)).
      assert (G : good_pos file data (rd_pos st)) by (split; [lia|left; lia]). specialize (R G ltac:(unfold Zlen in *; lia)).
      destruct (reader_tiles file data Hb Hl Hf (length data + 2)) as (_ & T). specialize (T false (Zlen data) 0 (rd_pos st) ltac:(lia) ltac:(lia) ltac:(lia)).
      destruct (SimpleReader_call file data st) as [[[st'|] r]|] eqn:E.
      - exists r, (Usable st'). split; [constructor; exact E|]. unfold SimpleReader_call in E. destruct (readLeafs _ _ _ _ _ _ _) as [[[l pos]|e|]|]; cbn [leafs_post leafs_t] in *; [|destruct (_ && _)| |]; try discriminate; injection E as <- <-; cbn [rd_pos]; lia.
      - destruct r as [text|e|].
        + exfalso. unfold SimpleReader_call in E. destruct (readLeafs _ _ _ _ _ _ _) as [[[l pos]|e|]|]; discriminate.
        + exists (Throw e), (Failed_stream []). split; [apply may_break with (1 := E)|exact Logic.I].
        + exfalso. unfold SimpleReader_call in E. destruct (readLeafs _ _ _ _ _ _ _) as [[[l pos]|e|]|]; try discriminate. cbn [leafs_post] in R. destruct R as [R|(R1 & R2)]; [contradiction|]. exact (Ho R1 R2).
      - exfalso. unfold SimpleReader_call in E. destruct (readLeafs _ _ _ _ _ _ _) as [[[l pos]|e|]|]; cbn [leafs_post] in R; try discriminate. exact R. }
    destruct S as (r & c' & M & I'). destruct (IH c' I') as (rs & L & H). exists (r :: rs). split; [cbn [length]; rewrite L; reflexivity|econstructor; eassumption]. }
  apply Gen. cbn [SimpleReader_new rd_pos]. lia.
Qed.
Print Assumptions C74_first.
Print Assumptions C74_once.
Print Assumptions C74_empty.
Print Assumptions C74_later.
Print Assumptions C74_goes_on.
(** A free box of 10 octets, then one of 8; read three times. *)
Example C74_case : let data := [0; 0; 0; 10; 102; 114; 101; 101; 7; 7; 0; 0; 0; 8; 102; 114; 101; 101] in
  (exists ns, SimpleReader_parse false data = Some (Ok ns) /\ length ns = 2%nat) /\
  (exists text, SimpleReader_calls 3 false data SimpleReader_new = [Ok text; Throw InvalidArgument; Throw InvalidArgument] /\ length text = 72%nat).
Proof. cbv zeta. split; [eexists; split; [vm_compute; reflexivity|reflexivity]|]. eexists. split; [vm_compute; reflexivity|vm_compute; reflexivity]. Qed.
(** A box of 8 octets, then one that announces 20 of the 10 there are: the first call raises; the next finds the octets behind the header (one or two), or, if it finds none, raises too. *)
Example C74_later_case : let data := [0; 0; 0; 8; 102; 114; 101; 101; 0; 0; 0; 20; 102; 114; 101; 101; 7; 7] in
  SimpleReader_history false data (Usable SimpleReader_new) [Throw RuntimeError; Throw InvalidArgument; Throw InvalidArgument] /\
  SimpleReader_history false data (Usable SimpleReader_new) [Throw RuntimeError; Throw RuntimeError].
Proof.
  cbv zeta. split.
  - eapply history_call; [apply may_stop with (p := 16) (boxes := []); [vm_compute; reflexivity|split; [reflexivity|discriminate]]|].
    eapply history_call; [apply may_known; vm_compute; reflexivity|]. eapply history_call; [apply may_known; vm_compute; reflexivity|]. constructor.
  - eapply history_call; [apply may_break with (boxes := []); vm_compute; reflexivity|]. eapply history_call; [apply may_broken; reflexivity|]. constructor.
Qed.
