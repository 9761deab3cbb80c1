(** The text of the reader, line by line. *)
From Verif Require Import Base BitIO BitFacts BitIOProofs Boxes WireFormat BoxTac BoxRead BoxInv Box BoxSpec Print PrintSpec PrintProofs PrintInj BoxTree TreeSpec TreeProofs TreeRead TreeLayout TreePrint ReaderTotal ReaderTiling TreeLemmas
  DumpSpec ReaderPrint.
From Coq Require Import Ascii String List.
Import ListNotations.
Open Scope Z_scope.
Open Scope list_scope.

Definition lines (l : list (list Z)) : list Z := flat_map (fun s => s ++ [10]) l.
Lemma lines_app a b : lines (a ++ b) = lines a ++ lines b.
Proof. apply flat_map_app. Qed.
Lemma preorder_eq depth t h b l : preorder depth (Node t h b l) = (depth, Node t h b l) :: flat_map (preorder (S depth)) l.
Proof. reflexivity. Qed.
Lemma shown h b s depth t l : Box_toString (Some h) b = Ok s -> shows (depth, Node t (Some h) b l) (repeat 32 (2 * depth) ++ s).
Proof.
  unfold Box_toString. destruct (Box_toStringOnlyData b) as [m|?|] eqn:E; try discriminate. cbn [obind]. intros H. assert (X := f_equal (fun o => match o with Ok s => s | _ => [] end) H). cbv beta iota in X. subst s.
  exists h, m. cbn [n_header n_box fst snd]. split; [reflexivity|]. split; [exact E|]. unfold BoxHeader_toString. rewrite <- !app_assoc. reflexivity.
Qed.
Lemma join_lines l x : join [10] (x :: l) ++ [10] = lines (x :: l).
Proof.
  revert x. induction l as [|y l IH]; intros x; [unfold lines; cbn; rewrite app_nil_r; reflexivity|].
  change (join [10] (x :: y :: l)) with (x ++ [10] ++ join [10] (y :: l)). rewrite <- !app_assoc, IH. unfold lines. cbn [flat_map]. rewrite <- !app_assoc. reflexivity.
Qed.
Lemma toString_lines n : forall depth s, (forall k, occurs k n -> n_header k <> None) -> BoxInfo_toString depth n = Ok s ->
  exists ls, Forall2 shows (preorder depth n) ls /\ s ++ [10] = lines ls.
Proof.
  induction n as [t h b l IH] using node_ind'. intros depth s H E. rewrite BoxInfo_toString_eq in E. destruct h as [h|]; [|exfalso; exact (H _ (occurs_here _) eq_refl)].
  destruct (BoxInfo_toStrings (S depth) l) as [ls|?|] eqn:El; try discriminate E. cbn [obind] in E. destruct (Box_toString (Some h) b) as [x|?|] eqn:Eb; try discriminate E. cbn [obind] in E.
  assert (X := f_equal (fun o => match o with Ok s => s | _ => [] end) E). cbv beta iota in X. subst s. clear E.
  assert (Hl : Forall (fun k => forall j, occurs j k -> n_header j <> None) l) by (apply Forall_forall; intros k I j O; apply H; eapply occurs_below; [exact I|exact O]).
  assert (L : exists r, Forall2 shows (flat_map (preorder (S depth)) l) r /\ lines ls = lines r).
  { clear H Eb. revert ls El. induction IH as [|k l Hk _ IHl]; intros ls El; [injection El as <-; exists []; split; [constructor|reflexivity]|]. apply Forall_cons_iff in Hl as [Hhk Hl]. cbn [BoxInfo_toStrings] in El.
    destruct (BoxInfo_toString (S depth) k) as [sk|?|] eqn:Ek; try discriminate El. cbn [obind] in El. destruct (BoxInfo_toStrings (S depth) l) as [r|?|]; try discriminate El. cbn [obind] in El.
    injection El as <-. destruct (IHl Hl r eq_refl) as (r' & F & G). destruct (Hk (S depth) sk Hhk Ek) as (rk & Fk & Gk). exists (rk ++ r'). split; [cbn [flat_map]; apply Forall2_app; assumption|].
    rewrite lines_app. unfold lines in *. cbn [flat_map]. rewrite Gk, G. reflexivity. }
  destruct L as (r & F & G). exists ((repeat 32 (2 * depth) ++ x) :: r). split; [rewrite preorder_eq; constructor; [apply shown; exact Eb|exact F]|].
  unfold lines in *. cbn [flat_map]. rewrite <- G. destruct ls as [|y ls]; [cbn [flat_map]; rewrite !app_nil_r; reflexivity|].
  pose proof (join_lines ls y) as J. unfold lines in J. rewrite <- J, <- !app_assoc. reflexivity.
Qed.
Lemma print_lines ns : forall text, Forall (fun n => forall k, occurs k n -> n_header k <> None) ns -> print_boxes ns = Ok text ->
  exists ls, Forall2 shows (flat_map (preorder 0) ns) ls /\ text = lines ls.
Proof.
  induction ns as [|n ns IH]; intros text H E; [injection E as <-; exists []; split; [constructor|reflexivity]|]. apply Forall_cons_iff in H as [Hn H]. cbn [print_boxes] in E.
  destruct (BoxInfo_toString 0 n) as [s|?|] eqn:Es; try discriminate E. cbn [obind] in E. destruct (print_boxes ns) as [r|?|]; try discriminate E. cbn [obind] in E. injection E as <-.
  destruct (toString_lines n 0%nat s Hn Es) as (a & Fa & Ga). destruct (IH r H eq_refl) as (b & Fb & Gb). exists (a ++ b). split; [cbn [flat_map]; apply Forall2_app; assumption|].
  rewrite lines_app, <- Ga, <- Gb, <- app_assoc. reflexivity.
Qed.
Lemma parsed_headers data n uw k : from_file data uw n -> occurs k n -> n_header k <> None.
Proof. intros F O. destruct (occurs_from data k n O uw F) as (uw' & G). destruct k as [t [h|] b l]; [discriminate|destruct G as [[] _]]. Qed.
Theorem dump_lines file data ns text : bytes data -> Zlen data < 2 ^ 63 -> SimpleReader_read file data = Some (Ok (ns, text)) ->
  exists ls, Forall2 shows (flat_map (preorder 0) ns) ls /\ text = flat_map (fun l => l ++ [10]) ls.
Proof.
  intros B L R. apply read_inv in R as [E P]. apply (print_lines ns text); [|exact P]. destruct (SimpleReader_reports _ _ _ B L E) as [F _]. rewrite Forall_forall in *.
  intros n I k O. eapply parsed_headers; [exact (F n I)|exact O].
Qed.
(** Lines of boxes of the same type determine offset and size. *)
Theorem line_determines h h' b b' s : h_type h = h_type h' -> Box_toString (Some h) b = Ok s -> Box_toString (Some h') b' = Ok s ->
  h_offset h = h_offset h' /\ h_size h = h_size h' /\ Box_toStringOnlyData b = Box_toStringOnlyData b'.
Proof.
  intros T E E'. unfold Box_toString in *. destruct (Box_toStringOnlyData b) as [m|?|]; try discriminate E. destruct (Box_toStringOnlyData b') as [m'|?|]; try discriminate E'. cbn [obind] in *.
  rewrite <- E' in E. assert (X := f_equal (fun o => match o with Ok s => s | _ => [] end) E). cbv beta iota in X. clear E E'. unfold BoxHeader_toString in X. rewrite T, <- !app_assoc in X.
  apply app_inv_head in X. apply app_inv_head in X. apply app_inv_head in X. destruct (dec_peel _ _ _ _ X eq_refl eq_refl) as [O Y]. apply app_inv_head in Y.
  assert (S : forall m : list Z, stop match m with [] => [] | _ => 32 :: m end = true) by (intros []; reflexivity).
  destruct (dec_peel _ _ _ _ Y (S m) (S m')) as [Z W]. split; [exact O|]. split; [exact Z|]. destruct m as [|c m], m' as [|c' m']; try discriminate W; [reflexivity|]. injection W as -> ->. reflexivity.
Qed.
