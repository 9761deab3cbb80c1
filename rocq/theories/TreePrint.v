(** What printing a tree needs and gives. *)
From Verif Require Import Base BitIO BitFacts BitIOProofs Boxes WireFormat Box BoxSpec Print PrintSpec PrintProofs BoxTree TreeSpec TreeProofs TreeLayout TreeRead.

Lemma printable_prints t : all_boxes box_printable t -> all_boxes prints t.
Proof. induction t as [t b l IH] using tree_ind'. rewrite !all_boxes_eq. intros [A B]. split; [apply printable_ok; exact A|]. rewrite Forall_forall in *. auto. Qed.

(** The leaf loop of BoxInfo_toString. *)
Fixpoint BoxInfo_toStrings (depth : nat) (l : list node) : outcome (list (list Z)) :=
  match l with
  | [] => Ok []
  | k :: l' => obind (BoxInfo_toString depth k) (fun s => obind (BoxInfo_toStrings depth l') (fun r => Ok (s :: r)))
  end.
Lemma BoxInfo_toString_eq depth t h b l : BoxInfo_toString depth (Node t h b l) =
  obind (BoxInfo_toStrings (S depth) l) (fun ls => obind (Box_toString h b) (fun s =>
    Ok (repeat 32 (2 * depth) ++ s ++ match ls with [] => [] | _ => 10 :: join [10] ls end))).
Proof.
  cbn [BoxInfo_toString]. f_equal. induction l as [|k l IH]; [reflexivity|]. cbn [BoxInfo_toStrings]. rewrite <- IH. reflexivity.
Qed.
Lemma toString_ok n : forall depth, all_boxes prints (tree_of n) -> exists s, BoxInfo_toString depth n = Ok s.
Proof.
  induction n as [t h b l IH] using node_ind'. intros depth P. cbn [tree_of] in P. rewrite all_boxes_eq, Forall_map in P. destruct P as [P Pl].
  assert (L : forall d, exists r, BoxInfo_toStrings d l = Ok r).
  { intros d. clear P. induction IH as [|k l Hk _ IHl]; [eexists; reflexivity|]. apply Forall_cons_iff in Pl as [Pk Pl].
    destruct (Hk d Pk) as (s & E). destruct (IHl Pl) as (r & E'). cbn [BoxInfo_toStrings]. rewrite E, E'. eexists. reflexivity. }
  destruct (L (S depth)) as (r & E). destruct (Box_toString_ok h b P) as (s & E'). rewrite BoxInfo_toString_eq, E, E'. eexists. reflexivity.
Qed.
Lemma toString_inv n : forall depth s, BoxInfo_toString depth n = Ok s -> all_boxes prints (tree_of n).
Proof.
  induction n as [t h b l IH] using node_ind'. intros depth s E. rewrite BoxInfo_toString_eq in E. cbn [tree_of]. rewrite all_boxes_eq, Forall_map.
  destruct (BoxInfo_toStrings (S depth) l) as [ls|?|] eqn:El; try discriminate E. cbn [obind] in E. split.
  - unfold Box_toString in E. unfold prints. destruct (Box_toStringOnlyData b) as [x|?|]; try discriminate E. eauto.
  - clear E. revert ls El. induction IH as [|k l Hk _ IHl]; intros ls El; [constructor|]. cbn [BoxInfo_toStrings] in El.
    destruct (BoxInfo_toString (S depth) k) as [sk|?|] eqn:Ek; try discriminate El. cbn [obind] in El.
    destruct (BoxInfo_toStrings (S depth) l) as [r|?|]; try discriminate El. constructor; eauto.
Qed.
Lemma print_ok l : Forall (fun n => all_boxes prints (tree_of n)) l -> exists text, print_boxes l = Ok text.
Proof.
  induction 1 as [|n l Hn _ (r & E)]; [eexists; reflexivity|]. destruct (toString_ok n 0%nat Hn) as (s & Es). cbn [print_boxes]. rewrite Es, E. eexists. reflexivity.
Qed.
Lemma print_inv l : forall text, print_boxes l = Ok text -> Forall (fun n => all_boxes prints (tree_of n)) l.
Proof.
  induction l as [|n l IH]; intros text E; [constructor|]. cbn [print_boxes] in E. destruct (BoxInfo_toString 0 n) as [s|?|] eqn:Es; try discriminate E. cbn [obind] in E.
  destruct (print_boxes l) as [r|?|]; try discriminate E. constructor; [eapply toString_inv; exact Es|eauto].
Qed.
Lemma read_inv file data ns text : SimpleReader_read file data = Some (Ok (ns, text)) -> SimpleReader_parse file data = Some (Ok ns) /\ print_boxes ns = Ok text.
Proof.
  unfold SimpleReader_read. destruct (SimpleReader_parse file data) as [[l|?|]|]; try discriminate. destruct (print_boxes l) as [x|?|] eqn:E; cbn [obind]; try discriminate.
  intros H. injection H as <- <-. auto.
Qed.
Lemma read_ok file data ns : SimpleReader_parse file data = Some (Ok ns) -> Forall (fun n => all_boxes prints (tree_of n)) ns ->
  exists text, SimpleReader_read file data = Some (Ok (ns, text)) /\ print_boxes ns = Ok text.
Proof. intros E P. destruct (print_ok ns P) as (text & T). exists text. unfold SimpleReader_read. rewrite E, T. auto. Qed.
