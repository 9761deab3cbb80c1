(** Proofs about the objects of SimpleReader (C60). *)
From Verif Require Import Base BitIO Boxes Box Print BoxTree Memory.
From Coq Require Import List Arith Lia.
Import ListNotations.
Open Scope Z_scope.
Open Scope list_scope.

(** * Ownership *)
Definition header_at (H : heap) (hd : option addr) (fp : list addr) : Prop :=
  match hd with None => fp = [] | Some x => fp = [x] /\ exists h, at_ H x = Some (A_header h) end.
Inductive owns (H : heap) : addr -> list addr -> Prop :=
  | owns_info a b ls hd t mb fh fps : at_ H a = Some (A_info b ls) -> at_ H b = Some (A_box hd t mb) -> header_at H hd fh -> owns_all H ls fps ->
      owns H a (a :: b :: fh ++ fps)
with owns_all (H : heap) : list addr -> list addr -> Prop :=
  | owns_nil : owns_all H [] []
  | owns_cons a ls fp fps : owns H a fp -> owns_all H ls fps -> owns_all H (a :: ls) (fp ++ fps).
Scheme owns_mind := Minimality for owns Sort Prop with owns_all_mind := Minimality for owns_all Sort Prop.
Combined Scheme owns_both from owns_mind, owns_all_mind.

(** Deleting an owned tree deletes exactly its objects. *)
Definition deleted (H H' : heap) (fp : list addr) : Prop :=
  next H' = next H /\ forall x, (In x fp -> at_ H' x = None) /\ (~ In x fp -> at_ H' x = at_ H x).
Lemma deleted_app H H1 H2 l l' : deleted H H1 l -> deleted H1 H2 l' -> deleted H H2 (l ++ l').
Proof.
  intros (N1 & A1) (N2 & A2). split; [congruence|]. intros x. destruct (A1 x) as (B1 & C1), (A2 x) as (B2 & C2). split; intros I.
  - destruct (in_dec Nat.eq_dec x l') as [J|J]; [apply B2, J|]. rewrite (C2 J). apply B1. apply in_app_iff in I as [I|I]; tauto.
  - rewrite in_app_iff in I. rewrite C2 by tauto. apply C1. tauto.
Qed.
Lemma put_at a c H x : at_ (put a c H) x = if Nat.eqb x a then c else at_ H x.
Proof. reflexivity. Qed.
Lemma deleted_one H a : deleted H (put a None H) [a].
Proof.
  split; [reflexivity|]. intros x. rewrite put_at. split; intros I.
  - destruct I as [<-|[]]. rewrite Nat.eqb_refl. reflexivity.
  - destruct (Nat.eqb_spec x a) as [->|]; [exfalso; apply I; left; reflexivity|reflexivity].
Qed.
Lemma deleted_eq H H' l l' : deleted H H' l -> (forall x, In x l <-> In x l') -> deleted H H' l'.
Proof. intros (N & A) E. split; [exact N|]. intros x. rewrite <- !E. apply A. Qed.
Definition same_on (H H' : heap) (fp : list addr) : Prop := forall x, In x fp -> at_ H' x = at_ H x.
Lemma same_deleted H H1 H2 fp l : same_on H H1 fp -> deleted H1 H2 l -> (forall x, In x fp -> ~ In x l) -> same_on H H2 fp.
Proof. intros S (_ & A) D x I. rewrite (proj2 (A x)); auto. Qed.

Lemma owns_delete H :
  (forall a fp, owns H a fp -> forall fuel H1, same_on H H1 fp -> NoDup fp -> (length fp <= fuel)%nat -> exists H', delete_info fuel a H1 = Ok H' /\ deleted H1 H' fp) /\
  (forall ls fp, owns_all H ls fp -> forall fuel H1, same_on H H1 fp -> NoDup fp -> (length fp <= fuel)%nat ->
     exists H', (fix go ls H := match ls with [] => Ok H | l :: r => obind (delete_info fuel l H) (fun H => go r H) end) ls H1 = Ok H' /\ deleted H1 H' fp).
Proof.
  apply owns_both.
  - intros a b ls hd t mb fh fps Ea Eb Eh _ IH fuel H1 S N L. cbn [length] in L. destruct fuel as [|fuel]; [lia|]. cbn [delete_info].
    rewrite (S a), Ea by (left; reflexivity). apply NoDup_cons_iff in N as (Na & N). apply NoDup_cons_iff in N as (Nb & N).
    assert (Nf : NoDup fps /\ forall x, In x fh -> ~ In x fps).
    { clear -N. induction fh as [|y fh IHf]; cbn [app] in N; [split; [exact N|intros x []]|]. apply NoDup_cons_iff in N as (Ny & N). destruct (IHf N) as (A & B). split; [exact A|].
      intros x [<-|I] J; [apply Ny, in_app_iff; auto|exact (B x I J)]. }
    destruct Nf as (Nf & Nfh). rewrite app_length in L.
    destruct (IH fuel H1) as (H2 & D2 & E2); [intros x I; apply S; right; right; apply in_app_iff; auto|exact Nf|lia|]. rewrite D2. cbn [obind].
    assert (K : forall x, In x (a :: b :: fh) -> at_ H2 x = at_ H x).
    { intros x I. rewrite (proj2 (proj2 E2 x)).
      - apply S. cbn [In] in I |- *. rewrite in_app_iff. tauto.
      - intros J. destruct I as [<-|[<-|I]]; [apply Na; right; apply in_app_iff; auto|apply Nb, in_app_iff; auto|exact (Nfh x I J)]. }
    unfold delete_box. rewrite (K b), Eb by (right; left; reflexivity).
    assert (E3 : exists H3, match hd with Some h => delete_header h H2 | None => Ok H2 end = Ok H3 /\ deleted H2 H3 fh).
    { destruct hd as [x|]; cbn [header_at] in Eh.
      - destruct Eh as (-> & h & Eh). unfold delete_header. rewrite (K x), Eh by (right; right; left; reflexivity). eexists. split; [reflexivity|apply deleted_one].
      - subst fh. exists H2. split; [reflexivity|]. split; [reflexivity|]. intros x. split; [intros []|reflexivity]. }
    destruct E3 as (H3 & D3 & E3). rewrite D3. cbn [obind]. eexists. split; [reflexivity|].
    refine (deleted_eq _ _ _ _ (deleted_app _ _ _ _ _ E2 (deleted_app _ _ _ _ _ E3 (deleted_app _ _ _ _ _ (deleted_one _ b) (deleted_one _ a)))) _).
    intros x. cbn [In app]. rewrite !in_app_iff. cbn [In]. tauto.
  - intros fuel H1 S N L. exists H1. split; [reflexivity|]. split; [reflexivity|]. intros x. split; [intros []|reflexivity].
  - intros a ls fp fps _ IHa _ IHl fuel H1 S N L. rewrite app_length in L.
    assert (Nf : NoDup fp /\ NoDup fps /\ forall x, In x fp -> ~ In x fps).
    { clear -N. induction fp as [|y fp IHf]; cbn [app] in N; [split; [constructor|split; [exact N|intros x []]]|]. apply NoDup_cons_iff in N as (Ny & N). destruct (IHf N) as (A & B & C).
      rewrite in_app_iff in Ny. split; [constructor; tauto|]. split; [exact B|]. intros x [<-|I] J; [tauto|exact (C x I J)]. }
    destruct Nf as (N1 & N2 & N3).
    destruct (IHa fuel H1) as (H2 & D2 & E2); [intros x I; apply S, in_app_iff; auto|exact N1|lia|]. rewrite D2. cbn [obind].
    destruct (IHl fuel H2) as (H3 & D3 & E3); [|exact N2|lia|].
    { apply (same_deleted H H1 H2 fps fp); [intros x I; apply S, in_app_iff; auto|exact E2|intros x I J; exact (N3 x J I)]. }
    exists H3. split; [exact D3|]. exact (deleted_app _ _ _ _ _ E2 E3).
Qed.
Lemma delete_infos_go fuel ls H : delete_infos fuel ls H = (fix go ls H := match ls with [] => Ok H | l :: r => obind (delete_info fuel l H) (fun H => go r H) end) ls H.
Proof. revert H. induction ls as [|l ls IH]; intros H; [reflexivity|]. cbn [delete_infos]. destruct (delete_info fuel l H); [apply IH|reflexivity..]. Qed.

(** * What a heap represents *)
Inductive rep (H : heap) : addr -> list addr -> node -> Prop :=
  | rep_info a b ls hd t mb h fps ns : at_ H a = Some (A_info b ls) -> at_ H b = Some (A_box (Some hd) t (Some mb)) -> at_ H hd = Some (A_header h) -> rep_all H ls fps ns ->
      rep H a (a :: b :: [hd] ++ fps) (Node t (Some h) mb ns)
with rep_all (H : heap) : list addr -> list addr -> list node -> Prop :=
  | rep_nil : rep_all H [] [] []
  | rep_cons a ls fp fps n ns : rep H a fp n -> rep_all H ls fps ns -> rep_all H (a :: ls) (fp ++ fps) (n :: ns).
Scheme rep_mind := Minimality for rep Sort Prop with rep_all_mind := Minimality for rep_all Sort Prop.
Combined Scheme rep_both from rep_mind, rep_all_mind.
Lemma rep_owns H : (forall a fp n, rep H a fp n -> owns H a fp) /\ (forall ls fp ns, rep_all H ls fp ns -> owns_all H ls fp).
Proof.
  apply rep_both; intros; [|apply owns_nil|apply owns_cons; assumption]. eapply owns_info; eauto. split; [reflexivity|eauto].
Qed.
Lemma owns_same H H' :
  (forall a fp, owns H a fp -> same_on H H' fp -> owns H' a fp) /\ (forall ls fp, owns_all H ls fp -> same_on H H' fp -> owns_all H' ls fp).
Proof.
  apply owns_both.
  - intros a b ls hd t mb fh fps Ea Eb Eh _ IH S. apply owns_info with ls hd t mb.
    + rewrite S by (left; reflexivity). exact Ea.
    + rewrite S by (right; left; reflexivity). exact Eb.
    + destruct hd as [x|]; [|exact Eh]. destruct Eh as (-> & h & Eh). split; [reflexivity|]. exists h. rewrite S by (right; right; left; reflexivity). exact Eh.
    + apply IH. intros x I. apply S. right. right. apply in_app_iff. auto.
  - intros _. apply owns_nil.
  - intros a ls fp fps _ IHa _ IHl S. apply owns_cons; [apply IHa|apply IHl]; intros x I; apply S, in_app_iff; auto.
Qed.
Lemma rep_same H H' :
  (forall a fp n, rep H a fp n -> same_on H H' fp -> rep H' a fp n) /\ (forall ls fp ns, rep_all H ls fp ns -> same_on H H' fp -> rep_all H' ls fp ns).
Proof.
  apply rep_both.
  - intros a b ls hd t mb h fps ns Ea Eb Eh _ IH S. apply rep_info with ls.
    + rewrite S by (left; reflexivity). exact Ea.
    + rewrite S by (right; left; reflexivity). exact Eb.
    + rewrite S by (right; right; left; reflexivity). exact Eh.
    + apply IH. intros x I. apply S. right. right. apply in_app_iff. auto.
  - intros _. apply rep_nil.
  - intros a ls fp fps n ns _ IHa _ IHl S. apply rep_cons; [apply IHa|apply IHl]; intros x I; apply S, in_app_iff; auto.
Qed.
Lemma rep_load H :
  (forall a fp n, rep H a fp n -> forall fuel, (length fp <= fuel)%nat -> load fuel H a = Some n) /\
  (forall ls fp ns, rep_all H ls fp ns -> forall fuel, (length fp <= fuel)%nat ->
     (fix go ls := match ls with [] => Some [] | l :: r => match load fuel H l, go r with Some n, Some ns => Some (n :: ns) | _, _ => None end end) ls = Some ns).
Proof.
  apply rep_both.
  - intros a b ls hd t mb h fps ns Ea Eb Eh _ IH fuel L. cbn [length app] in L. destruct fuel as [|fuel]; [lia|]. cbn [load]. rewrite Ea, Eb, Eh. rewrite IH by lia. reflexivity.
  - reflexivity.
  - intros a ls fp fps n ns _ IHa _ IHl fuel L. rewrite app_length in L. rewrite IHa, IHl by lia. reflexivity.
Qed.
Lemma load_all_go fuel H ls : load_all fuel H ls = (fix go ls := match ls with [] => Some [] | l :: r => match load fuel H l, go r with Some n, Some ns => Some (n :: ns) | _, _ => None end end) ls.
Proof. induction ls as [|l ls IH]; [reflexivity|]. cbn [load_all]. rewrite IH. reflexivity. Qed.

(** * Reading *)
Definition fresh (H : heap) : Prop := forall x, (next H <= x)%nat -> at_ H x = None.
(** What the code can reach from the place where new BoxInfos are entered: the list of those entered, and whether it is "wave". *)
Definition sees (parent : option addr) (m : mem) (uw : bool) (ls : list addr) : Prop :=
  match parent with
  | None => uw = false /\ ls = m_boxes m
  | Some p => exists pb hd t mb, at_ (m_heap m) p = Some (A_info pb ls) /\ at_ (m_heap m) pb = Some (A_box hd t mb) /\ uw = list_eqb t type_wave
  end.
Definition grown (parent : option addr) (m m' : mem) : Prop :=
  (next (m_heap m) <= next (m_heap m'))%nat /\ fresh (m_heap m') /\ (parent <> None -> m_boxes m' = m_boxes m) /\
  (forall x, (x < next (m_heap m))%nat -> parent <> Some x -> at_ (m_heap m') x = at_ (m_heap m) x) /\
  (forall x b l, at_ (m_heap m) x = Some (A_info b l) -> exists l', at_ (m_heap m') x = Some (A_info b l')).
(** New trees occupy the addresses from the old to the new end of the heap, except perhaps a last header. *)
Definition trees (m m' : mem) (new fps : list addr) (e : addr) : Prop :=
  owns_all (m_heap m') new fps /\ NoDup fps /\ (forall x, In x fps <-> (next (m_heap m) <= x < e)%nat) /\ (next (m_heap m) <= e)%nat.
Definition done {A} (m' : mem) (e : addr) (r : outcome A) : Prop :=
  e = next (m_heap m') \/ (S e = next (m_heap m') /\ (r = Throw RuntimeError \/ r = UB) /\ exists h, at_ (m_heap m') e = Some (A_header h)).

Lemma in_use H a c : fresh H -> at_ H a = Some c -> (a < next H)%nat.
Proof. intros F E. destruct (Nat.lt_ge_cases a (next H)) as [L|L]; [exact L|]. rewrite (F a L) in E. discriminate E. Qed.
Lemma new_at c H x : at_ (snd (new c H)) x = if Nat.eqb x (next H) then Some c else at_ H x.
Proof. reflexivity. Qed.
Lemma new_fresh c H : fresh H -> fresh (snd (new c H)).
Proof. intros F x L. cbn [new snd next] in L. rewrite new_at. destruct (Nat.eqb_spec x (next H)); [lia|]. apply F. lia. Qed.
Lemma put_fresh a c H : fresh H -> (a < next H)%nat -> fresh (put a c H).
Proof. intros F L x I. cbn [put next] in I. rewrite put_at. destruct (Nat.eqb_spec x a); [lia|]. apply F. exact I. Qed.
Lemma grown_trans p q m m1 m2 : grown p m m1 -> grown q m1 m2 -> (q = p \/ exists x, q = Some x /\ (next (m_heap m) <= x)%nat /\ m_boxes m2 = m_boxes m1) -> grown p m m2.
Proof.
  intros (A1 & B1 & C1 & D1 & E1) (A2 & B2 & C2 & D2 & E2) Q. split; [lia|]. split; [exact B2|]. split.
  - intros N. rewrite <- (C1 N). destruct Q as [->|(x & _ & _ & E)]; auto.
  - split; [intros x L N; rewrite D2, D1; auto; [lia|]; destruct Q as [->|(y & -> & Ly & _)]; [exact N|]; intros E; injection E as ->; lia|].
    intros x b l E. destruct (E1 _ _ _ E) as (l1 & X1). exact (E2 _ _ _ X1).
Qed.
Lemma sees_grown p m m' x b l uw ls : fresh (m_heap m) -> sees p m uw ls -> grown (Some x) m m' -> p <> Some x -> at_ (m_heap m) x = Some (A_info b l) -> sees p m' uw ls.
Proof.
  intros F S (A & B & C & D & _) Np Nb. destruct p as [p|]; cbn [sees] in *.
  - destruct S as (pb & hd & t & mb & E1 & E2 & E3). exists pb, hd, t, mb. split; [|split; [|exact E3]].
    + rewrite D; [exact E1|exact (in_use _ _ _ F E1)|]. intros X. apply Np. symmetry. exact X.
    + rewrite D; [exact E2|exact (in_use _ _ _ F E2)|]. intros X. injection X as ->. rewrite E2 in Nb. discriminate Nb.
  - rewrite C by discriminate. exact S.
Qed.

Definition entered (parent : option addr) (m : mem) (H : heap) (a : addr) : mem :=
  mk_mem H (match parent with None => m_boxes m ++ [a] | Some _ => m_boxes m end).
Lemma allocation parent m uw ls h : fresh (m_heap m) -> sees parent m uw ls ->
  let n := next (m_heap m) in
  let H2 := snd (new (A_box (Some n) (h_type h) None) (snd (new (A_header h) (m_heap m)))) in
  exists H3, BoxInfo_new parent (S n) H2 = Ok (S (S n), uw, H3) /\ let m3 := entered parent m H3 (S (S n)) in
    next H3 = S (S (S n)) /\ grown parent m m3 /\ sees parent m3 uw (ls ++ [S (S n)]) /\
    at_ H3 n = Some (A_header h) /\ at_ H3 (S n) = Some (A_box (Some n) (h_type h) None) /\ at_ H3 (S (S n)) = Some (A_info (S n) []).
Proof.
  intros F S n H2. assert (F2 : fresh H2) by (apply new_fresh, new_fresh, F). assert (N2 : next H2 = Datatypes.S (Datatypes.S n)) by reflexivity.
  assert (V2 : forall x, (x < n)%nat -> at_ H2 x = at_ (m_heap m) x).
  { intros x L. unfold H2. rewrite !new_at. cbn [new snd next]. fold n. destruct (Nat.eqb_spec x (Datatypes.S n)); [lia|]. destruct (Nat.eqb_spec x n); [lia|reflexivity]. }
  assert (V0 : at_ H2 n = Some (A_header h)).
  { unfold H2. rewrite !new_at. cbn [new snd next]. fold n. destruct (Nat.eqb_spec n (Datatypes.S n)); [lia|]. rewrite Nat.eqb_refl. reflexivity. }
  assert (V1 : at_ H2 (Datatypes.S n) = Some (A_box (Some n) (h_type h) None)).
  { unfold H2. rewrite !new_at. cbn [new snd next]. fold n. rewrite Nat.eqb_refl. reflexivity. }
  clearbody H2. unfold BoxInfo_new. destruct (new (A_info (Datatypes.S n) []) H2) as [a H] eqn:En. cbn [new] in En. injection En as <- EH. rewrite N2 in *.
  assert (VH : forall x, at_ H x = if Nat.eqb x (Datatypes.S (Datatypes.S n)) then Some (A_info (Datatypes.S n) []) else at_ H2 x) by (intros x; rewrite <- EH; reflexivity).
  assert (NH : next H = Datatypes.S (Datatypes.S (Datatypes.S n))) by (rewrite <- EH; reflexivity).
  assert (FH : fresh H).
  { intros x L. rewrite VH. destruct (Nat.eqb_spec x (Datatypes.S (Datatypes.S n))); [lia|]. apply F2. lia. }
  clear EH. assert (W : forall x, (x < Datatypes.S (Datatypes.S n))%nat -> at_ H x = at_ H2 x).
  { intros x L. rewrite VH. destruct (Nat.eqb_spec x (Datatypes.S (Datatypes.S n))); [lia|reflexivity]. }
  assert (WI : at_ H (Datatypes.S (Datatypes.S n)) = Some (A_info (Datatypes.S n) [])) by (rewrite VH, Nat.eqb_refl; reflexivity).
  destruct parent as [p|]; cbn [sees] in S.
  - destruct S as (pb & hd & t & mb & E1 & E2 & E3). pose proof (in_use _ _ _ F E1) as L1. pose proof (in_use _ _ _ F E2) as L2. fold n in L1, L2.
    rewrite (W p), (V2 p), E1 by lia. rewrite (W pb), (V2 pb), E2 by lia. eexists. split; [rewrite <- E3; reflexivity|]. cbn [entered m_heap m_boxes].
    assert (Np : p <> pb) by (intros ->; rewrite E1 in E2; discriminate E2).
    split; [exact NH|]. split; [|split].
    + split; [cbn [entered m_heap put next]; lia|]. split; [apply put_fresh; [exact FH|lia]|]. split; [reflexivity|]. split.
      * intros x L N. cbn [entered m_heap]. rewrite put_at. destruct (Nat.eqb_spec x p) as [->|]; [exfalso; apply N; reflexivity|]. fold n in L. rewrite W, V2 by lia. reflexivity.
      * intros x b l E. pose proof (in_use _ _ _ F E) as L. fold n in L. cbn [entered m_heap]. rewrite put_at. destruct (Nat.eqb_spec x p) as [->|].
        -- rewrite E1 in E. injection E as <- <-. eauto.
        -- rewrite W, V2, E by lia. eauto.
    + cbn [entered sees m_heap]. exists pb, hd, t, mb. rewrite !put_at, Nat.eqb_refl. destruct (Nat.eqb_spec pb p); [congruence|]. rewrite (W pb), (V2 pb) by lia. auto.
    + rewrite !put_at. repeat (match goal with |- context [Nat.eqb ?x p] => destruct (Nat.eqb_spec x p); [lia|] end). rewrite (W n), (W (Datatypes.S n)) by lia. auto.
  - destruct S as (-> & ->). exists H. split; [reflexivity|]. cbn [entered m_heap m_boxes]. split; [exact NH|]. split; [|split].
    + split; [cbn [entered m_heap]; lia|]. split; [exact FH|]. split; [congruence|]. split.
      * intros x L N. fold n in L. cbn [entered m_heap]. rewrite W, V2 by lia. reflexivity.
      * intros x b l E. pose proof (in_use _ _ _ F E) as L. fold n in L. cbn [entered m_heap]. rewrite W, V2, E by lia. eauto.
    + split; reflexivity.
    + rewrite (W n), (W (Datatypes.S n)) by lia. auto.
Qed.

Definition outcome_box (r : outcome (Z * Z)) (m' : mem) (e : addr) (new fps : list addr) (pure : option (outcome (node * Z * Z))) : Prop :=
  match r with
  | Ok (pos1, size) => e = next (m_heap m') /\ exists n, pure = Some (Ok (n, pos1, size)) /\ rep_all (m_heap m') new fps [n]
  | Throw x => pure = Some (Throw x)
  | UB => pure = Some UB
  end.
Definition outcome_leafs (r : outcome Z) (m' : mem) (e : addr) (new fps : list addr) (pure : option (outcome (list node * Z))) : Prop :=
  match r with
  | Ok pos1 => e = next (m_heap m') /\ exists ns, pure = Some (Ok (ns, pos1)) /\ rep_all (m_heap m') new fps ns
  | Throw x => pure = Some (Throw x)
  | UB => pure = Some UB
  end.
Definition step_ok {A B} (R : outcome A -> mem -> addr -> list addr -> list addr -> option (outcome B) -> Prop) parent m uw ls (res : option (mem * outcome A)) (pure : option (outcome B)) : Prop :=
  match res with
  | None => pure = None
  | Some (m', r) => grown parent m m' /\ exists new fps e, sees parent m' uw (ls ++ new) /\ trees m m' new fps e /\ done m' e r /\ R r m' e new fps pure
  end.
Lemma grown_refl p m : fresh (m_heap m) -> grown p m m.
Proof. intros F. repeat split; eauto. Qed.
Lemma no_trees m : trees m m [] [] (next (m_heap m)).
Proof. split; [apply owns_nil|]. split; [constructor|]. split; [|lia]. intros x. split; [intros []|lia]. Qed.
(** one header more *)
Lemma only_header m parent uw ls h : fresh (m_heap m) -> sees parent m uw ls ->
  let m' := mk_mem (snd (new (A_header h) (m_heap m))) (m_boxes m) in
  grown parent m m' /\ sees parent m' uw (ls ++ []) /\ trees m m' [] [] (next (m_heap m)) /\ S (next (m_heap m)) = next (m_heap m') /\ at_ (m_heap m') (next (m_heap m)) = Some (A_header h).
Proof.
  intros F S m'. assert (V : forall x, (x < next (m_heap m))%nat -> at_ (m_heap m') x = at_ (m_heap m) x).
  { intros x L. cbn [m' m_heap]. rewrite new_at. destruct (Nat.eqb_spec x (next (m_heap m))); [lia|reflexivity]. }
  split; [|split; [|split; [|split]]].
  - split; [cbn; lia|]. split; [apply new_fresh, F|]. split; [reflexivity|]. split; [intros x L _; apply V, L|].
    intros x b l E. rewrite V, E by (eapply in_use; eassumption). eauto.
  - rewrite app_nil_r. destruct parent as [p|]; [|exact S]. destruct S as (pb & hd & t & mb & E1 & E2 & E3). exists pb, hd, t, mb.
    rewrite (V p), (V pb) by (eapply in_use; eassumption). auto.
  - split; [apply owns_nil|]. split; [constructor|]. split; [|lia]. intros x. split; [intros []|lia].
  - reflexivity.
  - cbn [m' m_heap]. rewrite new_at, Nat.eqb_refl. reflexivity.
Qed.

Lemma trees_join m m1 m2 p new1 fps1 e1 new2 fps2 e2 : grown p m m1 -> grown p m1 m2 -> (forall x, p = Some x -> (x < next (m_heap m))%nat) ->
  trees m m1 new1 fps1 e1 -> e1 = next (m_heap m1) -> trees m1 m2 new2 fps2 e2 -> trees m m2 (new1 ++ new2) (fps1 ++ fps2) e2 /\ same_on (m_heap m1) (m_heap m2) fps1.
Proof.
  intros G1 G2 Lp (O1 & N1 & R1 & L1) -> (O2 & N2 & R2 & L2).
  assert (S : same_on (m_heap m1) (m_heap m2) fps1).
  { intros x I. apply R1 in I. apply G2; [lia|]. intros E. apply Lp in E. lia. }
  split; [|exact S]. split; [|split; [|split]].
  - pose proof (proj2 (owns_same _ _) _ _ O1 S) as O1'. clear - O1' O2. revert fps1 O1'. induction new1 as [|a l IH]; intros fps1 O; inversion O; subst; cbn [app]; [exact O2|].
    rewrite <- app_assoc. apply owns_cons; [assumption|]. apply IH. assumption.
  - clear -N1 N2 R1 R2. induction fps1 as [|x l IH] in N1, R1 |- *; cbn [app]; [exact N2|].
    assert (K : forall l1 l2 : list addr, NoDup l1 -> NoDup l2 -> (forall y, In y l1 -> ~ In y l2) -> NoDup (l1 ++ l2)).
    { intros l1 l2 A B C. induction l1 as [|y l1 IHl]; [exact B|]. cbn [app]. apply NoDup_cons_iff in A as (A1 & A2). constructor.
      - rewrite in_app_iff. intros [X|X]; [exact (A1 X)|exact (C y (or_introl eq_refl) X)].
      - apply IHl; [exact A2|]. intros z Z. apply C. right. exact Z. }
    apply (K (x :: l)); [exact N1|exact N2|]. intros y Y X. apply R1 in Y. apply R2 in X. lia.
  - intros x. rewrite in_app_iff, R1, R2. lia.
  - lia.
Qed.
Lemma rep_all_app H l1 f1 n1 l2 f2 n2 : rep_all H l1 f1 n1 -> rep_all H l2 f2 n2 -> rep_all H (l1 ++ l2) (f1 ++ f2) (n1 ++ n2).
Proof.
  revert f1 n1. induction l1 as [|a l IH]; intros f1 n1 R1 R2; inversion R1; subst; cbn [app]; [exact R2|]. rewrite <- app_assoc. apply rep_cons; [assumption|]. apply IH; assumption.
Qed.

(** a box just entered, and its leafs *)
Lemma one_tree parent m m3 m4 uw ls h mb new fps e : let n := next (m_heap m) in
  fresh (m_heap m) -> sees parent m uw ls -> grown parent m m3 -> next (m_heap m3) = S (S (S n)) -> sees parent m3 uw (ls ++ [S (S n)]) ->
  at_ (m_heap m3) n = Some (A_header h) -> at_ (m_heap m3) (S n) = Some (A_box (Some n) (h_type h) mb) -> at_ (m_heap m3) (S (S n)) = Some (A_info (S n) []) ->
  at_ (m_heap m4) (S (S n)) = Some (A_info (S n) new) -> grown (Some (S (S n))) m3 m4 -> trees m3 m4 new fps e ->
  grown parent m m4 /\ sees parent m4 uw (ls ++ [S (S n)]) /\ trees m m4 [S (S n)] ((S (S n) :: S n :: [n] ++ fps) ++ []) e /\
  (forall b ns, mb = Some b -> rep_all (m_heap m4) new fps ns -> rep_all (m_heap m4) [S (S n)] ((S (S n) :: S n :: [n] ++ fps) ++ []) [Node (h_type h) (Some h) b ns]).
Proof.
  intros n F S0 G3 N3 S3 A0 A1 AI A2 G4 (O & Nd & R & L). assert (P : forall x, parent = Some x -> (x < n)%nat).
  { intros x ->. destruct S0 as (pb & hd & t & mb' & E1 & _). exact (in_use _ _ _ F E1). }
  assert (B0 : at_ (m_heap m4) n = Some (A_header h)) by (rewrite (proj1 (proj2 (proj2 (proj2 G4)))); [exact A0|lia|intros X; injection X; lia]).
  assert (B1 : at_ (m_heap m4) (S n) = Some (A_box (Some n) (h_type h) mb)) by (rewrite (proj1 (proj2 (proj2 (proj2 G4)))); [exact A1|lia|intros X; injection X; lia]).
  split; [|split; [|split]].
  - apply (grown_trans parent (Some (S (S n))) m m3 m4 G3 G4). right. exists (S (S n)). split; [reflexivity|]. split; [unfold n; lia|]. apply G4. discriminate.
  - apply (sees_grown parent m3 m4 (S (S n)) (S n) []); [apply G3|exact S3|exact G4| |exact AI]. intros X. apply P in X. lia.
  - split; [|split; [|split]].
    + apply owns_cons; [|apply owns_nil]. apply owns_info with new (Some n) (h_type h) mb; auto. split; [reflexivity|eauto].
    + rewrite app_nil_r. cbn [app]. repeat (constructor; [cbn [In]; rewrite ?R; lia|]). exact Nd.
    + intros x. rewrite app_nil_r. cbn [app In]. rewrite R. lia.
    + fold n. lia.
  - intros b ns -> Rp. apply rep_cons; [|apply rep_nil]. apply rep_info with new; assumption.
Qed.

Lemma put_box_grown parent m n h b : at_ (m_heap m) (S n) = Some (A_box (Some n) (h_type h) None) -> fresh (m_heap m) ->
  exists m', mk_mem (put (S n) (Some (A_box (Some n) (h_type h) (Some b))) (m_heap m)) (m_boxes m) = m' /\
  next (m_heap m') = next (m_heap m) /\ fresh (m_heap m') /\ m_boxes m' = m_boxes m /\ (forall x, x <> S n -> at_ (m_heap m') x = at_ (m_heap m) x) /\
  at_ (m_heap m') (S n) = Some (A_box (Some n) (h_type h) (Some b)) /\ forall uw ls, sees parent m uw ls -> sees parent m' uw ls.
Proof.
  intros A F. set (m' := mk_mem _ _). exists m'. split; [reflexivity|]. split; [reflexivity|]. split; [apply put_fresh; [exact F|exact (in_use _ _ _ F A)]|]. split; [reflexivity|].
  assert (V : forall x, x <> S n -> at_ (m_heap m') x = at_ (m_heap m) x) by (intros x N; cbn [m' m_heap]; rewrite put_at; destruct (Nat.eqb_spec x (S n)); [contradiction|reflexivity]).
  assert (W : at_ (m_heap m') (S n) = Some (A_box (Some n) (h_type h) (Some b))) by (cbn [m' m_heap]; rewrite put_at, Nat.eqb_refl; reflexivity).
  split; [exact V|]. split; [exact W|]. intros uw ls S. destruct parent as [p|]; [|exact S]. destruct S as (pb & hd & t & mb & E1 & E2 & E3).
  destruct (Nat.eq_dec pb (S n)) as [->|N].
  - exists (S n), (Some n), (h_type h), (Some b). split; [|split; [exact W|]].
    + rewrite V; [exact E1|]. intros ->. rewrite A in E1. discriminate E1.
    + rewrite A in E2. injection E2 as <- <- <-. exact E3.
  - exists pb, hd, t, mb. rewrite (V pb N). split; [|split; [exact E2|exact E3]]. rewrite V; [exact E1|]. intros ->. rewrite A in E1. discriminate E1.
Qed.

Lemma reading fuel :
  (forall file data parent pos m uw ls, fresh (m_heap m) -> sees parent m uw ls ->
     step_ok outcome_box parent m uw ls (readBox_m fuel file data parent pos m) (readBox fuel file data uw pos)) /\
  (forall file data parent bound rbytes pos m uw ls, fresh (m_heap m) -> sees parent m uw ls ->
     step_ok outcome_leafs parent m uw ls (readLeafs_m fuel file data parent bound rbytes pos m) (readLeafs fuel file data uw bound rbytes pos)).
Proof.
  induction fuel as [|f (IHb & IHl)]; [split; reflexivity|]. split.
  - intros file data parent pos m uw ls F S0. cbn [readBox_m readBox].
    destruct (read_box_header data pos) as [h|x|].
    2,3: cbn [step_ok]; split; [apply grown_refl, F|]; exists [], [], (next (m_heap m)); rewrite app_nil_r; split; [exact S0|]; split; [apply no_trees|]; split; [left; reflexivity|reflexivity].
    set (n := next (m_heap m)). change (new (A_header h) (m_heap m)) with (n, snd (new (A_header h) (m_heap m))). cbv beta iota zeta. cbn [m_boxes].
    destruct (only_header m parent uw ls h F S0) as (G1 & S1 & T1 & N1 & A1). cbv zeta in G1, S1, T1, N1, A1.
    destruct (negb file && (h_offset h + h_header_size h >? Zlen data))%bool.
    { cbn [step_ok]. split; [exact G1|]. exists [], [], n. split; [exact S1|]. split; [exact T1|]. split; [right; split; [exact N1|]; split; [left; reflexivity|eauto]|reflexivity]. }
    destruct (header_getDataSize h >? _).
    { cbn [step_ok]. split; [exact G1|]. exists [], [], n. split; [exact S1|]. split; [exact T1|]. split; [right; split; [exact N1|]; split; [left; reflexivity|eauto]|reflexivity]. }
    destruct (h_offset h + h_header_size h + header_getDataSize h >? Zlen data).
    { cbn [step_ok]. split; [exact G1|]. exists [], [], n. split; [exact S1|]. split; [exact T1|]. split; [right; split; [exact N1|]; split; [right; reflexivity|eauto]|reflexivity]. }
    clear G1 S1 T1 N1 A1. destruct (allocation parent m uw ls h F S0) as (H3 & EN & N3 & G3 & S3 & A0 & A1 & A2). fold n in EN, N3, G3, S3, A0, A1, A2.
    set (H1 := snd (new (A_header h) (m_heap m))) in *. change (new (A_box (Some n) (h_type h) None) H1) with (S n, snd (new (A_box (Some n) (h_type h) None) H1)). cbv beta iota zeta. rewrite EN.
    change (mk_mem H3 (match parent with None => m_boxes m ++ [S (S n)] | Some _ => m_boxes m end)) with (entered parent m H3 (S (S n))). set (m3 := entered parent m H3 (S (S n))) in *.
    change (next H3) with (next (m_heap m3)) in N3. change (at_ H3) with (at_ (m_heap m3)) in *.
    assert (F3 : fresh (m_heap m3)) by apply G3.
    destruct (Box_readData _ (h_type h) uw _) as [[[rd rbits] b]|x|].
    2,3: destruct (one_tree parent m m3 m3 uw ls h None [] [] (S (S (S n))) F S0 G3 N3 S3 A0 A1 A2 A2 (grown_refl _ _ F3) ltac:(rewrite <- N3; apply no_trees)) as (G4 & S4 & T4 & _); cbn [step_ok];
      split; [exact G4|]; do 3 eexists; split; [exact S4|]; split; [exact T4|]; split; [left; symmetry; exact N3|reflexivity].
    destruct (put_box_grown parent m3 n h b A1 F3) as (m3' & Em & N3' & F3' & B3' & V3' & A1' & S3'). match goal with |- context [mk_mem (put ?a ?c ?d) ?l] => replace (mk_mem (put a c d) l) with m3' by (symmetry; exact Em) end. clear Em.
    assert (G3' : grown parent m m3').
    { destruct G3 as (X1 & X2 & X3 & X4 & X5). split; [rewrite N3'; exact X1|]. split; [exact F3'|]. split; [rewrite B3'; exact X3|]. split.
      - intros x Lx Nx. fold n in Lx. rewrite V3' by lia. apply X4; assumption.
      - intros x b' l' Ex. pose proof (in_use _ _ _ F Ex) as Lx. fold n in Lx. rewrite V3' by lia. exact (X5 _ _ _ Ex). }
    specialize (S3' _ _ S3). rewrite N3 in N3'. rewrite <- (V3' n) in A0 by lia. rewrite <- (V3' (S (S n))) in A2 by lia.
    destruct (negb file && (_ >? Zlen data))%bool.
    { destruct (one_tree parent m m3' m3' uw ls h (Some b) [] [] (S (S (S n))) F S0 G3' N3' S3' A0 A1' A2 A2 (grown_refl _ _ F3') ltac:(rewrite <- N3'; apply no_trees)) as (G4 & S4 & T4 & _). cbn [step_ok].
      split; [exact G4|]. do 3 eexists. split; [exact S4|]. split; [exact T4|]. split; [left; symmetry; exact N3'|reflexivity]. }
    assert (SI : sees (Some (S (S n))) m3' (list_eqb (h_type h) type_wave) []) by (exists (S n), (Some n), (h_type h), (Some b); auto).
    pose proof (IHl file data (Some (S (S n))) (header_getDataSize h) (rbits / 8) (h_offset h + h_header_size h + rbits / 8) m3' _ _ F3' SI) as K.
    destruct (readLeafs_m f file data _ _ _ _ m3') as [[m4 r]|]; cbn [step_ok] in K; [|cbn [step_ok]; rewrite K; reflexivity].
    destruct K as (G4 & new & fps & e & S4 & T4 & D4 & R4). cbn [app] in S4.
    assert (A4 : at_ (m_heap m4) (S (S n)) = Some (A_info (S n) new)).
    { destruct S4 as (pb & hd & t & mb & E1 & E2 & _). destruct (proj2 (proj2 (proj2 (proj2 G4))) _ _ _ A2) as (l' & X). rewrite E1 in X |- *. injection X as -> _. reflexivity. }
    destruct (one_tree parent m m3' m4 uw ls h (Some b) new fps e F S0 G3' N3' S3' A0 A1' A2 A4 G4 T4) as (G5 & S5 & T5 & R5). specialize (R5 b).
    destruct r as [pos2|x|]; cbn [outcome_leafs] in R4.
    + destruct R4 as (Ee & ns & Ep & Rp). rewrite Ep. cbn [step_ok]. split; [exact G5|]. do 3 eexists. split; [exact S5|]. split; [exact T5|]. split; [left; exact Ee|].
      cbn [outcome_box]. split; [exact Ee|]. eexists. split; [reflexivity|]. exact (R5 ns eq_refl Rp).
    + rewrite R4. cbn [step_ok]. split; [exact G5|]. do 3 eexists. split; [exact S5|]. split; [exact T5|]. split; [|reflexivity].
      destruct D4 as [D4|(D4 & [Dr|Dr] & D5)]; [left; exact D4|right; split; [exact D4|]; split; [left; injection Dr as ->; reflexivity|exact D5]|discriminate Dr].
    + rewrite R4. cbn [step_ok]. split; [exact G5|]. do 3 eexists. split; [exact S5|]. split; [exact T5|]. split; [|reflexivity].
      destruct D4 as [D4|(D4 & _ & D5)]; [left; exact D4|right; split; [exact D4|]; split; [right; reflexivity|exact D5]].
  - intros file data parent bound rbytes pos m uw ls F S0. cbn [readLeafs_m readLeafs]. destruct (bound >? rbytes).
    2: { cbn [step_ok]. split; [apply grown_refl, F|]. exists [], [], (next (m_heap m)). rewrite app_nil_r. split; [exact S0|]. split; [apply no_trees|]. split; [left; reflexivity|].
         cbn [outcome_leafs]. split; [reflexivity|]. exists []. split; [reflexivity|apply rep_nil]. }
    assert (P : forall x, parent = Some x -> (x < next (m_heap m))%nat).
    { intros x ->. destruct S0 as (pb & hd & t & mb' & E1 & _). exact (in_use _ _ _ F E1). }
    pose proof (IHb file data parent pos m uw ls F S0) as K. destruct (readBox_m f file data parent pos m) as [[m1 r]|]; cbn [step_ok] in K; [|rewrite K; reflexivity].
    destruct K as (G1 & new1 & fps1 & e1 & S1 & T1 & D1 & R1). destruct r as [[pos1 size]|x|]; cbn [outcome_box] in R1.
    + destruct R1 as (Ee & n & Ep & Rp). rewrite Ep. assert (F1 : fresh (m_heap m1)) by apply G1.
      pose proof (IHl file data parent bound (u64 (rbytes + size)) pos1 m1 uw (ls ++ new1) F1 S1) as K. destruct (readLeafs_m f file data parent bound _ pos1 m1) as [[m2 r]|]; cbn [step_ok] in K |- *; [|rewrite K; reflexivity].
      destruct K as (G2 & new2 & fps2 & e2 & S2 & T2 & D2 & R2). destruct (trees_join m m1 m2 parent new1 fps1 e1 new2 fps2 e2 G1 G2 P T1 Ee T2) as (T3 & Sm).
      split; [apply (grown_trans parent parent m m1 m2 G1 G2); left; reflexivity|]. exists (new1 ++ new2), (fps1 ++ fps2), e2. rewrite app_assoc. split; [exact S2|]. split; [exact T3|]. split; [exact D2|].
      destruct r as [pos2|x|]; cbn [outcome_leafs] in R2 |- *.
      * destruct R2 as (Ee2 & ns & Ep2 & Rp2). split; [exact Ee2|]. exists (n :: ns). rewrite Ep2. split; [reflexivity|]. exact (rep_all_app _ _ _ [n] _ _ _ (proj2 (rep_same _ _) _ _ _ Rp Sm) Rp2).
      * rewrite R2. reflexivity.
      * rewrite R2. reflexivity.
    + rewrite R1. cbn [step_ok]. split; [exact G1|]. exists new1, fps1, e1. split; [exact S1|]. split; [exact T1|]. split; [|reflexivity].
      destruct D1 as [D1|(D1 & [Dr|Dr] & D5)]; [left; exact D1|right; split; [exact D1|]; split; [left; injection Dr as ->; reflexivity|exact D5]|discriminate Dr].
    + rewrite R1. cbn [step_ok]. split; [exact G1|]. exists new1, fps1, e1. split; [exact S1|]. split; [exact T1|]. split; [|reflexivity].
      destruct D1 as [D1|(D1 & _ & D5)]; [left; exact D1|right; split; [exact D1|]; split; [right; reflexivity|exact D5]].
Qed.

(** * The life of a SimpleReader *)
From Verif Require Import ReaderTotal.
Lemma range_length (l : list addr) (e : addr) : NoDup l -> (forall x, In x l <-> (0 <= x < e)%nat) -> (length l <= e)%nat.
Proof.
  intros N R. rewrite <- (seq_length e 0). apply NoDup_incl_length; [exact N|]. intros x I. apply in_seq. apply R in I. lia.
Qed.
Lemma reader_life file data : bytes data -> Zlen data < 2 ^ 63 ->
  exists m r H, SimpleReader_read_m file data = Some (m, r) /\
    match SimpleReader_read file data with Some (Ok (_, text)) => r = Ok text | Some (Throw e) => r = Throw e | Some UB => r = UB | None => False end /\
    SimpleReader_destroy m = Ok H /\
    ((forall a, at_ H a = None) \/ ((r = Throw RuntimeError \/ r = UB) /\ exists a h, at_ H a = Some (A_header h) /\ forall x, x <> a -> at_ H x = None)).
Proof.
  intros B L. pose proof (SimpleReader_total file data B L) as T. unfold SimpleReader_read_m, SimpleReader_read, SimpleReader_parse in *.
  set (m0 := mk_mem empty_heap []). assert (F0 : fresh (m_heap m0)) by (intros x _; reflexivity). assert (S0 : sees None m0 false []) by (split; reflexivity).
  pose proof (proj2 (reading (length data + 2)) file data None (Zlen data) 0 0 m0 false [] F0 S0) as K.
  destruct (readLeafs_m _ file data None (Zlen data) 0 0 m0) as [[m r]|]; cbn [step_ok] in K.
  2: { rewrite K in T. destruct T. }
  destruct K as (G & new & fps & e & Sn & (O & N & R & _) & D & P). cbn [sees app] in Sn. destruct Sn as (_ & Sn). change (next (m_heap m0)) with 0%nat in R.
  assert (Lf : (length fps <= S (next (m_heap m)))%nat).
  { pose proof (range_length _ _ N R). assert (e <= next (m_heap m))%nat; [|lia]. destruct D as [->|(<- & _)]; lia. }
  destruct (proj2 (owns_delete (m_heap m)) _ _ O (S (next (m_heap m))) (m_heap m) (fun x _ => eq_refl) N Lf) as (H & EH & _ & DH).
  assert (ED : SimpleReader_destroy m = Ok H) by (unfold SimpleReader_destroy; rewrite delete_infos_go, <- Sn; exact EH).
  assert (Gone : forall x, (x < e)%nat -> at_ H x = None) by (intros x Lx; apply DH, R; lia).
  assert (Rest : forall x, (e <= x)%nat -> at_ H x = at_ (m_heap m) x) by (intros x Lx; apply DH; rewrite R; lia).
  assert (Fr : fresh (m_heap m)) by apply G.
  assert (Live : forall r' : outcome (list Z), (r = Throw RuntimeError \/ r = UB -> r' = Throw RuntimeError \/ r' = UB) ->
    (forall a, at_ H a = None) \/ ((r' = Throw RuntimeError \/ r' = UB) /\ exists a h, at_ H a = Some (A_header h) /\ forall x, x <> a -> at_ H x = None)).
  { intros r' Q. destruct D as [->|(E1 & E2 & h & E3)].
    - left. intros a. destruct (Nat.lt_ge_cases a (next (m_heap m))) as [X|X]; [apply Gone, X|]. rewrite Rest by exact X. apply Fr, X.
    - right. split; [exact (Q E2)|]. exists e, h. split; [rewrite Rest by lia; exact E3|]. intros x Nx. destruct (Nat.lt_ge_cases x e) as [X|X]; [apply Gone, X|]. rewrite Rest by lia. apply Fr. lia. }
  destruct r as [pos|x|]; cbn [outcome_leafs] in P.
  - destruct P as (_ & ns & P & Rp). rewrite P in *. clear T.
    assert (LA : load_all (S (next (m_heap m))) (m_heap m) (m_boxes m) = Some ns) by (rewrite load_all_go, <- Sn; exact (proj2 (rep_load (m_heap m)) _ _ _ Rp _ Lf)).
    rewrite LA. exists m, (print_boxes ns), H. split; [reflexivity|]. split; [destruct (print_boxes ns); reflexivity|]. split; [exact ED|]. apply Live. intros [X|X]; discriminate X.
  - rewrite P in *. exists m, (Throw x), H. split; [reflexivity|]. split; [reflexivity|]. split; [exact ED|]. apply Live. intros [X|X]; [injection X as ->; left; reflexivity|discriminate X].
  - rewrite P in *. exists m, UB, H. split; [reflexivity|]. split; [reflexivity|]. split; [exact ED|]. apply Live. intros _. right. reflexivity.
Qed.
Lemma reader_loads file data ns text m : SimpleReader_read file data = Some (Ok (ns, text)) -> SimpleReader_read_m file data = Some (m, Ok text) ->
  load_all (S (next (m_heap m))) (m_heap m) (m_boxes m) = Some ns.
Proof.
  intros E1 E2. unfold SimpleReader_read_m, SimpleReader_read, SimpleReader_parse in *.
  set (m0 := mk_mem empty_heap []) in *. assert (F0 : fresh (m_heap m0)) by (intros x _; reflexivity). assert (S0 : sees None m0 false []) by (split; reflexivity).
  pose proof (proj2 (reading (length data + 2)) file data None (Zlen data) 0 0 m0 false [] F0 S0) as K.
  destruct (readLeafs_m _ file data None (Zlen data) 0 0 m0) as [[m1 r]|]; cbn [step_ok] in K; [|discriminate E2].
  destruct K as (G & new & fps & e & Sn & (O & N & R & _) & D & P). cbn [sees app] in Sn. destruct Sn as (_ & Sn). change (next (m_heap m0)) with 0%nat in R.
  assert (Lf : (length fps <= S (next (m_heap m1)))%nat).
  { pose proof (range_length _ _ N R). assert (e <= next (m_heap m1))%nat; [|lia]. destruct D as [->|(<- & _)]; lia. }
  destruct r as [pos|x|]; cbn [outcome_leafs] in P; [|discriminate E2..]. destruct P as (_ & ns' & P & Rp). rewrite P in E1.
  assert (LA : load_all (S (next (m_heap m1))) (m_heap m1) (m_boxes m1) = Some ns') by (rewrite load_all_go, <- Sn; exact (proj2 (rep_load (m_heap m1)) _ _ _ Rp _ Lf)).
  injection E2 as <- _. rewrite LA. destruct (print_boxes ns') as [t|x|]; cbn [obind] in E1; [|discriminate E1..]. injection E1 as <- _. reflexivity.
Qed.
