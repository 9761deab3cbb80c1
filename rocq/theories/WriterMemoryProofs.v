(** Proofs about the objects of the writers (C64). *)
From Verif Require Import Base BitIO Boxes Box Print BoxTree TreeLayout H264 Track Writers Memory MemoryProofs WriterMemory.
From Coq Require Import String List Arith Lia.
Import ListNotations.
Open Scope Z_scope.
Open Scope list_scope.

(** * adjustOffsetAndSize always ends *)
Definition hsz (d : Z) : Z := if d >? UINT32_MAX - SMALL_HEADER_SIZE then LARGE_HEADER_SIZE else SMALL_HEADER_SIZE.
Definition tsum (f : node -> Z) (l : list node) (acc : Z) : Z := fold_left (fun a k => u64 (a + f k)) l acc.
Fixpoint tsize (n : node) : Z :=
  let 'Node _ _ b l := n in
  let d := u64 (Box_getDataSize b + (fix go (l : list node) (acc : Z) : Z := match l with [] => acc | k :: r => go r (u64 (acc + tsize k)) end) l 0) in
  u64 (d + hsz d).
Definition tdata (n : node) : Z := let 'Node _ _ b l := n in u64 (Box_getDataSize b + tsum tsize l 0).
Lemma tsize_eq n : tsize n = u64 (tdata n + hsz (tdata n)).
Proof.
  destruct n as [t h b l]. cbn [tsize tdata].
  assert (E : forall l acc, (fix go (l : list node) (acc : Z) : Z := match l with [] => acc | k :: r => go r (u64 (acc + tsize k)) end) l acc = tsum tsize l acc).
  { clear. induction l as [|k l IH]; intros acc; [reflexivity|]. rewrite IH. reflexivity. }
  rewrite E. reflexivity.
Qed.
Definition tmatches (n : node) : bool := let 'Node t h _ _ := n in h_header_size (makeHeader t h) =? hsz (tdata n).
Definition tneed (n : node) : nat := if tmatches n then 2 * height n - 1 else 2 * height n.
Definition tmax (l : list node) : nat := fold_right (fun n a => Nat.max (height n) a) 0%nat l.
Lemma adjust_total fuel : forall n off, (tneed n <= fuel)%nat ->
  exists n', adjust fuel n off = Some (n', tsize n) /\ tsize n' = tsize n /\ height n' = height n.
Proof.
  induction fuel as [|f IH]; intros n off F.
  { exfalso. destruct n as [t h b l]. unfold tneed in F. cbn [height] in F. destruct (tmatches _); lia. }
  destruct n as [t h b l]. cbn [adjust].
  assert (K : forall ls base acc, (forall k, In k ls -> In k l) ->
            exists ls', adjust_leafs (adjust f) base acc ls = Some (ls', tsum tsize ls acc) /\ tmax ls' = tmax ls /\ forall a, tsum tsize ls' a = tsum tsize ls a).
  { induction ls as [|k ls IHl]; intros base acc S; [exists []; repeat split|]. cbn [adjust_leafs].
    destruct (IH k (u64 (base + acc))) as (k' & E1 & E2 & E3).
    { pose proof (fold_max_le l k (S k (or_introl eq_refl))). unfold tneed in *. cbn [height] in F. destruct (tmatches k), (tmatches _); lia. }
    rewrite E1. destruct (IHl base (u64 (acc + tsize k)) (fun x I => S x (or_intror I))) as (ls' & F1 & F2 & F3). rewrite F1. exists (k' :: ls'). split; [reflexivity|]. split.
    - cbn [tmax fold_right]. unfold tmax in F2. rewrite F2, E3. reflexivity.
    - intros a. cbn [tsum fold_left]. unfold tsum in F3. rewrite E2. apply F3. }
  set (base := u64 (off + _ + _)). destruct (K l base 0 (fun x I => I)) as (l' & E1 & E2 & E3). rewrite E1.
  unfold header_setOffsetAndDataSize. fold (hsz (u64 (Box_getDataSize b + tsum tsize l 0))). set (d := u64 (Box_getDataSize b + tsum tsize l 0)).
  cbn [h_header_size h_size]. set (hd := mk_header _ _ _ _ _).
  assert (D : tdata (Node t (Some hd) b l') = d) by (cbn [tdata]; rewrite E3; reflexivity).
  assert (D0 : tdata (Node t h b l) = d) by reflexivity.
  assert (Hh : height (Node t (Some hd) b l') = height (Node t h b l)) by (cbn [height]; unfold tmax in E2; rewrite E2; reflexivity).
  assert (S : tsize (Node t (Some hd) b l') = tsize (Node t h b l)) by (rewrite !tsize_eq, D, D0; reflexivity).
  destruct (h_header_size (makeHeader t h) =? hsz d) eqn:Em; cbn [negb].
  - eexists. split; [rewrite (tsize_eq (Node t h b l)), D0; reflexivity|auto].
  - destruct (IH (Node t (Some hd) b l') off) as (n2 & F1 & F2 & F3).
    + unfold tneed in *. unfold tmatches in F |- *. rewrite D. rewrite D0, Em in F. cbn [makeHeader hd h_header_size]. rewrite Z.eqb_refl, Hh. lia.
    + rewrite F1, S. exists n2. split; [reflexivity|]. rewrite F2, F3. auto.
Qed.
Lemma adjust_mono f : forall n off r, adjust f n off = Some r -> forall g, (f <= g)%nat -> adjust g n off = Some r.
Proof.
  induction f as [|f IH]; intros n off r E g L; [discriminate E|]. destruct g as [|g]; [lia|]. destruct n as [t h b l]. cbn [adjust] in E |- *.
  set (base := u64 (off + _ + _)) in *.
  assert (K : forall ls acc r, adjust_leafs (adjust f) base acc ls = Some r -> adjust_leafs (adjust g) base acc ls = Some r).
  { induction ls as [|k ls IHl]; intros acc q Q; [exact Q|]. cbn [adjust_leafs] in Q |- *. destruct (adjust f k (u64 (base + acc))) as [[k' s]|] eqn:E1; [|discriminate Q].
    rewrite (IH _ _ _ E1) by lia. destruct (adjust_leafs (adjust f) base (u64 (acc + s)) ls) as [[ls' tot]|] eqn:E2; [|discriminate Q]. rewrite (IHl _ _ E2). exact Q. }
  destruct (adjust_leafs (adjust f) base 0 l) as [[l' tot]|] eqn:E1; [|discriminate E]. rewrite (K _ _ _ E1).
  destruct (negb _); [|exact E]. destruct (adjust f (Node t _ b l') off) as [[n2 s]|] eqn:E2; [|discriminate E]. rewrite (IH _ _ _ E2) by lia. exact E.
Qed.
Lemma adjust_any n off g : (2 * height n <= g)%nat -> exists n', adjust g n off = Some (n', tsize n) /\ BoxInfo_adjustOffsetAndSize n off = Ok (n', tsize n).
Proof.
  intros L. destruct (adjust_total (adjust_fuel n) n off) as (n' & E & _).
  { unfold tneed, adjust_fuel. destruct (tmatches n); lia. }
  exists n'. split; [apply (adjust_mono _ _ _ _ E); exact L|]. unfold BoxInfo_adjustOffsetAndSize. rewrite E. reflexivity.
Qed.
Lemma adjust_size f : forall n off n' s, adjust f n off = Some (n', s) -> exists h, n_header n' = Some h /\ h_size h = s.
Proof.
  induction f as [|f IH]; intros n off n' s E; [discriminate E|]. destruct n as [t h b l]. cbn [adjust] in E.
  destruct (adjust_leafs _ _ _ _) as [[l' tot]|]; [|discriminate E]. destruct (negb _).
  - destruct (adjust f (Node t _ b l') off) as [[n2 s2]|] eqn:E2; [|discriminate E]. injection E as <- <-. exact (IH _ _ _ _ E2).
  - injection E as <- <-. eexists. split; reflexivity.
Qed.

(** * Lists of addresses *)
Lemma nodup_app (l l' : list addr) : NoDup (l ++ l') <-> NoDup l /\ NoDup l' /\ forall x, In x l -> ~ In x l'.
Proof.
  induction l as [|y l IH]; cbn [app]; [split; [intros N; repeat split; [constructor|exact N|intros x []]|intros (_ & N & _); exact N]|].
  rewrite NoDup_cons_iff, IH, in_app_iff, NoDup_cons_iff. cbn [In]. split.
  - intros (A & B & C & D). repeat split; try tauto. intros x [<-|I]; [tauto|exact (D x I)].
  - intros ((A & B) & C & D). repeat split; try tauto; [intros [I|I]; [tauto|exact (D y (or_introl eq_refl) I)]|]. intros x I. apply D. auto.
Qed.

(** * What a heap represents *)
Definition header_is (H : heap) (hd : option addr) (fh : list addr) (h : option boxheader) : Prop :=
  match hd with None => fh = [] /\ h = None | Some x => fh = [x] /\ exists h', h = Some h' /\ at_ H x = Some (A_header h') end.
Inductive repn (H : heap) : addr -> list addr -> node -> Prop :=
  | repn_info a b ls hd t mb h fh fps ns : at_ H a = Some (A_info b ls) -> at_ H b = Some (A_box hd t (Some mb)) -> header_is H hd fh h -> repn_all H ls fps ns ->
      repn H a (a :: b :: fh ++ fps) (Node t h mb ns)
with repn_all (H : heap) : list addr -> list addr -> list node -> Prop :=
  | repn_nil : repn_all H [] [] []
  | repn_cons a ls fp fps n ns : repn H a fp n -> repn_all H ls fps ns -> repn_all H (a :: ls) (fp ++ fps) (n :: ns).
Scheme repn_mind := Minimality for repn Sort Prop with repn_all_mind := Minimality for repn_all Sort Prop.
Combined Scheme repn_both from repn_mind, repn_all_mind.
Lemma repn_owns H : (forall a fp n, repn H a fp n -> owns H a fp) /\ (forall ls fp ns, repn_all H ls fp ns -> owns_all H ls fp).
Proof.
  apply repn_both; intros; [|apply owns_nil|apply owns_cons; assumption]. eapply owns_info; eauto.
  destruct hd as [x|]; destruct H2 as (-> & K); [destruct K as (h' & _ & K); split; [reflexivity|eauto]|reflexivity].
Qed.
Lemma repn_same H H' :
  (forall a fp n, repn H a fp n -> same_on H H' fp -> repn H' a fp n) /\ (forall ls fp ns, repn_all H ls fp ns -> same_on H H' fp -> repn_all H' ls fp ns).
Proof.
  apply repn_both.
  - intros a b ls hd t mb h fh fps ns Ea Eb Eh _ IH S. apply repn_info with ls hd.
    + rewrite S by (left; reflexivity). exact Ea.
    + rewrite S by (right; left; reflexivity). exact Eb.
    + destruct hd as [x|]; [|exact Eh]. destruct Eh as (-> & h' & K & Eh). split; [reflexivity|]. exists h'. split; [exact K|]. rewrite S by (right; right; left; reflexivity). exact Eh.
    + apply IH. intros x I. apply S. right. right. apply in_app_iff. auto.
  - intros _. apply repn_nil.
  - intros a ls fp fps n ns _ IHa _ IHl S. apply repn_cons; [apply IHa|apply IHl]; intros x I; apply S, in_app_iff; auto.
Qed.
Lemma repn_live H : (forall a fp n, repn H a fp n -> forall x, In x fp -> at_ H x <> None) /\ (forall ls fp ns, repn_all H ls fp ns -> forall x, In x fp -> at_ H x <> None).
Proof.
  apply repn_both.
  - intros a b ls hd t mb h fh fps ns Ea Eb Eh _ IH x [<-|[<-|I]]; [congruence|congruence|]. apply in_app_iff in I as [I|I]; [|exact (IH x I)].
    destruct hd as [y|]; destruct Eh as (-> & K); [|destruct I]. destruct I as [<-|[]]. destruct K as (h' & _ & K). congruence.
  - intros x [].
  - intros a ls fp fps n ns _ IHa _ IHl x I. apply in_app_iff in I as [I|I]; auto.
Qed.
Lemma repn_load H :
  (forall a fp n, repn H a fp n -> forall fuel, (length fp <= fuel)%nat -> load_tree fuel H a = Some n) /\
  (forall ls fp ns, repn_all H ls fp ns -> forall fuel, (length fp <= fuel)%nat ->
     (fix go ls := match ls with [] => Some [] | l :: r => match load_tree fuel H l, go r with Some n, Some ns => Some (n :: ns) | _, _ => None end end) ls = Some ns).
Proof.
  apply repn_both.
  - intros a b ls hd t mb h fh fps ns Ea Eb Eh _ IH fuel L. cbn [length] in L. rewrite app_length in L. destruct fuel as [|fuel]; [lia|]. cbn [load_tree]. rewrite Ea, Eb, IH by lia.
    destruct hd as [x|]; destruct Eh as (-> & K); [destruct K as (h' & -> & ->); reflexivity|subst h; reflexivity].
  - reflexivity.
  - intros a ls fp fps n ns _ IHa _ IHl fuel L. rewrite app_length in L. rewrite IHa, IHl by lia. reflexivity.
Qed.
Lemma repn_height H :
  (forall a fp n, repn H a fp n -> (height n <= length fp)%nat) /\ (forall ls fp ns, repn_all H ls fp ns -> (tmax ns <= length fp)%nat).
Proof.
  apply repn_both.
  - intros a b ls hd t mb h fh fps ns Ea Eb Eh _ IH. cbn [height length]. rewrite app_length. fold (tmax ns). lia.
  - cbn. lia.
  - intros a ls fp fps n ns _ IHa _ IHl. rewrite app_length. cbn [tmax fold_right]. fold (tmax ns). lia.
Qed.
Lemma repn_app H l1 : forall f1 n1 l2 f2 n2, repn_all H l1 f1 n1 -> repn_all H l2 f2 n2 -> repn_all H (l1 ++ l2) (f1 ++ f2) (n1 ++ n2).
Proof.
  induction l1 as [|a l1 IH]; intros f1 n1 l2 f2 n2 R1 R2; inversion R1; subst; [exact R2|]. cbn [app]. rewrite <- app_assoc. apply repn_cons; [assumption|]. apply IH; assumption.
Qed.
(** All objects of a tree are below the end of the heap. *)
Lemma below H a fp n : fresh H -> repn H a fp n -> forall x, In x fp -> (x < next H)%nat.
Proof. intros F R x I. pose proof (proj1 (repn_live H) _ _ _ R x I) as L. destruct (at_ H x) eqn:E; [exact (in_use _ _ _ F E)|congruence]. Qed.
Lemma below_all H ls fp ns : fresh H -> repn_all H ls fp ns -> forall x, In x fp -> (x < next H)%nat.
Proof. intros F R x I. pose proof (proj2 (repn_live H) _ _ _ R x I) as L. destruct (at_ H x) eqn:E; [exact (in_use _ _ _ F E)|congruence]. Qed.
Lemma range_len (l : list addr) (e : addr) : NoDup l -> (forall x, In x l -> (x < e)%nat) -> (length l <= e)%nat.
Proof.
  intros N B. rewrite <- (seq_length e 0). apply NoDup_incl_length; [exact N|]. intros x I. apply in_seq. specialize (B x I). lia.
Qed.

(** * How operations that delete nothing change the heap *)
Definition kept (H H' : heap) : Prop :=
  (forall x b ls, at_ H x = Some (A_info b ls) -> exists ls', at_ H' x = Some (A_info b (ls ++ ls'))) /\
  (forall x hd t mb, at_ H x = Some (A_box hd t mb) -> exists hd', at_ H' x = Some (A_box hd' t mb)) /\
  (forall x h, at_ H x = Some (A_header h) -> exists h', at_ H' x = Some (A_header h')).
Definition chg (H H' : heap) (fp fp' : list addr) : Prop :=
  (next H <= next H')%nat /\ fresh H' /\ kept H H' /\ (forall x, (x < next H)%nat -> ~ In x fp -> at_ H' x = at_ H x) /\
  (forall x, In x fp' <-> In x fp \/ (next H <= x < next H')%nat).
Lemma kept_refl H : kept H H.
Proof. split; [|split]; [intros x b ls E; exists []; rewrite app_nil_r; exact E|intros x hd t mb E; eauto|intros x h E; eauto]. Qed.
Lemma kept_trans H H1 H2 : kept H H1 -> kept H1 H2 -> kept H H2.
Proof.
  intros (A1 & B1 & C1) (A2 & B2 & C2). split; [|split].
  - intros x b ls E. destruct (A1 _ _ _ E) as (l1 & E1). destruct (A2 _ _ _ E1) as (l2 & E2). exists (l1 ++ l2). rewrite app_assoc. exact E2.
  - intros x hd t mb E. destruct (B1 _ _ _ _ E) as (h1 & E1). exact (B2 _ _ _ _ E1).
  - intros x h E. destruct (C1 _ _ E) as (h1 & E1). exact (C2 _ _ E1).
Qed.
Lemma chg_refl H fp : fresh H -> chg H H fp fp.
Proof. intros F. split; [lia|]. split; [exact F|]. split; [apply kept_refl|]. split; [reflexivity|]. intros x. split; [auto|]. intros [I|I]; [exact I|lia]. Qed.
Lemma chg_trans H H1 H2 fp fp1 fp2 : (forall x, In x fp -> (x < next H)%nat) -> chg H H1 fp fp1 -> chg H1 H2 fp1 fp2 -> chg H H2 fp fp2.
Proof.
  intros B (N1 & F1 & K1 & O1 & P1) (N2 & F2 & K2 & O2 & P2). split; [lia|]. split; [exact F2|]. split; [exact (kept_trans _ _ _ K1 K2)|]. split.
  - intros x L I. rewrite O2; [apply O1; assumption|lia|]. rewrite P1. intros [J|J]; [tauto|lia].
  - intros x. rewrite P2, P1. split; [intros [[I|I]|I]; [auto|right; lia..]|]. intros [I|I]; [auto|]. destruct (Nat.lt_ge_cases x (next H1)); [left; right; lia|right; lia].
Qed.
(** A part of a tree changes. *)
Lemma chg_wider H H' fp fp' l : chg H H' fp fp' -> chg H H' (l ++ fp) (l ++ fp').
Proof.
  intros (N & F & K & O & P). split; [exact N|]. split; [exact F|]. split; [exact K|]. split.
  - intros x L I. apply O; [exact L|]. intros J. apply I, in_app_iff. auto.
  - intros x. rewrite !in_app_iff, P. tauto.
Qed.
Lemma chg_wider_r H H' fp fp' l : chg H H' fp fp' -> chg H H' (fp ++ l) (fp' ++ l).
Proof.
  intros (N & F & K & O & P). split; [exact N|]. split; [exact F|]. split; [exact K|]. split.
  - intros x L I. apply O; [exact L|]. intros J. apply I, in_app_iff. auto.
  - intros x. rewrite !in_app_iff, P. tauto.
Qed.
Lemma chg_same H H' fp fp' l : chg H H' fp fp' -> (forall x, In x l -> (x < next H)%nat /\ ~ In x fp) -> same_on H H' l.
Proof. intros (_ & _ & _ & O & _) D x I. destruct (D x I). apply O; assumption. Qed.
(** A disjoint list stays disjoint. *)
Lemma chg_disjoint H H' fp fp' l : chg H H' fp fp' -> (forall x, In x l -> (x < next H)%nat /\ ~ In x fp) -> forall x, In x l -> ~ In x fp'.
Proof. intros (_ & _ & _ & _ & P) D x I J. destruct (D x I) as (L & N). apply P in J as [J|J]; [tauto|lia]. Qed.

(** * Allocation *)
Fixpoint strip (n : node) : node := let 'Node t _ b l := n in Node t None b ((fix go (l : list node) : list node := match l with [] => [] | k :: r => strip k :: go r end) l).
Lemma strip_eq t h b l : strip (Node t h b l) = Node t None b (map strip l).
Proof. reflexivity. Qed.
(** The place where a new BoxInfo is entered. *)
Definition parent_at (parent : option addr) (H : heap) (pb : addr) (ls : list addr) : Prop :=
  match parent with None => True | Some p => exists hd t mb, at_ H p = Some (A_info pb ls) /\ at_ H pb = Some (A_box hd t mb) end.
Definition parent_after (parent : option addr) (H : heap) (pb : addr) (ls : list addr) : Prop :=
  match parent with None => True | Some p => at_ H p = Some (A_info pb ls) end.
Lemma new_tree_ok n : forall parent pb ls H, fresh H -> parent_at parent H pb ls ->
  exists a H' fp, new_tree parent n H = Ok (a, H') /\ repn H' a fp (strip n) /\ NoDup fp /\ fresh H' /\ (next H <= next H')%nat /\
    (forall x, In x fp <-> (next H <= x < next H')%nat) /\ (forall x, (x < next H)%nat -> Some x <> parent -> at_ H' x = at_ H x) /\ parent_after parent H' pb (ls ++ [a]).
Proof.
  induction n as [t h b l IH] using node_ind'. intros parent pb ls H F P. cbn [new_tree new].
  set (H1 := mk_heap _ _). unfold BoxInfo_new. cbn [new].
  set (H2 := mk_heap (S (next H1)) _). set (a := next H1). set (bx := next H).
  assert (A2 : forall x, at_ H2 x = if Nat.eqb x a then Some (A_info bx []) else if Nat.eqb x bx then Some (A_box None t (Some b)) else at_ H x) by reflexivity.
  assert (Ea : a = S bx) by reflexivity. assert (Eb : bx = next H) by reflexivity. assert (N2 : next H2 = S (S bx)) by reflexivity. clearbody H2 a bx. clear H1.
  assert (E : exists H3 uw, (match parent with
      | None => Ok (a, false, H2)
      | Some p => match at_ H2 p with
          | Some (A_info pb ls) => match at_ H2 pb with Some (A_box _ type _) => Ok (a, list_eqb type type_wave, put p (Some (A_info pb (ls ++ [a]))) H2) | _ => UB end
          | _ => UB end end) = Ok (a, uw, H3) /\ next H3 = S (S bx) /\ fresh H3 /\ at_ H3 a = Some (A_info bx []) /\ at_ H3 bx = Some (A_box None t (Some b)) /\
          (forall x, (x < bx)%nat -> Some x <> parent -> at_ H3 x = at_ H x) /\ parent_after parent H3 pb (ls ++ [a])).
  { assert (F2 : fresh H2).
    { intros x L. rewrite A2. destruct (Nat.eqb_spec x a); [lia|]. destruct (Nat.eqb_spec x bx); [lia|]. apply F. lia. }
    destruct parent as [p|].
    - destruct P as (hd & t' & mb & E1 & E2). pose proof (in_use _ _ _ F E1). pose proof (in_use _ _ _ F E2).
      assert (E3 : at_ H2 p = Some (A_info pb ls)). { rewrite A2. destruct (Nat.eqb_spec p a); [lia|]. destruct (Nat.eqb_spec p bx); [lia|exact E1]. }
      assert (E4 : at_ H2 pb = Some (A_box hd t' mb)). { rewrite A2. destruct (Nat.eqb_spec pb a); [lia|]. destruct (Nat.eqb_spec pb bx); [lia|exact E2]. }
      rewrite E3, E4. do 2 eexists. split; [reflexivity|]. cbn [put next]. split; [exact N2|]. split; [apply put_fresh; [exact F2|lia]|]. rewrite !put_at.
      split; [destruct (Nat.eqb_spec a p); [lia|rewrite A2, Nat.eqb_refl; reflexivity]|].
      split; [destruct (Nat.eqb_spec bx p); [lia|]; rewrite A2; destruct (Nat.eqb_spec bx a); [lia|]; rewrite Nat.eqb_refl; reflexivity|].
      split; [|cbn [parent_after]; rewrite put_at, Nat.eqb_refl; reflexivity].
      intros x L I. rewrite put_at. destruct (Nat.eqb_spec x p) as [->|]; [exfalso; apply I; reflexivity|]. rewrite A2. destruct (Nat.eqb_spec x a); [lia|]. destruct (Nat.eqb_spec x bx); [lia|reflexivity].
    - do 2 eexists. split; [reflexivity|]. split; [exact N2|]. split; [exact F2|]. split; [rewrite A2, Nat.eqb_refl; reflexivity|].
      split; [rewrite A2; destruct (Nat.eqb_spec bx a); [lia|]; rewrite Nat.eqb_refl; reflexivity|]. split; [|exact I].
      intros x L _. rewrite A2. destruct (Nat.eqb_spec x a); [lia|]. destruct (Nat.eqb_spec x bx); [lia|reflexivity]. }
  destruct E as (H3 & uw & E & N3 & F3 & E3 & B3 & O3 & P3). rewrite E. cbn [obind].
  assert (G : forall l1 Hc done fpd ns, Forall (fun n => forall parent pb ls H, fresh H -> parent_at parent H pb ls ->
        exists a H' fp, new_tree parent n H = Ok (a, H') /\ repn H' a fp (strip n) /\ NoDup fp /\ fresh H' /\ (next H <= next H')%nat /\
          (forall x, In x fp <-> (next H <= x < next H')%nat) /\ (forall x, (x < next H)%nat -> Some x <> parent -> at_ H' x = at_ H x) /\ parent_after parent H' pb (ls ++ [a])) l1 ->
      fresh Hc -> at_ Hc a = Some (A_info bx done) -> at_ Hc bx = Some (A_box None t (Some b)) -> repn_all Hc done fpd ns -> NoDup fpd ->
      (forall x, In x fpd <-> (S (S bx) <= x < next Hc)%nat) -> (S (S bx) <= next Hc)%nat ->
      exists He done' fpe, (fix go (l : list node) (H : heap) : outcome (addr * heap) :=
           match l with [] => Ok (a, H) | k :: r => obind (new_tree (Some a) k H) (fun '(_, H) => go r H) end) l1 Hc = Ok (a, He) /\ fresh He /\
         at_ He a = Some (A_info bx done') /\ at_ He bx = Some (A_box None t (Some b)) /\ repn_all He done' fpe (ns ++ map strip l1) /\ NoDup fpe /\
         (forall x, In x fpe <-> (S (S bx) <= x < next He)%nat) /\ (next Hc <= next He)%nat /\ (forall x, (x < bx)%nat -> at_ He x = at_ Hc x)).
  { clear -Ea. intros l1. induction l1 as [|k l1 IHl]; intros Hc dn fpd ns Fa F E B R N I L.
    - exists Hc, dn, fpd. cbn [map]. rewrite app_nil_r. repeat (split; [assumption || reflexivity|]). reflexivity.
    - pose proof (Forall_inv Fa) as Hk. pose proof (Forall_inv_tail Fa) as Hl. cbv beta in Hk. destruct (Hk (Some a) bx dn Hc F) as (c & Hd & fp & E1 & R1 & N1 & F1 & L1 & I1 & O1 & P1).
      { cbn [parent_at]. eauto. }
      rewrite E1. cbn [obind].
      assert (S1 : same_on Hc Hd fpd). { intros x J. apply I in J. apply O1; [lia|]. intros X. injection X as ->. lia. }
      destruct (IHl Hd (dn ++ [c]) (fpd ++ fp) (ns ++ [strip k]) Hl F1 P1) as (He & dn' & fpe & G1 & G2 & G3 & G4 & G5 & G6 & G7 & G8 & G9).
      + rewrite O1; [exact B|lia|]. intros X. injection X as X. lia.
      + apply repn_app; [exact (proj2 (repn_same Hc Hd) _ _ _ R S1)|]. rewrite <- (app_nil_r fp). apply repn_cons; [exact R1|apply repn_nil].
      + apply nodup_app. split; [exact N|]. split; [exact N1|]. intros x J1 J2. apply I in J1. apply I1 in J2. lia.
      + intros x. rewrite in_app_iff, I, I1. lia.
      + lia.
      + exists He, dn', fpe. rewrite G1. cbn [map]. rewrite <- app_assoc in G5. cbn [app] in G5. repeat (split; [assumption || reflexivity|]). split; [lia|].
        intros x Lx. rewrite G9 by exact Lx. apply O1; [lia|]. intros X. injection X as X. lia. }
  destruct (G l H3 [] [] [] IH F3 E3 B3 (repn_nil _) (NoDup_nil _)) as (He & dn & fpe & G1 & G2 & G3 & G4 & G5 & G6 & G7 & G8 & G9).
  { intros x. rewrite N3. split; [intros []|lia]. }
  { lia. }
  cbn [app] in G5. rewrite G1. exists a, He, (a :: bx :: [] ++ fpe). split; [reflexivity|]. rewrite strip_eq.
  split; [apply repn_info with dn None; [exact G3|exact G4|split; reflexivity|exact G5]|].
  split.
  { cbn [app]. constructor; [intros [X|X]; [lia|apply G7 in X; lia]|]. constructor; [intros X; apply G7 in X; lia|exact G6]. }
  split; [exact G2|]. split; [lia|]. split.
  { intros x. cbn [app In]. rewrite G7. lia. }
  split.
  { intros x L I. rewrite G9 by lia. apply O3; [lia|exact I]. }
  destruct parent as [p|]; [|exact I]. cbn [parent_after] in *. rewrite G9; [exact P3|]. destruct P as (hd & t' & mb & E1 & _). pose proof (in_use _ _ _ F E1). lia.
Qed.
(** A new leaf of a tree. *)
Lemma new_leaf p fp t h b ns n H : repn H p fp (Node t h b ns) -> NoDup fp -> fresh H ->
  exists a H' fp', new_tree (Some p) n H = Ok (a, H') /\ repn H' p fp' (Node t h b (ns ++ [strip n])) /\ NoDup fp' /\ chg H H' fp fp'.
Proof.
  intros R N F. inversion R as [? bx ls hd ? ? ? fh fps ? Ea Eb Eh Rl]; subst. pose proof (below _ _ _ _ F R) as B.
  destruct (new_tree_ok n (Some p) bx ls H F) as (a & H' & fn & E & R1 & N1 & F1 & L1 & I1 & O1 & P1); [cbn [parent_at]; eauto|].
  exists a, H', ((p :: bx :: fh ++ fps) ++ fn). split; [exact E|]. cbn [parent_after] in P1.
  assert (Np : ~ In p (bx :: fh ++ fps)) by (apply NoDup_cons_iff in N; tauto).
  assert (S1 : same_on H H' (bx :: fh ++ fps)).
  { intros x I. apply O1; [apply B; right; exact I|]. intros X. injection X as ->. exact (Np I). }
  split.
  { replace ((p :: bx :: fh ++ fps) ++ fn) with (p :: bx :: fh ++ fps ++ fn) by (cbn [app]; rewrite <- app_assoc; reflexivity).
    apply repn_info with (ls ++ [a]) hd.
    - exact P1.
    - rewrite S1 by (left; reflexivity). exact Eb.
    - destruct hd as [x|]; [|exact Eh]. destruct Eh as (-> & h' & K & Eh). split; [reflexivity|]. exists h'. split; [exact K|]. rewrite S1 by (right; left; reflexivity). exact Eh.
    - apply repn_app.
      + apply (proj2 (repn_same H H')) with (1 := Rl). intros x I. apply S1. right. apply in_app_iff. auto.
      + rewrite <- (app_nil_r fn). apply repn_cons; [exact R1|apply repn_nil]. }
  split.
  { apply nodup_app. split; [exact N|]. split; [exact N1|]. intros x I J. apply B in I. apply I1 in J. lia. }
  split; [exact L1|]. split; [exact F1|]. split.
  { split; [|split].
    - intros x b' ls' E'. destruct (Nat.eq_dec x p) as [->|D].
      + rewrite Ea in E'. injection E' as <- <-. eauto.
      + exists []. rewrite app_nil_r. rewrite O1; [exact E'|exact (in_use _ _ _ F E')|congruence].
    - intros x hd' t' mb E'. assert (x <> p) by congruence. exists hd'. rewrite O1; [exact E'|exact (in_use _ _ _ F E')|congruence].
    - intros x h' E'. assert (x <> p) by congruence. exists h'. rewrite O1; [exact E'|exact (in_use _ _ _ F E')|congruence]. }
  split.
  { intros x L I. apply O1; [exact L|]. intros X. injection X as ->. apply I. left. reflexivity. }
  intros x. rewrite in_app_iff, I1. reflexivity.
Qed.

(** * Headers *)
Lemma kept_put_header H x h h' : at_ H x = Some (A_header h) -> kept H (put x (Some (A_header h')) H).
Proof.
  intros E. split; [|split].
  - intros y b ls E'. exists []. rewrite app_nil_r, put_at. destruct (Nat.eqb_spec y x); [congruence|exact E'].
  - intros y hd t mb E'. exists hd. rewrite put_at. destruct (Nat.eqb_spec y x); [congruence|exact E'].
  - intros y h1 E'. rewrite put_at. destruct (Nat.eqb_spec y x); eauto.
Qed.
(** Box::makeHeader *)
Lemma makeHeader_ok H a bx ls hd t mb h fh fps ns : fresh H -> at_ H a = Some (A_info bx ls) -> at_ H bx = Some (A_box hd t (Some mb)) -> header_is H hd fh h ->
  repn_all H ls fps ns -> NoDup (a :: bx :: fh ++ fps) ->
  exists x H', makeHeader_m bx H = Ok (x, makeHeader t h, H') /\ at_ H' a = Some (A_info bx ls) /\ at_ H' bx = Some (A_box (Some x) t (Some mb)) /\
    at_ H' x = Some (A_header (makeHeader t h)) /\ repn_all H' ls fps ns /\ NoDup (a :: bx :: [x] ++ fps) /\ chg H H' (a :: bx :: fh ++ fps) (a :: bx :: [x] ++ fps).
Proof.
  intros F Ea Eb Eh R N.
  assert (RR : repn H a (a :: bx :: fh ++ fps) (Node t h mb ns)) by (apply repn_info with ls hd; assumption).
  pose proof (below _ _ _ _ F RR) as B. unfold makeHeader_m. rewrite Eb. destruct hd as [x|]; destruct Eh as (-> & K).
  - destruct K as (h' & -> & E). rewrite E. exists x, H. cbn [makeHeader]. repeat (split; [assumption || reflexivity|]). apply chg_refl, F.
  - subst h. cbn [new app] in *. set (x := next H) in *. set (H1 := mk_heap _ _). cbn [makeHeader].
    assert (A1 : forall y, at_ (put bx (Some (A_box (Some x) t (Some mb))) H1) y = if Nat.eqb y bx then Some (A_box (Some x) t (Some mb)) else if Nat.eqb y x then Some (A_header (header_new t)) else at_ H y) by reflexivity.
    assert (Lb : (bx < x)%nat) by (apply B; right; left; reflexivity). assert (La : (a < x)%nat) by (apply B; left; reflexivity).
    assert (Nab : a <> bx). { intros ->. apply NoDup_cons_iff in N as (N & _). apply N. left. reflexivity. }
    set (H2 := put bx (Some (A_box (Some x) t (Some mb))) H1) in *. assert (N2 : next H2 = S x) by reflexivity.
    exists x, H2. split; [reflexivity|]. clearbody H2. clear H1.
    split; [rewrite A1; destruct (Nat.eqb_spec a bx); [congruence|]; destruct (Nat.eqb_spec a x); [lia|exact Ea]|].
    split; [rewrite A1, Nat.eqb_refl; reflexivity|].
    split; [rewrite A1; destruct (Nat.eqb_spec x bx); [lia|]; rewrite Nat.eqb_refl; reflexivity|].
    apply NoDup_cons_iff in N as (Na & N). apply NoDup_cons_iff in N as (Nb & N).
    split.
    { apply (proj2 (repn_same H H2)) with (1 := R). intros y I. rewrite A1. destruct (Nat.eqb_spec y bx) as [->|]; [tauto|].
      destruct (Nat.eqb_spec y x) as [->|]; [|reflexivity]. assert (x < x)%nat by (apply B; right; right; exact I). lia. }
    split.
    { constructor; [|constructor; [|constructor; [|exact N]]].
      - intros [I|[I|I]]; [congruence|lia|apply Na; right; exact I].
      - intros [I|I]; [lia|tauto].
      - intros I. assert (x < x)%nat by (apply B; right; right; exact I). lia. }
    split; [lia|]. split; [|split; [|split]].
    { intros y L. rewrite A1. destruct (Nat.eqb_spec y bx); [lia|]. destruct (Nat.eqb_spec y x); [lia|]. apply F. lia. }
    { split; [|split].
      - intros y b' ls' E'. exists []. rewrite app_nil_r, A1. pose proof (in_use _ _ _ F E'). destruct (Nat.eqb_spec y bx); [congruence|]. destruct (Nat.eqb_spec y x); [lia|exact E'].
      - intros y hd t' mb' E'. rewrite A1. pose proof (in_use _ _ _ F E'). destruct (Nat.eqb_spec y bx) as [->|].
        + rewrite Eb in E'. injection E' as <- <- <-. eauto.
        + destruct (Nat.eqb_spec y x); [lia|eauto].
      - intros y h' E'. rewrite A1. pose proof (in_use _ _ _ F E'). destruct (Nat.eqb_spec y bx); [congruence|]. destruct (Nat.eqb_spec y x); [lia|eauto]. }
    { intros y L I. rewrite A1. destruct (Nat.eqb_spec y bx) as [->|]; [exfalso; apply I; right; left; reflexivity|]. destruct (Nat.eqb_spec y x); [lia|reflexivity]. }
    intros y. cbn [In]. split; [intros [I|[I|[I|I]]]; [auto|auto|right; lia|auto]|]. intros [[I|[I|I]]|I]; [auto..|]. right. right. left. lia.
Qed.
Lemma repn_size H a fp n h : repn H a fp n -> n_header n = Some h -> getSize_m a H = Ok (h_size h).
Proof.
  intros R E. inversion R as [? bx ls hd t mb h0 fh fps ns Ea Eb Eh Rl]; subst. cbn [n_header] in E. subst h0. unfold getSize_m. rewrite Ea, Eb.
  destruct hd as [x|]; destruct Eh as (-> & K); [|discriminate K]. destruct K as (h' & K & ->). injection K as <-. reflexivity.
Qed.
Lemma repn_getSize H a fp n : repn H a fp n -> getSize_m a H = BoxInfo_getSize n.
Proof.
  intros R. destruct (n_header n) as [h|] eqn:E; unfold BoxInfo_getSize; rewrite E; [exact (repn_size _ _ _ _ _ R E)|].
  inversion R as [? bx ls hd t mb h0 fh fps ns Ea Eb Eh Rl]; subst. cbn [n_header] in E. subst h0. unfold getSize_m. rewrite Ea, Eb.
  destruct hd as [x|]; destruct Eh as (-> & K); [destruct K as (h' & K & _); discriminate K|reflexivity].
Qed.
(** The header of the root is replaced. *)
Lemma put_root H a bx ls x t mb h fps ns h1 : fresh H -> at_ H a = Some (A_info bx ls) -> at_ H bx = Some (A_box (Some x) t (Some mb)) -> at_ H x = Some (A_header h) ->
  repn_all H ls fps ns -> NoDup (a :: bx :: [x] ++ fps) ->
  let H' := put x (Some (A_header h1)) H in
  repn H' a (a :: bx :: [x] ++ fps) (Node t (Some h1) mb ns) /\ chg H H' (a :: bx :: [x] ++ fps) (a :: bx :: [x] ++ fps).
Proof.
  intros F Ea Eb Ex R N H'. cbn [app] in N |- *. pose proof N as N0. apply NoDup_cons_iff in N as (Na & N). apply NoDup_cons_iff in N as (Nb & N). apply NoDup_cons_iff in N as (Nx & N). cbn [In] in Na, Nb.
  assert (O : forall y, y <> x -> at_ H' y = at_ H y). { intros y D. unfold H'. rewrite put_at. destruct (Nat.eqb_spec y x); [congruence|reflexivity]. }
  split.
  - change (a :: bx :: x :: fps) with (a :: bx :: [x] ++ fps). apply repn_info with ls (Some x).
    + rewrite O by (intros X; apply Na; right; left; congruence). exact Ea.
    + rewrite O by (intros X; apply Nb; left; congruence). exact Eb.
    + split; [reflexivity|]. exists h1. split; [reflexivity|]. unfold H'. rewrite put_at, Nat.eqb_refl. reflexivity.
    + apply (proj2 (repn_same H H')) with (1 := R). intros y I. apply O. intros ->. exact (Nx I).
  - split; [reflexivity|]. split; [apply put_fresh; [exact F|exact (in_use _ _ _ F Ex)]|]. split; [exact (kept_put_header _ _ _ _ Ex)|]. split.
    + intros y L I. apply O. intros ->. apply I. right. right. left. reflexivity.
    + intros y. cbn [put next H']. split; [auto|]. intros [I|I]; [exact I|]. unfold H' in I. cbn [put next] in I. lia.
Qed.

(** * adjustOffsetAndSize *)
Lemma chg_leafs H H' a bx x fps fps' t mb ls (h : boxheader) : fresh H -> chg H H' fps fps' -> NoDup (a :: bx :: [x] ++ fps) -> NoDup fps' ->
  at_ H a = Some (A_info bx ls) -> at_ H bx = Some (A_box (Some x) t (Some mb)) -> at_ H x = Some (A_header h) ->
  at_ H' a = Some (A_info bx ls) /\ at_ H' bx = Some (A_box (Some x) t (Some mb)) /\ at_ H' x = Some (A_header h) /\ NoDup (a :: bx :: [x] ++ fps') /\
  chg H H' (a :: bx :: [x] ++ fps) (a :: bx :: [x] ++ fps').
Proof.
  intros F C N N' Ea Eb Ex. change (NoDup ([a; bx; x] ++ fps)) in N. apply nodup_app in N as (N1 & N2 & N3).
  assert (D : forall y, In y [a; bx; x] -> (y < next H)%nat /\ ~ In y fps).
  { intros y I. split; [|exact (N3 y I)]. destruct I as [<-|[<-|[<-|[]]]]; [exact (in_use _ _ _ F Ea)|exact (in_use _ _ _ F Eb)|exact (in_use _ _ _ F Ex)]. }
  pose proof (chg_same _ _ _ _ _ C D) as S. pose proof (chg_disjoint _ _ _ _ _ C D) as D'.
  rewrite (S a), (S bx), (S x) by (cbn [In]; auto). repeat (split; [assumption|]). split.
  - change (NoDup ([a; bx; x] ++ fps')). apply nodup_app. auto.
  - exact (chg_wider _ _ _ _ [a; bx; x] C).
Qed.
Lemma adjust_m_ok f : forall H a fp n off n' s, repn H a fp n -> NoDup fp -> fresh H -> adjust f n off = Some (n', s) ->
  exists H' fp', adjust_m f a off H = Ok (s, H') /\ repn H' a fp' n' /\ NoDup fp' /\ chg H H' fp fp'.
Proof.
  induction f as [|f IH]; intros H a fp n off n' s R N F E; [discriminate E|].
  inversion R as [? bx ls hd t mb h fh fps ns Ea Eb Eh Rl]; subst. pose proof (below _ _ _ _ F R) as B.
  cbn [adjust] in E. cbn [adjust_m]. rewrite Ea.
  destruct (makeHeader_ok H a bx ls hd t mb h fh fps ns F Ea Eb Eh Rl N) as (x & H1 & E1 & Ea1 & Eb1 & Ex1 & R1 & N1 & C1).
  rewrite E1. cbn [obind]. unfold getDataSize_m. rewrite Eb1. cbn [obind].
  set (base := u64 (off + _ + _)) in *. assert (F1 : fresh H1) by apply C1.
  assert (G : forall ls fps ns acc Hc ns' tot, repn_all Hc ls fps ns -> NoDup fps -> fresh Hc -> adjust_leafs (adjust f) base acc ns = Some (ns', tot) ->
     exists He fpe, adjust_leafs_m (adjust_m f) base acc ls Hc = Ok (tot, He) /\ repn_all He ls fpe ns' /\ NoDup fpe /\ chg Hc He fps fpe).
  { clear -IH. induction ls as [|c ls IHl]; intros fps ns acc Hc ns' tot R N F E; inversion R as [|? ? fp fps1 k ns1 Rk Rl]; subst.
    - cbn [adjust_leafs] in E. injection E as <- <-. exists Hc, []. cbn [adjust_leafs_m]. split; [reflexivity|]. split; [apply repn_nil|]. split; [constructor|apply chg_refl, F].
    - cbn [adjust_leafs] in E. destruct (adjust f k (u64 (base + acc))) as [[k' s]|] eqn:Ek; [|discriminate E].
      destruct (adjust_leafs (adjust f) base (u64 (acc + s)) ns1) as [[r tot']|] eqn:El; [|discriminate E]. injection E as <- <-.
      apply nodup_app in N as (Nk & Nl & Nd).
      destruct (IH Hc c fp k _ k' s Rk Nk F Ek) as (H1 & fp1 & E1 & R1 & N1 & C1). cbn [adjust_leafs_m]. rewrite E1. cbn [obind].
      assert (D1 : forall x, In x fps1 -> (x < next Hc)%nat /\ ~ In x fp). { intros x I. split; [exact (below_all _ _ _ _ F Rl x I)|]. intros J. exact (Nd x J I). }
      assert (Rl1 : repn_all H1 ls fps1 ns1) by (exact (proj2 (repn_same Hc H1) _ _ _ Rl (chg_same _ _ _ _ _ C1 D1))).
      assert (F1 : fresh H1) by apply C1.
      destruct (IHl fps1 ns1 _ H1 r tot' Rl1 Nl F1 El) as (H2 & fp2 & E2 & R2 & N2 & C2). rewrite E2.
      assert (D2 : forall x, In x fp1 -> (x < next H1)%nat /\ ~ In x fps1).
      { intros x I. split; [exact (below _ _ _ _ F1 R1 x I)|]. intros J. exact (chg_disjoint _ _ _ _ _ C1 D1 x J I). }
      exists H2, (fp1 ++ fp2). split; [reflexivity|]. split; [|split].
      + apply repn_cons; [|exact R2]. exact (proj1 (repn_same H1 H2) _ _ _ R1 (chg_same _ _ _ _ _ C2 D2)).
      + apply nodup_app. split; [exact N1|]. split; [exact N2|]. exact (chg_disjoint _ _ _ _ _ C2 D2).
      + apply chg_trans with H1 (fp1 ++ fps1).
        * intros x I. apply in_app_iff in I as [I|I]; [exact (below _ _ _ _ F Rk x I)|exact (proj1 (D1 x I))].
        * apply chg_wider_r, C1.
        * apply chg_wider, C2. }
  destruct (adjust_leafs (adjust f) base 0 ns) as [[ns' tot]|] eqn:El; [|discriminate E].
  assert (Nf : NoDup fps) by (change (NoDup ([a; bx; x] ++ fps)) in N1; apply nodup_app in N1; tauto).
  destruct (G ls fps ns 0 H1 ns' tot R1 Nf F1 El) as (H2 & fps2 & E2 & R2 & N2 & C2). rewrite E2. cbn [obind].
  destruct (chg_leafs H1 H2 a bx x fps fps2 t mb ls (makeHeader t h) F1 C2 N1 N2 Ea1 Eb1 Ex1) as (Ea2 & Eb2 & Ex2 & N2' & C2').
  assert (F2 : fresh H2) by apply C2.
  unfold makeHeader_m. rewrite Eb2, Ex2. cbn [obind].
  set (h1 := header_setOffsetAndDataSize (makeHeader t h) off (u64 (Box_getDataSize mb + tot))) in *.
  destruct (put_root H2 a bx ls x t mb _ fps2 ns' h1 F2 Ea2 Eb2 Ex2 R2 N2') as (R3 & C3). set (H3 := put x (Some (A_header h1)) H2) in *.
  assert (C : chg H H3 (a :: bx :: fh ++ fps) (a :: bx :: [x] ++ fps2)).
  { apply chg_trans with H1 (a :: bx :: [x] ++ fps); [exact B|exact C1|]. apply chg_trans with H2 (a :: bx :: [x] ++ fps2); [|exact C2'|exact C3].
    assert (R1' : repn H1 a (a :: bx :: [x] ++ fps) (Node t (Some (makeHeader t h)) mb ns)).
    { apply repn_info with ls (Some x); [assumption..| |exact R1]. split; [reflexivity|eauto]. }
    exact (below _ _ _ _ F1 R1'). }
  destruct (negb (h_header_size (makeHeader t h) =? h_header_size h1)).
  - destruct (adjust f (Node t (Some h1) mb ns') off) as [[n2 s2]|] eqn:E4; [|discriminate E]. injection E as <- <-.
    destruct (IH H3 a _ _ off n2 s2 R3 N2') with (2 := E4) as (H4 & fp4 & E4' & R4 & N4 & C4); [apply C3|]. rewrite E4'. cbn [obind].
    destruct (adjust_size _ _ _ _ _ E4) as (h4 & K4 & <-). rewrite (repn_size _ _ _ _ _ R4 K4). cbn [obind]. exists H4, fp4. split; [reflexivity|]. split; [exact R4|]. split; [exact N4|].
    exact (chg_trans _ _ _ _ _ _ B C C4).
  - injection E as <- <-. cbn [obind]. rewrite (repn_size _ _ _ _ h1 R3 eq_refl). cbn [obind]. eexists _, _. split; [reflexivity|]. split; [exact R3|]. split; [exact N2'|exact C].
Qed.
Lemma adjust_ptr H a fp n off : repn H a fp n -> NoDup fp -> fresh H ->
  exists n' s H' fp', BoxInfo_adjustOffsetAndSize n off = Ok (n', s) /\ adjustOffsetAndSize_m a off H = Ok (s, H') /\ repn H' a fp' n' /\ NoDup fp' /\ chg H H' fp fp'.
Proof.
  intros R N F. pose proof (proj1 (repn_height H) _ _ _ R). pose proof (range_len fp (next H) N (below _ _ _ _ F R)).
  destruct (adjust_any n off (2 * S (next H))) as (n' & E1 & E2); [lia|]. destruct (adjust_m_ok _ _ _ _ _ _ _ _ R N F E1) as (H' & fp' & E3 & R' & N' & C).
  exists n', (tsize n), H', fp'. auto.
Qed.

(** * write *)
Definition agrees (k : budget) (pure : outcome (node * ostream)) (r : outcome (ostream * budget)) (n' : node) : Prop :=
  k = None -> match pure with Ok (n2, o2) => r = Ok (o2, None) /\ n' = n2 | Throw e => r = Throw e | UB => r = UB end.
Lemma write_m_ok f : forall H a fp n o k, repn H a fp n -> NoDup fp -> fresh H -> (length fp <= f)%nat ->
  exists H' r n', write_m f a o k H = (H', r) /\ repn H' a fp n' /\ chg H H' fp fp /\ agrees k (BoxInfo_write n o) r n'.
Proof.
  induction f as [|f IH]; intros H a fp n o k R N F L.
  { inversion R; subst. cbn [length] in L. lia. }
  inversion R as [? bx ls hd t mb h fh fps ns Ea Eb Eh Rl]; subst. cbn [length] in L. rewrite app_length in L.
  cbn [write_m]. rewrite Ea, Eb.
  assert (Same : forall r, (k = None -> match BoxInfo_write (Node t h mb ns) o with Ok _ => False | Throw e => r = Throw e | UB => r = UB end) ->
     exists H' r' n', (H, r) = (H', r') /\ repn H' a (a :: bx :: fh ++ fps) n' /\ chg H H' (a :: bx :: fh ++ fps) (a :: bx :: fh ++ fps) /\ agrees k (BoxInfo_write (Node t h mb ns) o) r' n').
  { intros r Q. exists H, r, (Node t h mb ns). split; [reflexivity|]. split; [exact R|]. split; [apply chg_refl, F|].
    intros K. specialize (Q K). destruct (BoxInfo_write (Node t h mb ns) o) as [[n2 o2]| |]; [destruct Q|exact Q..]. }
  destruct hd as [x|]; destruct Eh as (-> & K).
  2: { subst h. cbn [option_map]. destruct (Box_toString None mb) eqn:Es; apply Same; intros _; cbn [BoxInfo_write]; rewrite Es; reflexivity. }
  destruct K as (h' & -> & Ex). rewrite Ex. cbn [option_map snd].
  destruct (Box_toString (Some h') mb) eqn:Es; [|apply Same; intros _; cbn [BoxInfo_write]; rewrite Es; reflexivity..].
  destruct (tick k) as [k1|] eqn:T1; [|apply Same; intros ->; discriminate T1].
  destruct (header_write h' o) as [h1 o1] eqn:Ew.
  destruct (put_root H a bx ls x t mb h' fps ns h1 F Ea Eb Ex Rl N) as (R1 & C1). set (H1 := put x (Some (A_header h1)) H) in *.
  assert (Same1 : forall r, (k = None -> match BoxInfo_write (Node t (Some h') mb ns) o with Ok _ => False | Throw e => r = Throw e | UB => r = UB end) ->
     exists H' r' n', (H1, r) = (H', r') /\ repn H' a (a :: bx :: [x] ++ fps) n' /\ chg H H' (a :: bx :: [x] ++ fps) (a :: bx :: [x] ++ fps) /\ agrees k (BoxInfo_write (Node t (Some h') mb ns) o) r' n').
  { intros r Q. exists H1, r, (Node t (Some h1) mb ns). split; [reflexivity|]. split; [exact R1|]. split; [exact C1|].
    intros K. specialize (Q K). destruct (BoxInfo_write (Node t (Some h') mb ns) o) as [[n2 o2]| |]; [destruct Q|exact Q..]. }
  destruct (tick k1) as [k2|] eqn:T2; [|apply Same1; intros ->; injection T1 as <-; discriminate T2].
  destruct (os_writeData mb o1) as [o2| |] eqn:Ed; [|apply Same1; intros _; cbn [BoxInfo_write]; rewrite Es; cbn [obind]; rewrite Ew, Ed; reflexivity..].
  assert (G : forall ls fps ns o k Hc, repn_all Hc ls fps ns -> NoDup fps -> fresh Hc -> (length fps <= f)%nat ->
     exists He r ns', (fix go (l : list addr) (o : ostream) (k : budget) (H : heap) : heap * outcome (ostream * budget) :=
          match l with [] => (H, Ok (o, k)) | c :: r => match write_m f c o k H with (H, Ok (o, k)) => go r o k H | (H, r) => (H, r) end end) ls o k Hc = (He, r) /\
       repn_all He ls fps ns' /\ chg Hc He fps fps /\
       (k = None -> match BoxInfo_write_all ns o with Ok (n2, o2) => r = Ok (o2, None) /\ ns' = n2 | Throw e => r = Throw e | UB => r = UB end)).
  { clear -IH. induction ls as [|c ls IHl]; intros fps ns o k Hc R N F L; inversion R as [|? ? fp fps1 n1 ns1 Rk Rl]; subst.
    - exists Hc, (Ok (o, k)), []. split; [reflexivity|]. split; [apply repn_nil|]. split; [apply chg_refl, F|]. intros ->. split; reflexivity.
    - apply nodup_app in N as (Nk & Nl & Nd). rewrite app_length in L.
      destruct (IH Hc c fp n1 o k Rk Nk F) as (H1 & r1 & n' & E1 & R1 & C1 & A1); [lia|]. rewrite E1.
      assert (D1 : forall x, In x fps1 -> (x < next Hc)%nat /\ ~ In x fp). { intros x I. split; [exact (below_all _ _ _ _ F Rl x I)|]. intros J. exact (Nd x J I). }
      assert (Rl1 : repn_all H1 ls fps1 ns1) by (exact (proj2 (repn_same Hc H1) _ _ _ Rl (chg_same _ _ _ _ _ C1 D1))).
      assert (F1 : fresh H1) by apply C1. cbn [BoxInfo_write_all].
      assert (B : forall x, In x (fp ++ fps1) -> (x < next Hc)%nat). { intros x I. apply in_app_iff in I as [I|I]; [exact (below _ _ _ _ F Rk x I)|exact (proj1 (D1 x I))]. }
      destruct r1 as [[o1 k1]|e|].
      + destruct (IHl fps1 ns1 o1 k1 H1 Rl1 Nl F1) as (H2 & r2 & ns2 & E2 & R2 & C2 & A2); [lia|].
        assert (D2 : forall x, In x fp -> (x < next H1)%nat /\ ~ In x fps1). { intros x I. split; [exact (below _ _ _ _ F1 R1 x I)|exact (Nd x I)]. }
        exists H2, r2, (n' :: ns2). split; [exact E2|]. split; [|split].
        * apply repn_cons; [|exact R2]. exact (proj1 (repn_same H1 H2) _ _ _ R1 (chg_same _ _ _ _ _ C2 D2)).
        * apply chg_trans with H1 (fp ++ fps1); [exact B|apply chg_wider_r, C1|apply chg_wider, C2].
        * intros K. specialize (A1 K). destruct (BoxInfo_write n1 o) as [[n2 o2]| |]; [|discriminate A1..]. destruct A1 as (A1 & ->). injection A1 as -> ->. specialize (A2 eq_refl).
          destruct (BoxInfo_write_all ns1 o2) as [[n3 o3]| |]; [|exact A2..]. destruct A2 as (A2 & ->). split; [exact A2|reflexivity].
      + exists H1, (Throw e), (n' :: ns1). split; [reflexivity|]. split; [apply repn_cons; assumption|]. split; [apply chg_wider_r, C1|].
        intros K. specialize (A1 K). destruct (BoxInfo_write n1 o) as [[n2 o2]| |]; [destruct A1 as (A1 & _); discriminate A1|exact A1|exact A1].
      + exists H1, UB, (n' :: ns1). split; [reflexivity|]. split; [apply repn_cons; assumption|]. split; [apply chg_wider_r, C1|].
        intros K. specialize (A1 K). destruct (BoxInfo_write n1 o) as [[n2 o2]| |]; [destruct A1 as (A1 & _); discriminate A1|exact A1|exact A1]. }
  assert (Ea' : at_ H1 a = Some (A_info bx ls)).
  { unfold H1. rewrite put_at. destruct (Nat.eqb_spec a x) as [X|X]; [|exact Ea]. rewrite <- X in Ex. rewrite Ea in Ex. discriminate Ex. }
  assert (Eb' : at_ H1 bx = Some (A_box (Some x) t (Some mb))).
  { unfold H1. rewrite put_at. destruct (Nat.eqb_spec bx x) as [X|X]; [|exact Eb]. rewrite <- X in Ex. rewrite Eb in Ex. discriminate Ex. }
  assert (Ex1 : at_ H1 x = Some (A_header h1)) by (unfold H1; rewrite put_at, Nat.eqb_refl; reflexivity).
  change (NoDup ([a; bx; x] ++ fps)) in N. apply nodup_app in N as (N1 & N2 & N3). assert (F1 : fresh H1) by apply C1.
  assert (Rl1 : repn_all H1 ls fps ns).
  { apply (proj2 (repn_same H H1)) with (1 := Rl). intros y I. unfold H1. rewrite put_at. destruct (Nat.eqb_spec y x) as [X|X]; [|reflexivity].
    exfalso. apply (N3 x); [right; right; left; reflexivity|]. rewrite <- X. exact I. }
  destruct (G ls fps ns o2 k2 H1 Rl1 N2 F1) as (H2 & r & ns' & E2 & R2 & C2 & A2); [cbn [length] in L; lia|].
  assert (Nd : NoDup (a :: bx :: [x] ++ fps)) by (change (NoDup ([a; bx; x] ++ fps)); apply nodup_app; auto).
  destruct (chg_leafs H1 H2 a bx x fps fps t mb ls h1 F1 C2 Nd N2 Ea' Eb' Ex1) as (Ea2 & Eb2 & Ex2 & N2' & C2').
  exists H2, r, (Node t (Some h1) mb ns'). split; [exact E2|]. split; [|split].
  - apply repn_info with ls (Some x); [assumption..| |exact R2]. split; [reflexivity|eauto].
  - apply chg_trans with H1 (a :: bx :: [x] ++ fps); [exact (below _ _ _ _ F R)|exact C1|exact C2'].
  - intros K. subst k. injection T1 as <-. injection T2 as <-. specialize (A2 eq_refl). cbn [BoxInfo_write]. rewrite Es. cbn [obind]. rewrite Ew, Ed, write_all_eq.
    destruct (BoxInfo_write_all ns o2) as [[n3 o3]| |]; [|exact A2..]. destruct A2 as (A2 & ->). split; [exact A2|reflexivity].
Qed.
Lemma write_ptr H a fp n o k : repn H a fp n -> NoDup fp -> fresh H ->
  exists H' r n', BoxInfo_write_m a o k H = (H', r) /\ repn H' a fp n' /\ chg H H' fp fp /\ agrees k (BoxInfo_write n o) r n'.
Proof. intros R N F. pose proof (range_len fp (next H) N (below _ _ _ _ F R)). apply write_m_ok; [assumption..|lia]. Qed.

(** * Deletion *)
Lemma delete_ptr H a fp n : repn H a fp n -> NoDup fp -> fresh H -> exists H', BoxInfo_delete_m a H = Ok H' /\ deleted H H' fp.
Proof.
  intros R N F. pose proof (range_len fp (next H) N (below _ _ _ _ F R)). unfold BoxInfo_delete_m.
  apply (proj1 (owns_delete H) a fp (proj1 (repn_owns H) _ _ _ R)); [intros x _; reflexivity|exact N|lia].
Qed.
