(** The sessions of example/mp4-muxer.cpp (C63). *)
From Verif Require Import Base BitFacts BitIOProofs Boxes Box BoxSpec BoxSize BoxTree TreeSpec TreeProofs PrintSpec AnnexBSpec H264 H264Proofs Track Writers MovieSpec TrackProofs TrakProofs SessionProofs MovieShape Completion SimpleFile FaststartFile TrackLemmas FileLemmas CallSpec CallProofs RoundTrip PropRoundTrip PropFile PropH264 PropCalls Float Muxer MuxerSpec.
From Verif Require ExactSpec ExactProofs.
From Coq Require Import List.
Import ListNotations.
Open Scope Z_scope.
Open Scope list_scope.

(** * Sessions: tracks are constructed, then samples are added *)
Definition sampling (n : nat) (o : op) : Prop := match o with O_AddData i _ _ _ | O_Terminate i => (i < n)%nat | _ => False end.
Definition adds (i : nat) (body : list op) : list resource :=
  flat_map (fun o => match o with O_AddData j ts d k => if Nat.eqb i j then [mk_resource ts d k] else [] | _ => [] end) body.
Definition samples_from (c : codec) (r : resource) : list sample := map (fun d => mk_sample (r_timestamp r) d (r_key r)) (stored c (r_data r)).

Lemma created_sampling n b body : Forall (sampling n) body -> created (b ++ body) = created b.
Proof.
  intros H. unfold created. rewrite filter_app. replace (filter _ body) with (@nil op); [apply app_nil_r|]. induction H as [|o l Ho H IH]; [reflexivity|]. cbn [filter]. destruct o; try contradiction; exact IH.
Qed.
Lemma history_app x : forall b y, history_from b (x ++ y) = history_from b x ++ history_from (b ++ x) y.
Proof. induction x as [|o x IH]; intros b y; cbn [app history_from]; [rewrite app_nil_r; reflexivity|]. rewrite IH, <- !app_assoc. reflexivity. Qed.
Lemma sets_app f i x : forall b y, sets_from f i b (x ++ y) = sets_from f i b x ++ sets_from f i (b ++ x) y.
Proof. induction x as [|o x IH]; intros b y; cbn [app sets_from]; [rewrite app_nil_r; reflexivity|]. rewrite IH, <- !app_assoc. reflexivity. Qed.
Lemma history_sampling n body : Forall (sampling n) body -> forall b, history_from b body = flat_map (stores b) body.
Proof.
  induction 1 as [|o l Ho H IH]; intros b; [reflexivity|]. cbn [history_from flat_map]. f_equal. rewrite IH. apply flat_map_ext. intros x. destruct x; try reflexivity. cbn [stores]. unfold codec_of. rewrite (created_sampling n); [reflexivity|]. constructor; [exact Ho|constructor].
Qed.
Lemma sets_sampling n f i c body : Forall (sampling n) body -> forall b, codec_of b i = Some c -> sets_from f i b body = flat_map (fun r => f (effects c (r_data r))) (adds i body).
Proof.
  induction 1 as [|o l Ho H IH]; intros b E; [reflexivity|]. cbn [sets_from]. unfold adds. cbn [flat_map]. fold (adds i l). rewrite flat_map_app. rewrite (IH (b ++ [o])); [|unfold codec_of in *; rewrite (created_sampling n); [exact E|constructor; [exact Ho|constructor]]]. f_equal.
  destruct o; try contradiction; [|reflexivity]. destruct (Nat.eqb i i0); [|reflexivity]. rewrite E. cbn [flat_map]. rewrite app_nil_r. reflexivity.
Qed.
Lemma media_time_sampling n i body : Forall (sampling n) body -> forall P v, media_time_of i (P ++ body) v = media_time_of i P v.
Proof.
  intros H. induction body as [|o l IH] using rev_ind; intros P v; [rewrite app_nil_r; reflexivity|]. apply Forall_app in H. destruct H as (H & Ho). rewrite app_assoc, mt_snoc, (IH H). inversion Ho as [|? ? X]. destruct o; try contradiction; reflexivity.
Qed.

Section Body.
Variables (P : list op) (n : nat) (body : list op).
Hypothesis (HP : history P = []) (Hn : length (created P) = n) (HB : Forall (sampling n) body).
Let ops := P ++ body.

Lemma created_all : created ops = created P.
Proof. exact (created_sampling n P body HB). Qed.
Lemma codec_all i : codec_of ops i = codec_of P i.
Proof. unfold codec_of. rewrite created_all. reflexivity. Qed.
Lemma history_all : history ops = flat_map (stores P) body.
Proof. unfold history, ops. rewrite history_app. unfold history in HP. rewrite HP. exact (history_sampling n body HB P). Qed.
Lemma samples_all i c : codec_of P i = Some c -> samples_of i ops = flat_map (samples_from c) (adds i body).
Proof.
  intros E. unfold samples_of. rewrite history_all. clear -E. induction body as [|o l IH]; [reflexivity|]. cbn [flat_map]. rewrite flat_map_app, IH. unfold adds at 2. cbn [flat_map]. fold (adds i l). rewrite flat_map_app. f_equal. clear IH.
  destruct o; try reflexivity. cbn [stores]. destruct (Nat.eqb_spec i i0) as [<-|N].
  - rewrite E. unfold samples_from. cbn [flat_map r_timestamp r_data r_key]. rewrite app_nil_r. generalize (stored c data) as ds. intros ds. induction ds as [|d ds IH]; [reflexivity|]. cbn [map flat_map fst snd]. rewrite Nat.eqb_refl, IH. reflexivity.
  - cbn [flat_map]. destruct (codec_of P i0); [|reflexivity]. generalize (stored c0 data) as ds. intros ds. induction ds as [|d ds IH]; [reflexivity|]. cbn [map flat_map fst snd]. rewrite (proj2 (Nat.eqb_neq i i0) N). exact IH.
Qed.
Lemma known_all : known_tracks P -> known_tracks ops.
Proof.
  intros K pre o post i E A.
  assert (B : forall m, body = m ++ o :: post -> (i < length (created (P ++ m)))%nat).
  { intros m Em. pose proof HB as H. rewrite Em in H. apply Forall_app in H. destruct H as (H1 & H2). rewrite (created_sampling n P m H1), Hn. inversion H2 as [|? ? X]. destruct o; try contradiction; subst; exact X. }
  unfold ops in E. apply app_eq_app in E. destruct E as (m & [(E1 & E2)|(E1 & E2)]).
  - destruct m as [|x m]; [cbn [app] in E2; rewrite app_nil_r in E1; subst pre; rewrite <- (app_nil_r P); apply B; symmetry; exact E2|]. injection E2 as -> E2. exact (K pre x m i E1 A).
  - subst pre. apply B. exact E2.
Qed.
Lemma calls_all : forallb media_op P = true -> forallb media_op ops = true.
Proof.
  intros H. unfold ops. rewrite forallb_app, H. cbn [andb]. apply forallb_forall. intros o I. rewrite Forall_forall in HB. specialize (HB o I). destruct o; try contradiction; reflexivity.
Qed.
Lemma bytes_all : (forall o, In o body -> Forall (fun x => bytes (sm_data (snd x))) (stores P o)) -> bytes (media ops).
Proof.
  intros H. unfold media. rewrite history_all. unfold bytes. clear HB. induction body as [|o l IH]; [constructor|]. cbn [flat_map]. rewrite flat_map_app. apply Forall_app. split; [|apply IH; intros x X; apply H; right; exact X].
  specialize (H o (or_introl eq_refl)). induction H as [|x xs Hx H' IH']; [constructor|]. cbn [flat_map]. apply Forall_app. split; assumption.
Qed.
Lemma media_bound B : (forall o, In o body -> Zlen (flat_map (fun x => sm_data (snd x)) (stores P o)) <= B) -> Zlen (media ops) <= B * Z.of_nat (length body).
Proof.
  intros H. unfold media. rewrite history_all. clear HB. induction body as [|o l IH]; [rewrite Z.mul_0_r; reflexivity|]. cbn [flat_map length]. rewrite flat_map_app, Zlen_app. specialize (H o (or_introl eq_refl)) as H0. specialize (IH (fun x X => H x (or_intror X))). lia.
Qed.
End Body.

(** * Chunks *)
Definition closed (X : list op) : Prop := forall p q i ts d k, X = p ++ O_AddData i ts d k :: q -> In (O_Terminate i) q.
Lemma app_cons_app {A} (X Y p : list A) o q : X ++ Y = p ++ o :: q -> (exists m, X = p ++ o :: m /\ q = m ++ Y) \/ (exists m, p = X ++ m /\ Y = m ++ o :: q).
Proof.
  intros E. apply app_eq_app in E. destruct E as (m & [(E1 & E2)|(E1 & E2)]).
  - destruct m as [|x m]; [right; exists []; cbn [app] in *; rewrite app_nil_r in *; split; congruence|]. injection E2 as -> E2. left. exists m. auto.
  - right. exists m. auto.
Qed.
Lemma closed_app X Y : closed X -> closed Y -> closed (X ++ Y).
Proof.
  intros A B p q i ts d k E. apply app_cons_app in E. destruct E as [(m & E1 & E2)|(m & E1 & E2)].
  - rewrite E2. apply in_or_app. left. exact (A _ _ _ _ _ _ E1).
  - exact (B _ _ _ _ _ _ E2).
Qed.
Lemma ended_app X Y : chunks_ended X -> closed X -> chunks_ended Y -> chunks_ended (X ++ Y).
Proof.
  intros A C B pre mid post i ts d k ts' d' k' E F. apply app_cons_app in E. destruct E as [(m & E1 & E2)|(m & E1 & E2)].
  - symmetry in E2. apply app_cons_app in E2. destruct E2 as [(m' & E3 & E4)|(m' & E3 & E4)].
    + subst m. exact (A _ _ _ _ _ _ _ _ _ _ E1 F).
    + subst mid. apply in_or_app. left. exact (C _ _ _ _ _ _ E1).
  - exact (B _ _ _ _ _ _ _ _ _ _ E2 F).
Qed.
Definition adding (o : op) : Prop := match o with O_AddData _ _ _ _ => True | _ => False end.
Lemma none_closed X : Forall (fun o => ~ adding o) X -> closed X.
Proof. intros H p q i ts d k E. exfalso. rewrite Forall_forall in H. apply (H (O_AddData i ts d k)); [rewrite E; apply in_elt|exact I]. Qed.
Lemma one_ended i X : Forall (fun o => match o with O_AddData j _ _ _ => j = i | O_AddRaw _ => False | _ => True end) X -> chunks_ended X.
Proof.
  intros H pre mid post j ts d k ts' d' k' E F. exfalso. rewrite Forall_forall in H. apply Exists_exists in F. destruct F as (x & I & Fx).
  assert (j = i) as ->. { apply (H (O_AddData j ts d k)). rewrite E. apply in_elt. }
  assert (K : In x X). { rewrite E. apply in_or_app. right. right. apply in_or_app. left. exact I. }
  specialize (H x K). destruct x; cbn in *; try contradiction.
Qed.
Lemma none_ended X : Forall (fun o => ~ adding o) X -> chunks_ended X.
Proof. intros H pre mid post i ts d k ts' d' k' E F. exfalso. rewrite Forall_forall in H. apply (H (O_AddData i ts d k)); [rewrite E; apply in_elt|exact I]. Qed.
Lemma chunk_ended i n rs s : chunks_ended (add_chunk i n rs s).
Proof. apply (one_ended i). unfold add_chunk. apply Forall_app. split; [|repeat constructor]. apply Forall_forall. intros x I. apply in_map_iff in I. destruct I as (r & <- & _). reflexivity. Qed.
Lemma chunk_closed i n rs s : closed (add_chunk i n rs s).
Proof.
  intros p q j ts d k E. unfold add_chunk in E.
  assert (j = i) as ->. { assert (In (O_AddData j ts d k) (map (add_resource i) (firstn n (skipn (s * n) rs)) ++ [O_Terminate i])) as I by (rewrite E; apply in_elt). apply in_app_or in I. destruct I as [I|[I|[]]]; [|discriminate I]. apply in_map_iff in I. destruct I as (r & Er & _). injection Er as <- _ _ _. reflexivity. }
  apply app_cons_app in E. destruct E as [(m & _ & ->)|(m & _ & E2)]; [apply in_or_app; right; left; reflexivity|]. exfalso. destruct m as [|x [|? m]]; discriminate E2.
Qed.
Lemma interleave_chunks chunks na nv a v : chunks_ended (interleave chunks na nv a v) /\ closed (interleave chunks na nv a v).
Proof.
  unfold interleave. generalize (seq 0 chunks) as l. intros l. induction l as [|s l (IH1 & IH2)]; [split; [apply none_ended|apply none_closed]; constructor|]. cbn [flat_map].
  assert (A : chunks_ended (add_chunk 0 na a s ++ add_chunk 1 nv v s)) by (apply ended_app; [apply chunk_ended|apply chunk_closed|apply chunk_ended]).
  assert (C : closed (add_chunk 0 na a s ++ add_chunk 1 nv v s)) by (apply closed_app; apply chunk_closed).
  split; [apply ended_app; assumption|apply closed_app; assumption].
Qed.
Lemma chunk_sampling n i m rs s : (i < n)%nat -> Forall (sampling n) (add_chunk i m rs s).
Proof. intros L. unfold add_chunk. apply Forall_app. split; [|constructor; [exact L|constructor]]. apply Forall_forall. intros x I. apply in_map_iff in I. destruct I as (r & <- & _). exact L. Qed.
Lemma interleave_sampling chunks na nv a v : Forall (sampling 2) (interleave chunks na nv a v).
Proof. unfold interleave. generalize (seq 0 chunks) as l. intros l. induction l as [|s l IH]; [constructor|]. cbn [flat_map]. apply Forall_app. split; [|exact IH]. apply Forall_app. split; apply chunk_sampling; repeat constructor. Qed.
Lemma adds_app i x y : adds i (x ++ y) = adds i x ++ adds i y.
Proof. apply flat_map_app. Qed.
Lemma adds_resources i j rs : adds i (map (add_resource j) rs) = if Nat.eqb i j then rs else [].
Proof. induction rs as [|r rs IH]; [destruct (Nat.eqb i j); reflexivity|]. unfold adds in *. cbn [map flat_map]. rewrite IH. cbn [add_resource]. destruct (Nat.eqb i j); [|reflexivity]. destruct r. reflexivity. Qed.
Lemma adds_chunk i j n rs s : adds i (add_chunk j n rs s) = if Nat.eqb i j then firstn n (skipn (s * n) rs) else [].
Proof. unfold add_chunk. rewrite adds_app, adds_resources. cbn [adds flat_map]. apply app_nil_r. Qed.
Lemma firstn_more {A} a b (l : list A) : firstn (a + b) l = firstn a l ++ firstn b (skipn a l).
Proof. revert l. induction a as [|a IH]; intros l; [reflexivity|]. destruct l as [|x l]; [cbn [Nat.add firstn skipn app]; rewrite firstn_nil; reflexivity|]. cbn [Nat.add firstn skipn app]. rewrite IH. reflexivity. Qed.
Lemma chunks_all {A} n k (rs : list A) : flat_map (fun s => firstn n (skipn (s * n) rs)) (seq 0 k) = firstn (k * n) rs.
Proof. induction k as [|k IH]; [reflexivity|]. rewrite seq_S, flat_map_app, IH. cbn [flat_map Nat.add]. rewrite app_nil_r, <- firstn_more. f_equal. lia. Qed.
Lemma adds_interleave chunks na nv a v : adds 0 (interleave chunks na nv a v) = firstn (chunks * na) a /\ adds 1 (interleave chunks na nv a v) = firstn (chunks * nv) v.
Proof.
  rewrite <- !chunks_all. unfold interleave. generalize (seq 0 chunks) as l. intros l. induction l as [|s l (IH1 & IH2)]; [split; reflexivity|]. cbn [flat_map]. rewrite !adds_app, IH1, IH2, !adds_chunk. cbn [Nat.eqb app]. rewrite app_nil_r. split; reflexivity.
Qed.
Lemma chunk_length i n rs s : (length (add_chunk i n rs s) <= n + 1)%nat.
Proof. unfold add_chunk. rewrite app_length, map_length. pose proof (firstn_le_length n (skipn (s * n) rs)). cbn [length]. lia. Qed.
Lemma interleave_length chunks na nv a v : (length (interleave chunks na nv a v) <= chunks * (na + nv + 2))%nat.
Proof.
  unfold interleave. rewrite <- (seq_length chunks 0) at 2. generalize (seq 0 chunks) as l. intros l. induction l as [|s l IH]; [apply Nat.le_refl|]. cbn [flat_map length]. rewrite !app_length. pose proof (chunk_length 0 na a s). pose proof (chunk_length 1 nv v s). lia.
Qed.

(** * The sessions are recordings *)
Definition good (c : codec) (r : resource) : Prop :=
  Forall (fun d => bytes d /\ Zlen d < 2 ^ 32) (stored c (r_data r)) /\ Zlen (List.concat (stored c (r_data r))) <= 2 ^ 32 /\
  (forall before i x, codec_of before i = Some c -> call_ends before (add_resource i r) x -> x = Ok tt).
Definition constructing (o : op) : Prop := match o with O_NextTrackID => True | O_NewTrack _ _ _ _ _ id => id <> 0 | _ => False end.
Lemma constructing_history P : Forall constructing P -> forall b, history_from b P = [].
Proof. induction 1 as [|o l Ho H IH]; intros b; [reflexivity|]. cbn [history_from]. rewrite IH. destruct o; try contradiction; reflexivity. Qed.
Lemma constructing_sets f i P : Forall constructing P -> forall b, sets_from f i b P = [].
Proof. induction 1 as [|o l Ho H IH]; intros b; [reflexivity|]. cbn [sets_from]. rewrite IH. destruct o; try contradiction; reflexivity. Qed.
Lemma constructing_known P : Forall constructing P -> known_tracks P.
Proof. intros H pre o post i E A. exfalso. rewrite Forall_forall in H. specialize (H o ltac:(rewrite E; apply in_elt)). destruct o; contradiction. Qed.
Lemma constructing_calls P : Forall constructing P -> forallb media_op P = true.
Proof. intros H. apply forallb_forall. intros o I. rewrite Forall_forall in H. specialize (H o I). destruct o; try contradiction; reflexivity. Qed.
Lemma constructing_none P : Forall constructing P -> Forall (fun o => ~ adding o) P.
Proof. apply Forall_impl. intros o H. destruct o; try contradiction; intros X; exact X. Qed.
Lemma constructing_time i P v : Forall constructing P -> media_time_of i P v = v.
Proof. intros H. induction P as [|o l IH] using rev_ind; [reflexivity|]. apply Forall_app in H. destruct H as (H & Ho). rewrite mt_snoc, (IH H). inversion Ho. destruct o; try contradiction; reflexivity. Qed.

Lemma body_results n P l : Forall (sampling n) l -> (forall o, In o l -> match o with O_AddData i ts d k => exists c, codec_of P i = Some c /\ good c (mk_resource ts d k) | _ => True end) ->
  forall b rs, created b = created P -> calls_end b l rs -> Forall (fun r => r = Ok tt) rs.
Proof.
  induction 1 as [|o l Ho H IH]; intros G b rs Hc B; destruct rs as [|r rs]; try (destruct B; fail); [constructor|]. cbn [calls_end] in B. destruct B as (B1 & B2).
  assert (Hc' : created (b ++ [o]) = created P) by (rewrite (created_sampling n); [exact Hc|constructor; [exact Ho|constructor]]).
  constructor; [|exact (IH (fun x X => G x (or_intror X)) _ _ Hc' B2)]. specialize (G o (or_introl eq_refl)). destruct o; try contradiction; [|exact B1]. destruct G as (c & E & _ & _ & G). apply (G b i r); [|exact B1]. unfold codec_of in *. rewrite Hc. exact E.
Qed.

Section Recording.
Variables (P : list op) (n : nat) (body : list op).
Hypothesis (HP : Forall constructing P) (Hn : length (created P) = n) (HB : Forall (sampling n) body) (HC : chunks_ended body).
Hypothesis HG : forall i c, codec_of P i = Some c -> Forall (good c) (adds i body) /\ Zlen (flat_map (samples_from c) (adds i body)) < 2 ^ 32.
Let ops := P ++ body.
Let HH : history P = [] := constructing_history P HP [].

Lemma codec_known i : (i < n)%nat -> exists c, codec_of P i = Some c.
Proof.
  intros L. unfold codec_of. rewrite <- Hn in L. destruct (nth_error (created P) i) as [o|] eqn:E; [|apply nth_error_None in E; lia]. apply nth_error_In in E. unfold created in E. apply filter_In in E. destruct E as (_ & E). destruct o; try discriminate. eauto.
Qed.
Lemma rec_samples_fit : samples_fit ops.
Proof.
  intros i. destruct (Nat.ltb_spec i n) as [L|L].
  - destruct (codec_known i L) as (c & E). unfold ops. rewrite (samples_all P n body HH HB i c E). destruct (HG i c E) as (G & B). split; [exact B|].
    clear -G. induction G as [|r rs (G1 & _) G IH]; [constructor|]. cbn [flat_map]. apply Forall_app. split; [|exact IH]. unfold samples_from. clear -G1. induction G1 as [|d ds (_ & D) G1 IH]; [constructor|]. cbn [map]. constructor; [exact D|exact IH].
  - rewrite samples_unknown; [split; [reflexivity|constructor]|]. unfold ops. rewrite (created_all P n body HB), Hn. exact L.
Qed.
Lemma rec_ok : recording ops.
Proof.
  constructor; [exact (calls_all P n body HB (constructing_calls P HP))|exact (known_all P n body Hn HB (constructing_known P HP))| |exact rec_samples_fit].
  apply ended_app; [apply none_ended; apply constructing_none; exact HP|apply none_closed; apply constructing_none; exact HP|exact HC].
Qed.
Lemma adds_in i ts d k : In (O_AddData i ts d k) body -> In (mk_resource ts d k) (adds i body).
Proof. intros I. unfold adds. apply in_flat_map. exists (O_AddData i ts d k). split; [exact I|]. rewrite Nat.eqb_refl. left. reflexivity. Qed.
Lemma good_in i ts d k : In (O_AddData i ts d k) body -> exists c, codec_of P i = Some c /\ good c (mk_resource ts d k).
Proof.
  intros I. rewrite Forall_forall in HB. pose proof (HB _ I) as L. destruct (codec_known i L) as (c & E). exists c. split; [exact E|]. destruct (HG i c E) as (G & _). rewrite Forall_forall in G. apply G. apply adds_in. exact I.
Qed.
Lemma rec_bytes : bytes (media ops).
Proof.
  apply (bytes_all P n body HH HB). intros o I. destruct o; try (constructor; fail); [|rewrite Forall_forall in HB; destruct (HB _ I)]. destruct (good_in _ _ _ _ I) as (c & E & G & _). cbn [stores]. rewrite E. cbn [r_data] in G.
  clear -G. induction G as [|d ds (D & _) G IH]; [constructor|]. cbn [map]. constructor; [exact D|exact IH].
Qed.
Lemma rec_media : Zlen (media ops) <= 2 ^ 32 * Z.of_nat (length body).
Proof.
  apply (media_bound P n body HH Hn HB). intros o I. destruct o; try (cbn; lia); [|rewrite Forall_forall in HB; destruct (HB _ I)]. destruct (good_in _ _ _ _ I) as (c & E & _ & G & _). cbn [stores]. rewrite E. cbn [r_data] in G.
  replace (flat_map _ _) with (List.concat (stored c data)); [exact G|]. generalize (stored c data) as ds. intros ds. induction ds as [|d ds IH]; [reflexivity|]. cbn [map flat_map List.concat snd sm_data]. rewrite IH. reflexivity.
Qed.
Lemma calls_end_split a : forall b before rs, calls_end before (a ++ b) rs -> exists r1 r2, rs = r1 ++ r2 /\ calls_end before a r1 /\ calls_end (before ++ a) b r2.
Proof.
  induction a as [|o a IH]; intros b before rs H; cbn [app] in H; [exists [], rs; rewrite app_nil_r; repeat split; exact H|]. destruct rs as [|r rs]; [destruct H|]. cbn [calls_end] in H. destruct H as (H1 & H2). destruct (IH _ _ _ H2) as (r1 & r2 & -> & A & B).
  exists (r :: r1), r2. cbn [calls_end app]. rewrite <- app_assoc in B. auto.
Qed.
Lemma rec_results rs : calls_end [] ops rs -> Forall (fun r => r = Ok tt) rs.
Proof.
  intros H. unfold ops in H. apply calls_end_split in H. destruct H as (r1 & r2 & -> & A & B). apply Forall_app. split.
  - clear -A HP. revert r1 A. generalize (@nil op) as b. induction HP as [|o l Ho H IH]; intros b r1 A; destruct r1 as [|r r1]; try (destruct A; fail); [constructor|]. cbn [calls_end] in A. destruct A as (A1 & A2). constructor; [|exact (IH H _ _ A2)].
    destruct o; try contradiction; cbn [call_ends constructing] in *; [|exact A1]. rewrite (proj2 (Z.eqb_neq id 0) Ho) in A1. exact A1.
  - cbn [app] in B. assert (G : forall o, In o body -> match o with O_AddData i ts d k => exists c, codec_of P i = Some c /\ good c (mk_resource ts d k) | _ => True end) by (intros o I; destruct o; try exact Logic.I; exact (good_in _ _ _ _ I)).
    exact (body_results n P body HB G P r2 eq_refl B).
Qed.
Lemma rec_sets f i c : codec_of P i = Some c -> sets_from f i [] ops = flat_map (fun r => f (effects c (r_data r))) (adds i body).
Proof. intros E. unfold ops. rewrite sets_app, (constructing_sets f i P HP). exact (sets_sampling n f i c body HB P E). Qed.
Lemma rec_time i v : media_time_of i ops v = v.
Proof. unfold ops. rewrite (media_time_sampling n i body HB). apply constructing_time. exact HP. Qed.
End Recording.

(** * From the session to the file *)
Lemma time32 time : fits_u 32 time -> time_printable time.
Proof. intros [A B]. left. split; [exact A|]. eapply Z.lt_trans; [exact B|reflexivity]. Qed.
Lemma all_ok (x : list Z) rs : Forall (fun r : outcome unit => r = Ok tt) rs -> fold_right (fun r k => obind r (fun _ => k)) (Ok x) rs = Ok x.
Proof. induction 1 as [|r rs -> H IH]; [reflexivity|exact IH]. Qed.

Definition exact_file (cls : wclass) (duration time : Z) (ft : ftyp) (ops : list op) (sel : list nat) (file : list Z) : Prop :=
  match cls with
  | Simple => file = ExactSpec.simple_file 1000 duration time ft ops sel
  | Faststart => file = ExactSpec.faststart_file 1000 duration time ft ops sel (Zlen file - Zlen (media ops))
  end.
Lemma file_ok cmd time a v : let c := the_command cmd in let ops := muxer_ops c a v in let sel := muxer_tracks c in
  enough c a v = true -> box_wf 0 (B_ftyp (m_ftyp c)) -> recording ops -> chosen ops sel -> movie_fits (m_ftyp c) ops sel -> bytes (media ops) ->
  fits_u 32 (ticks 1000 (m_duration c)) -> fits_u 32 time -> Forall (track_fits ops) sel -> (forall rs, calls_end [] ops rs -> Forall (fun r => r = Ok tt) rs) ->
  exists file, muxer cmd time a v = Ok file /\ exact_file (m_class c) (ticks 1000 (m_duration c)) time (m_ftyp c) ops sel file /\ forall seekable, exists ns text infos traks, SimpleReader_read seekable file = Some (Ok (ns, text)) /\ read_movie (map tree_of ns) = Some (map Some infos) /\ Forall2 (describes file ops) sel infos /\
    map tree_of ns = map tree_as_read (match m_class c with Simple => simple_boxes | Faststart => faststart_boxes end 1000 (ticks 1000 (m_duration c)) time (m_ftyp c) ops traks) /\ Forall2 (configured time ops) sel traks.
Proof.
  cbv zeta. intros En Ft R C M B D T TF Res. set (c := the_command cmd) in *. set (ops := muxer_ops c a v) in *. set (sel := muxer_tracks c) in *. set (dur := ticks 1000 (m_duration c)) in *.
  exists (output (fst (run (start (m_class c) 1000 dur time (m_ftyp c)) (muxer_calls c a v)))).
  assert (E : muxer cmd time a v = let '(s, rs) := run (start (m_class c) 1000 dur time (m_ftyp c)) (muxer_calls c a v) in fold_right (fun r k => obind r (fun _ => k)) (Ok (output s)) rs).
  { unfold muxer. fold c. rewrite En. unfold start. destruct (m_class c); reflexivity. }
  rewrite E. unfold muxer_calls. fold ops sel. pose proof (ftyp_wf_typed _ Ft) as Fo.
  destruct (m_class c).
  - change (O_WriteFtyp :: ops ++ O_AppendTrakAndUdta sel :: [O_WriteFreeAndMdatHeader; O_WriteMoov]) with (simple_program ops sel).
    destruct (C62_simple 1000 dur time _ ops sel (time32 time T) Fo R C M) as (rs & Er & Hr).
    split.
    + destruct (run (start Simple 1000 dur time (m_ftyp c)) (simple_program ops sel)) as [s rs']. cbn [snd fst] in *. subst rs'. apply all_ok. apply Forall_app. split; [constructor; [reflexivity|constructor]|]. apply Forall_app. split; [exact (Res rs Hr)|]. repeat constructor.
    + split; [exact (ExactProofs.simple_exact 1000 dur time _ ops sel Ft R C M B ltac:(apply fits_u_check; reflexivity) D T TF)|].
      intros seekable. destruct (C47_simple_reads_back seekable 1000 dur time _ ops sel Ft R C M B ltac:(apply fits_u_check; reflexivity) D T TF) as (ns & text & traks & H1 & H4 & _ & _ & (infos & H2 & H3) & H5). cbv zeta in *. exists ns, text, infos, traks. auto 6.
  - change (O_WriteFtyp :: ops ++ O_AppendTrakAndUdta sel :: [O_WriteMoov; O_WriteMdatHeader; O_CopyMdatData]) with (faststart_program ops sel).
    destruct (C62_faststart 1000 dur time _ ops sel (time32 time T) Fo R C M) as (rs & Er & Hr).
    split.
    + destruct (run (start Faststart 1000 dur time (m_ftyp c)) (faststart_program ops sel)) as [s rs']. cbn [snd fst] in *. subst rs'. apply all_ok. apply Forall_app. split; [constructor; [reflexivity|constructor]|]. apply Forall_app. split; [exact (Res rs Hr)|]. repeat constructor.
    + split; [exact (proj1 (ExactProofs.faststart_exact 1000 dur time _ ops sel Ft R C M B ltac:(apply fits_u_check; reflexivity) D T TF))|].
      intros seekable. destruct (C47_faststart_reads_back seekable 1000 dur time _ ops sel Ft R C M B ltac:(apply fits_u_check; reflexivity) D T TF) as (ns & text & traks & H1 & H4 & _ & _ & (infos & H2 & H3) & H5). cbv zeta in *. exists ns, text, infos, traks. auto 6.
Qed.

Lemma video_kept k sps pps : is_video (expected_codec k sps pps) = is_video k.
Proof. destruct k; try reflexivity. cbn [expected_codec]. destruct sps as [|p l]; [reflexivity|]. destruct (_ >? _); reflexivity. Qed.
Section Track.
Variables (P : list op) (n : nat) (body : list op).
Hypothesis (HP : Forall constructing P) (Hn : length (created P) = n) (HB : Forall (sampling n) body).
Variables (i : nat) (k : codec) (ts d1 d2 id : Z).
Hypothesis Ei : nth_error (created P) i = Some (O_NewTrack k ts d1 d2 0 id).
Let ops := P ++ body.
Lemma track_codec : codec_of P i = Some k.
Proof. unfold codec_of. rewrite Ei. reflexivity. Qed.
Lemma track_created : nth_error (created ops) i = Some (O_NewTrack k ts d1 d2 0 id).
Proof. unfold ops. rewrite (created_all P n body HB). exact Ei. Qed.
Lemma track_samples : samples_of i ops = flat_map (samples_from k) (adds i body).
Proof. exact (samples_all P n body (constructing_history P HP []) HB i k track_codec). Qed.
Lemma describes_finds file info : describes file ops i info ->
  finds file (mk_expected id (match k with Opus _ _ => 48000 | _ => ts end) d1 (expected_codec k (flat_map (fun r => sps_in (effects k (r_data r))) (adds i body)) (flat_map (fun r => pps_in (effects k (r_data r))) (adds i body))) (flat_map (samples_from k) (adds i body))) info.
Proof.
  intros (c & ts' & d1' & d2' & mt & id' & E & A1 & A2 & A3 & A4 & A5 & A6). rewrite track_created in E. injection E as <- <- <- <- <- <-. rewrite track_samples in *. unfold finds. cbn [x_id x_timescale x_duration x_codec x_samples]. rewrite video_kept. auto 8.
Qed.
Lemma configured_announced time tr : configured time ops i tr ->
  announced (mk_expected id (match k with Opus _ _ => 48000 | _ => ts end) d1 (expected_codec k (flat_map (fun r => sps_in (effects k (r_data r))) (adds i body)) (flat_map (fun r => pps_in (effects k (r_data r))) (adds i body))) (flat_map (samples_from k) (adds i body))) tr.
Proof.
  intros (c & ts' & d1' & d2' & mt & id' & e & h & E & A1 & A2 & _). rewrite track_created in E. injection E as <- <- <- <- <- <-. exists e. split; [exact A1|]. cbn [x_id x_timescale x_codec].
  unfold sps_of, pps_of, ops in A2. rewrite !(rec_sets P n body HP HB _ i k track_codec) in A2. exact A2.
Qed.
Lemma track_fits_ok : fits_u 32 ts -> fits_u 32 d1 -> fits_u 32 d2 -> fits_u 32 id ->
  codec_fits (expected_codec k (flat_map (fun r => sps_in (effects k (r_data r))) (adds i body)) (flat_map (fun r => pps_in (effects k (r_data r))) (adds i body))) -> track_fits ops i.
Proof.
  intros A B C D E. exists k, ts, d1, d2, 0, id. split; [exact track_created|]. split; [exact A|]. split; [exact B|]. split; [exact C|]. split; [exact D|]. split; [unfold ops; rewrite (rec_time P n body HP HB); apply fits_s_check; reflexivity|].
  unfold sps_of, pps_of, ops. rewrite !(rec_sets P n body HP HB _ i k track_codec). exact E.
Qed.
Lemma track_octets m : Zlen (flat_map (samples_from k) (adds i body)) < 2 ^ 32 ->
  config_octets k (flat_map (fun r => sps_in (effects k (r_data r))) (adds i body)) (flat_map (fun r => pps_in (effects k (r_data r))) (adds i body)) <= m ->
  4096 + 36 * Zlen (samples_of i ops) + match codec_of ops i with Some c => config_octets c (sps_of i ops) (pps_of i ops) | None => 0 end <= 4096 + 36 * 2 ^ 32 + m.
Proof.
  intros A B. rewrite track_samples. unfold ops at 1. rewrite (codec_all P n body HB), track_codec. unfold sps_of, pps_of, ops. rewrite !(rec_sets P n body HP HB _ i k track_codec). apply Z.add_le_mono; [|exact B]. lia.
Qed.
End Track.

Definition config_ok (k : codec) (rs : list resource) : Prop :=
  let sps := flat_map (fun r => sps_in (effects k (r_data r))) rs in let pps := flat_map (fun r => pps_in (effects k (r_data r))) rs in
  codec_fits (expected_codec k sps pps) /\ config_octets k sps pps <= 2 ^ 32.
Definition track_ok (k : codec) (rs : list resource) : Prop := Forall (good k) rs /\ Zlen (flat_map (samples_from k) rs) < 2 ^ 32 /\ config_ok k rs.
Definition track_expected (k : codec) (ts d id : Z) (rs : list resource) : expected_track :=
  mk_expected id (match k with Opus _ _ => 48000 | _ => ts end) d (expected_codec k (flat_map (fun r => sps_in (effects k (r_data r))) rs) (flat_map (fun r => pps_in (effects k (r_data r))) rs)) (flat_map (samples_from k) rs).
(** What is stored for a resource; the media data of two tracks *)
Definition stored_octets (k : codec) (r : resource) : list Z := List.concat (stored k (r_data r)).
Definition two_media (c : command) (k : codec) (n : nat) (a v : list resource) : list Z :=
  flat_map (fun s => turn (stored_octets (m_audio c)) (m_audio_samples c) s a ++ turn (stored_octets k) n s v) (seq 0 (m_chunks c)).
Definition octets_of (h : list (option nat * sample)) : list Z := flat_map (fun x => sm_data (snd x)) h.
Lemma octets_stored P i k ts d key : codec_of P i = Some k -> octets_of (stores P (O_AddData i ts d key)) = stored_octets k (mk_resource ts d key).
Proof.
  intros E. cbn [stores]. rewrite E. unfold stored_octets, octets_of. cbn [r_data]. induction (stored k d) as [|x l IH]; [reflexivity|]. cbn [map flat_map List.concat snd sm_data]. rewrite IH. reflexivity.
Qed.
Lemma media_resources P i k rs : codec_of P i = Some k -> octets_of (flat_map (stores P) (map (add_resource i) rs)) = flat_map (stored_octets k) rs.
Proof.
  intros E. induction rs as [|[ts d key] rs IH]; [reflexivity|]. cbn [map flat_map]. unfold octets_of in *. rewrite flat_map_app. f_equal; [|exact IH]. exact (octets_stored P i k ts d key E).
Qed.
Lemma media_chunk P i k n rs s : codec_of P i = Some k -> octets_of (flat_map (stores P) (add_chunk i n rs s)) = turn (stored_octets k) n s rs.
Proof.
  intros E. unfold add_chunk. unfold octets_of. rewrite flat_map_app, flat_map_app. cbn [flat_map stores app]. rewrite app_nil_r. exact (media_resources P i k _ E).
Qed.
Lemma media_interleave P k0 k1 chunks na nv a v : codec_of P 0 = Some k0 -> codec_of P 1 = Some k1 ->
  octets_of (flat_map (stores P) (interleave chunks na nv a v)) = flat_map (fun s => turn (stored_octets k0) na s a ++ turn (stored_octets k1) nv s v) (seq 0 chunks).
Proof.
  intros E0 E1. unfold interleave. generalize (seq 0 chunks). intros l. induction l as [|s l IH]; [reflexivity|]. cbn [flat_map]. unfold octets_of in *. rewrite !flat_map_app. f_equal; [|exact IH]. f_equal; [exact (media_chunk P 0 k0 na a s E0)|exact (media_chunk P 1 k1 nv v s E1)].
Qed.
Definition reads_back (cmd : subcommand) (time : Z) (file : list Z) (xs : list expected_track) (m : list Z) : Prop :=
  forall seekable, exists ns text infos traks, SimpleReader_read seekable file = Some (Ok (ns, text)) /\ read_movie (map tree_of ns) = Some (map Some infos) /\ Forall2 (finds file) xs infos /\
    map tree_of ns = map tree_as_read (match m_class (the_command cmd) with
      | Simple => [ftyp_tree (m_ftyp (the_command cmd))] ++ free_trees m ++ [mdat_tree m; moov_tree 1000 (ticks 1000 (m_duration (the_command cmd))) time (1 + Zlen traks) traks]
      | Faststart => [ftyp_tree (m_ftyp (the_command cmd)); moov_tree 1000 (ticks 1000 (m_duration (the_command cmd))) time (1 + Zlen traks) traks; mdat_tree m] end) /\
    Forall2 announced xs traks.
Lemma ids_sampling n P body : Forall (sampling n) body -> ids_issued (P ++ body) = ids_issued P.
Proof. intros H. unfold ids_issued. rewrite filter_app. replace (filter _ body) with (@nil op); [rewrite app_nil_r; reflexivity|]. induction H as [|o l Ho H IH]; [reflexivity|]. cbn [filter]. destruct o; try contradiction; exact IH. Qed.

Lemma two_tracks cmd time a v k ts n : let c := the_command cmd in m_video c = Some (k, ts, n) -> enough c a v = true ->
  box_wf 0 (B_ftyp (m_ftyp c)) -> Zlen (ftyp_compatible_brands (m_ftyp c)) <= 8 -> (m_chunks c * (m_audio_samples c + n + 2) <= 2000)%nat ->
  fits_u 32 (ticks 1000 (m_duration c)) -> fits_u 32 (ticks (m_audio_timescale c) (m_duration c)) -> fits_u 32 (ticks ts (m_duration c)) -> fits_u 32 (m_audio_timescale c) -> fits_u 32 ts -> fits_u 32 time ->
  track_ok (m_audio c) (firstn (m_chunks c * m_audio_samples c) a) -> track_ok k (firstn (m_chunks c * n) v) ->
  exists file, muxer cmd time a v = Ok file /\ reads_back cmd time file
    [track_expected (m_audio c) (m_audio_timescale c) (ticks (m_audio_timescale c) (m_duration c)) 1 (firstn (m_chunks c * m_audio_samples c) a);
     track_expected k ts (ticks ts (m_duration c)) 2 (firstn (m_chunks c * n) v)] (two_media c k n a v) /\
    exact_file (m_class c) (ticks 1000 (m_duration c)) time (m_ftyp c) (muxer_ops c a v) (muxer_tracks c) file.
Proof.
  cbv zeta. set (c := the_command cmd). intros Ev En Ft Br Len D0 D1 D2 T1 T2 T (G1 & S1 & C1 & O1) (G2 & S2 & C2 & O2).
  set (P := new_track c (m_audio c) (m_audio_timescale c) 1 ++ new_track c k ts 2). set (body := interleave (m_chunks c) (m_audio_samples c) n a v).
  assert (Eo : muxer_ops c a v = P ++ body) by (unfold muxer_ops; rewrite Ev; unfold P; rewrite <- app_assoc; reflexivity).
  assert (Es : muxer_tracks c = [0%nat; 1%nat]) by (unfold muxer_tracks; rewrite Ev; reflexivity).
  pose proof (adds_interleave (m_chunks c) (m_audio_samples c) n a v) as (A0 & A1). fold body in A0, A1.
  assert (HP : Forall constructing P) by (unfold P, new_track; cbn [app]; repeat constructor; cbn [constructing]; lia).
  assert (Hn : length (created P) = 2%nat) by reflexivity.
  assert (HB : Forall (sampling 2) body) by apply interleave_sampling.
  assert (HC : chunks_ended body) by apply interleave_chunks.
  assert (E0 : nth_error (created P) 0 = Some (O_NewTrack (m_audio c) (m_audio_timescale c) (ticks (m_audio_timescale c) (m_duration c)) (ticks 1000 (m_duration c)) 0 1)) by reflexivity.
  assert (E1 : nth_error (created P) 1 = Some (O_NewTrack k ts (ticks ts (m_duration c)) (ticks 1000 (m_duration c)) 0 2)) by reflexivity.
  assert (HG : forall i x, codec_of P i = Some x -> Forall (good x) (adds i body) /\ Zlen (flat_map (samples_from x) (adds i body)) < 2 ^ 32).
  { intros i x E. destruct i as [|[|i]].
    - rewrite (track_codec P 0 _ _ _ _ _ E0) in E. injection E as <-. rewrite A0. auto.
    - rewrite (track_codec P 1 _ _ _ _ _ E1) in E. injection E as <-. rewrite A1. auto.
    - unfold codec_of in E. rewrite (proj2 (nth_error_None (created P) (S (S i)))) in E by (rewrite Hn; lia). discriminate. }
  rewrite <- A0 in S1, C1, O1. rewrite <- A1 in S2, C2, O2.
  destruct (file_ok cmd time a v) as (file & Ef & X & R); fold c; rewrite ?Eo, ?Es; auto.
  - exact (rec_ok P 2 body HP Hn HB HC HG).
  - split; [repeat constructor; cbn [In]; intuition discriminate|]. rewrite (created_all P 2 body HB), Hn. repeat constructor.
  - unfold movie_fits, moov_bound, total. cbn [fold_right].
    pose proof (track_octets P 2 body HP Hn HB 0 _ _ _ _ _ E0 (2 ^ 32) S1 O1) as B0. pose proof (track_octets P 2 body HP Hn HB 1 _ _ _ _ _ E1 (2 ^ 32) S2 O2) as B1.
    pose proof (rec_media P 2 body HP Hn HB HG) as B. pose proof (interleave_length (m_chunks c) (m_audio_samples c) n a v) as L. fold body in L.
    clear -B0 B1 B Br L Len. lia.
  - exact (rec_bytes P 2 body HP Hn HB HG).
  - constructor; [|constructor; [|constructor]].
    + apply (track_fits_ok P 2 body HP HB 0 _ _ _ _ _ E0); auto. apply fits_u_check; reflexivity.
    + apply (track_fits_ok P 2 body HP HB 1 _ _ _ _ _ E1); auto. apply fits_u_check; reflexivity.
  - exact (rec_results P 2 body HP Hn HB HG).
  - assert (Em : media (P ++ body) = two_media c k n a v).
    { unfold media. rewrite (history_all P 2 body (constructing_history P HP []) HB). exact (media_interleave P _ _ _ _ _ a v (track_codec P 0 _ _ _ _ _ E0) (track_codec P 1 _ _ _ _ _ E1)). }
    exists file. split; [exact Ef|]. fold c in X. rewrite Eo, Es in X. split; [|exact X]. intros seekable. destruct (R seekable) as (ns & text & infos & traks & R1 & R2 & R3 & R6 & R7). exists ns, text, infos, traks. split; [exact R1|]. split; [exact R2|].
    fold c in R3, R6, R7 |- *. rewrite Eo, Es in R3, R7. rewrite Eo in R6. rewrite <- Em. unfold track_expected. rewrite <- A0, <- A1. inversion R3 as [|? i0 ? l0 X0 R4]; subst. inversion R4 as [|? i1 ? l1 X1 R5]; subst. inversion R5; subst.
    inversion R7 as [|? t0 ? m0 Y0 R8]; subst. inversion R8 as [|? t1 ? m1 Y1 R9]; subst. inversion R9; subst. split; [|split; [destruct (m_class c); rewrite R6; unfold simple_boxes, faststart_boxes; rewrite (ids_sampling 2 P body HB); reflexivity|constructor; [exact (configured_announced P 2 body HP HB 0 _ _ _ _ _ E0 time t0 Y0)|constructor; [exact (configured_announced P 2 body HP HB 1 _ _ _ _ _ E1 time t1 Y1)|constructor]]]]. constructor; [|constructor; [|constructor]].
    + exact (describes_finds P 2 body HP HB 0 _ _ _ _ _ E0 file i0 X0).
    + exact (describes_finds P 2 body HP HB 1 _ _ _ _ _ E1 file i1 X1).
Qed.

Lemma one_track cmd time a v : let c := the_command cmd in m_video c = None -> m_chunks c = 1%nat -> enough c a v = true ->
  box_wf 0 (B_ftyp (m_ftyp c)) -> Zlen (ftyp_compatible_brands (m_ftyp c)) <= 8 -> (m_audio_samples c <= 2000)%nat ->
  fits_u 32 (ticks 1000 (m_duration c)) -> fits_u 32 (ticks (m_audio_timescale c) (m_duration c)) -> fits_u 32 (m_audio_timescale c) -> fits_u 32 time ->
  track_ok (m_audio c) (firstn (m_audio_samples c) a) ->
  exists file, muxer cmd time a v = Ok file /\ reads_back cmd time file
    [track_expected (m_audio c) (m_audio_timescale c) (ticks (m_audio_timescale c) (m_duration c)) 1 (firstn (m_audio_samples c) a)] (flat_map (stored_octets (m_audio c)) (firstn (m_audio_samples c) a)) /\
    exact_file (m_class c) (ticks 1000 (m_duration c)) time (m_ftyp c) (muxer_ops c a v) (muxer_tracks c) file.
Proof.
  cbv zeta. set (c := the_command cmd). intros Ev _ En Ft Br Len D0 D1 T1 T (G1 & S1 & C1 & O1).
  set (P := new_track c (m_audio c) (m_audio_timescale c) 1). set (body := map (add_resource 0) (firstn (m_audio_samples c) a)).
  assert (Eo : muxer_ops c a v = P ++ body) by (unfold muxer_ops; rewrite Ev; reflexivity).
  assert (Es : muxer_tracks c = [0%nat]) by (unfold muxer_tracks; rewrite Ev; reflexivity).
  assert (A0 : adds 0 body = firstn (m_audio_samples c) a) by (unfold body; rewrite adds_resources; reflexivity).
  assert (HP : Forall constructing P) by (unfold P, new_track; repeat constructor; cbn [constructing]; lia).
  assert (Hn : length (created P) = 1%nat) by reflexivity.
  assert (HB : Forall (sampling 1) body) by (apply Forall_forall; intros x I; apply in_map_iff in I; destruct I as (r & <- & _); repeat constructor).
  assert (HC : chunks_ended body) by (apply (one_ended 0); apply Forall_forall; intros x I; apply in_map_iff in I; destruct I as (r & <- & _); reflexivity).
  assert (E0 : nth_error (created P) 0 = Some (O_NewTrack (m_audio c) (m_audio_timescale c) (ticks (m_audio_timescale c) (m_duration c)) (ticks 1000 (m_duration c)) 0 1)) by reflexivity.
  assert (HG : forall i x, codec_of P i = Some x -> Forall (good x) (adds i body) /\ Zlen (flat_map (samples_from x) (adds i body)) < 2 ^ 32).
  { intros i x E. destruct i as [|i].
    - rewrite (track_codec P 0 _ _ _ _ _ E0) in E. injection E as <-. rewrite A0. auto.
    - unfold codec_of in E. rewrite (proj2 (nth_error_None (created P) (S i))) in E by (rewrite Hn; lia). discriminate. }
  rewrite <- A0 in S1, C1, O1.
  destruct (file_ok cmd time a v) as (file & Ef & X & R); fold c; rewrite ?Eo, ?Es; auto.
  - exact (rec_ok P 1 body HP Hn HB HC HG).
  - split; [repeat constructor; intros []|]. rewrite (created_all P 1 body HB), Hn. repeat constructor.
  - unfold movie_fits, moov_bound, total. cbn [fold_right].
    pose proof (track_octets P 1 body HP Hn HB 0 _ _ _ _ _ E0 (2 ^ 32) S1 O1) as B0.
    pose proof (rec_media P 1 body HP Hn HB HG) as B. assert (L : (length body <= m_audio_samples c)%nat) by (unfold body; rewrite map_length; apply firstn_le_length).
    clear -B0 B Br L Len. lia.
  - exact (rec_bytes P 1 body HP Hn HB HG).
  - constructor; [|constructor]. apply (track_fits_ok P 1 body HP HB 0 _ _ _ _ _ E0); auto. apply fits_u_check; reflexivity.
  - exact (rec_results P 1 body HP Hn HB HG).
  - assert (Em : media (P ++ body) = flat_map (stored_octets (m_audio c)) (firstn (m_audio_samples c) a)).
    { unfold media. rewrite (history_all P 1 body (constructing_history P HP []) HB). exact (media_resources P 0 _ _ (track_codec P 0 _ _ _ _ _ E0)). }
    exists file. split; [exact Ef|]. fold c in X. rewrite Eo, Es in X. split; [|exact X]. intros seekable. destruct (R seekable) as (ns & text & infos & traks & R1 & R2 & R3 & R6 & R7). exists ns, text, infos, traks. split; [exact R1|]. split; [exact R2|].
    fold c in R3, R6, R7 |- *. rewrite Eo, Es in R3, R7. rewrite Eo in R6. rewrite <- Em. unfold track_expected. rewrite <- A0. inversion R3 as [|? i0 ? l0 X0 R4]; subst. inversion R4; subst.
    inversion R7 as [|? t0 ? m0 Y0 R8]; subst. inversion R8; subst. split; [|split; [destruct (m_class c); rewrite R6; unfold simple_boxes, faststart_boxes; rewrite (ids_sampling 1 P body HB); reflexivity|constructor; [exact (configured_announced P 1 body HP HB 0 _ _ _ _ _ E0 time t0 Y0)|constructor]]]. constructor; [|constructor].
    exact (describes_finds P 1 body HP HB 0 _ _ _ _ _ E0 file i0 X0).
Qed.

(** * The resources *)
Definition not_h264 (k : codec) : bool := match k with H264 _ _ _ _ _ _ _ _ => false | _ => true end.
Lemma plain_stored k data : not_h264 k = true -> stored k data = [data] /\ sps_in (effects k data) = [] /\ pps_in (effects k data) = [].
Proof. destruct k; intros E; try discriminate E; auto. Qed.
Lemma plain_samples k rs : not_h264 k = true -> flat_map (samples_from k) rs = map as_sample rs.
Proof. intros E. induction rs as [|r rs IH]; [reflexivity|]. cbn [flat_map map]. rewrite IH. unfold samples_from. rewrite (proj1 (plain_stored k (r_data r) E)). reflexivity. Qed.
Lemma plain_ok k rs : not_h264 k = true -> codec_fits k -> config_octets k [] [] <= 2 ^ 32 -> (length rs <= 2000)%nat -> Forall resource_ok rs -> track_ok k rs.
Proof.
  intros E F O L H. assert (Z : forall g, g = sps_in \/ g = pps_in -> flat_map (fun r => g (effects k (r_data r))) rs = []).
  { intros g Hg. clear -E Hg. induction rs as [|r rs IH]; [reflexivity|]. cbn [flat_map]. rewrite IH. destruct (plain_stored k (r_data r) E) as (_ & A & B). destruct Hg as [->| ->]; rewrite ?A, ?B; reflexivity. }
  split; [|split; [|split]].
  - eapply Forall_impl; [|exact H]. intros r (A & B). unfold good. rewrite (proj1 (plain_stored k (r_data r) E)). split; [repeat constructor; assumption|]. split; [cbn [List.concat]; rewrite app_nil_r; lia|].
    intros before i x Ec Hx. unfold add_resource in Hx. cbn [call_ends] in Hx. rewrite Ec in Hx. destruct k; try discriminate E; exact Hx.
  - rewrite (plain_samples k rs E), Zlen_map. unfold Zlen. lia.
  - rewrite !Z by auto. destruct k; try discriminate E; exact F.
  - rewrite !Z by auto. exact O.
Qed.

Lemma units_of_type n units : units_of n n units = of_type n units.
Proof. unfold units_of, of_type. f_equal. apply filter_ext. intros u. destruct (Z.eqb_spec (nal_type (u_octets u)) n) as [->|N]; [rewrite Z.leb_refl; reflexivity|]. destruct (Z.leb_spec n (nal_type (u_octets u))), (Z.leb_spec (nal_type (u_octets u)) n); cbn [andb]; try reflexivity. lia. Qed.
Lemma unit_short u units : In u units -> Zlen (u_octets u) <= Zlen (annexb units).
Proof.
  induction units as [|x l IH]; intros I; [destruct I|]. unfold annexb in *. cbn [flat_map]. rewrite !Zlen_app. pose proof (Zlen_nonneg (start_code (u_four x))). pose proof (Zlen_nonneg (u_octets x)). pose proof (Zlen_nonneg (flat_map (fun u => start_code (u_four u) ++ u_octets u) l)).
  destruct I as [->|I]; [lia|]. specialize (IH I). lia.
Qed.
Lemma avc_len p : Zlen (avc_sample p) = 4 + Zlen p.
Proof. unfold avc_sample. rewrite Zlen_app. reflexivity. Qed.
Lemma slices_len units : Zlen (List.concat (map avc_sample (slices units))) <= 2 * Zlen (annexb units).
Proof.
  unfold slices. induction units as [|u l IH]; [apply Z.le_refl|]. unfold annexb in *. cbn [flat_map filter]. rewrite !Zlen_app. pose proof (Zlen_nonneg (u_octets u)).
  assert (3 <= Zlen (start_code (u_four u))) by (destruct (u_four u); cbn; lia). destruct (_ && _); cbn [map List.concat]; [rewrite Zlen_app, avc_len|]; lia.
Qed.
Section Pictures.
Variables (w h cv pr co lv : Z).
Let k := H264 w h cv pr co lv [] [].
Lemma picture_stores p : picture_ok p -> stored k (annexb (p_units p)) = map avc_sample (units_of 1 5 (p_units p)) /\
  sps_in (effects k (annexb (p_units p))) = units_of 7 7 (p_units p) /\ pps_in (effects k (annexb (p_units p))) = units_of 8 8 (p_units p).
Proof.
  intros (A & B & C). destruct (C35_samples_stored w h cv pr co lv [] [] (p_units p) A ltac:(lia) C) as (X & Y & Z). rewrite !units_of_type. auto.
Qed.
Lemma pictures_samples l : Forall picture_ok l -> flat_map (samples_from k) (map picture_resource l) = flat_map picture_samples l.
Proof.
  induction 1 as [|p l Hp H IH]; [reflexivity|]. cbn [map flat_map]. rewrite IH. f_equal. unfold samples_from, picture_resource. cbn [r_timestamp r_data r_key]. rewrite (proj1 (picture_stores p Hp)), map_map. reflexivity.
Qed.
Lemma pictures_sets l : Forall picture_ok l -> flat_map (fun r => sps_in (effects k (r_data r))) (map picture_resource l) = flat_map (fun p => units_of 7 7 (p_units p)) l /\
  flat_map (fun r => pps_in (effects k (r_data r))) (map picture_resource l) = flat_map (fun p => units_of 8 8 (p_units p)) l.
Proof.
  induction 1 as [|p l Hp H (IH1 & IH2)]; [split; reflexivity|]. cbn [map flat_map]. rewrite IH1, IH2. unfold picture_resource. cbn [r_data]. destruct (picture_stores p Hp) as (_ & -> & ->). auto.
Qed.
Lemma units_bytes a b p : picture_ok p -> Forall bytes (units_of a b (p_units p)).
Proof.
  intros (A & _). apply Forall_forall. intros x I. unfold units_of in I. apply in_map_iff in I. destruct I as (u & <- & I). apply filter_In in I. destruct I as (I & _). destruct A as (A & _). rewrite Forall_forall in A. exact (proj1 (A u I)).
Qed.
Lemma sets_bytes a b l : Forall picture_ok l -> Forall bytes (flat_map (fun p => units_of a b (p_units p)) l).
Proof. induction 1 as [|p l Hp H IH]; [constructor|]. cbn [flat_map]. apply Forall_app. split; [apply units_bytes; exact Hp|exact IH]. Qed.
Lemma nth_byte i p : bytes p -> fits_u 8 (nth i p 0).
Proof. intros H. destruct (Nat.ltb_spec i (length p)) as [L|L]; [unfold bytes in H; rewrite Forall_forall in H; exact (H _ (nth_In p 0 L))|rewrite nth_overflow by exact L; apply fits_u_check; reflexivity]. Qed.
Lemma total_bound m (l : list (list Z)) : Forall (fun s => Zlen s < 2 ^ 16) l -> Zlen l <= m -> total (fun p => 2 + Zlen p) l <= m * (2 + 2 ^ 16).
Proof.
  revert m. induction l as [|x l IH]; intros m H L; [change (total (fun p : list Z => 2 + Zlen p) []) with 0; pose proof (Zlen_nonneg (@nil (list Z))); lia|]. inversion H as [|? ? Hx Hl]; subst. unfold total. cbn [fold_right]. fold (total (fun p : list Z => 2 + Zlen p) l). unfold Zlen in L at 1. cbn [length] in L. specialize (IH (m - 1) Hl). unfold Zlen in IH at 1. specialize (IH ltac:(lia)). lia.
Qed.
Lemma pictures_ok l : fits_u 8 cv -> fits_u 8 pr -> fits_u 8 co -> fits_u 8 lv -> Forall picture_ok l -> pictures_fit l -> track_ok k (map picture_resource l).
Proof.
  intros F1 F2 F3 F4 H (S & N7 & N8 & L). destruct (pictures_sets l H) as (E7 & E8). split; [|split; [|split]].
  - apply Forall_forall. intros r I. apply in_map_iff in I. destruct I as (p & <- & I). rewrite Forall_forall in H. specialize (H p I). unfold good, picture_resource. cbn [r_data r_timestamp r_key]. rewrite (proj1 (picture_stores p H)). split; [|split].
    + apply Forall_forall. intros d Id. apply in_map_iff in Id. destruct Id as (x & <- & Ix). pose proof (units_bytes 1 5 p H) as B. rewrite Forall_forall in B. split; [apply Forall_app; split; [apply be_octets_bytes|exact (B x Ix)]|]. rewrite avc_len.
      unfold units_of in Ix. apply in_map_iff in Ix. destruct Ix as (u & <- & Iu). apply filter_In in Iu. pose proof (unit_short u (p_units p) (proj1 Iu)). destruct H as (_ & H & _). lia.
    + pose proof (slices_len (p_units p)) as X. change (units_of 1 5 (p_units p)) with (slices (p_units p)). destruct H as (_ & H & _). lia.
    + intros before i x Ec Hx. unfold add_resource in Hx. cbn [call_ends r_data r_timestamp r_key] in Hx. rewrite Ec in Hx. destruct H as (H1 & H2 & H3). destruct Hx as (_ & Hx). apply (Hx (p_units p) eq_refl H1); [lia|exact H3].
  - rewrite (pictures_samples l H). exact S.
  - cbv zeta. rewrite E7, E8. pose proof (sets_bytes 7 7 l H) as B7. pose proof (sets_bytes 8 8 l H) as B8. set (sps := flat_map (fun p => units_of 7 7 (p_units p)) l) in *. set (pps := flat_map (fun p => units_of 8 8 (p_units p)) l) in *.
    assert (X : Forall (fun p => bytes p /\ Zlen p < 2 ^ 16) (sps ++ pps)).
    { apply Forall_forall. intros x I. rewrite Forall_forall in L. split; [|exact (L x I)]. rewrite Forall_forall in B7, B8. apply in_app_or in I. destruct I; auto. }
    unfold k. cbn [expected_codec]. destruct sps as [|p sps']; [cbn [codec_fits]; auto 8|]. pose proof (Forall_inv B7) as Bp. destruct (Zlen p >? 4); cbn [codec_fits]; (split; [exact F1|]); (split; [try exact F2; apply (nth_byte _ p Bp)|]); (split; [try exact F3; apply (nth_byte _ p Bp)|]); (split; [try exact F4; apply (nth_byte _ p Bp)|]); auto.
  - cbv zeta. rewrite E7, E8. unfold k. cbn [config_octets]. apply Forall_app in L. destruct L as (L7 & L8). pose proof (total_bound 31 _ L7 ltac:(lia)). pose proof (total_bound 255 _ L8 ltac:(lia)). lia.
Qed.
End Pictures.

(** * The media data *)
Lemma turn_ext {A} (f g : A -> list Z) n s l : (forall x, In x l -> f x = g x) -> turn f n s l = turn g n s l.
Proof.
  intros H. unfold turn. assert (K : forall l', incl l' l -> flat_map f l' = flat_map g l').
  { induction l' as [|x l' IH]; intros I; [reflexivity|]. cbn [flat_map]. rewrite (H x (I x (or_introl eq_refl))), IH; [reflexivity|]. intros y Y. apply I. right. exact Y. }
  apply K. intros x I. assert (I' : In x (skipn (s * n) l)) by (rewrite <- (firstn_skipn n (skipn (s * n) l)); apply in_or_app; left; exact I).
  rewrite <- (firstn_skipn (s * n) l). apply in_or_app. right. exact I'.
Qed.
Lemma plain_octets k r : not_h264 k = true -> stored_octets k r = r_data r.
Proof. intros E. unfold stored_octets. rewrite (proj1 (plain_stored k (r_data r) E)). cbn [List.concat]. apply app_nil_r. Qed.
Lemma plain_flat k rs : not_h264 k = true -> flat_map (stored_octets k) rs = flat_map r_data rs.
Proof. intros E. induction rs as [|r rs IH]; [reflexivity|]. cbn [flat_map]. rewrite IH, (plain_octets k r E). reflexivity. Qed.
Lemma plain_media c k n a v : not_h264 (m_audio c) = true -> not_h264 k = true -> two_media c k n a v = in_turns (m_chunks c) (m_audio_samples c) n a r_data v.
Proof. intros E0 E1. unfold two_media, in_turns. apply flat_map_ext. intros s. unfold turn. rewrite (plain_flat _ _ E0), (plain_flat _ _ E1). reflexivity. Qed.
Lemma pictures_media c w h cv pr co lv n a l : not_h264 (m_audio c) = true -> Forall picture_ok l ->
  two_media c (H264 w h cv pr co lv [] []) n a (map picture_resource l) = in_turns (m_chunks c) (m_audio_samples c) n a picture_octets l.
Proof.
  intros E0 L. unfold two_media, in_turns. apply flat_map_ext. intros s. f_equal; [unfold turn; apply (plain_flat _ _ E0)|].
  rewrite <- (turn_ext (fun p => stored_octets (H264 w h cv pr co lv [] []) (picture_resource p)) picture_octets n s l).
  - unfold turn. rewrite skipn_map, firstn_map. generalize (firstn n (skipn (s * n) l)). intros x. induction x as [|p x IH]; [reflexivity|]. cbn [map flat_map]. rewrite IH. reflexivity.
  - intros p I. rewrite Forall_forall in L. unfold stored_octets, picture_resource. cbn [r_data]. rewrite (proj1 (picture_stores w h cv pr co lv p (L p I))). unfold picture_octets. rewrite flat_map_concat_map. reflexivity.
Qed.
