(** What is left after an interruption (C57). *)
From Coq Require Import ZifyBool.
From Verif Require Import Base BitIO BitFacts BitIOProofs Boxes WireFormat Box BoxSpec BoxSize Print PrintSpec PrintProofs BoxTree TreeSpec TreeProofs TreeLayout TreePrint H264 Track Writers MovieSpec AnnexBSpec H264Proofs TrackProofs TrakProofs SessionProofs MovieShape Completion MovieSize FileProofs SimpleFile FaststartFile Device FailureSpec DeviceProofs Interrupt.
From Coq Require Import String List.
Import ListNotations.
Open Scope Z_scope.
Open Scope list_scope.

Lemma refuses_survives e : nothing_refused e -> survives e.
Proof. intros H. split; intros t p; apply H. Qed.
Lemma at_zero a b : octets_at (a ++ b) (0, Zlen a) = a.
Proof. unfold octets_at. cbn [fst snd Z.to_nat skipn]. unfold Zlen. rewrite Nat2Z.id, firstn_app, Nat.sub_diag, firstn_all, firstn_O, app_nil_r. reflexivity. Qed.
Lemma at_middle a b c pos : Zlen a = pos -> octets_at (a ++ b ++ c) (pos, Zlen b) = b.
Proof.
  intros <-. unfold octets_at. cbn [fst snd]. unfold Zlen. rewrite !Nat2Z.id, skipn_app, Nat.sub_diag, skipn_all. cbn [skipn app]. rewrite firstn_app, Nat.sub_diag, firstn_all, firstn_O, app_nil_r. reflexivity.
Qed.
Lemma at_none l pos : octets_at l (pos, Zlen (@nil Z)) = []. Proof. reflexivity. Qed.
Lemma firstn_middle {A} (a : list A) o b n : n = length a -> firstn n (a ++ o :: b) = a /\ firstn (S n) (a ++ o :: b) = a ++ [o].
Proof.
  intros ->. split; [rewrite firstn_app, Nat.sub_diag, firstn_all, firstn_O, app_nil_r; reflexivity|].
  induction a as [|x a IH]; [reflexivity|]. cbn [length app]. change (x :: firstn (S (length a)) (a ++ o :: b) = x :: a ++ [o]). f_equal. exact IH.
Qed.
Lemma prefix_refl l : prefix_of l l. Proof. exists []. rewrite app_nil_r. reflexivity. Qed.

Lemma simple_interrupted timescale duration time ft ops sel e t st t' s rs :
  ftyp_ok ft -> recording ops -> chosen ops sel -> movie_fits ft ops sel -> time_printable time -> survives e ->
  run_dev e t (start Simple timescale duration time ft) (simple_program ops sel) = (st, t', s, rs) ->
  (st = Running /\ (s, rs) = run (start Simple timescale duration time ft) (simple_program ops sel)) \/
  (st = Dead /\ (rs = [] -> prefix_of (output s) (ftyp_octets ft)) /\
   (rs <> [] -> exists p, prefix_of (media (firstn (length rs - 1) ops)) p /\ prefix_of p (media (firstn (length rs) ops)) /\
      octets_at (output s) (0, Zlen (ftyp_octets ft)) = ftyp_octets ft /\ octets_at (output s) (Zlen (ftyp_octets ft) + 16, Zlen p) = p)).
Proof.
  intros Fok Rec Sel Bnd Tp Su E. destruct (simple_killed timescale duration time ft ops sel Fok Rec Sel Bnd e t st t' s rs Su E) as [A|(Es & K)]; [left; exact A|right]. split; [exact Es|]. clear E Es.
  assert (L16 : forall k pad, (k < 16)%nat -> pad = repeat 0 16 -> length (firstn k (free_header (media ops) ++ frame_header (str "mdat") (Zlen (media ops))) ++ skipn k pad) = 16%nat).
  { intros k pad Hk ->. rewrite app_length, firstn_length, skipn_length, repeat_length. assert (L : length (free_header (media ops) ++ frame_header (str "mdat") (Zlen (media ops))) = 16%nat) by (apply Nat2Z.inj; exact (free_mdat_length (media ops))). rewrite L. lia. }
  set (hdr := free_header (media ops) ++ frame_header (str "mdat") (Zlen (media ops))) in *. assert (Lh : Zlen hdr = 16) by exact (free_mdat_length (media ops)).
  set (fb := ftyp_octets ft) in *. inversion K as [k D L O|a o b q pad Eo D Pq O P|k pad D L O P|n D L f N O]; clear K.
  - apply length_zero_iff_nil in D. subst rs. split; [|congruence]. intros _. exists (skipn k fb). rewrite O, firstn_skipn. reflexivity.
  - split; [intros ->; cbn in D; lia|]. intros _. rewrite D. destruct (firstn_middle a o b (length a) eq_refl) as (F1 & F2). rewrite Eo in *. replace (S (length a) - 1)%nat with (length a) by lia. rewrite F1, F2, media_snoc.
    exists (media a ++ q). split; [exists q; reflexivity|]. split; [destruct Pq as (r & ->); exists r; rewrite app_assoc; reflexivity|]. rewrite O. fold fb. split; [apply at_zero|].
    destruct P as [->|(-> & ->)]; [|reflexivity]. set (z := repeat 0 16). replace (fb ++ z ++ media a ++ q) with ((fb ++ z) ++ (media a ++ q) ++ []) by (rewrite app_nil_r, <- !app_assoc; reflexivity). apply at_middle. rewrite Zlen_app. reflexivity.
  - split; [intros ->; cbn in D; lia|]. intros _. exists (media ops). rewrite D, !firstn_all2 by lia. split; [apply prefix_refl|]. split; [apply prefix_refl|]. rewrite O. fold fb. split; [apply at_zero|].
    destruct P as [P|(_ & ->)]; [|reflexivity]. pose proof (L16 k pad L P) as Lm. fold hdr. replace (fb ++ firstn k hdr ++ skipn k pad ++ media ops) with ((fb ++ firstn k hdr ++ skipn k pad) ++ media ops ++ []) by (rewrite app_nil_r, <- !app_assoc; reflexivity).
    apply at_middle. rewrite Zlen_app. unfold Zlen in *. lia.
  - split; [intros ->; cbn in D; lia|]. intros _. exists (media ops). rewrite D, !firstn_all2 by lia. split; [apply prefix_refl|]. split; [apply prefix_refl|].
    destruct (simple_session timescale duration time ft ops sel Tp Fok Rec Sel Bnd) as (_ & _ & traks & H & _). cbv zeta in H. unfold f in *. unfold output in O at 2. rewrite H in O. fold fb in O.
    set (post := serialize_with written _) in O. clearbody post.
    fold hdr in O. fold fb in L. clear L16 N. clearbody hdr fb.
    assert (O2 : output s = fb ++ hdr ++ media ops ++ firstn (n - length (fb ++ hdr ++ media ops)) post).
    { rewrite O. rewrite <- app_assoc. rewrite app_assoc, (app_assoc (fb ++ hdr)). rewrite firstn_app, firstn_all2 by (rewrite !app_length; unfold Zlen in *; lia). rewrite <- !app_assoc. reflexivity. }
    rewrite O2. split; [apply at_zero|]. rewrite app_assoc. apply at_middle. rewrite Zlen_app. lia.
Qed.

(** where the intermediate file stands *)
Lemma faststart_interrupted timescale duration time ft ops sel e t st t' s rs :
  ftyp_ok ft -> recording ops -> chosen ops sel -> movie_fits ft ops sel -> time_printable time -> survives e ->
  run_dev e t (start Faststart timescale duration time ft) (faststart_program ops sel) = (st, t', s, rs) ->
  let whole := run (start Faststart timescale duration time ft) (faststart_program ops sel) in
  (st = Running /\ (s, rs) = whole) \/
  (st = Dead /\ (exists n, (n < length (output (fst whole)))%nat /\ output s = firstn n (output (fst whole))) /\
   (rs <> [] -> mw_tmp_open (s_writer s) = true /\ prefix_of (media (firstn (length rs - 1) ops)) (os_data (mw_tmp (s_writer s))) /\ prefix_of (os_data (mw_tmp (s_writer s))) (media (firstn (length rs) ops)))).
Proof.
  intros Fok Rec Sel Bnd Tp Su E. cbv zeta. destruct (faststart_killed timescale duration time ft ops sel Fok Rec Sel Bnd Tp e t st t' s rs Su E) as [A|(Es & K1 & K2)]; [left; exact A|right]. split; [exact Es|]. split; [exact K1|].
  intros N. destruct (K2 N) as (T & a & q & o & b & Et & C). split; [exact T|]. rewrite Et. cbn [os_data]. destruct C as [(-> & -> & L)|(pre & Eo & L & -> & r & Er)].
  - rewrite app_nil_r, !firstn_all2 by lia. split; apply prefix_refl.
  - rewrite L. destruct (firstn_middle pre o b (length pre) eq_refl) as (F1 & F2). rewrite Eo. replace (S (length pre) - 1)%nat with (length pre) by lia. rewrite F1, F2, media_snoc, Er. split; [exists q; reflexivity|exists r; rewrite app_assoc; reflexivity].
Qed.
