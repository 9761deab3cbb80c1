(** The fields of every box have positive denominators, and the line of a box. *)
From Coq Require Import ZifyBool.
From Verif Require Import Base BitIO BitFacts BitIOProofs Boxes Box Print PrintInj BoxTree TextSpec TextProofs.
From Coq Require Import Ascii String List.
Import ListNotations.
Open Scope string_scope.
Open Scope Z_scope.
Open Scope list_scope.

Lemma list_sound {A} (f : A -> TextSpec.value) l : (forall a, sound (f a)) -> sound (list_of f l).
Proof. intros H. unfold list_of. cbn [sound]. induction l as [|x l IH]; cbn [map]; [exact I|]. split; [apply H|exact IH]. Qed.
Lemma hex_list_sound l : sound (hex_list l).
Proof. apply list_sound. intros a. exact I. Qed.
Lemma items_sound {A} sep (f : A -> TextSpec.value) l : (forall a, sound (f a)) -> sound (Items sep (map f l)).
Proof. intros H. cbn [sound]. induction l as [|x l IH]; cbn [map]; [exact I|]. split; [apply H|exact IH]. Qed.
Lemma entries_sound :
  (forall e, sound (ctts_value e)) /\ (forall e, sound (elst_value e)) /\ (forall e, sound (brand_value e)) /\ (forall e, sound (sbgp_value e)) /\
  (forall e, sound (sdtp_value e)) /\ (forall e, sound (roll_value e)) /\ (forall e, sound (opt_value e)) /\ (forall e, sound (alst_value e)) /\
  (forall e, sound (rap_value e)) /\ (forall e, sound (tele_value e)) /\ (forall e, sound (sidx_value e)) /\ (forall e, sound (stsc_value e)) /\
  (forall e, sound (stts_value e)) /\ (forall e, sound (tfra_value e)) /\ (forall fb e, sound (trun_value fb e)) /\ (forall e, sound (nal_value e)) /\
  (forall e, sound (descriptor_value e)) /\ (forall k, sound (Quoted (Octets k))) /\ (forall n, sound (Dec n)).
Proof.
  assert (O : forall e, sound (opt_value e)) by (intros e; cbn; repeat split).
  repeat match goal with |- _ /\ _ => split end; try (intros e; cbn; repeat split; fail); try exact O.
  - intros e. unfold roll_value. destruct (rd_with_length e); cbn; repeat split.
  - intros e. unfold alst_value, optional. destruct (alste_with_length e); cbn -[list_of]; repeat split; apply list_sound; try exact O; intros a; exact I.
  - intros e. unfold rap_value, optional. destruct (vra_with_length e); cbn; repeat split.
  - intros e. unfold tele_value, optional. destruct (tele_with_length e); cbn; repeat split.
  - intros fb e. unfold trun_value, optional. destruct (has_flag fb 8), (has_flag fb 9), (has_flag fb 10), (has_flag fb 11); cbn; repeat split.
  - intros e. unfold nal_value. cbn -[hex_list]. repeat split. apply hex_list_sound.
  - intros [f s l|f s l|l|l]; cbn [descriptor_value].
    + unfold optional. destruct (es_stream_dependence_flag f), (es_url_flag f), (es_ocr_stream_flag f); cbn; repeat split.
    + cbn; repeat split.
    + cbn -[hex_list]; repeat split. apply hex_list_sound.
    + cbn -[hex_list]; repeat split. apply hex_list_sound.
Qed.
Lemma box_sound b : Forall (fun f => sound (snd f)) (fields_of b).
Proof.
  pose proof entries_sound as E. repeat match type of E with _ /\ _ => let H := fresh "S" in destruct E as [H E] end.
  destruct b as [|x|x|x|x|x|x|x|x|x|x|x|x|x|x|x|x|x|x|x|x|x|x|x|x|x|x|x|x|x|x|x|x|x|x|x|x|x|x|x|x|x|x|x|x|x|x|x|x|x|x|x];
    cbn [fields_of]; cbv zeta; unfold full, optional, group.
  all: repeat match goal with
    | |- Forall _ [] => apply Forall_nil
    | |- Forall _ (_ :: _) => apply Forall_cons
    | |- Forall _ (_ ++ _) => apply Forall_app; split
    | |- Forall _ (if ?c then _ else _) => destruct c
    | |- sound (snd (_, if ?c then _ else _)) => destruct c
    | |- sound (snd (_, hex_list _)) => apply hex_list_sound
    | |- sound (snd (_, list_of _ _)) => apply list_sound; auto
    | |- sound (snd (_, Items _ (map _ _))) => apply items_sound; auto
    | |- sound (snd (_, Quotient _ _ _)) => cbn [sound snd]; lia
    | |- sound (snd _) => exact I
    end.
Qed.
Lemma tail_text (l : list field) : match rendered l with [] => [] | _ => 32 :: rendered l end = flat_map (fun y => lit " " ++ y) (map (fun f => lit (fst f) ++ lit "=" ++ render (snd f)) l).
Proof.
  unfold rendered. destruct l as [|f l]; [reflexivity|]. cbn [map]. rewrite join_cons. cbn [flat_map].
  destruct ((lit (fst f) ++ lit "=" ++ render (snd f)) ++ flat_map (fun y => lit " " ++ y) (map (fun f0 => lit (fst f0) ++ lit "=" ++ render (snd f0)) l)) as [|c r] eqn:X.
  - exfalso. destruct (lit (fst f)); discriminate X.
  - rewrite <- app_assoc. rewrite X. reflexivity.
Qed.
(** The line of a box: its type, and its place and size like two more fields in front of its own *)
Lemma line_text h b s : Box_toString (Some h) b = Ok s ->
  exists t, text_of (("Offset", Dec (h_offset h)) :: ("Size", Dec (h_size h)) :: fields_of b) t /\
    s = characters "[" ++ BoxType_toString (h_type h) ++ characters "] " ++ t.
Proof.
  intros E. unfold Box_toString in E. destruct (Box_toStringOnlyData b) as [o|?|] eqn:D; [|discriminate E|discriminate E]. cbn [obind] in E. injection E as <-.
  apply box_text in D. subst o. exists (rendered (("Offset", Dec (h_offset h)) :: ("Size", Dec (h_size h)) :: fields_of b)). split.
  - apply rendered_text. constructor; [exact I|]. constructor; [exact I|]. apply box_sound.
  - rewrite tail_text. unfold BoxHeader_toString, rendered. cbn [map]. rewrite join_cons. cbn [flat_map fst snd render]. change characters with lit. rewrite <- !app_assoc. literals. rewrite <- ?app_assoc. cbn [app]. reflexivity.
Qed.
