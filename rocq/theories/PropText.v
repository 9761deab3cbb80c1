(** Properties of the text of boxes: C84. *)
From Verif Require Import Base BitIO BitFacts Boxes Box Print TreeSpec TreeProofs TreeLayout TreeRead BoxTree TextSpec TextProofs TextSound TextUnique DumpSpec DumpProofs ReaderPrint PropTree.
From Coq Require Import Ascii String List.
Import ListNotations.
Open Scope string_scope.
Open Scope Z_scope.
Open Scope list_scope.

(** C84.  The text of a box shows its fields: each under its name and in its order ([fields_of], TextSpec.v, one line per
    class), separated by spaces, and each value in its notation ([printed]): decimal and hexadecimal numbers without
    leading zeros, rounded quotients, dates, quoted strings, lists in brackets and entries in braces.  Fields the box does
    not have, because of its version, its flags or its type, are not shown. *)
Theorem C84_text : forall b t, Box_toStringOnlyData b = Ok t -> text_of (fields_of b) t.
Proof. intros b t E. apply box_text in E. subst t. apply rendered_text, box_sound. Qed.
(** Nothing else does: the fields of a box have one text, when its octets are octets and its times have dates. *)
Theorem C84_exactly : forall b, Forall (fun f => definite (snd f)) (fields_of b) ->
  forall t, Box_toStringOnlyData b = Ok t <-> text_of (fields_of b) t.
Proof.
  intros b D t. split; [apply C84_text|]. intros T. destruct (text_total b D) as (u & E). rewrite E. f_equal. apply (text_one _ D); [|exact T]. apply C84_text, E.
Qed.
(** With its header: the type in brackets, then offset and size as the first two fields. *)
Theorem C84_line : forall h b s, Box_toString (Some h) b = Ok s ->
  exists t, text_of (("Offset", Dec (h_offset h)) :: ("Size", Dec (h_size h)) :: fields_of b) t /\
    s = characters "[" ++ BoxType_toString (h_type h) ++ characters "] " ++ t.
Proof. exact line_text. Qed.
(** What the reader prints: such a line for every box of the file, in the order of the file. *)
Theorem C84_dump : forall file data ns text, bytes data -> Zlen data < 2 ^ 63 -> SimpleReader_read file data = Some (Ok (ns, text)) ->
  exists lines, text = flat_map (fun l => l ++ [10]) lines /\
    Forall2 (fun dn line => exists h t, n_header (snd dn) = Some h /\
      text_of (("Offset", Dec (h_offset h)) :: ("Size", Dec (h_size h)) :: fields_of (n_box (snd dn))) t /\
      line = repeat 32 (2 * fst dn) ++ characters "[" ++ BoxType_toString (h_type h) ++ characters "] " ++ t) (flat_map (preorder 0) ns) lines.
Proof.
  intros file data ns text B L E. destruct (dump_lines file data ns text B L E) as (lines & F & T). exists lines. split; [exact T|].
  clear E T. induction F as [|dn line dns lines (h & m & H & M & ->) _ IH]; constructor; [|exact IH].
  destruct (line_text h (n_box (snd dn)) (BoxHeader_toString h ++ match m with [] => [] | _ => 32 :: m end)) as (t & P & Q).
  { unfold Box_toString. rewrite M. reflexivity. }
  exists h, t. split; [exact H|]. split; [exact P|]. rewrite <- Q. unfold BoxHeader_toString. rewrite <- !app_assoc. reflexivity.
Qed.
(** The notations say which number it is. *)
Theorem C84_numbers : forall v w t, printed v t -> printed w t -> (exists n, v = Dec n) \/ (exists n, v = Hex n) -> (exists n, w = Dec n) \/ (exists n, w = Hex n) -> v = w.
Proof.
  assert (S : forall n l, numeral 10 l \/ numeral 16 l -> (n <? 0) = match sign n ++ l with c :: _ => c =? 45 | [] => false end).
  { intros n l N. unfold sign. destruct (n <? 0); [reflexivity|]. cbn [app]. destruct N as [(A & B & _)|(A & B & _)]; (destruct l as [|c r]; [reflexivity|]);
      apply Forall_cons_iff in B as [[B _] _]; symmetry; apply Z.eqb_neq; lia. }
  assert (X : forall l l', numeral 10 l -> numeral 16 l' -> l = characters "0x" ++ l' -> False).
  { intros l l' (_ & A & _) _ ->. apply Forall_cons_iff in A as [_ A]. apply Forall_cons_iff in A as [[A _] _]. change (Z.of_nat (nat_of_ascii "x")) with 120 in A. lia. }
  assert (S16 : forall n l, (n <? 0) = match sign n ++ characters "0x" ++ l with c :: _ => c =? 45 | [] => false end).
  { intros n l. unfold sign. destruct (n <? 0); reflexivity. }
  assert (G : forall n m : Z, (n <? 0) = (m <? 0) -> Z.abs n = Z.abs m -> n = m) by (intros n m A B; destruct (Z.ltb_spec n 0), (Z.ltb_spec m 0); try discriminate A; lia).
  assert (D : forall n t, printed (Dec n) t -> exists l, numeral 10 l /\ number_of 10 l = Z.abs n /\ t = sign n ++ l) by (intros n t P; inversion P; eauto).
  assert (H : forall n t, printed (Hex n) t -> exists l, numeral 16 l /\ number_of 16 l = Z.abs n /\ t = sign n ++ characters "0x" ++ l) by (intros n t P; inversion P; eauto).
  intros v w t P Q [(n & ->)|(n & ->)] [(m & ->)|(m & ->)]; (apply D in P || apply H in P); (apply D in Q || apply H in Q); destruct P as (l & N & V & ->), Q as (l' & N' & V' & E').
  - assert (Y : (n <? 0) = (m <? 0)) by (rewrite (S n l), (S m l'), E' by auto; reflexivity). f_equal. apply G; [exact Y|]. unfold sign in E'. rewrite Y in E'. apply app_inv_head in E'. congruence.
  - exfalso. assert (Y : (n <? 0) = (m <? 0)) by (rewrite (S n l), (S16 m l'), E' by auto; reflexivity). unfold sign in E'. rewrite Y in E'. apply app_inv_head in E'. eapply X; [exact N|exact N'|exact E'].
  - exfalso. assert (Y : (n <? 0) = (m <? 0)) by (rewrite (S16 n l), (S m l'), E' by auto; reflexivity). unfold sign in E'. rewrite Y in E'. apply app_inv_head in E'. eapply X; [exact N'|exact N|symmetry; exact E'].
  - assert (Y : (n <? 0) = (m <? 0)) by (rewrite (S16 n l), (S16 m l'), E'; reflexivity). f_equal. apply G; [exact Y|]. unfold sign in E'. rewrite Y in E'. apply app_inv_head in E'. apply app_inv_head in E'. congruence.
Qed.
(** A box with optional fields, negative numbers, rounding (a tie) and entries. *)
Example C84_case :
  let run := B_trun (mk_trun (mk_fullbox 1 0 9 1) (-8) 0 [mk_trun_entry 10 0 0 (-3); mk_trun_entry 12 0 0 4]) in
  (exists t, Box_toStringOnlyData run = Ok t /\ t = characters "Version=1 Flags=0x000901 SampleCount=2 DataOffset=-8 Entries=[{SampleDuration=10 SampleCompositionTimeOffset=-3}, {SampleDuration=12 SampleCompositionTimeOffset=4}]") /\
  Forall (fun f => definite (snd f)) (fields_of run) /\
  map fst (fields_of run) = ["Version"; "Flags"; "SampleCount"; "DataOffset"; "Entries"] /\
  Box_toStringOnlyData (B_smhd (mk_smhd fullbox0 (-224) 0)) = Ok (characters "Version=0 Flags=0x000000 Balance=-0.88") /\
  ~ printed (Quotient (-224) 256 2) (characters "-0.87") /\
  (exists ns text, SimpleReader_read true (serialize sample_tree) = Some (Ok (ns, text)) /\ bytes (serialize sample_tree) /\ ns <> []).
Proof.
  cbv zeta. split; [eexists; split; [reflexivity|]; vm_compute; reflexivity|]. split.
  { apply Forall_cons; [exact I|]. apply Forall_cons; [cbn [definite snd]; repeat (apply Forall_cons; [unfold is_byte; cbn; lia|]); apply Forall_nil|].
    apply Forall_cons; [exact I|]. apply Forall_cons; [exact I|]. apply Forall_cons; [cbn; repeat split|apply Forall_nil]. }
  split; [reflexivity|]. split; [vm_compute; reflexivity|]. split.
  - intros P. assert (G : forall n d places t, printed (Quotient n d places) t -> exists whole part, numeral 10 whole /\ length part = places /\
        (let q := number_of 10 (whole ++ part) in let e := 2 * Z.abs (q * d - Z.abs n * 10 ^ Z.of_nat places) in e < d \/ (e = d /\ Z.even q = true)) /\
        sign n ++ whole ++ characters "." ++ part = t) by (clear; intros n d places t P; inversion P; eauto 10).
    apply G in P as Q. clear G P. change (sign (-224)) with (characters "-") in Q.
    destruct Q as (whole & part & A & _ & D & E). apply (app_inv_head (characters "-") _ (characters "0.87")) in E.
    destruct whole as [|w0 [|w1 r]]; [discriminate E| |].
    + injection E as -> ->. vm_compute in D. destruct D as [D|[_ D]]; discriminate D.
    + injection E as -> -> E. destruct A as (_ & A & _). apply Forall_cons_iff in A as [_ A]. apply Forall_cons_iff in A as [[A _] _]. lia.
  - do 2 eexists. split; [vm_compute; reflexivity|]. split; [|discriminate]. apply Forall_forall. intros x I. vm_compute in I. unfold is_byte. repeat (destruct I as [<-|I]; [lia|]). destruct I.
Qed.
Print Assumptions C84_text.
Print Assumptions C84_exactly.
Print Assumptions C84_line.
Print Assumptions C84_dump.
Print Assumptions C84_numbers.
