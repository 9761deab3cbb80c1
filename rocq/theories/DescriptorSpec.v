(** Independent description of nested descriptors (ISO/IEC 14496-1, 7.2.2.2 and 8.3.3): a descriptor is a tag octet, the
    number of octets of its body, its own fields and then its sub-descriptors.  Models no code of /repo. *)
From Verif Require Import Base BitIO Boxes WireFormat.

Definition sub_descriptors (d : descriptor) : list descriptor := match d with DES _ _ l => l | DCD _ _ l => l | _ => [] end.
(** Tag and own fields, taken from the layout of the descriptor (the length field, second, is left out). *)
Definition descriptor_tag (d : descriptor) : Z := match d with DES _ _ _ => 3 | DCD _ _ _ => 4 | DSI _ => 5 | DSL _ => 6 end.
Definition descriptor_own (d : descriptor) : list field := tl (tl (descriptor_layout 0 d)).
(** The encoding proper: every length counts everything inside. *)
Fixpoint nested_bits (d : descriptor) : list bool :=
  let body := enc (descriptor_own d) ++
    match d with
    | DES _ _ l => flat_map nested_bits l
    | DCD _ _ l => flat_map nested_bits l
    | _ => []
    end in
  enc [FU 8 (descriptor_tag d); FV (Zlen body / 8)] ++ body.
(** A descriptor followed by everything nested in it, in order. *)
Fixpoint flatten (d : descriptor) : list descriptor :=
  d :: match d with DES _ _ l => flat_map flatten l | DCD _ _ l => flat_map flatten l | _ => [] end.
(** Descriptors as built by the constructors and addSubDescriptor (no explicit size) in which a DecoderConfigDescriptor
    contains only descriptors without sub-descriptors. *)
Fixpoint plain (d : descriptor) : Prop :=
  match d with
  | DES _ s l => s = 0 /\ fold_right (fun x P => plain x /\ P) True l
  | DCD _ s l => s = 0 /\ fold_right (fun x P => (plain x /\ sub_descriptors x = []) /\ P) True l
  | _ => True
  end.
(** What a reader returns for a descriptor: its own members and the number of octets nested in it. *)
Definition as_read (d : descriptor) : descriptor :=
  match d with
  | DES f _ l => DES f (Zlen (flat_map nested_bits l) / 8) []
  | DCD f _ l => DCD f (Zlen (flat_map nested_bits l) / 8) []
  | _ => d
  end.
