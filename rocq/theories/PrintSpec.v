(** Which boxes can be printed (and therefore written, since writing a box prints it to the trace log).  Only the times of
    'mvhd', 'tkhd' and 'mdhd' matter. *)
From Verif Require Import Base Boxes Box.

(** A number of seconds since 1904, unsigned 64-bit.  As seconds since 1970 it is a signed 64-bit number; those below the
    first second of the year 1900 - 2^31, the earliest year of struct tm, have no date. *)
Definition year_min_second : Z := -67768040609740800.
Definition time_printable (t : Z) : Prop :=
  0 <= t < 2 ^ 63 + 2082844800 \/ 2 ^ 64 + year_min_second + 2082844800 <= t < 2 ^ 64.
Definition box_printable (b : box) : Prop :=
  match b with
  | B_mvhd x => time_printable (mvhd_creation_time x) /\ time_printable (mvhd_modification_time x)
  | B_tkhd x => time_printable (tkhd_creation_time x) /\ time_printable (tkhd_modification_time x)
  | B_mdhd x => time_printable (mdhd_creation_time x) /\ time_printable (mdhd_modification_time x)
  | _ => True
  end.

(** The times are unsigned 64-bit members. *)
Definition box_times (b : box) : Prop :=
  match b with
  | B_mvhd x => 0 <= mvhd_creation_time x < 2 ^ 64 /\ 0 <= mvhd_modification_time x < 2 ^ 64
  | B_tkhd x => 0 <= tkhd_creation_time x < 2 ^ 64 /\ 0 <= tkhd_modification_time x < 2 ^ 64
  | B_mdhd x => 0 <= mdhd_creation_time x < 2 ^ 64 /\ 0 <= mdhd_modification_time x < 2 ^ 64
  | _ => True
  end.

(** The members of a box that its text leaves out, for the classes whose text determines the others.  No value for
    'data' (unknown types print nothing), 'elst', 'smhd', 'mvhd', 'tkhd' (rounded numbers), 'mdhd' (times above 2^32),
    'emsg', 'urn ' (strings next to each other may contain the quote that ends them), 'esds', 'sgpd' and the sample
    entries. *)
Definition hidden (b : box) : option (list (list Z)) :=
  match b with
  | B_colr x => Some [[colr_reserved x]]
  | B_hdlr x => Some [hdlr_manufacturer x; hdlr_flags x; hdlr_flags_mask x]
  | B_sidx x => Some [[sidx_reserved x]]
  | B_tfra x => Some [[tfra_reserved x]]
  | B_av1C x => Some [[av1c_reserved x]; [av1c_initial_presentation_delay_minus_one x]]
  | B_avcC x => Some [[avcc_reserved x]; [avcc_reserved2 x]; [avcc_reserved3 x]; [avcc_reserved4 x]; [avcc_reserved5 x]]
  | B_data _ | B_elst _ | B_smhd _ | B_mvhd _ | B_tkhd _ | B_mdhd _ | B_emsg _ | B_urn _ | B_esds _ | B_sgpd _ | B_visual _ | B_audio _ => None
  | _ => Some []
  end.
