(** Specification of durations given in seconds, and where a player finds them (C54, C55). *)
From Verif Require Import Base Boxes Box BoxTree TreeSpec Track Writers MovieSpec Print Float.
From Flocq Require Import IEEE754.BinarySingleNaN.
From Coq Require Import Reals Ascii String List.
Import ListNotations.
Open Scope Z_scope.
Open Scope list_scope.

(** The real number of seconds a float stands for. *)
Definition seconds (d : f32) : R := B2R d.

(** [ticks] of [timescale] ticks per second announce [s] seconds: up to a relative error of 2^-22, and less than one tick is
    lost to truncation. *)
Definition announces (ticks timescale : Z) (s : R) : Prop :=
  (IZR timescale * s * (1 - / IZR (2 ^ 22)) - 1 < IZR ticks <= IZR timescale * s * (1 + / IZR (2 ^ 22)))%R.

(** A track constructed with a duration of [d], for a writer with [mvhd_timescale]: the model's constructor call carries the
    products instead of [d]. *)
Definition lasting (mvhd_timescale : Z) (d : f32) (o : op) : Prop :=
  match o with
  | O_NewTrack c timescale duration_ts duration_mvhd _ _ =>
      duration_in (match c with Opus _ _ => 48000 | _ => timescale end) d = Ok duration_ts /\ duration_in mvhd_timescale d = Ok duration_mvhd
  | _ => False
  end.

(** The movie header of a file. *)
Definition movie_header (boxes : list tree) : option mvhd :=
  match the_kid t_moov boxes with
  | Some moov => match the_kid (str "mvhd") (tree_kids moov) with Some (T _ (B_mvhd b) _) => Some b | _ => None end
  | None => None
  end.
(** The trak boxes of a file. *)
Definition trak_boxes (boxes : list tree) : list tree :=
  match the_kid t_moov boxes with Some moov => kids_of_type t_trak (tree_kids moov) | None => [] end.

(** The headers of a file announce the duration of the movie, and of each track in both timescales. *)
Definition movie_announces (timescale : Z) (s : R) (boxes : list tree) : Prop :=
  exists h, movie_header boxes = Some h /\ mvhd_timescale h = timescale /\ announces (mvhd_duration h) (mvhd_timescale h) s.
Definition track_announces (timescale : Z) (s : R) (trak : tree) : Prop :=
  exists tk el md hd, trak_headers trak = Some (tk, el, md, hd) /\
    announces (mdhd_duration md) (mdhd_timescale md) s /\ announces (tkhd_duration tk) timescale s /\
    exists e, elst_entries el = [e] /\ elste_track_duration e = tkhd_duration tk.

(** * Printed numbers *)
Definition decimal_value (digits : list Z) : Z := fold_left (fun v c => 10 * v + (c - 48)) digits 0.
(** [text] is a decimal number with [places] decimals, the closest to [x] (up to half a unit of the last place). *)
Definition shows_decimal (places : nat) (x : R) (text : list Z) : Prop :=
  exists (negative : bool) whole fraction,
    text = (if negative then str "-" else []) ++ whole ++ str "." ++ fraction /\ whole <> [] /\ List.length fraction = places /\ Forall (fun c => 48 <= c < 58) (whole ++ fraction) /\
    (Rabs (x - (if negative then -1 else 1) * IZR (decimal_value (whole ++ fraction)) / IZR (10 ^ Z.of_nat places)) <= / 2 * / IZR (10 ^ Z.of_nat places))%R.
(** The text of a box has a field of that [name] which shows [x]. *)
Definition text_shows (b : box) (name : string) (places : nat) (x : R) : Prop :=
  forall t, Box_toStringOnlyData b = Ok t -> exists before text after, t = before ++ str " " ++ str name ++ str "=" ++ text ++ after /\ shows_decimal places x text.
