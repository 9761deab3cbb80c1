(** Specification for C80: jumping to a moment of a track, as a player does it with the sample tables (ISO/IEC 14496-12 8.6.1.2
    and 8.6.2), and the moments of a recording.  Nothing in this file models code of /repo. *)
From Verif Require Import Base Boxes Box BoxTree TreeSpec Track Writers MovieSpec.
From Coq Require Import List Sorted.
Import ListNotations.
Open Scope Z_scope.
Open Scope list_scope.

(** * What a player computes *)

(** The sample shown [t] ticks after the beginning of the track: the samples last as long as the time-to-sample table says. *)
Fixpoint playing (durations : list Z) (t : Z) : option nat :=
  match durations with
  | [] => None
  | d :: l => if t <? d then Some 0%nat else option_map S (playing l (t - d))
  end.
(** The sample at which decoding has to start in order to show sample [k] (numbers in tables count from 1): the last one not
    after it that the sync sample table lists; without such a table every sample can be decoded by itself. *)
Definition restart (sync : option (list Z)) (k : nat) : option nat :=
  match sync with
  | None => Some k
  | Some l => fold_left (fun r n => if n <=? Z.of_nat k + 1 then Some (Z.to_nat (n - 1)) else r) l None
  end.

(** * What has been recorded *)

(** The timestamps given do not decrease, and the track ends after the last one, less than 2^32 ticks after the first. *)
Definition in_order (l : list sample) (track_duration : Z) : Prop :=
  StronglySorted Z.le (map sm_ts l ++ [track_duration]) /\ match l with s :: _ => track_duration - sm_ts s < 2 ^ 32 | [] => True end.
(** Sample [k] is the last one recorded at [t] or before. *)
Definition latest (l : list sample) (t : Z) (k : nat) : Prop :=
  exists s, nth_error l k = Some s /\ sm_ts s <= t /\ forall k' s', (k < k')%nat -> nth_error l k' = Some s' -> t < sm_ts s'.
(** Sample [j] is the last key frame up to sample [k]. *)
Definition latest_key (l : list sample) (k j : nat) : Prop :=
  (j <= k)%nat /\ (exists s, nth_error l j = Some s /\ sm_key s = true) /\
  forall j' s', (j < j')%nat -> (j' <= k)%nat -> nth_error l j' = Some s' -> sm_key s' = false.

(** A player that knows [info] of the track [i] finds every moment of the recording: the sample that was recorded last before it,
    its octets in the file, and, for a video track, the last key frame up to it, if there is one; the sample for which decoding
    starts is in the file as well.  Before the first and after the end there is nothing to show. *)
Definition finds_moments (file : list Z) (ops : list op) (i : nat) (info : track_info) : Prop :=
  exists c timescale duration duration_mvhd media_time id,
    nth_error (created ops) i = Some (O_NewTrack c timescale duration duration_mvhd media_time id) /\
    let samples := samples_of i ops in
    in_order samples duration ->
    forall first rest, samples = first :: rest ->
    (forall t, duration <= t -> playing (i_durations info) (t - sm_ts first) = None) /\
    forall t, sm_ts first <= t < duration ->
      exists k, playing (i_durations info) (t - sm_ts first) = Some k /\ latest samples t k /\
        option_map (octets_at file) (nth_error (i_locations info) k) = option_map sm_data (nth_error samples k) /\
        if is_video c then
          match restart (i_sync info) k with
          | Some j => latest_key samples k j /\ option_map (octets_at file) (nth_error (i_locations info) j) = option_map sm_data (nth_error samples j)
          | None => forall j s, (j <= k)%nat -> nth_error samples j = Some s -> sm_key s = false
          end
        else restart (i_sync info) k = Some k.
