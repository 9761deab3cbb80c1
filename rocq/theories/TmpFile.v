(** Model of the intermediate file of FaststartWriter as the C library and the operating system give it to the program: reads that return
    fewer octets than asked for or fail, and the calls that open, rewind, close and remove the file.  No proofs in this file. *)
From Verif Require Import Base BitIO Boxes Box BoxTree H264 Track Writers.
From Coq Require Import List.
Import ListNotations.
Open Scope Z_scope.
Open Scope list_scope.

(** What read(2) does when it is asked for octets: it gives at most [S n] of them (none if there are no more: end of file), or it fails
    (EIO, ...). *)
Inductive read_event := Got (n : nat) | Failed.
(** Why std::fread returns: all octets asked for were read; end of file, the end-of-file indicator is set; a read failed, the error indicator is
    set (the end-of-file indicator is not).  [Unknown]: it needs more reads than [evs] tells about. *)
Inductive fread_end := Full | At_end | Error | Unknown.
(** std::fread(buffer, 1, want, m_mdat_fd) with [rest] still to be read: octets read, what is left, later reads.  (The buffer of the FILE is
    not modelled: it asks read(2) for other sizes, which [evs] covers.) *)
Fixpoint fread (want : Z) (rest : list Z) (evs : list read_event) : list Z * list Z * list read_event * fread_end :=
  if want <=? 0 then ([], rest, evs, Full)
  else
    match evs with
    | [] => ([], rest, [], Unknown)
    | Failed :: evs => ([], rest, evs, Error)
    | Got n :: evs =>
        match rest with
        | [] => ([], [], evs, At_end)
        | _ =>
            let chunk := firstn (Z.to_nat want) (firstn (S n) rest) in
            let '(got, rest', evs', e) := fread (want - Zlen chunk) (skipn (length chunk) rest) evs in
            (chunk ++ got, rest', evs', e)
        end
    end.
(** The loop of copyMdatData, faststart_writer.cpp:151-158: [while (!feof)], fread, std::copy_n of what it gave; std::ferror is not asked.
    (The output takes everything: Device.v models an output that does not.)  [false]: [evs] does not say how it goes on. *)
Fixpoint copying (fuel : nat) (size : Z) (rest : list Z) (evs : list read_event) (o : ostream) : ostream * bool :=
  match fuel with
  | O => (o, false)
  | S f =>
      match fread size rest evs with
      | (_, _, _, Unknown) => (o, false)
      | (got, _, _, At_end) => (os_write got o, true)
      | (got, rest', evs', _) => copying f size rest' evs' (os_write got o)
      end
  end.
(** Whether fseek, fclose and std::filesystem::remove succeed. *)
Record file_calls := mk_calls { seek_ok : bool; close_ok : bool; remove_ok : bool }.
(** copyMdatData, faststart_writer.cpp:146-166: the writer, whether the intermediate file still exists, and the outcome, if [evs] tells it.
    After fclose, successful or not, m_mdat_fd cannot be used any more. *)
Definition copyMdatData_file (x : file_calls) (evs : list read_event) (w : mwriter) : mwriter * bool * option (outcome unit) :=
  if negb (mw_tmp_open w) then (w, true, Some UB)
  else if negb (seek_ok x) then (w, true, Some (Throw RuntimeError))
  else
    match copying (S (length evs)) COPY_MDAT_DATA_BUFFER_SIZE (os_data (mw_tmp w)) evs (mw_os w) with
    | (o, false) => (set_os o w, true, None)
    | (o, true) =>
        let w' := set_tmp (mw_tmp w) false (set_os o w) in
        if negb (close_ok x) then (w', true, Some (Throw RuntimeError))
        else if negb (remove_ok x) then (w', true, Some (Throw RuntimeError))
        else (w', false, Some (Ok tt))
    end.

(** What the constructor leaves behind, faststart_writer.cpp:25-48: a file, an open descriptor, strings of strdup that are not freed. *)
Record place := mk_place { p_file : bool; p_descriptor : bool; p_strings : nat }.
Definition FaststartWriter_opens (mkstemp_ok fdopen_ok : bool) : place * outcome unit :=
  if negb mkstemp_ok then (mk_place false false 1, Throw RuntimeError)     (* std::free is not reached *)
  else if negb fdopen_ok then (mk_place true true 0, Throw RuntimeError)   (* the object does not exist: nobody closes or removes *)
  else (mk_place true true 0, Ok tt).
