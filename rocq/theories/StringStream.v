(** Model of sessions whose output is not a file: streams that do not allow every seekp.  No proofs in this file. *)
From Verif Require Import Base Box BoxTree Writers Device.
From Coq Require Import List.
Import ListNotations.
Open Scope Z_scope.
Open Scope list_scope.

(** [allowed p n]: seekp(p) succeeds when n octets are stored.  A std::ofstream allows every seekp; a std::stringstream sets
    failbit when p is beyond the end; on a stream that can only append, seekp can at most "move" to where it is.  Every seekp is
    followed by a test of good() that raises std::runtime_error (box_header.cpp:77-80, simple_writer.cpp:50-54, 58-62,
    faststart_writer.cpp:77-81, 116-120).  Every octet written is stored. *)
Definition seeks := Z -> Z -> bool.
Definition on_stringstream : seeks := fun p n => p <=? n.
Definition append_only : seeks := fun p n => p =? n.

Section Str.
Variable allowed : seeks.
Fixpoint exec_str (l : list cmd) (o : ostream) : status * ostream :=
  match l with
  | [] => (Running, o)
  | Seek p :: l' => if allowed p (Zlen (os_data o)) then exec_str l' (os_seekp p o) else (Raised, o)
  | Write bs :: l' | Put bs :: l' => exec_str l' (os_write bs o)
  end.
(** One call, as [step]; addData and addMdatData do not seek. *)
Definition str_step (s : session) (o : op) : status * session * outcome unit :=
  let w := s_writer s in
  match o with
  | O_AddData _ _ _ _ | O_AddRaw _ => let '(s', r) := step s o in (Running, s', r)
  | _ =>
      match step s o with
      | (s', Ok _) =>
          match exec_str (call_cmds o w) (mw_os w) with
          | (Running, os) => (Running, mk_session (set_os os (s_writer s')) (s_tracks s'), Ok tt)
          | (st, os) => (st, mk_session (set_os os w) (s_tracks s), Ok tt)
          end
      | (s', r) => (Running, s', r)
      end
  end.
Fixpoint run_str (s : session) (ops : list op) : status * session * list (outcome unit) :=
  match ops with
  | [] => (Running, s, [])
  | o :: l =>
      match str_step s o with
      | (Running, s1, r) => let '(st, s2, rs) := run_str s1 l in (st, s2, r :: rs)
      | (st, s1, _) => (st, s1, [])
      end
  end.
End Str.
