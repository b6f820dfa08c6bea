(* Printing to a stream that reports failures by exceptions: the program has called
   exceptions(badbit), with or without failbit, or exceptions(failbit).  Ostream.v has
   the same for streams that do not throw. *)
From Coq Require Import NArith List Bool.
From Verif Require Import Base FrameHeader Frames Ostream.
Import ListNotations.
Open Scope N_scope.

(* One insertion or manipulator, as in data_frame.cpp:57-100; the third part tells
   whether std::ios_base::failure was thrown.  An insertion that does not fit
   throws; one into a stream that has failed before throws as well (the sentry sets
   failbit while badbit is in the mask).  Manipulators do not touch the error
   state.  Simplification: the width after an exception depends on the
   implementation; here it is 0, and no statement is made about it. *)
Definition exec_throw (d : ostream) (o : op) : bytes * ostream * bool :=
  match o with
  | Insert _ | Number _ =>
      if o_good d then
        let (x, s) := exec (o_fmt d) o in
        if size x <=? o_room d then (x, Ostream s true (o_room d - size x), false)
        else (firstn (N.to_nat (o_room d)) x, Ostream s false 0, true)
      else ([], d, true)
  | _ => ([], Ostream (snd (exec (o_fmt d) o)) (o_good d) (o_room d), false)
  end.
(* a sequence of them: nothing follows an exception (as in
   data_frame.cpp:57-100) *)
Fixpoint run_throw (d : ostream) (ops : list op) : bytes * ostream * bool :=
  match ops with
  | [] => ([], d, false)
  | o :: ops' =>
      let '(x, d1, thrown) := exec_throw d o in
      if thrown then (x, d1, true)
      else let '(y, d2, t) := run_throw d1 ops' in (x ++ y, d2, t)
  end.

(* out_stream << frame, mh2c/http2_client.cpp:201-204; no dump() has a handler *)
Definition print_throw (m : ub_mode) (d : ostream) (f : frame) : res (bytes * ostream * bool) :=
  let* ops := dump_ops m f in Ok (run_throw d ops).

(* Frames printed one after the other until an exception ends it, as in
   sample_h2_get.cpp:30-46; the number of frames that were printed. *)
Fixpoint print_all (m : ub_mode) (d : ostream) (fs : list frame) : res (bytes * nat * ostream * bool) :=
  match fs with
  | [] => Ok ([], 0%nat, d, false)
  | f :: fs' =>
      let* r := print_throw m d f in
      let '(x, d1, t) := r in
      if t then Ok (x, 0%nat, d1, true)
      else
        let* q := print_all m d1 fs' in
        let '(y, n, d2, t2) := q in
        Ok (x ++ y, S n, d2, t2)
  end.

(* exceptions(failbit): a device that fails sets badbit, which is not in the
   mask; the next insertion finds the stream failed, its sentry sets failbit
   and throws (no line of /repo: the standard library, as in
   data_frame.cpp:57-100) *)
Definition exec_failbit (d : ostream) (o : op) : bytes * ostream * bool :=
  let (x, d1) := exec_on d o in
  (x, d1, negb (o_good d) && match o with Insert _ | Number _ => true | _ => false end).
(* a sequence of them: nothing follows an exception (as in
   data_frame.cpp:57-100) *)
Fixpoint run_failbit (d : ostream) (ops : list op) : bytes * ostream * bool :=
  match ops with
  | [] => ([], d, false)
  | o :: ops' =>
      let '(x, d1, thrown) := exec_failbit d o in
      if thrown then (x, d1, true)
      else let '(y, d2, t) := run_failbit d1 ops' in (x ++ y, d2, t)
  end.

(* out_stream << frame, mh2c/http2_client.cpp:201-204 *)
Definition print_failbit (m : ub_mode) (d : ostream) (f : frame) : res (bytes * ostream * bool) :=
  let* ops := dump_ops m f in Ok (run_failbit d ops).
