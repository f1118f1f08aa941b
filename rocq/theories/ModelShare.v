(* ModelShare.v - several Readers on one std::istream
   Source: cpp/include/copc-lib/io/copc_reader.hpp:26 (the Reader constructor that takes a stream), cpp/include/copc-lib/io/base_reader.hpp:21,
   cpp/src/io/base_reader.cpp:17-32, and the calls of ModelReader.v *)
From Verif Require Import Base ModelFloat ModelKey ModelGeom ModelEntry ModelPoint ModelPoints ModelHeader ModelVlr ModelExtents ModelConfig
  ModelStream ModelReader ModelClosed.

(* The Readers hold the same stream pointer.  They share the bytes and the stream's error flags.  The
   position is shared as well, but every query seeks before it reads (ModelReader.v), so it is not part
   of the state; the Readers were opened one after another while the stream was good (lazperf's
   generic_file rewinds it). *)
Record shared := mkShared { sh_fail : bool; sh_readers : list reader }.
Fixpoint replace_nth {A} (i : nat) (a : A) (l : list A) : list A :=
  match l, i with
  | [], _ => []
  | _ :: l, O => a :: l
  | b :: l, S i => b :: replace_nth i a l
  end.
(* a query on reader i sees the flags as the previous query, on whichever Reader, left them *)
Definition shared_ask (cd : codec) (od : rorders) (fuel : nat) (i : nat) (q : query) (s : shared) : option (shared * outcome answer) :=
  match nth_error (sh_readers s) i with
  | None => None
  | Some r =>
      match answer_to cd od fuel q (with_fail (sh_fail s) r) with
      | None => None
      | Some (r', a) => Some (mkShared (r_fail r') (replace_nth i r' (sh_readers s)), a)
      end
  end.
(* a sequence of queries (exceptions are caught), with the answers; None when one is undefined or does not return *)
Fixpoint shared_run (cd : codec) (od : rorders) (fuel : nat) (cs : list (nat * query)) (s : shared) : option (shared * list (nat * outcome answer)) :=
  match cs with
  | [] => Some (s, [])
  | (i, q) :: cs =>
      match shared_ask cd od fuel i q s with
      | None | Some (_, UB) => None
      | Some (s', a) => match shared_run cd od fuel cs s' with Some (t, l) => Some (t, (i, a) :: l) | None => None end
      end
  end.
(* one Reader on a stream of its own *)
Fixpoint own_run (cd : codec) (od : rorders) (fuel : nat) (qs : list query) (r : reader) : option (reader * list (outcome answer)) :=
  match qs with
  | [] => Some (r, [])
  | q :: qs =>
      match answer_to cd od fuel q r with
      | None | Some (_, UB) => None
      | Some (r', a) => match own_run cd od fuel qs r' with Some (t, l) => Some (t, a :: l) | None => None end
      end
  end.
