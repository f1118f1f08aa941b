(* ModelHandles.v - copies of a Writer and of a LazWriter.
   Source: cpp/include/copc-lib/io/copc_writer.hpp:26-75 (class Writer: the implicit copy constructor and copy assignment, ~Writer),
   cpp/include/copc-lib/io/copc_base_io.hpp:22-34 (hierarchy_), cpp/include/copc-lib/io/internal/copc_writer_internal.hpp:14-26 (~WriterInternal),
   cpp/include/copc-lib/io/laz_base_writer.hpp:23-56 (BaseWriter: members, implicit copy constructor, destructor),
   cpp/include/copc-lib/io/laz_writer.hpp:22-39, cpp/src/io/copc_writer_public.cpp:66-70 (Writer::Close). *)
From Verif Require Import Base ModelFloat ModelKey ModelGeom ModelEntry ModelPoint ModelPoints ModelHeader ModelVlr ModelExtents ModelConfig
  ModelStream ModelWriter ModelLazReader ModelLife ModelShare.

(* ---- Writer ---- *)
(* copc_writer.hpp:57-59, copc_base_io.hpp:29: a Writer object holds three shared pointers, so a copy of it means the
   same WriterInternal, configuration and hierarchy.  An object is the number of what it points to; None: destroyed.
   Every constructor call makes a WriterInternal on a stream of its own. *)
Record handles := mkHandles { wd_pool : list writer; wd_objs : list (option nat) }.
Definition no_handles : handles := mkHandles [] [].
Definition meant (s : handles) (i : nat) : option nat := match nth_error (wd_objs s) i with Some (Some n) => Some n | _ => None end.
Definition held (s : handles) (n : nat) : bool := existsb (fun o => match o with Some m => Nat.eqb m n | None => false end) (wd_objs s).
Inductive hop :=
| HNew (c : config) (v : overrides)      (* Writer w(stream, config, ...) *)
| HCopy (i : nat)                        (* Writer w(w_i), pass by value, growth of a std::vector<Writer> *)
| HAssign (i j : nat)                    (* w_i = w_j *)
| HCall (i : nat) (op : wop)             (* w_i.AddNode(...) and the others *)
| HClose (i : nat)                       (* w_i.Close() *)
| HDestroy (i : nat).                    (* ~Writer *)
(* a step returns or throws to the program, or ends it (an exception leaving a destructor: std::terminate) *)
Inductive progress := Goes (s : handles) (r : outcome (option node)) | Stops.
(* Close of the n-th WriterInternal: ods are the orders in which each one's containers are walked *)
Definition close_nth (cd : codec) (ods : nat -> orders) (n : nat) (s : handles) : handles * outcome (option node) :=
  match nth_error (wd_pool s) n with
  | None => (s, UB)
  | Some w => match close cd (ods n) w with (w', r) => (mkHandles (replace_nth n w' (wd_pool s)) (wd_objs s), match r with Ok _ => Ok None | Throw => Throw | UB => UB end) end
  end.
(* the same inside a destructor *)
Definition close_noexcept (cd : codec) (ods : nat -> orders) (n : nat) (s : handles) : progress :=
  match close_nth cd ods n s with (_, Throw) => Stops | (s', r) => Goes s' r end.
(* a reference to the n-th WriterInternal is gone; if it was the last one, copc_writer_internal.hpp:23 *)
Definition released (cd : codec) (ods : nat -> orders) (n : nat) (s : handles) : progress :=
  if held s n then Goes s (Ok None) else close_noexcept cd ods n s.
Definition hstep (cd : codec) (ods : nat -> orders) (o : hop) (s : handles) : progress :=
  match o with
  | HNew c v =>
      match construct_writer cd None c v with
      | Built w => Goes (mkHandles (wd_pool s ++ [w]) (wd_objs s ++ [Some (length (wd_pool s))])) (Ok None)
      | Refused => Goes s Throw
      | Terminated => Stops
      | Undefined => Goes s UB
      end
  | HCopy i => match meant s i with Some n => Goes (mkHandles (wd_pool s) (wd_objs s ++ [Some n])) (Ok None) | None => Goes s UB end
  | HAssign i j =>
      match meant s i, meant s j with
      | Some n, Some m => released cd ods n (mkHandles (wd_pool s) (replace_nth i (Some m) (wd_objs s)))
      | _, _ => Goes s UB
      end
  | HCall i op =>
      match meant s i with
      | Some n => match nth_error (wd_pool s) n with
                  | Some w => match wstep cd op w with (w', r) => Goes (mkHandles (replace_nth n w' (wd_pool s)) (wd_objs s)) r end
                  | None => Goes s UB
                  end
      | None => Goes s UB
      end
  | HClose i => match meant s i with Some n => match close_nth cd ods n s with (s', r) => Goes s' r end | None => Goes s UB end
  (* copc_writer.hpp:52, then the members *)
  | HDestroy i =>
      match meant s i with
      | Some n => match close_noexcept cd ods n s with
                  | Goes s' (Ok _) => released cd ods n (mkHandles (wd_pool s') (replace_nth i None (wd_objs s')))
                  | x => x
                  end
      | None => Goes s UB
      end
  end.
(* a program (exceptions are caught) with what every step returned; None: it was ended.  Nothing is said after
   undefined behaviour. *)
Fixpoint hrun (cd : codec) (ods : nat -> orders) (p : list hop) (s : handles) : option (handles * list (hop * outcome (option node))) :=
  match p with
  | [] => Some (s, [])
  | o :: p =>
      match hstep cd ods o s with
      | Stops => None
      | Goes s' UB => Some (s', [(o, UB)])
      | Goes s' r => match hrun cd ods p s' with Some (t, l) => Some (t, (o, r) :: l) | None => None end
      end
  end.

(* ---- LazWriter ---- *)
(* laz_base_writer.hpp:49-55: a copy refers to the same stream and configuration and has its own chunk list, counters
   and open_; the reference member rules out assignment.  The b_out of the objects is not used. *)
Record laz_world := mkLazWorld { lz_out : ostream; lz_cfg : laz_config; lz_objs : list (option bwriter) }.
Inductive lhop :=
| LHCopy (i : nat)
| LHCall (i : nat) (op : lop)
| LHClose (i : nat)
| LHDestroy (i : nat).
(* laz_writer.cpp:8-14: one LazWriter *)
Definition laz_alone (w : laz_writer) : laz_world := mkLazWorld (b_out (lw_base w)) (lw_cfg w) [Some (lw_base w)].
Definition laz_object (s : laz_world) (i : nat) : option laz_writer :=
  match nth_error (lz_objs s) i with Some (Some b) => Some (mkLW (with_out (lz_out s) b) (lz_cfg s)) | _ => None end.
Definition laz_after (i : nat) (o : option bwriter) (w : laz_writer) (s : laz_world) : laz_world :=
  mkLazWorld (b_out (lw_base w)) (lz_cfg s) (replace_nth i o (lz_objs s)).
(* None: the program was ended *)
Definition lhstep (cd : codec) (o : lhop) (s : laz_world) : option (laz_world * outcome unit) :=
  match o with
  | LHCopy i => match laz_object s i with
                | Some w => Some (mkLazWorld (lz_out s) (lz_cfg s) (lz_objs s ++ [Some (lw_base w)]), Ok tt)
                | None => Some (s, UB) end
  | LHCall i op => match laz_object s i with
                   | Some w => match lstep cd op w with (w', r) => Some (laz_after i (Some (lw_base w')) w' s, r) end
                   | None => Some (s, UB) end
  | LHClose i => match laz_object s i with
                 | Some w => match close_laz cd w with (w', r) => Some (laz_after i (Some (lw_base w')) w' s, r) end
                 | None => Some (s, UB) end
  | LHDestroy i => match laz_object s i with
                   | Some w => match close_laz cd w with (w', Throw) => None | (w', r) => Some (laz_after i None w' s, r) end
                   | None => Some (s, UB) end
  end.
Fixpoint lhrun (cd : codec) (p : list lhop) (s : laz_world) : option (laz_world * list (lhop * outcome unit)) :=
  match p with
  | [] => Some (s, [])
  | o :: p =>
      match lhstep cd o s with
      | None => None
      | Some (s', UB) => Some (s', [(o, UB)])
      | Some (s', r) => match lhrun cd p s' with Some (t, l) => Some (t, (o, r) :: l) | None => None end
      end
  end.
