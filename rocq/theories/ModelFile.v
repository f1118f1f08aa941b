(* ModelFile.v - files written through a buffered std::fstream.
   Source: cpp/include/copc-lib/io/laz_base_writer.hpp:58-67, cpp/src/io/laz_base_writer.cpp:162-174
   (BaseFileWriter), cpp/src/io/copc_writer_public.cpp:173-178 and cpp/include/copc-lib/io/copc_writer.hpp:77-95
   (FileWriter), cpp/include/copc-lib/io/laz_writer.hpp:41-57 (LazFileWriter).
   ModelWriter models what the library does with its stream; this file models the std::fstream (the
   C++ standard library, not in /repo) between a FileWriter and the disk. *)
From Verif Require Import Base ModelFloat ModelKey ModelGeom ModelEntry ModelPoint ModelPoints ModelHeader ModelVlr ModelExtents ModelConfig
  ModelStream ModelWriter ModelTrace.

(* a file on disk (contents and position) and the bytes that were written to the stream but not yet
   to the disk *)
Record fbuf := mkF { f_dev : ostream; f_pend : bytes }.
Definition new_file : fbuf := mkF (empty_out None) [].
(* The buffer may be written out, in part or as a whole, at any time: how much it holds and when it is
   written is up to the library.  Seeking writes all of it first. *)
Definition flush (n : nat) (s : fbuf) : fbuf := mkF (put (firstn n (f_pend s)) (f_dev s)) (skipn n (f_pend s)).
Definition file_op (o : sop) (s : fbuf) : fbuf :=
  match o with
  | SPut b => mkF (f_dev s) (f_pend s ++ b)
  | _ => mkF (do_sop o (put (f_pend s) (f_dev s))) []
  end.
(* s2 is a state the file can be in after the operations l *)
Inductive buffered : list sop -> fbuf -> fbuf -> Prop :=
| buf_start s : buffered [] s s
| buf_flush l s s1 n : buffered l s s1 -> buffered l s (flush n s1)
| buf_op l s s1 o : buffered l s s1 -> buffered (l ++ [o]) s (file_op o s1).
(* the disk when the program is killed at some point of the operations l: what is in the buffer is lost *)
Definition disk_when_killed (l : list sop) (f : bytes) : Prop :=
  exists l1 l2 s, l = l1 ++ l2 /\ buffered l1 new_file s /\ f = o_data (f_dev s).
(* the disk after the operations l and fstream::close(), which writes the buffer; a close() that can
   only write n bytes of it (a full disk, a lost connection) sets failbit and reports nothing *)
Definition disk_when_closed (l : list sop) (f : bytes) : Prop :=
  exists s, buffered l new_file s /\ f = o_data (put (f_pend s) (f_dev s)).
Definition disk_when_close_fails (l : list sop) (n : nat) (f : bytes) : Prop :=
  exists s, buffered l new_file s /\ (n < length (f_pend s))%nat /\ f = o_data (put (firstn n (f_pend s)) (f_dev s)).

(* ---- after Close ---- *)
(* an fstream that was closed: tellp() is -1, writing and seeking set failbit or badbit and do nothing *)
Definition shut (s : ostream) : ostream := mkOut (o_data s) (o_pos s) true (o_cap s).
(* copc_writer_public.cpp:173-178, laz_base_writer.cpp:170-174: writer_->Close(), then f_stream_.close()
   unless that threw; closing a closed fstream does nothing.  What close() does with the buffer is
   disk_when_closed; here the contents of the stream are kept. *)
Definition shut_writer (w : writer) : writer := with_base (with_out (shut (b_out (w_base w))) (w_base w)) w.
Definition file_close (cd : codec) (od : orders) (w : writer) : writer * outcome unit :=
  match close cd od w with
  | (w, Ok _) => (shut_writer w, Ok tt)
  | x => x
  end.
(* laz_writer.hpp:49-53 *)
Definition shut_laz (w : laz_writer) : laz_writer := mkLW (with_out (shut (b_out (lw_base w))) (lw_base w)) (lw_cfg w).
Definition laz_file_close (cd : codec) (w : laz_writer) : laz_writer * outcome unit :=
  match close_laz cd w with
  | (w, Ok _) => (shut_laz w, Ok tt)
  | x => x
  end.
