(* SpecExport.v - vocabulary for writing the nodes of a COPC file into a LAZ file *)
From Verif Require Import Base ModelFloat ModelKey ModelGeom ModelEntry ModelPoint ModelPoints ModelHeader ModelVlr ModelExtents ModelConfig
  ModelStream ModelWriter ModelReader ModelLazReader ModelExport SpecKey SpecPoint SpecConfig SpecWriter SpecHier SpecFile SpecReader SpecData SpecRound SpecLaz SpecLazRound SpecCopy.
Open Scope Z_scope.

(* a COPC file f with pages hs, a Reader r in use on it, and nodes l of it to be written, each with points and all of
   whose chunk is in the file *)
Definition exports_from (f : bytes) (hs : list page_info) (r : reader) (l : list node) : Prop :=
  copc_pages f hs /\ Z.of_nat (length f) < 2 ^ 63 /\ reader_on f r /\ Forall (fun n => stored_nodes hs n /\ 0 < e_count (n_entry n) /\ whole_chunk f n) l.
(* a program that constructs a LazWriter with configuration z, runs the loop, and closes it, with no exception *)
Definition exporting (loop : reader -> laz_writer -> reader * laz_writer * outcome unit) (cd : codec) (r : reader) (z : laz_config) (w : laz_writer) : Prop :=
  exists w0 w1 r', open_laz_writer None z = Ok w0 /\ laz_ready z /\ loop r w0 = (r', w1, Ok tt) /\ close_laz cd w1 = (w, Ok tt) /\ Z.of_nat (length (laz_file w)) < 2 ^ 63.
(* decompressing node n takes exactly the bytes of its chunk *)
Definition chunk_exact (used : Z -> Z -> Z -> bytes -> nat) (h : las_header) (f : bytes) (n : node) : Prop :=
  forall rest, used (h_fmt h) (h_reclen h - las_base (h_fmt h)) (e_count (n_entry n)) (chunk_in f n ++ rest) = length (chunk_in f n).
