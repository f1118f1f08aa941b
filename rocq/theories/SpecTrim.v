(* SpecTrim.v - vocabulary for trimming a file to a box *)
From Verif Require Import Base ModelFloat ModelKey ModelGeom ModelEntry ModelPoint ModelPoints ModelHeader ModelVlr ModelExtents ModelConfig
  ModelStream ModelWriter ModelReader ModelTrim SpecKey SpecPoint SpecPoints SpecConfig SpecWriter SpecHier SpecFile SpecReader SpecData SpecRound SpecCopy.

(* the points of ps that lie in the box *)
Definition in_box (b : box) (ps : list point) : list point := filter (fun p => point_within p b) ps.
(* a COPC file f with pages hs, a Reader r in use on it, nodes l of it, each once, and their points P; the points of
   every node lie in the node's cell, and its chunk decompresses to its records whatever follows the chunk *)
Definition trims_from (cd : codec) (f : bytes) (hs : list page_info) (P : node -> list point) (r : reader) (l : list node) : Prop :=
  copc_pages f hs /\ Z.of_nat (length f) < 2 ^ 63 /\ reader_on f r /\ NoDup l /\
  Forall (fun n => stored_nodes hs n /\ 0 < e_count (n_entry n) /\ whole_chunk f n /\
                   (exists data, chunk_records cd (c_hdr (r_cfg r)) f n data /\ decodes_to (c_hdr (r_cfg r)) data (P n)) /\
                   Forall (fun p => point_within p (node_box (c_hdr (r_cfg r)) n) = true) (P n)) l.
(* ToPointFormat is not called, or called with the format of the file *)
Definition keeps_format (h : las_header) (fmt : option Z) : Prop := fmt = None \/ fmt = Some (h_fmt h).
(* a program that constructs a Writer, runs the loop, and closes the Writer, with no exception *)
Definition trimming (cd : codec) (b : box) (fmt : option Z) (l : list node) (r : reader) (c : config) (v : overrides) (c0 : config) (w : writer) : Prop :=
  exists w0 w1 r' wod, open_writer None c v = Ok w0 /\ init_writer c v = Ok c0 /\ ready c0 /\ reorders wod /\
    trim_nodes cd (c_hdr (r_cfg r)) b fmt l r w0 = (r', w1, Ok tt) /\ close cd wod w1 = (w, Ok tt) /\ Z.of_nat (length (file w)) < 2 ^ 63.
(* the nodes that the loop writes: those whose cell lies in the box or meets it *)
Definition kept (h : las_header) (b : box) (n : node) : bool := box_within (node_box h n) b || box_intersects (node_box h n) b.
(* a trimmed file: the loop ran over nodes of a file with a Writer of the same format, record length, scale and offset;
   records are at most 255 bytes long (C55), the Writer's configuration fits into a file *)
Definition trimmed_file (cd : codec) (f : bytes) (hs : list page_info) (P : node -> list point) (r : reader) (b : box) (fmt : option Z) (l : list node) (c : config) (v : overrides) (c0 : config) (w : writer) : Prop :=
  trims_from cd f hs P r l /\ keeps_format (c_hdr (r_cfg r)) fmt /\ trimming cd b fmt l r c v c0 w /\ same_meaning (c_hdr (r_cfg r)) (c_hdr c0) /\
  h_reclen (c_hdr (r_cfg r)) <= 255 /\ storable c0 /\ Z.of_nat (length l) < 2 ^ 32 - 2.
(* a node that crosses the box has a point in it, and the records of those points, compressed or not, are at most 2^31 - 1 bytes *)
Definition fits (cd : codec) (h : las_header) (b : box) (P : node -> list point) (n : node) : Prop :=
  box_within (node_box h n) b = false -> box_intersects (node_box h n) b = true ->
  in_box b (P n) <> [] /\ forall data, decodes_to h data (in_box b (P n)) ->
    Z.of_nat (length data) <= INT32_MAX /\ Z.of_nat (length (cd_comp cd (h_fmt h) (h_reclen h - las_base (h_fmt h)) data)) <= INT32_MAX.
