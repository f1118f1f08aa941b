(* SpecCopy.v - vocabulary for copying nodes from file to file *)
From Verif Require Import Base ModelFloat ModelKey ModelGeom ModelEntry ModelPoint ModelPoints ModelHeader ModelVlr ModelExtents ModelConfig
  ModelStream ModelWriter ModelReader ModelCopy SpecKey SpecPoint SpecConfig SpecWriter SpecHier SpecFile SpecReader SpecData SpecRound.

(* the chunk of node n in f *)
Definition chunk_in (f : bytes) (n : node) : bytes := bytes_at (e_offset (n_entry n)) (e_size (n_entry n)) f.
(* a COPC file f with pages hs, a Reader r in use on it, and nodes l of it to be copied; page tells the page each is
   put into, which must enclose it *)
Definition copies_from (f : bytes) (hs : list page_info) (r : reader) (page : node -> key) (l : list node) : Prop :=
  copc_pages f hs /\ Z.of_nat (length f) < 2 ^ 63 /\ reader_on f r /\
  Forall (fun n => stored_nodes hs n /\ 0 < e_count (n_entry n) /\ key_valid (page n) = true /\ int32_key (page n) /\ child_of (n_key n) (page n) = true) l.
(* a program that constructs a Writer, runs the loop, and closes the Writer, with no exception *)
Definition copying (loop : codec -> (node -> key) -> list node -> reader -> writer -> reader * writer * outcome unit)
  (cd : codec) (page : node -> key) (l : list node) (r : reader) (c : config) (v : overrides) (c0 : config) (w : writer) : Prop :=
  exists w0 w1 r' wod, open_writer None c v = Ok w0 /\ init_writer c v = Ok c0 /\ ready c0 /\ reorders wod /\
    loop cd page l r w0 = (r', w1, Ok tt) /\ close cd wod w1 = (w, Ok tt) /\ Z.of_nat (length (file w)) < 2 ^ 63.
(* the records of node n, which its chunk decompresses to whatever follows the chunk *)
Definition chunk_records (cd : codec) (h : las_header) (f : bytes) (n : node) (data : bytes) : Prop :=
  wf_bytes data /\ Z.of_nat (length data) = e_count (n_entry n) * h_reclen h /\
  forall rest, cd_decomp cd (h_fmt h) (h_reclen h - las_base (h_fmt h)) (e_count (n_entry n)) (chunk_in f n ++ rest) = Some data.
(* two headers under which records mean the same points *)
Definition same_meaning (h h' : las_header) : Prop :=
  h_fmt h' = h_fmt h /\ h_reclen h' = h_reclen h /\ h_scale h' = h_scale h /\ h_offset h' = h_offset h.
(* two COPC info records with the same cube and spacing *)
Definition same_cube (i j : copc_info) : Prop := i_cx j = i_cx i /\ i_cy j = i_cy i /\ i_cz j = i_cz i /\ i_half j = i_half i /\ i_spacing j = i_spacing i.
