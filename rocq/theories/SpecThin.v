(* SpecThin.v - vocabulary for trimming a file to a resolution *)
From Verif Require Import Base ModelFloat ModelKey ModelGeom ModelEntry ModelPoint ModelPoints ModelHeader ModelVlr ModelExtents ModelConfig
  ModelStream ModelWriter ModelReader ModelCopy ModelThin SpecKey SpecPoint SpecConfig SpecWriter SpecHier SpecFile SpecReader SpecData SpecRound SpecCopy.

(* the nodes l that a program selects in f: GetDepthAtResolution(res) gave d, and of the nodes that GetAllNodes gave, those
   up to depth d were taken; the Reader may have been used in any way before either call *)
Definition selected (f : bytes) (res : f64) (d : Z) (l : list node) : Prop :=
  exists od1 rq rq' od2 ra ra' ns, visits_all od1 /\ reader_on f rq /\ returns (fun n => get_depth_at_resolution n od1 res rq) rq' (Ok d) /\
    visits_all od2 /\ reader_on f ra /\ returns (fun n => get_all_nodes n od2 ra) ra' (Ok ns) /\ l = up_to_depth d ns.
(* a file thinned out to a resolution: the selected nodes of f were copied, page by page, with a Writer of the same format, record
   length, scale and offset; all nodes of f hold points, and their chunks lie in f and decompress whatever follows them; records
   are at most 255 bytes long (C55), the Writer's configuration fits into a file *)
Definition thinned_file (cd : codec) (f : bytes) (hs : list page_info) (r : reader) (res : f64) (d : Z) (l : list node) (c : config) (v : overrides) (c0 : config) (w : writer) : Prop :=
  copc_pages f hs /\ Z.of_nat (length f) < 2 ^ 63 /\ reader_on f r /\ selected f res d l /\ copying copy_nodes cd n_page l r c v c0 w /\
  (forall n, stored_nodes hs n -> 0 < e_count (n_entry n) /\ whole_chunk f n /\ exists data, chunk_records cd (c_hdr (r_cfg r)) f n data) /\
  same_meaning (c_hdr (r_cfg r)) (c_hdr c0) /\ h_reclen (c_hdr (r_cfg r)) <= 255 /\ storable c0 /\ Z.of_nat (length l) < 2 ^ 32 - 2.
(* no depth is left out: below the root there is a node one level up for every node (as when the parents of all nodes are nodes) *)
Definition no_gaps (hs : list page_info) : Prop := forall n, stored_nodes hs n -> 0 < kd (n_key n) -> exists m, stored_nodes hs m /\ kd (n_key m) = kd (n_key n) - 1.
