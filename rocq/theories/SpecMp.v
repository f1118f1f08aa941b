(* SpecMp.v - vocabulary for the Python multiprocessing helpers *)
From Coq Require Import Permutation.
From Verif Require Import Base ModelFloat ModelKey ModelGeom ModelEntry ModelPoint ModelPoints ModelHeader ModelVlr ModelExtents ModelConfig
  ModelStream ModelWriter ModelReader ModelPickle ModelMp SpecKey SpecPoint SpecPoints SpecWriter SpecHier SpecReader SpecData SpecRound.

(* the Points object that GetPoints makes of the points ps in a file with header h *)
Definition loaded (h : las_header) (ps : list point) : node_data := (ps, mkPoints (h_fmt h) (h_reclen h) (seq 0 (length ps))).
(* a COPC file with pages hs, the header h that Readers report for it, and the points P of its nodes *)
Definition source (cd : codec) (f : bytes) (hs : list page_info) (h : las_header) (P : node -> list point) : Prop :=
  copc_pages f hs /\ Z.of_nat (length f) < 2 ^ 63 /\ (exists r, open_reader true f = Ok r /\ c_hdr (r_cfg r) = h) /\ readable cd h f hs P.
(* the arguments 'nodes' and 'resolution', used on Reader r, stand for the nodes l *)
Definition selects (od : rorders) (nodes : option (list node)) (res : f64) (r : reader) (l : list node) : Prop :=
  exists r', returns (fun m => mp_select m od nodes res r) r' (Ok l).
(* l is cut into cs: nothing lost, in order, no piece empty, none longer than n, all but the last of length n *)
Definition cut_into {A} (n : Z) (l : list A) (cs : list (list A)) : Prop :=
  concat cs = l /\ Forall (fun c => 0 < Z.of_nat (length c) <= n) cs /\
  forall cs1 c cs2, cs = cs1 ++ c :: cs2 -> cs2 <> [] -> Z.of_nat (length c) = n.
(* the coordinates of the points whose classification is allowed *)
Definition coordinates (limits : list Z) (ps : list point) : list xyz :=
  map (fun p => (p_x p, p_y p, p_z p)) (filter (fun p => match limits with [] => true | _ => if in_dec Z.eq_dec (p_class p) limits then true else false end) ps).

(* ---- transform ---- *)
(* a header that pickling preserves: fields in their C++ types, texts that are UTF-8 *)
Definition picklable (h : las_header) : Prop :=
  wf_hdr h /\ (length (h_guid h) <= 16)%nat /\ (length (h_sys h) <= 32)%nat /\ (length (h_gen h) <= 32)%nat /\
  utf8_dec (h_guid h) <> None /\ utf8_dec (h_sys h) <> None /\ utf8_dec (h_gen h) <> None.
(* the points of a Points object *)
Definition points_in (x : node_data) (ps : list point) : Prop := mapM (hget (fst x)) (c_pts (snd x)) = Ok ps.
Definition nonempty (x : node_data) : Prop := c_pts (snd x) <> [].
(* the Points object is one a file with header h can store: points of its format and record length, fields in range *)
Definition fits_header (h : las_header) (x : node_data) : Prop :=
  c_fmt (snd x) = h_fmt h /\ c_reclen (snd x) = h_reclen h /\ Forall wf_point (fst x) /\ uniform (fst x) (snd x).
(* m is the least (greatest) of the numbers *)
Definition least (l : list f64) (m : f64) : Prop := In m l /\ forall v, In v l -> fle m v = true.
Definition greatest (l : list f64) (m : f64) : Prop := In m l /\ forall v, In v l -> fle v m = true.
(* the corners of the bounding box of the points *)
Definition bounding (ps : list point) (mn mx : vec3) : Prop :=
  least (map p_x ps) (vx mn) /\ least (map p_y ps) (vy mn) /\ least (map p_z ps) (vz mn) /\
  greatest (map p_x ps) (vx mx) /\ greatest (map p_y ps) (vy mx) /\ greatest (map p_z ps) (vz mx).
(* the same number, or both not a number *)
Definition same_number (a b : f64) : Prop := (fnan a = true /\ fnan b = true) \/ (fle a b = true /\ fle b a = true).
Definition same_vec (a b : vec3) : Prop := same_number (vx a) (vx b) /\ same_number (vy a) (vy b) /\ same_number (vz a) (vz b).

(* what transform_multithreaded is given: a source file, its nodes l, and a transform function that makes T n of
   the points of node n for a Writer with header hw *)
Definition transforms (cd : codec) (f : bytes) (hs : list page_info) (h : las_header) (P : node -> list point) (p : pool) (od : rorders) (nodes : option (list node)) (res : f64) (r : reader)
  (l : list node) (tf : node_data -> node -> las_header -> outcome node_data) (hw : las_header) (T : node -> node_data) : Prop :=
  source cd f hs h P /\ fresh_pool f p /\ selects od nodes res r l /\ Forall (stored_nodes hs) l /\ picklable hw /\
  forall n, In n l -> tf (loaded h (P n)) n hw = Ok (T n).
(* a program that constructs a Writer, calls transform_multithreaded on it, and closes it *)
Definition transform_program (cd : codec) (tf : node_data -> node -> las_header -> outcome node_data) (upd : bool) (od : rorders) (nodes : option (list node)) (res : f64) (chunk : Z)
  (r : reader) (p : pool) (c : config) (v : overrides) (c0 : config) (w : writer) : Prop :=
  exists w0 w1 wod, open_writer None c v = Ok w0 /\ init_writer c v = Ok c0 /\ ready c0 /\ reorders wod /\
    transform_copc cd tf upd od nodes res chunk r p w0 w1 (Ok tt) /\ close cd wod w1 = (w, Ok tt) /\ Z.of_nat (length (file w)) < 2 ^ 63.
(* the points of all the transformed nodes *)
Definition all_points (l : list node) (T : node -> node_data) (ps : list point) : Prop :=
  exists pss, Forall2 (fun n => points_in (T n)) l pss /\ ps = concat pss.
Definition no_nan (ps : list point) : Prop := Forall (fun p => fnan (p_x p) = false /\ fnan (p_y p) = false /\ fnan (p_z p) = false) ps.
(* points that a Writer with header h can store: they pack into whole records, and neither the records nor the
   chunk they compress to exceed 2^31 - 1 bytes *)
Definition packable (cd : codec) (h : las_header) (x : node_data) : Prop :=
  Z.of_nat (length (c_pts (snd x))) <= INT32_MAX /\
  exists data, points_pack (fst x) (snd x) (h_scale h) (h_offset h) = Ok data /\ Z.of_nat (length data) mod h_reclen h = 0 /\ Z.of_nat (length data) <= INT32_MAX /\
    Z.of_nat (length (cd_comp cd (h_fmt h) (h_reclen h - las_base (h_fmt h)) data)) <= INT32_MAX.
(* the settings of two headers agree, except for the bounds *)
Definition same_but_bounds (h h' : las_header) : Prop :=
  h_src h' = h_src h /\ h_enc h' = Z.lor (h_enc h) 16 /\ h_day h' = h_day h /\ h_year h' = h_year h /\ h_pbr h' = h_pbr h /\ h_scale h' = h_scale h /\ h_offset h' = h_offset h /\
  h_fmt h' = h_fmt h /\ h_reclen h' = h_reclen h /\ h_guid h' = h_guid h /\ h_sys h' = h_sys h /\ h_gen h' = h_gen h /\ h_copc h' = h_copc h.
