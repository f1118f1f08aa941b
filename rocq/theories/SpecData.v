(* SpecData.v - vocabulary for the point data of COPC files *)
From Verif Require Import Base ModelFloat ModelKey ModelGeom ModelEntry ModelPoint ModelPoints ModelHeader ModelVlr ModelExtents ModelConfig
  ModelStream ModelWriter ModelReader SpecKey SpecPoint SpecWriter SpecHier SpecReader.

(* the chunk of node n in f decompresses to the records data, for a file with header h *)
Definition holds_records (cd : codec) (h : las_header) (f : bytes) (n : node) (data : bytes) : Prop :=
  6 <= h_fmt h <= 8 /\ las_base (h_fmt h) <= h_reclen h <= 255 /\ 0 <= e_count (n_entry n) <= INT32_MAX /\
  0 <= e_offset (n_entry n) <= Z.of_nat (length f) /\ wf_bytes data /\ Z.of_nat (length data) = e_count (n_entry n) * h_reclen h /\
  (0 < e_count (n_entry n) ->
     cd_decomp cd (h_fmt h) (h_reclen h - las_base (h_fmt h)) (e_count (n_entry n)) (skipn (Z.to_nat (e_offset (n_entry n))) f) = Some data).
(* the records decode to the points ps, in order *)
Definition decodes_to (h : las_header) (data : bytes) (ps : list point) : Prop :=
  Z.of_nat (length data) = Z.of_nat (length ps) * h_reclen h /\
  forall i p, nth_error ps i = Some p -> exists rest,
    point_unpack (skipn (i * Z.to_nat (h_reclen h)) data) (h_fmt h) (h_scale h) (h_offset h) (h_reclen h - las_base (h_fmt h)) = Ok (p, rest).
(* the points of node n *)
Definition node_points (cd : codec) (h : las_header) (f : bytes) (n : node) (ps : list point) : Prop :=
  exists data, holds_records cd h f n data /\ decodes_to h data ps.
(* f has the pages hs and P tells the points of every node *)
Definition readable (cd : codec) (h : las_header) (f : bytes) (hs : list page_info) (P : node -> list point) : Prop :=
  forall n, stored_nodes hs n -> node_points cd h f n (P n).
(* a Points object, given the point objects of the program, holds the points ps, and is of the file's format *)
Definition has_points (h : las_header) (x : ModelPoints.heap * points) (ps : list point) : Prop :=
  mapM (hget (fst x)) (c_pts (snd x)) = Ok ps /\ c_fmt (snd x) = h_fmt h /\ c_reclen (snd x) = h_reclen h.
(* the points of the file's nodes down to depth d, in some order *)
Definition points_to_depth (hs : list page_info) (P : node -> list point) (d : Z) (ps : list point) : Prop :=
  exists l, exactly l (fun n => stored_nodes hs n /\ kd (n_key n) <= d) /\ Permutation.Permutation ps (flat_map P l).
(* a header with a supported format and a record length that leaves room for its fields *)
Definition plain_header (h : las_header) : Prop := 6 <= h_fmt h <= 8 /\ las_base (h_fmt h) <= h_reclen h <= 65535.
(* the cell of a node, and whether the points of the file are where they should be *)
Definition node_box (h : las_header) (n : node) : box := box_of_key (n_key n) (h_min h) (h_max h).
Definition spatially_valid (h : las_header) (hs : list page_info) (P : node -> list point) (hb : box) : Prop :=
  forall n, stored_nodes hs n -> box_intersects (node_box h n) hb = true /\
    Forall (fun p => point_within p (node_box h n) = true /\ point_within p hb = true) (P n).
(* the number of points the entries of the file claim *)
Definition claimed_points (l : list node) : Z := fold_right (fun n a => e_count (n_entry n) + a) 0 l.
(* the node's chunk can be read in full: decompressed, or fetched as it is *)
Definition intact_node (cd : codec) (h : las_header) (f : bytes) (n : node) : Prop := exists ps, node_points cd h f n ps.
Definition whole_chunk (f : bytes) (n : node) : Prop := 0 <= e_offset (n_entry n) /\ e_offset (n_entry n) + e_size (n_entry n) <= Z.of_nat (length f).
(* a query that only needs point data which the file has *)
Definition safe_query (cd : codec) (h : las_header) (f : bytes) (hs : list page_info) (q : query) : Prop :=
  match q with
  | QPoints k | QData k => forall n, stored_node hs k n -> intact_node cd h f n
  | QPointsOf n | QDataOf n => node_valid n = true -> intact_node cd h f n
  | QCompressed k => forall n, stored_node hs k n -> whole_chunk f n
  | QCompressedOf n => node_valid n = true -> whole_chunk f n
  | QAllPoints _ | QPointsWithin _ _ | QValidate _ => forall n, stored_nodes hs n -> intact_node cd h f n
  | _ => True
  end.
(* an outcome that is defined, with a Reader whose stream is good *)
Definition no_harm {A} (x : call A) : Prop := forall r o, x = Some (r, o) -> r_fail r = false.
(* a Reader opened on f and used for any queries (exceptions caught); its stream is still good *)
Definition reader_on (f : bytes) (r : reader) : Prop :=
  exists cd od isfile r0, open_reader isfile f = Ok r0 /\ reader_after cd od r0 r /\ r_fail r = false.
(* the position and size that the file gives for its root page *)
From Verif Require Import SpecFile.
Definition copc_pages (f : bytes) (hs : list page_info) : Prop := stored_hierarchy f (copc_root_offset f) (copc_root_size f) hs.

(* the same, except that pages may be attached to any page that encloses them, not only the nearest one *)
Record loose_hierarchy (f : bytes) (off size : Z) (hs : list page_info) : Prop := {
  lo_keys : NoDup (map pi_key hs);
  lo_root : exists r, In r hs /\ pi_key r = root_key /\ pi_off r = off /\ pi_size r = size;
  lo_page : forall i, In i hs -> 0 <= pi_off i /\ pi_size i = 32 * Z.of_nat (length (pi_ents i)) /\ pi_size i <= INT32_MAX /\
    pi_off i + pi_size i <= Z.of_nat (length f) /\ bytes_at (pi_off i) (pi_size i) f = flat_map entry_pack (pi_ents i);
  lo_entry : forall i e, In i hs -> In e (pi_ents i) -> wf_entry e = true /\ entry_valid e = true /\ child_of (e_key e) (pi_key i) = true;
  lo_nodes : NoDup (map e_key (node_entries hs));
  lo_subs : NoDup (map e_key (sub_entries hs));
  lo_sub : forall i e, In i hs -> In e (pi_ents i) -> is_sub e = true -> e_key e <> pi_key i /\
    exists j, In j hs /\ pi_key j = e_key e /\ pi_off j = e_offset e /\ pi_size j = e_size e;
  lo_up : forall j, In j hs -> pi_key j <> root_key -> exists e, In e (sub_entries hs) /\ e_key e = pi_key j }.
(* the file's page tree when some pages may be damaged *)
Definition copc_damaged (f : bytes) (hs : list page_info) : Prop := page_tree f (copc_root_offset f) (copc_root_size f) hs.
(* following the page references of the file comes to an end *)
Definition copc_finite (f : bytes) : Prop := 0 <= copc_root_offset f < 2 ^ 63 /\ 0 <= copc_root_size f < 2 ^ 31 /\ finite_tree f (copc_root_offset f) (copc_root_size f).
