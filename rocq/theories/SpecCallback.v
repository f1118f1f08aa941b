(* SpecCallback.v - vocabulary for completed_callback *)
From Coq Require Import String Permutation.
Import List.
From Verif Require Import Base ModelFloat ModelKey ModelGeom ModelEntry ModelPoint ModelPoints ModelHeader ModelVlr ModelExtents ModelConfig
  ModelStream ModelWriter ModelReader ModelPickle ModelMp ModelCallback SpecKey SpecPoint SpecPoints SpecWriter SpecHier SpecReader SpecData SpecRound SpecMp.

(* the points and the dictionary that a transform function returned *)
Definition returns_points {V} (x : returned V) (y : node_data) (kw : list (string * V)) : Prop := (x = Just y /\ kw = []) \/ x = Pair y kw.
(* the same transform function for a program that is not interested in dictionaries *)
Definition points_only {V} (tf : node_data -> node -> las_header -> outcome (returned V)) : node_data -> node -> las_header -> outcome node_data :=
  fun x n h => match tf x n h with Ok (Just y) => Ok y | Ok (Pair y _) => Ok y | Ok Tuple => Throw | Throw => Throw | UB => UB end.
(* names that the program may use for its own arguments, and for the entries of the dictionaries *)
Definition free_arguments (args : list string) : Prop := forall a, In a args -> a <> "points"%string /\ a <> "node"%string /\ a <> "writer_header"%string /\ a <> "reader"%string.
Definition free_names {V} (kw : list (string * V)) : Prop := forall a v, In (a, v) kw -> a <> "node"%string /\ a <> "point_count"%string /\ a <> "compressed_points"%string.
(* the chunk that the points y make in a file with header h *)
Definition chunk_for (cd : codec) (h : las_header) (y : node_data) : bytes :=
  match points_pack (fst y) (snd y) (h_scale h) (h_offset h) with Ok data => cd_comp cd (h_fmt h) (h_reclen h - las_base (h_fmt h)) data | _ => [] end.
(* the calls of the callback for nodes in the given order: T n are the points for node n, K n is the dictionary *)
Definition call_for {V St} (cd : codec) (cb : @callback V St) (h : las_header) (T : node -> node_data) (K : node -> list (string * V)) (n : node) (st : St) : St * outcome unit :=
  cb n (Z.of_nat (length (c_pts (snd (T n))))) (chunk_for cd h (T n)) (K n) st.
(* the calls of AddNodeCompressed for nodes in the given order, empty ones left out *)
Definition add_for (cd : codec) (h : las_header) (T : node -> node_data) (n : node) (w : writer) : writer * outcome unit :=
  if 0 <? Z.of_nat (length (c_pts (snd (T n)))) then
    match add_node_compressed cd (n_key n) (chunk_for cd h (T n)) (Z.of_nat (length (c_pts (snd (T n))))) (n_page n) w with (w, Ok _) => (w, Ok tt) | (w, Throw) => (w, Throw) | (w, UB) => (w, UB) end
  else (w, Ok tt).
(* what transform_multithreaded is given: a source file, its nodes l, and a transform function that makes the points T n
   and the dictionary K n of the points of node n for a Writer with header hw; the names of arguments and dictionary
   entries are free *)
Definition transforms_with {V} (cd : codec) (f : bytes) (hs : list page_info) (h : las_header) (P : node -> list point) (p : pool) (od : rorders) (nodes : option (list node)) (res : f64) (r : reader)
  (l : list node) (tf : node_data -> node -> las_header -> outcome (returned V)) (args : list string) (hw : las_header) (T : node -> node_data) (K : node -> list (string * V)) : Prop :=
  source cd f hs h P /\ fresh_pool f p /\ selects od nodes res r l /\ Forall (stored_nodes hs) l /\ picklable hw /\ free_arguments args /\
  forall n, In n l -> free_names (K n) /\ exists x, tf (loaded h (P n)) n hw = Ok x /\ returns_points x (T n) (K n).
(* no callback, or one that raises nothing *)
Definition raises_nothing {V St} (cb : option (@callback V St)) : Prop := match cb with None => True | Some f => forall n c b kw s, exists s', f n c b kw s = (s', Ok tt) end.
(* the transform function returns dictionaries with free names (or there is no callback to give them to) *)
Definition returns_free_names {V St} (tf : node_data -> node -> las_header -> outcome (returned V)) (cb : option (@callback V St)) : Prop :=
  cb = None \/ forall x n h y kw, tf x n h = Ok (Pair y kw) -> free_names kw.
