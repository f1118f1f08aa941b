(* ModelTrim.v - trimming a file to a box.
   Source: the loop of example/example-writer.cpp:82-134 (BoundsTrimFileExample), whose calls are
   cpp/src/hierarchy/key.cpp Within and Intersects, cpp/src/io/copc_reader.cpp:94-146 GetPointDataCompressed(node) and
   GetPoints(node), cpp/src/las/points.cpp GetWithin, Points(vector) and ToPointFormat, and
   cpp/src/io/copc_writer_public.cpp:75-133 AddNode(points) and AddNodeCompressed. *)
From Verif Require Import Base ModelFloat ModelKey ModelGeom ModelEntry ModelPoint ModelPoints ModelHeader ModelVlr ModelExtents ModelConfig
  ModelStream ModelWriter ModelReader.

(* example-writer.cpp:109-118: the points of a node that crosses the box.  The Points object is local to the
   iteration; fmt is the argument of ToPointFormat, None when it is not called *)
Definition trimmed_points (b : box) (fmt : option Z) (x : ModelPoints.heap * points) : outcome (ModelPoints.heap * points) :=
  let! l := get_within (fst x) (c_pts (snd x)) b in
  let! c := points_of_vec (fst x) l in
  match fmt with None => Ok (fst x, c) | Some fmt => points_to_format fmt (fst x) c end.
(* example-writer.cpp:100-119; h is the header copied before the loop, line 84; an exception ends the loop *)
Fixpoint trim_nodes (cd : codec) (h : las_header) (b : box) (fmt : option Z) (l : list node) (r : reader) (w : writer) : reader * writer * outcome unit :=
  match l with
  | [] => (r, w, Ok tt)
  | n :: l =>
      if key_within (n_key n) (h_min h) (h_max h) b then
        match get_compressed_node n r with
        | (r, Ok data) =>
            match add_node_compressed cd (n_key n) data (e_count (n_entry n)) (n_page n) w with
            | (w, Ok _) => trim_nodes cd h b fmt l r w
            | (w, Throw) => (r, w, Throw)
            | (w, UB) => (r, w, UB)
            end
        | (r, Throw) => (r, w, Throw)
        | (r, UB) => (r, w, UB)
        end
      else if key_intersects (n_key n) (h_min h) (h_max h) b then
        match get_points_node cd [] n r with
        | (r, Ok x) =>
            match trimmed_points b fmt x with
            | Ok y =>
                match add_node_points cd (n_key n) (fst y) (snd y) (n_page n) w with
                | (w, Ok _) => trim_nodes cd h b fmt l r w
                | (w, Throw) => (r, w, Throw)
                | (w, UB) => (r, w, UB)
                end
            | Throw => (r, w, Throw)
            | UB => (r, w, UB)
            end
        | (r, Throw) => (r, w, Throw)
        | (r, UB) => (r, w, UB)
        end
      else trim_nodes cd h b fmt l r w
  end.
