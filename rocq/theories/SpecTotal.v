(* SpecTotal.v - vocabulary for the point count of a file *)
From Verif Require Import Base ModelFloat ModelKey ModelGeom ModelEntry ModelPoint ModelPoints ModelHeader ModelVlr ModelExtents ModelConfig
  ModelStream ModelWriter ModelReader SpecKey SpecPoint SpecConfig SpecWriter.

(* the nodes that the AddNode calls returned, in order *)
Definition added_nodes (l : log) : list node := flat_map (fun x => match snd x with Ok (Some n) => [n] | _ => [] end) l.
(* no key was added twice *)
Definition added_once (l : log) : Prop := NoDup (map n_key (added_nodes l)).
(* the points of a list of nodes, together *)
Definition point_total (ns : list node) : Z := fold_right (fun n a => e_count (n_entry n) + a) 0 ns.
