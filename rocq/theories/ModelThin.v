(* ModelThin.v - trimming a file to a resolution.
   Source: example/example-writer.cpp:137-182 ResolutionTrimFileExample; the copying loop is that of ModelCopy. *)
From Verif Require Import Base ModelFloat ModelKey ModelGeom ModelEntry ModelReader.

(* example-writer.cpp:154-161: the nodes for which the loop calls AddNodeCompressed, if (node.key.d <= target_depth) *)
Definition up_to_depth (d : Z) (l : list node) : list node := filter (fun n => kd (n_key n) <=? d) l.
