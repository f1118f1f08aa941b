(* SpecOrder.v - vocabulary for writing the same nodes in another order *)
From Coq Require Import Permutation.
From Verif Require Import Base ModelFloat ModelKey ModelGeom ModelEntry ModelPoint ModelPoints ModelHeader ModelVlr ModelExtents ModelConfig
  ModelStream ModelWriter ModelReader SpecKey SpecPoint SpecConfig SpecWriter SpecHier SpecFile SpecReader SpecData SpecRound.

(* the node and page keys of the AddNode calls *)
Definition adds (ops : list wop) : list (key * key) := flat_map (fun op => opt_list (add_keys op)) ops.
(* the other calls: changes of the configuration *)
Definition changes (ops : list wop) : list wop := filter (fun op => match add_keys op with Some _ => false | None => true end) ops.
(* every node is added at most once, and none is moved to another page *)
Definition once_each (ops : list wop) : Prop := (forall k p, ~ In (WMove k p) ops) /\ NoDup (map fst (adds ops)).
(* the same calls with the AddNode calls in any order, among themselves and relative to the configuration changes *)
Definition rearranged (ops ops' : list wop) : Prop := Permutation ops ops' /\ changes ops = changes ops'.
(* what does not depend on where in the file the chunk lies *)
Definition shape (n : node) : key * key * Z * Z := (n_key n, n_page n, e_count (n_entry n), e_size (n_entry n)).
(* two LAS headers that agree in what a user sets, and in the point count and the layout before the hierarchy *)
Definition alike (h h' : las_header) : Prop :=
  h_src h' = h_src h /\ h_enc h' = h_enc h /\ h_day h' = h_day h /\ h_year h' = h_year h /\ h_max h' = h_max h /\ h_min h' = h_min h /\ h_pbr h' = h_pbr h /\
  h_scale h' = h_scale h /\ h_offset h' = h_offset h /\ h_fmt h' = h_fmt h /\ h_reclen h' = h_reclen h /\ h_guid h' = h_guid h /\ h_sys h' = h_sys h /\ h_gen h' = h_gen h.
