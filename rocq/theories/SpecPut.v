(* SpecPut.v - vocabulary for extent objects given to a Writer *)
From Verif Require Import Base ModelFloat ModelKey ModelEntry ModelGeom ModelHeader ModelVlr ModelExtents ModelConfig ModelStream ModelWriter ModelPut SpecWriter.

(* the program and what its calls returned *)
Definition xlog := list (xop * outcome (option node)).
(* the calls that have nothing to do with extents *)
Definition other (op : xop) : list wop := match op with XCall (WSetExtent _ _) => [] | XCall op => [op] | _ => [] end.
Definition others (ops : list xop) : list wop := flat_map other ops.
Definition others_log (l : xlog) : log := flat_map (fun x => map (fun op => (op, snd x)) (other (fst x))) l.
(* setting all extents, one by one *)
Definition set_all (l : list extent) : list wop := map (fun x => WSetExtent (fst x) (snd x)) (combine (seq 0 (length l)) l).
(* the extents that the Writer has, and the one for a dimension *)
Definition held_extents (w : writer) : list extent := xs_items (c_exts (w_cfg w)).
Definition held_at (w : writer) (d : dim) (e : extent) : Prop := dim_get d (c_exts (w_cfg w)) = Ok e.
(* object a has the value e *)
Definition has_value (s : xstate) (a : nat) (e : extent) : Prop := nth_error (x_heap s) a = Some e.
(* extents that are assigned as a whole have the Writer's format, its flag for extended statistics and as many entries *)
Definition same_shape (w : writer) (op : xop) : Prop :=
  match op with XWhole f x l => f = xs_fmt (c_exts (w_cfg w)) /\ x = xs_ext (c_exts (w_cfg w)) /\ length l = length (held_extents w) | _ => True end.
(* the call does not put another object in dimension d; it does not change object a *)
Definition leaves_dim (d : dim) (op : xop) : Prop := match op with XPut d' _ => d' <> d | XWhole _ _ _ => False | _ => True end.
Definition leaves_object (a : nat) (op : xop) : Prop := match op with XChange b _ => b <> a | XCall (WSetExtent _ _) => False | _ => True end.
(* a state that a program reaches *)
Definition reached (cd : codec) (s : xstate) : Prop :=
  exists cap c v w0 ops lg, open_writer cap c v = Ok w0 /\ xrun cd ops (start w0) = (s, lg) /\ Forall (fun x => snd x <> UB) lg.
