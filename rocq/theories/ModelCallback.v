(* ModelCallback.v - transform_multithreaded with keyword arguments for the transform function, a dictionary that it
   returns, and completed_callback.
   Source: python/copclib/mp/transform.py:20-222.
   The values of keyword arguments and dictionaries are of any type V; pickling is taken to preserve the dictionary
   that a transform function returns.  The keys of dictionaries are strings.  The callback acts on the program's state
   St; a callback that itself uses the Writer is not modelled.  The assert statements are taken to be enabled
   (Python without -O). *)
From Coq Require Import String.
Import List.
From Verif Require Import Base ModelFloat ModelKey ModelGeom ModelEntry ModelPoint ModelPoints ModelHeader ModelVlr ModelExtents ModelConfig
  ModelStream ModelWriter ModelReader ModelPickle ModelMp.

(* what a transform function may return (transform.py:199-211): Points, or a pair of Points and a dictionary, or
   another tuple (an assert fails) *)
Inductive returned (V : Type) := Just (y : node_data) | Pair (y : node_data) (kw : list (string * V)) | Tuple.
Arguments Just {V}. Arguments Pair {V}. Arguments Tuple {V}.
Definition has_name (names : list string) (l : list string) : bool := existsb (fun a => existsb (String.eqb a) names) l.
(* transform.py:184-190: names that a keyword argument of the user must not have *)
Definition own_arguments : list string := ["points"; "node"; "writer_header"; "reader"]%string.
(* transform.py:136-141: arguments that the callback is given next to the dictionary; Python raises a TypeError for a
   name that is given twice *)
Definition callback_arguments : list string := ["node"; "point_count"; "compressed_points"]%string.

Section Callback.
Context {V St W : Type}.
(* transform.py:181-222 with the names of the keyword arguments: the check of the names comes before the transform
   function is called; lines 213-222 are those of transform_job *)
Definition callback_job (cd : codec) (tf : node_data -> node -> las_header -> outcome (returned V)) (args : list string) (upd : bool) (h : las_header) (x : node_data) (n : node) : outcome (done * list (string * V)) :=
  if has_name own_arguments args then Throw else
  let! ret := tf x n h in
  match ret with
  | Just y => let! d := transform_job cd (fun _ _ _ => Ok y) upd h x n in Ok (d, [])
  | Pair y kw => let! d := transform_job cd (fun _ _ _ => Ok y) upd h x n in Ok (d, kw)
  | Tuple => Throw
  end.
(* transform.py:173-222 in a worker process *)
Definition callback_task (cd : codec) (tf : node_data -> node -> las_header -> outcome (returned V)) (args : list string) (upd : bool) (h : las_header) (n : node) (r : reader) : reader * outcome (done * list (string * V)) :=
  match (let! n := ship_node n in let! h := ship_header h in Ok (n, h)) with
  | Ok (n, h) =>
      match get_points_node cd [] n r with
      | (r, Ok x) => (r, callback_job cd tf args upd h x n)
      | (r, Throw) => (r, Throw)
      | (r, UB) => (r, UB)
      end
  | Throw => (r, Throw)
  | UB => (r, UB)
  end.
(* a callback: node, point_count, compressed_points and the dictionary as keyword arguments *)
Definition callback := node -> Z -> bytes -> list (string * V) -> St -> St * outcome unit.
(* transform.py:124-158: the callback, if there is one, comes before the node is written *)
Definition store_and_call (add : done -> W -> W * outcome unit) (cb : option callback) (x : done * list (string * V)) (s : (W * list (vec3 * vec3)) * St) : ((W * list (vec3 * vec3)) * St) * outcome unit :=
  let '(d, kw) := x in let '(ws, st) := s in
  match cb with
  | None => let '(ws, o) := store add d ws in ((ws, st), o)
  | Some f =>
      if has_name callback_arguments (map fst kw) then (s, Throw) else
      match f (dn_node d) (dn_count d) (dn_data d) kw st with
      | (st, Ok _) => let '(ws, o) := store add d ws in ((ws, st), o)
      | (st, Throw) => ((ws, st), Throw)
      | (st, UB) => ((ws, st), UB)
      end
  end.
(* transform.py:20-170 *)
Definition transform_calling (add : done -> W -> W * outcome unit) (set_bounds : vec3 -> vec3 -> W -> W) (cd : codec)
  (tf : node_data -> node -> las_header -> outcome (returned V)) (args : list string) (cb : option callback) (upd : bool) (h : las_header)
  (od : rorders) (nodes : option (list node)) (res : f64) (chunk : Z) (r : reader) (p : pool) (w : W) (st : St) (w' : W) (st' : St) (o : outcome unit) : Prop :=
  exists w1 bs, mp_loop (callback_task cd tf args upd h) (store_and_call add cb) od nodes res chunk r p ((w, []), st) ((w1, bs), st') o /\
    match o with
    | Ok _ => if upd then exists mn mx, global_bounds bs mn mx /\ w' = set_bounds mn mx w1 else w' = w1
    | _ => w' = w1
    end.
End Callback.
Definition calling_copc {V St} (cd : codec) (tf : node_data -> node -> las_header -> outcome (returned V)) args (cb : option (@callback V St)) upd od nodes res chunk r p (w : writer) :=
  transform_calling (add_to_copc cd) copc_bounds cd tf args cb upd (c_hdr (w_cfg w)) od nodes res chunk r p w.
Definition calling_laz {V St} (cd : codec) (tf : node_data -> node -> las_header -> outcome (returned V)) args (cb : option (@callback V St)) upd od nodes res chunk r p (w : laz_writer) :=
  transform_calling (add_to_laz cd) laz_bounds cd tf args cb upd (z_hdr (lw_cfg w)) od nodes res chunk r p w.
