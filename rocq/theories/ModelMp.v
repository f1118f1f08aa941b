(* ModelMp.v - the Python multiprocessing helpers.
   Source: python/copclib/mp/utils.py, python/copclib/mp/read.py, python/copclib/mp/transform.py, and for str(key)
   cpp/src/hierarchy/key.cpp:7-12 (python/bindings.cpp:75).
   concurrent.futures is modelled by its documented behaviour: the tasks of the submitted futures run in some
   order, each on some worker process; a worker process has one FileReader, made by the initializer; arguments and
   results are pickled; as_completed yields the futures of the list once each, in some order; result() re-raises
   the exception of its task; leaving the with block waits for the tasks.
   Functions given by the user are taken to be deterministic functions of the points, the node (and the header);
   their 'reader' argument, keyword arguments and the progress bar are not modelled. *)
From Coq Require Import Permutation String DecimalString.
Import List.
From Verif Require Import Base ModelFloat ModelKey ModelGeom ModelEntry ModelPoint ModelPoints ModelHeader ModelVlr ModelExtents ModelConfig
  ModelStream ModelWriter ModelReader ModelPickle.

(* ---- utils.py ---- *)
(* range(0, len, n) for n <> 0 *)
Definition py_range (len : nat) (n : Z) : list Z :=
  if n <=? 0 then [] else map (fun i => Z.of_nat i * n) (seq 0 (Z.to_nat ((Z.of_nat len + n - 1) / n))).
(* lst[i : i + n] for 0 <= i, 0 < n *)
Definition py_slice {A} (i n : Z) (l : list A) : list A := firstn (Z.to_nat n) (skipn (Z.to_nat i) l).
(* mp/utils.py:1-4; a zero step raises ValueError at the first use of the generator, before any chunk *)
Definition py_chunks {A} (n : Z) (l : list A) : outcome (list (list A)) :=
  if n =? 0 then Throw else Ok (map (fun i => py_slice i n l) (py_range (length l) n)).

(* ---- pickling between the processes (python/bindings.cpp:133-150, 506-535, 36-45) ---- *)
Definition ship_node (n : node) : outcome node :=
  let! x := setstate_node (getstate_node (mkPyNode (n_entry n) (n_page n))) in Ok (mkNode (pn_entry x) (pn_page x)).
Definition ship_header (h : las_header) : outcome las_header := let! v := getstate_header h in setstate_header v.
Definition ship_bytes (b : bytes) : outcome bytes := setstate_bytes (getstate_bytes b).

(* ---- which nodes (read.py:52-60, transform.py:72-80) ---- *)
Definition mp_select (fuel : nat) (od : rorders) (nodes : option (list node)) (res : f64) (r : reader) : call (list node) :=
  let given := fgt res (f64_of_Z (-1)) in
  match nodes with
  | Some l => Some (r, if given then Throw else Ok l)
  | None => if given then get_nodes_within_resolution fuel od res r else get_all_nodes fuel od r
  end.

(* ---- the process pool ---- *)
(* the FileReader of each worker process *)
Definition pool := nat -> reader.
Definition pool_set (i : nat) (r : reader) (p : pool) : pool := fun j => if Nat.eqb i j then r else p j.
(* read.py:8-9, transform.py:14-17 the initializer: every worker opens the file (mp_init_function not modelled) *)
Definition fresh_pool (f : bytes) (p : pool) : Prop := forall i, open_reader true f = Ok (p i).

Section Pool.
Context {B St : Type}.
Variable task : node -> reader -> reader * outcome B.        (* what a worker does with a node *)
Variable step : B -> St -> St * outcome unit.                (* what the main process does with a result *)
(* tasks (worker, node) in the order in which they run *)
Fixpoint run_tasks (ts : list (nat * node)) (p : pool) : pool * list (outcome B) :=
  match ts with
  | [] => (p, [])
  | (i, n) :: r =>
      let '(rd, o) := task n (p i) in
      let '(p', os) := run_tasks r (pool_set i rd p) in (p', o :: os)
  end.
(* the futures of a chunk: run in some order on some workers, seen by as_completed in some order *)
Definition chunk_done (p : pool) (c : list node) (p' : pool) (seen : list (outcome B)) : Prop :=
  exists ts res, Permutation (map snd ts) c /\ run_tasks ts p = (p', res) /\ Permutation res seen.
(* read.py:88-96, transform.py:124-158: the loop over as_completed *)
Fixpoint consume (seen : list (outcome B)) (s : St) : St * outcome unit :=
  match seen with
  | [] => (s, Ok tt)
  | Ok b :: r => match step b s with (s, Ok _) => consume r s | (s, Throw) => (s, Throw) | (s, UB) => (s, UB) end
  | Throw :: _ => (s, Throw)
  | UB :: _ => (s, UB)
  end.
(* read.py:72-96, transform.py:106-158: the loop over the chunks, under any schedule *)
Inductive mp_run : list (list node) -> pool -> St -> St -> outcome unit -> Prop :=
| run_nil p s : mp_run [] p s s (Ok tt)
| run_next c cs p p' seen s s1 s2 o : chunk_done p c p' seen -> consume seen s = (s1, Ok tt) -> mp_run cs p' s1 s2 o -> mp_run (c :: cs) p s s2 o
| run_stop c cs p p' seen s s1 o : chunk_done p c p' seen -> consume seen s = (s1, o) -> o <> Ok tt -> mp_run (c :: cs) p s s1 o.
(* the part common to both functions: select, make chunks, run *)
Definition mp_loop (od : rorders) (nodes : option (list node)) (res : f64) (chunk : Z) (r : reader) (p : pool) (s s' : St) (o : outcome unit) : Prop :=
  exists fuel r' sel, mp_select fuel od nodes res r = Some (r', sel) /\
    match sel with
    | Ok l => match py_chunks chunk l with Ok cs => mp_run cs p s s' o | Throw => s' = s /\ o = Throw | UB => s' = s /\ o = UB end
    | Throw => s' = s /\ o = Throw
    | UB => s' = s /\ o = UB
    end.
End Pool.

(* ---- read.py ---- *)
(* what a user's function is given: the Points of the node *)
Definition node_data := (ModelPoints.heap * points)%type.
(* read.py:99-120 *)
Definition read_task {R} (cd : codec) (rf : node_data -> node -> outcome R) (n : node) (r : reader) : reader * outcome (node * R) :=
  match ship_node n with
  | Ok n =>
      match get_points_node cd [] n r with
      | (r, Ok x) => (r, let! v := rf x n in let! n := ship_node n in Ok (n, v))
      | (r, Throw) => (r, Throw)
      | (r, UB) => (r, UB)
      end
  | Throw => (r, Throw)
  | UB => (r, UB)
  end.
(* read.py:12-96 with the effect of the callback on the program's state *)
Definition read_mt {R St} (cd : codec) (rf : node_data -> node -> outcome R) (callback : node * R -> St -> St * outcome unit) :=
  mp_loop (read_task cd rf) callback.
(* read.py:123-143; class_limits None or [] is no limit *)
Definition xyz := (f64 * f64 * f64)%type.
Definition in_limits (limits : list Z) (p : point) : bool :=
  match limits with [] => true | _ => existsb (fun c => p_class p =? c) limits end.
Definition read_xyz (limits : list Z) (x : node_data) (_ : node) : outcome (list xyz) :=
  let! ps := mapM (hget (fst x)) (c_pts (snd x)) in
  Ok (map (fun p => (p_x p, p_y p, p_z p)) (filter (in_limits limits) ps)).
(* read.py:146-194; np.concatenate of an empty list raises *)
Definition read_concat (cd : codec) (od : rorders) (limits : list Z) (nodes : option (list node)) (res : f64) (chunk : Z) (r : reader) (p : pool) (o : outcome (list xyz)) : Prop :=
  exists all o1, read_mt cd (read_xyz limits) (fun x s => (s ++ [snd x], Ok tt)) od nodes res chunk r p [] all o1 /\
    o = match o1 with Ok _ => match all with [] => Throw | _ => Ok (concat all) end | Throw => Throw | UB => UB end.
(* key.cpp:7-12 *)
Definition show_int (z : Z) : String.string := NilEmpty.string_of_int (Z.to_int z).
Definition key_string (k : key) : String.string :=
  String.append "("%string (String.append (show_int (kd k)) (String.append ", "%string (String.append (show_int (kx k)) (String.append ", "%string (String.append (show_int (ky k)) (String.append ", "%string (String.append (show_int (kz k)) ")"%string))))))).
(* a dict with string keys: the entries in insertion order *)
Fixpoint dict_set {V} (k : String.string) (v : V) (m : list (String.string * V)) : list (String.string * V) :=
  match m with
  | [] => [(k, v)]
  | (k', v') :: r => if String.eqb k k' then (k', v) :: r else (k', v') :: dict_set k v r
  end.
(* read.py:197-245 *)
Definition read_map (cd : codec) (od : rorders) (limits : list Z) (nodes : option (list node)) (res : f64) (chunk : Z) (r : reader) (p : pool) (o : outcome (list (String.string * list xyz))) : Prop :=
  exists m o1, read_mt cd (read_xyz limits) (fun x s => (match snd x with [] => s | _ => dict_set (key_string (n_key (fst x))) (snd x) s end, Ok tt)) od nodes res chunk r p [] m o1 /\
    o = match o1 with Ok _ => Ok m | Throw => Throw | UB => UB end.

(* ---- transform.py ---- *)
Record done := mkDone { dn_data : bytes; dn_node : node; dn_count : Z; dn_bounds : option (vec3 * vec3) }.
(* Python's min and max of a list: the first element that no other is below (above) when compared in order *)
Definition py_min (l : list f64) : outcome f64 := match l with [] => Throw | a :: r => Ok (fold_left (fun m v => if flt v m then v else m) r a) end.
Definition py_max (l : list f64) : outcome f64 := match l with [] => Throw | a :: r => Ok (fold_left (fun m v => if fgt v m then v else m) r a) end.
Definition node_bounds (x : node_data) : outcome (vec3 * vec3) :=
  let! xs := array_get_f ModelPoints.DX (fst x) (snd x) in let! ys := array_get_f ModelPoints.DY (fst x) (snd x) in let! zs := array_get_f ModelPoints.DZ (fst x) (snd x) in
  let! a := py_min xs in let! b := py_min ys in let! c := py_min zs in
  let! a' := py_max xs in let! b' := py_max ys in let! c' := py_max zs in Ok (mkVec a b c, mkVec a' b' c').
(* transform.py:173-222 *)
Definition transform_job (cd : codec) (tf : node_data -> node -> las_header -> outcome node_data) (upd : bool) (h : las_header) (x : node_data) (n : node) : outcome done :=
  let! y := tf x n h in
  let count := Z.of_nat (length (c_pts (snd y))) in
  let! bounds := if upd && (0 <? count) then let! b := node_bounds y in Ok (Some b) else Ok None in
  let! data := points_pack (fst y) (snd y) (h_scale h) (h_offset h) in
  let! eb := h_eb_size h in
  let! (data, _) := compress_bytes cd (h_fmt h) eb data in
  let! data := ship_bytes data in let! n := ship_node n in Ok (mkDone data n count bounds).
Definition transform_task (cd : codec) (tf : node_data -> node -> las_header -> outcome node_data) (upd : bool) (h : las_header) (n : node) (r : reader) : reader * outcome done :=
  match (let! n := ship_node n in let! h := ship_header h in Ok (n, h)) with
  | Ok (n, h) =>
      match get_points_node cd [] n r with
      | (r, Ok x) => (r, transform_job cd tf upd h x n)
      | (r, Throw) => (r, Throw)
      | (r, UB) => (r, UB)
      end
  | Throw => (r, Throw)
  | UB => (r, UB)
  end.
(* transform.py:8-10 *)
Definition copy_points (x : node_data) (_ : node) (_ : las_header) : outcome node_data := Ok x.
(* transform.py:143-158 (without completed_callback, which is in ModelCallback) *)
Definition store {W} (add : done -> W -> W * outcome unit) (d : done) (s : W * list (vec3 * vec3)) : (W * list (vec3 * vec3)) * outcome unit :=
  if 0 <? dn_count d then
    let bs := match dn_bounds d with Some b => snd s ++ [b] | None => snd s end in
    let '(w, o) := add d (fst s) in ((w, bs), o)
  else (s, Ok tt).
(* transform.py:150-156: a copclib.FileWriter; pybind11 raises for a count that is no int32_t *)
Definition add_to_copc (cd : codec) (d : done) (w : writer) : writer * outcome unit :=
  if INT32_MAX <? dn_count d then (w, Throw) else
  match add_node_compressed cd (n_key (dn_node d)) (dn_data d) (dn_count d) (n_page (dn_node d)) w with
  | (w, Ok _) => (w, Ok tt) | (w, Throw) => (w, Throw) | (w, UB) => (w, UB)
  end.
(* transform.py:157-158: a copclib.LazWriter *)
Definition add_to_laz (cd : codec) (d : done) (w : laz_writer) : laz_writer * outcome unit :=
  if INT32_MAX <? dn_count d then (w, Throw) else lstep cd (LWriteCompressed (dn_data d) (dn_count d)) w.

(* np.min and np.max of a column: a NaN if there is one, else a least (greatest) element *)
Definition np_min (l : list f64) (m : f64) : Prop :=
  if existsb fnan l then fnan m = true else In m l /\ Forall (fun v => fle m v = true) l.
Definition np_max (l : list f64) (m : f64) : Prop :=
  if existsb fnan l then fnan m = true else In m l /\ Forall (fun v => fle v m = true) l.
(* transform.py:160-167 *)
Definition global_bounds (l : list (vec3 * vec3)) (mn mx : vec3) : Prop :=
  match l with
  | [] => mn = zero_vec /\ mx = zero_vec
  | _ => let lo := map fst l in let hi := map snd l in
         np_min (map vx lo) (vx mn) /\ np_min (map vy lo) (vy mn) /\ np_min (map vz lo) (vz mn) /\
         np_max (map vx hi) (vx mx) /\ np_max (map vy hi) (vy mx) /\ np_max (map vz hi) (vz mx)
  end.
(* writer_header.min = ..., writer_header.max = ... (transform.py:169-170): the header object is the Writer's own *)
Definition with_bounds (mn mx : vec3) (h : las_header) : las_header :=
  mkHdr (h_src h) (h_enc h) (h_day h) (h_year h) mx mn (h_pbr h) (h_scale h) (h_offset h) (h_fmt h) (h_reclen h) (h_pcount h) (h_poff h) (h_vlrs h) (h_evoff h) (h_evcnt h)
    (h_guid h) (h_sys h) (h_gen h) (h_copc h).
Definition copc_bounds (mn mx : vec3) (w : writer) : writer :=
  let c := w_cfg w in with_cfg (mkCfg (with_bounds mn mx (c_hdr c)) (c_wkt c) (c_ebs c) (c_info c) (c_exts c)) w.
Definition laz_bounds (mn mx : vec3) (w : laz_writer) : laz_writer :=
  let z := lw_cfg w in mkLW (lw_base w) (mkLaz (with_bounds mn mx (z_hdr z)) (z_wkt z) (z_ebs z)).

(* transform.py:20-170; the writer's header is pickled for every task and stays the same during the loop *)
Definition transform_mt {W} (add : done -> W -> W * outcome unit) (set_bounds : vec3 -> vec3 -> W -> W) (cd : codec)
  (tf : node_data -> node -> las_header -> outcome node_data) (upd : bool) (h : las_header)
  (od : rorders) (nodes : option (list node)) (res : f64) (chunk : Z) (r : reader) (p : pool) (w w' : W) (o : outcome unit) : Prop :=
  exists w1 bs, mp_loop (transform_task cd tf upd h) (store add) od nodes res chunk r p (w, []) (w1, bs) o /\
    match o with
    | Ok _ => if upd then exists mn mx, global_bounds bs mn mx /\ w' = set_bounds mn mx w1 else w' = w1
    | _ => w' = w1
    end.
Definition transform_copc (cd : codec) tf upd od nodes res chunk r p (w : writer) := transform_mt (add_to_copc cd) copc_bounds cd tf upd (c_hdr (w_cfg w)) od nodes res chunk r p w.
Definition transform_laz (cd : codec) tf upd od nodes res chunk r p (w : laz_writer) := transform_mt (add_to_laz cd) laz_bounds cd tf upd (z_hdr (lw_cfg w)) od nodes res chunk r p w.
