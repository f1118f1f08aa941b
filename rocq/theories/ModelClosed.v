(* ModelClosed.v - the answers of Reader queries, and a FileReader after Close.
   Source: cpp/include/copc-lib/io/copc_reader.hpp:84-117 (FileReader), cpp/src/io/copc_base_io.cpp,
   cpp/src/io/copc_reader.cpp *)
From Verif Require Import Base ModelFloat ModelKey ModelGeom ModelEntry ModelPoint ModelPoints ModelHeader ModelVlr ModelExtents ModelConfig
  ModelStream ModelReader.

(* ---- what a query returns ---- *)
Inductive answer :=
| ANode (n : node) | ANodes (l : list node) | AKeys (l : list key) | ABytes (b : bytes) | APoints (x : ModelPoints.heap * points) | ADepth (d : Z) | ABool (b : bool).
Definition wrap {A} (f : A -> answer) (x : call A) : call answer :=
  match x with
  | None => None
  | Some (r, Ok a) => Some (r, Ok (f a))
  | Some (r, Throw) => Some (r, Throw)
  | Some (r, UB) => Some (r, UB)
  end.
(* the same calls as ModelReader.ask, with their results *)
Definition answer_to (cd : codec) (od : rorders) (fuel : nat) (q : query) (r : reader) : call answer :=
  match q with
  | QFind k => wrap ANode (find_node fuel k r)
  | QPoints k => wrap APoints (get_points cd fuel [] k r)
  | QPointsOf n => wrap APoints (Some (get_points_node cd [] n r))
  | QData k => wrap ABytes (get_point_data cd fuel k r)
  | QDataOf n => wrap ABytes (Some (get_point_data_node cd n r))
  | QCompressed k => wrap ABytes (get_compressed fuel k r)
  | QCompressedOf n => wrap ABytes (Some (get_compressed_node n r))
  | QChildren k => wrap ANodes (get_all_children_of_page fuel od k r)
  | QAllNodes => wrap ANodes (get_all_nodes fuel od r)
  | QPages => wrap AKeys (get_page_list fuel od r)
  | QAllPoints res => wrap APoints (get_all_points cd fuel od [] res r)
  | QDepth res => wrap ADepth (get_depth_at_resolution fuel od res r)
  | QAtRes res => wrap ANodes (get_nodes_at_resolution fuel od res r)
  | QWithinRes res => wrap ANodes (get_nodes_within_resolution fuel od res r)
  | QNodesWithin b res => wrap ANodes (get_nodes_within_box b fuel od res r)
  | QNodesIntersect b res => wrap ANodes (get_nodes_intersect_box b fuel od res r)
  | QPointsWithin b res => wrap APoints (get_points_within_box cd b fuel od [] res r)
  | QValidate v => wrap ABool (validate_spatial_bounds cd fuel od v r)
  end.

(* ---- after Close ---- *)
(* copc_reader.hpp:100-108: Close deletes the stream and keeps the pointer, so whatever would read
   from it is undefined.  The rest of the object is still there.  Nothing changes in it any more, so
   the calls only have a result (None: not returned within the given recursion). *)
Definition ccall (A : Type) := option (outcome A).
Definition cthen {A B} (x : ccall A) (f : A -> ccall B) : ccall B :=
  match x with
  | None => None
  | Some (Ok a) => f a
  | Some Throw => Some Throw
  | Some UB => Some UB
  end.
Notation "'after!' a := x 'in' f" := (cthen x (fun a => f)) (at level 200, a name, x at level 100, f at level 200).
(* copc_reader.cpp:70-92: the page's validity is checked before the stream is used *)
Definition closed_parse (p : rpage) : outcome unit := if negb (rpage_valid p) then Throw else UB.
(* copc_base_io.cpp:9-32; the fuel is that of ModelReader.find_node *)
Definition closed_find (fuel : nat) (k : key) (r : reader) : ccall node :=
  match fuel with
  | O => None
  | S _ =>
      match mget k (r_nodes r) with
      | Some n => Some (Ok n)
      | None =>
          match nearest_seen (get_parents true k) (r_seen r) with
          | None => Some (Ok invalid_node)
          | Some i =>
              match nth_error (r_pages r) i with
              | None => Some UB
              | Some p => if rp_loaded p then Some (Ok invalid_node) else Some (let! _ := closed_parse p in Ok invalid_node)
              end
          end
      end
  end.
Fixpoint each_closed {A B} (f : A -> ccall (list B)) (l : list A) : ccall (list B) :=
  match l with
  | [] => Some (Ok [])
  | a :: l' => after! x := f a in after! y := each_closed f l' in Some (Ok (x ++ y))
  end.
(* copc_base_io.cpp:34-50 *)
Fixpoint closed_load (fuel : nat) (od : rorders) (r : reader) (i : nat) : ccall (list node) :=
  match fuel with
  | O => None
  | S f =>
      match nth_error (r_pages r) i with
      | None => Some UB
      | Some p =>
          if negb (rpage_valid p) then Some (Ok [])
          else
            after! _u := (if rp_loaded p then Some (Ok tt) else Some (closed_parse p)) in
            after! l := each_closed (closed_load f od r) (ro_subs od (rp_key p) (rp_subs p)) in
            Some (Ok (l ++ ro_nodes od (rp_key p) (map snd (rp_nodes p))))
      end
  end.
(* copc_reader.cpp:161-180, copc_reader.hpp:44 *)
Definition closed_children (fuel : nat) (od : rorders) (k : key) (r : reader) : ccall (list node) :=
  if negb (key_valid k) then Some (Ok [])
  else
    after! n := closed_find fuel k r in
    match mget k (r_seen r) with
    | None => Some (Ok (if node_valid n then [n] else []))
    | Some i => closed_load fuel od r i
    end.
Definition closed_all_nodes (fuel : nat) (od : rorders) (r : reader) : ccall (list node) := closed_children fuel od root_key r.
(* copc_reader.cpp:182-195 *)
Definition closed_page_list (fuel : nat) (od : rorders) (r : reader) : ccall (list key) :=
  after! _u := closed_all_nodes fuel od r in
  match (fix go (l : list nat) : outcome (list key) :=
           match l with
           | [] => Ok []
           | i :: l' => match nth_error (r_pages r) i with None => UB | Some p => let! ks := go l' in Ok (rp_key p :: ks) end
           end) (ro_seen od (map snd (r_seen r))) with
  | Ok ks => Some (Ok ks)
  | _ => Some UB
  end.
(* copc_reader.cpp:268-294 *)
Definition closed_depth (fuel : nat) (od : rorders) (res : f64) (r : reader) : ccall Z :=
  after! l := closed_all_nodes fuel od r in Some (depth_for l (i_spacing (c_info (r_cfg r))) res).
(* copc_reader.cpp:210-239 and 296-324 *)
Definition closed_select (cond : las_header -> Z -> node -> bool) (fuel : nat) (od : rorders) (res : f64) (r : reader) : ccall (list node) :=
  after! d := closed_depth fuel od res r in
  after! l := closed_all_nodes fuel od r in
  Some (Ok (filter (cond (c_hdr (r_cfg r)) d) l)).
(* copc_reader.cpp:94-159: an invalid node is refused, for any other the stream is used *)
Definition closed_data {A} (n : node) : outcome A := if negb (node_valid n) then Throw else UB.
Definition closed_by_key (fuel : nat) (k : key) (r : reader) : ccall bytes :=
  if negb (key_valid k) then Some (Ok [])
  else
    after! n := closed_find fuel k r in
    if negb (node_valid n) then Some (Ok []) else Some (closed_data n).
(* copc_reader.cpp:100-108 *)
Definition closed_points (fuel : nat) (hp : ModelPoints.heap) (k : key) (r : reader) : ccall (ModelPoints.heap * points) :=
  after! data := closed_by_key fuel k r in
  match data with
  | [] => Some (let! c := empty_points (c_hdr (r_cfg r)) in Ok (hp, c))
  | _ => Some (unpack_with hp data (c_hdr (r_cfg r)))
  end.
(* copc_reader.cpp:197-208 and 241-266: the first node whose points are needed *)
Fixpoint closed_add (need : node -> bool) (l : list node) (x : ModelPoints.heap * points) : outcome (ModelPoints.heap * points) :=
  match l with
  | [] => Ok x
  | n :: l' => if need n then closed_data n else closed_add need l' x
  end.
Definition closed_all_points (fuel : nat) (od : rorders) (hp : ModelPoints.heap) (res : f64) (r : reader) : ccall (ModelPoints.heap * points) :=
  match empty_points (c_hdr (r_cfg r)) with
  | Ok out =>
      after! d := closed_depth fuel od res r in
      after! l := closed_all_nodes fuel od r in
      Some (closed_add (fun n => kd (n_key n) <=? d) l (hp, out))
  | Throw => Some Throw
  | UB => Some UB
  end.
Definition closed_box_points (b : box) (fuel : nat) (od : rorders) (hp : ModelPoints.heap) (res : f64) (r : reader) : ccall (ModelPoints.heap * points) :=
  after! d := closed_depth fuel od res r in
  match empty_points (c_hdr (r_cfg r)) with
  | Ok out =>
      after! l := closed_all_nodes fuel od r in
      let h := c_hdr (r_cfg r) in
      Some (closed_add (fun n => (kd (n_key n) <=? d) && (key_within (n_key n) (h_min h) (h_max h) b || key_intersects (n_key n) (h_min h) (h_max h) b)) l (hp, out))
  | Throw => Some Throw
  | UB => Some UB
  end.
(* copc_reader.cpp:326-409 *)
Fixpoint closed_validate (verbose : bool) (h : las_header) (l : list node) (t1 : Z) (valid : bool) : outcome bool :=
  match l with
  | [] => Ok valid
  | n :: l' =>
      let nb := box_of_key (n_key n) (h_min h) (h_max h) in
      let! hb := header_bounds (h_min h) (h_max h) in
      if negb (box_intersects nb hb) then
        if negb verbose then Ok false
        else let! t1 := add_int t1 (e_count (n_entry n)) in closed_validate verbose h l' t1 false
      else closed_data n
  end.
Definition closed_answer (od : rorders) (fuel : nat) (q : query) (r : reader) : ccall answer :=
  let ok {A} (f : A -> answer) (x : ccall A) : ccall answer := after! a := x in Some (Ok (f a)) in
  match q with
  | QFind k => ok ANode (closed_find fuel k r)
  | QPoints k => ok APoints (closed_points fuel [] k r)
  | QPointsOf n => ok APoints (Some (closed_data n))
  | QData k => ok ABytes (closed_by_key fuel k r)
  | QDataOf n => ok ABytes (Some (closed_data n))
  | QCompressed k => ok ABytes (closed_by_key fuel k r)
  | QCompressedOf n => ok ABytes (Some (closed_data n))
  | QChildren k => ok ANodes (closed_children fuel od k r)
  | QAllNodes => ok ANodes (closed_all_nodes fuel od r)
  | QPages => ok AKeys (closed_page_list fuel od r)
  | QAllPoints res => ok APoints (closed_all_points fuel od [] res r)
  | QDepth res => ok ADepth (closed_depth fuel od res r)
  | QAtRes res => ok ANodes (closed_select (fun _ d n => kd (n_key n) =? d) fuel od res r)
  | QWithinRes res => ok ANodes (closed_select (fun _ d n => kd (n_key n) <=? d) fuel od res r)
  | QNodesWithin b res => ok ANodes (closed_select (fun h d n => key_within (n_key n) (h_min h) (h_max h) b && (kd (n_key n) <=? d)) fuel od res r)
  | QNodesIntersect b res => ok ANodes (closed_select (fun h d n => key_intersects (n_key n) (h_min h) (h_max h) b && (kd (n_key n) <=? d)) fuel od res r)
  | QPointsWithin b res => ok APoints (closed_box_points b fuel od [] res r)
  | QValidate v => ok ABool (after! l := closed_all_nodes fuel od r in Some (closed_validate v (c_hdr (r_cfg r)) l 0 true))
  end.

(* copc_reader.hpp:84-117: a FileReader, its is_open_ flag, and the calls a program makes on it *)
Record file_reader := mkFR { fr_reader : reader; fr_open : bool }.
Inductive fcall := FAsk (q : query) | FClose.
(* the constructor (lines 85-97) on a file that could be opened *)
Definition open_file_reader (f : bytes) : outcome file_reader := let! r := open_reader true f in Ok (mkFR r true).
(* line 100-108; the destructor calls Close as well *)
Definition fclose (x : file_reader) : file_reader := mkFR (fr_reader x) false.
Definition fask (cd : codec) (od : rorders) (fuel : nat) (q : query) (x : file_reader) : option (file_reader * outcome answer) :=
  if fr_open x then match answer_to cd od fuel q (fr_reader x) with Some (r, a) => Some (mkFR r true, a) | None => None end
  else match closed_answer od fuel q (fr_reader x) with Some a => Some (x, a) | None => None end.
(* a sequence of calls, with what the queries answered; None when one of them is undefined or does not return *)
Fixpoint frun (cd : codec) (od : rorders) (fuel : nat) (cs : list fcall) (x : file_reader) : option (file_reader * list (outcome answer)) :=
  match cs with
  | [] => Some (x, [])
  | FClose :: cs => frun cd od fuel cs (fclose x)
  | FAsk q :: cs =>
      match fask cd od fuel q x with
      | None | Some (_, UB) => None
      | Some (x', a) => match frun cd od fuel cs x' with Some (y, l) => Some (y, a :: l) | None => None end
      end
  end.
