(* ModelReader.v - reading COPC files: opening, hierarchy, node data, queries.
   Source: cpp/src/io/base_reader.cpp, cpp/src/io/copc_base_io.cpp, cpp/src/io/copc_reader.cpp,
   cpp/include/copc-lib/laz/decompressor.hpp, cpp/include/copc-lib/hierarchy/internal/{hierarchy,page}.hpp,
   cpp/include/copc-lib/hierarchy/page.hpp *)
From Verif Require Import Base ModelFloat ModelKey ModelGeom ModelEntry ModelPoint ModelPoints ModelHeader ModelVlr ModelExtents ModelConfig
  ModelStream.

(* hierarchy/page.hpp:14-28, internal/page.hpp:14-23: key, offset (uint64), size (int32), loaded flag, sub-pages
   (a set of pointers: indices of page objects), nodes *)
Record rpage := mkRP { rp_key : key; rp_off : Z; rp_size : Z; rp_loaded : bool; rp_subs : list nat; rp_nodes : kmap node }.
(* the std::istream (contents, failbit, and whether it is a file stream: a string stream refuses to
   seek past its end, a file stream does not), the configuration and the Hierarchy
   (hierarchy.hpp:46-47).  Every method seeks before it reads, so the position is not kept. *)
Record reader := mkR { r_data : bytes; r_isfile : bool; r_fail : bool; r_cfg : config;
  r_pages : list rpage; r_seen : kmap nat; r_nodes : kmap node }.
Definition with_fail (b : bool) (r : reader) : reader := mkR (r_data r) (r_isfile r) b (r_cfg r) (r_pages r) (r_seen r) (r_nodes r).

(* seekg(offset): the uint64 becomes a signed streamoff; no effect on a failed stream *)
Definition seek_fails (isfile : bool) (data : bytes) (off : Z) : bool :=
  let o := to_s 64 off in (o <? 0) || (negb isfile && (Z.of_nat (length data) <? o)).
Definition seek (off : Z) (r : reader) : reader :=
  if r_fail r then r else with_fail (seek_fails (r_isfile r) (r_data r) off) r.
(* what can be read after seek *)
Definition rest_at (off : Z) (r : reader) : bytes := if r_fail r then [] else skipn (Z.to_nat off) (r_data r).

(* ---- pages ---- *)
(* hierarchy/page.hpp:22 *)
Definition rpage_valid (p : rpage) : bool :=
  (rp_loaded p || ((0 <=? rp_off p) && (0 <=? rp_size p))) && key_valid (rp_key p).
(* hierarchy/page.hpp:17-18: a page that was referred to but not read *)
Definition new_rpage (k : key) (off size : Z) : rpage := mkRP k off size false [] [].

(* entry.hpp:51-67 at the end of the stream: fields that were not read keep their initial value, -1
   for the key (so it is invalid) and nothing at all for the offset, size and count *)
Definition short_entry (b : bytes) : outcome (list entry) :=
  match (let? (d, b) := dec_s 4 b in let? (x, b) := dec_s 4 b in let? (y, b) := dec_s 4 b in let? (z, b) := dec_s 4 b in Some (mkKey d x y z)) with
  | Some k => if key_valid k then UB else Throw
  | None => Throw
  end.
(* copc_reader.cpp:78-88: did a read run out of bytes, and the entries *)
Fixpoint read_entries (n : nat) (b : bytes) : bool * outcome (list entry) :=
  match n with
  | O => (false, Ok [])
  | S m =>
      match entry_unpack b with
      | None => (true, short_entry b)
      | Some (e, b) =>
          if negb (entry_valid e) then (false, Throw)
          else match read_entries m b with (f, Ok l) => (f, Ok (e :: l)) | x => x end
      end
  end.
Definition upd_nth {A} (i : nat) (f : A -> A) (l : list A) : list A :=
  firstn i l ++ match skipn i l with [] => [] | a :: r => f a :: r end.
Definition with_pages (pages : list rpage) (r : reader) : reader :=
  mkR (r_data r) (r_isfile r) (r_fail r) (r_cfg r) pages (r_seen r) (r_nodes r).
Definition set_loaded (p : rpage) : rpage := mkRP (rp_key p) (rp_off p) (rp_size p) true (rp_subs p) (rp_nodes p).
(* copc_reader.cpp:70-92 *)
Definition read_page (i : nat) (r : reader) : reader * outcome (list entry) :=
  match nth_error (r_pages r) i with
  | None => (r, UB)
  | Some p =>
      if negb (rpage_valid p) then (r, Throw)
      else
        let r := seek (rp_off p) r in
        match read_entries (Z.to_nat (rp_size p / 32)) (rest_at (rp_off p) r) with
        | (f, Ok l) => (with_pages (upd_nth i set_loaded (r_pages r)) (with_fail (r_fail r || f) r), Ok l)
        | (f, Throw) => (with_fail (r_fail r || f) r, Throw)
        | (f, UB) => (with_fail (r_fail r || f) r, UB)
        end
  end.
Definition add_subpage (id : nat) (p : rpage) : rpage :=
  mkRP (rp_key p) (rp_off p) (rp_size p) (rp_loaded p) (rp_subs p ++ [id]) (rp_nodes p).
Definition add_page_node (n : node) (p : rpage) : rpage :=
  mkRP (rp_key p) (rp_off p) (rp_size p) (rp_loaded p) (rp_subs p) (mset (n_key n) n (rp_nodes p)).
(* copc_base_io.cpp:55-70: the loop over the entries of page i, whose key is pk *)
Definition add_entry (i : nat) (pk : key) (r : reader) (e : entry) : reader :=
  if entry_is_page e then
    let id := length (r_pages r) in
    mkR (r_data r) (r_isfile r) (r_fail r) (r_cfg r)
      (upd_nth i (add_subpage id) (r_pages r ++ [new_rpage (e_key e) (e_offset e) (e_size e)]))
      (mset (e_key e) id (r_seen r)) (r_nodes r)
  else
    let n := mkNode e pk in
    mkR (r_data r) (r_isfile r) (r_fail r) (r_cfg r) (upd_nth i (add_page_node n) (r_pages r)) (r_seen r) (mset (e_key e) n (r_nodes r)).
(* copc_base_io.cpp:52-71 *)
Definition read_and_parse (i : nat) (r : reader) : reader * outcome unit :=
  match nth_error (r_pages r) i with
  | None => (r, UB)
  | Some p =>
      match read_page i r with
      | (r, Ok l) => (fold_left (add_entry i (rp_key p)) l r, Ok tt)
      | (r, Throw) => (r, Throw)
      | (r, UB) => (r, UB)
      end
  end.

(* hierarchy.hpp:33-41 *)
Fixpoint nearest_seen (ks : list key) (seen : kmap nat) : option nat :=
  match ks with
  | [] => None
  | k :: r => match mget k seen with Some i => Some i | None => nearest_seen r seen end
  end.

(* A call either returns, throws or is undefined, or has not returned within the given number of
   recursive calls (None): one that is None for every number does not terminate. *)
Definition call (A : Type) := option (reader * outcome A).
Definition and_then {A B} (x : call A) (f : A -> reader -> call B) : call B :=
  match x with
  | None => None
  | Some (r, Ok a) => f a r
  | Some (r, Throw) => Some (r, Throw)
  | Some (r, UB) => Some (r, UB)
  end.
Notation "'call!' a , r := x 'in' f" := (and_then x (fun a r => f)) (at level 200, a name, r name, x at level 100, f at level 200).

(* copc_base_io.cpp:9-32 *)
Fixpoint find_node (fuel : nat) (k : key) (r : reader) : call node :=
  match fuel with
  | O => None
  | S f =>
      match mget k (r_nodes r) with
      | Some n => Some (r, Ok n)
      | None =>
          match nearest_seen (get_parents true k) (r_seen r) with
          | None => Some (r, Ok invalid_node)
          | Some i =>
              match nth_error (r_pages r) i with
              | None => Some (r, UB)
              | Some p =>
                  if rp_loaded p then Some (r, Ok invalid_node)
                  else call! _u, r := Some (read_and_parse i r) in find_node f k r
              end
          end
      end
  end.

(* iteration orders of the set of sub-page pointers and of the hash maps: whatever the standard
   library produces *)
Record rorders := mkRO { ro_subs : key -> list nat -> list nat; ro_nodes : key -> list node -> list node; ro_seen : list nat -> list nat }.

(* run a call on every element, appending the results *)
Fixpoint each_call {A B} (f : A -> reader -> call (list B)) (l : list A) (r : reader) : call (list B) :=
  match l with
  | [] => Some (r, Ok [])
  | a :: l' => call! x, r := f a r in call! y, r := each_call f l' r in Some (r, Ok (x ++ y))
  end.
(* copc_base_io.cpp:34-50 *)
Fixpoint load_pages (fuel : nat) (od : rorders) (i : nat) (r : reader) : call (list node) :=
  match fuel with
  | O => None
  | S f =>
      match nth_error (r_pages r) i with
      | None => Some (r, UB)
      | Some p =>
          if negb (rpage_valid p) then Some (r, Ok [])
          else
            call! _u, r := (if rp_loaded p then Some (r, Ok tt) else Some (read_and_parse i r)) in
            match nth_error (r_pages r) i with
            | None => Some (r, UB)
            | Some p =>
                call! l, r := each_call (load_pages f od) (ro_subs od (rp_key p) (rp_subs p)) r in
                Some (r, Ok (l ++ ro_nodes od (rp_key p) (map snd (rp_nodes p))))
            end
      end
  end.

(* copc_reader.cpp:161-180 *)
Definition get_all_children_of_page (fuel : nat) (od : rorders) (k : key) (r : reader) : call (list node) :=
  if negb (key_valid k) then Some (r, Ok [])
  else
    call! n, r := find_node fuel k r in
    match mget k (r_seen r) with
    | None => Some (r, Ok (if node_valid n then [n] else []))
    | Some i => load_pages fuel od i r
    end.
(* copc_reader.hpp:44 *)
Definition get_all_nodes (fuel : nat) (od : rorders) (r : reader) : call (list node) := get_all_children_of_page fuel od root_key r.
(* copc_reader.cpp:182-195 *)
Definition get_page_list (fuel : nat) (od : rorders) (r : reader) : call (list key) :=
  call! _u, r := get_all_nodes fuel od r in
  match (fix go (l : list nat) : outcome (list key) :=
           match l with
           | [] => Ok []
           | i :: l' => match nth_error (r_pages r) i with None => UB | Some p => let! ks := go l' in Ok (rp_key p :: ks) end
           end) (ro_seen od (map snd (r_seen r))) with
  | Ok ks => Some (r, Ok ks)
  | _ => Some (r, UB)
  end.

(* ---- node data ---- *)
(* decompressor.hpp:22-40: every record is decompressed into char buff[255], which takes the base size and
   eb bytes (point_size, the part that is copied, is narrowed to uint16).  lazperf (external) throws when the input runs out, which leaves the stream failed; on success the flags are cleared. *)
Definition decompress_node (cd : codec) (fmt eb : Z) (count off : Z) (r : reader) : reader * outcome bytes :=
  match base_size fmt with
  | Throw => (r, Throw)
  | UB => (r, UB)
  | Ok base =>
      if count <=? 0 then (with_fail false r, Ok [])
      else if 255 <? base + eb then (r, UB)
      else if r_fail r then (r, Throw)
      else match cd_decomp cd fmt eb count (rest_at off r) with
           | Some b => (with_fail false r, Ok b)
           | None => (with_fail true r, Throw)
           end
  end.
(* copc_reader.cpp:110-120 *)
Definition get_point_data_node (cd : codec) (n : node) (r : reader) : reader * outcome bytes :=
  if negb (node_valid n) then (r, Throw)
  else
    let off := e_offset (n_entry n) in
    let r := seek off r in
    match h_eb_size (c_hdr (r_cfg r)) with
    | Ok eb => decompress_node cd (h_fmt (c_hdr (r_cfg r))) eb (e_count (n_entry n)) off r
    | Throw => (r, Throw)
    | UB => (r, UB)
    end.
(* copc_reader.cpp:135-146: what cannot be read stays zero, and no error is reported *)
Definition get_compressed_node (n : node) (r : reader) : reader * outcome bytes :=
  if negb (node_valid n) then (r, Throw)
  else
    let off := e_offset (n_entry n) in
    let size := Z.to_nat (e_size (n_entry n)) in
    let r := seek off r in
    let got := firstn size (rest_at off r) in
    (with_fail (r_fail r || (length got <? size)%nat) r, Ok (got ++ zeros (size - length got))).
(* copc_reader.cpp:122-133 and 148-159: a key that is invalid or not found gives no bytes *)
Definition by_key (f : node -> reader -> reader * outcome bytes) (fuel : nat) (k : key) (r : reader) : call bytes :=
  if negb (key_valid k) then Some (r, Ok [])
  else
    call! n, r := find_node fuel k r in
    if negb (node_valid n) then Some (r, Ok []) else Some (f n r).
Definition get_point_data (cd : codec) := by_key (get_point_data_node cd).
Definition get_compressed := by_key get_compressed_node.

(* points.cpp:70-73 Unpack with a header; new points are added to the program's heap hp *)
Definition unpack_with (hp : ModelPoints.heap) (data : bytes) (h : las_header) : outcome (ModelPoints.heap * points) :=
  let! eb := h_eb_size h in points_unpack hp data (h_fmt h) eb (h_scale h) (h_offset h).
(* points.cpp:18 Points(header) *)
Definition empty_points (h : las_header) : outcome points := let! eb := h_eb_size h in new_points (h_fmt h) eb.
(* copc_reader.cpp:94-98 *)
Definition get_points_node (cd : codec) (hp : ModelPoints.heap) (n : node) (r : reader) : reader * outcome (ModelPoints.heap * points) :=
  match get_point_data_node cd n r with
  | (r, Ok data) => (r, unpack_with hp data (c_hdr (r_cfg r)))
  | (r, Throw) => (r, Throw)
  | (r, UB) => (r, UB)
  end.
(* copc_reader.cpp:100-108 *)
Definition get_points (cd : codec) (fuel : nat) (hp : ModelPoints.heap) (k : key) (r : reader) : call (ModelPoints.heap * points) :=
  call! data, r := get_point_data cd fuel k r in
  match data with
  | [] => Some (r, let! c := empty_points (c_hdr (r_cfg r)) in Ok (hp, c))
  | _ => Some (r, unpack_with hp data (c_hdr (r_cfg r)))
  end.

(* ---- queries ---- *)
Definition f2 : f64 := f64_of_Z 2.
(* copc_reader.cpp:282-290; the loop counter is an int32_t *)
Fixpoint depth_loop (n : nat) (i maxd : Z) (cur res : f64) : outcome Z :=
  match n with
  | O => if maxd =? INT32_MAX then UB else Ok maxd
  | S m => if fle cur res then Ok i else depth_loop m (i + 1) maxd (fdiv cur f2) res
  end.
Definition max_depth_of (l : list node) : Z := fold_left (fun m n => if m <? kd (n_key n) then kd (n_key n) else m) l (-1).
(* copc_reader.cpp:268-292 *)
Definition depth_for (l : list node) (spacing res : f64) : outcome Z :=
  let maxd := max_depth_of l in
  if fle res f0 then Ok maxd else depth_loop (Z.to_nat (maxd + 1)) 0 maxd spacing res.
Definition get_depth_at_resolution (fuel : nat) (od : rorders) (res : f64) (r : reader) : call Z :=
  call! l, r := get_all_nodes fuel od r in Some (r, depth_for l (i_spacing (c_info (r_cfg r))) res).
(* copc_reader.cpp:294 *)
Definition get_max_depth (fuel : nat) (od : rorders) := get_depth_at_resolution fuel od (f64_of_Z (-1)).

(* copc_reader.cpp:210-239 and 296-324: nodes selected by a condition on the depth limit and the key *)
Definition select_nodes (cond : las_header -> Z -> node -> bool) (fuel : nat) (od : rorders) (res : f64) (r : reader) : call (list node) :=
  call! d, r := get_depth_at_resolution fuel od res r in
  call! l, r := get_all_nodes fuel od r in
  Some (r, Ok (filter (cond (c_hdr (r_cfg r)) d) l)).
Definition get_nodes_within_box (b : box) := select_nodes (fun h d n => key_within (n_key n) (h_min h) (h_max h) b && (kd (n_key n) <=? d)).
Definition get_nodes_intersect_box (b : box) := select_nodes (fun h d n => key_intersects (n_key n) (h_min h) (h_max h) b && (kd (n_key n) <=? d)).
Definition get_nodes_at_resolution := select_nodes (fun _ d n => kd (n_key n) =? d).
Definition get_nodes_within_resolution := select_nodes (fun _ d n => kd (n_key n) <=? d).

(* a loop over nodes that adds points to 'out' *)
Fixpoint add_from (f : node -> ModelPoints.heap -> points -> reader -> reader * outcome (ModelPoints.heap * points))
  (l : list node) (hp : ModelPoints.heap) (out : points) (r : reader) : reader * outcome (ModelPoints.heap * points) :=
  match l with
  | [] => (r, Ok (hp, out))
  | n :: l' =>
      match f n hp out r with
      | (r, Ok (hp, out)) => add_from f l' hp out r
      | (r, Throw) => (r, Throw)
      | (r, UB) => (r, UB)
      end
  end.
(* out.AddPoints(GetPoints(node)) *)
Definition add_all_of (cd : codec) (n : node) (hp : ModelPoints.heap) (out : points) (r : reader) : reader * outcome (ModelPoints.heap * points) :=
  match get_points_node cd hp n r with
  | (r, Ok (hp, c)) => (r, let! out := add_points out c in Ok (hp, out))
  | (r, Throw) => (r, Throw)
  | (r, UB) => (r, UB)
  end.
(* out.AddPoints(GetPoints(node).GetWithin(box)) *)
Definition add_some_of (cd : codec) (b : box) (n : node) (hp : ModelPoints.heap) (out : points) (r : reader) : reader * outcome (ModelPoints.heap * points) :=
  match get_points_node cd hp n r with
  | (r, Ok (hp, c)) => (r, let! l := get_within hp (c_pts c) b in let! out := add_points_vec hp out l in Ok (hp, out))
  | (r, Throw) => (r, Throw)
  | (r, UB) => (r, UB)
  end.
(* copc_reader.cpp:197-208 *)
Definition get_all_points (cd : codec) (fuel : nat) (od : rorders) (hp : ModelPoints.heap) (res : f64) (r : reader) : call (ModelPoints.heap * points) :=
  match empty_points (c_hdr (r_cfg r)) with
  | Ok out =>
      call! d, r := get_depth_at_resolution fuel od res r in
      call! l, r := get_all_nodes fuel od r in
      Some (add_from (fun n hp out r => if kd (n_key n) <=? d then add_all_of cd n hp out r else (r, Ok (hp, out))) l hp out r)
  | Throw => Some (r, Throw)
  | UB => Some (r, UB)
  end.
(* copc_reader.cpp:241-266 *)
Definition get_points_within_box (cd : codec) (b : box) (fuel : nat) (od : rorders) (hp : ModelPoints.heap) (res : f64) (r : reader) : call (ModelPoints.heap * points) :=
  call! d, r := get_depth_at_resolution fuel od res r in
  match empty_points (c_hdr (r_cfg r)) with
  | Ok out =>
      call! l, r := get_all_nodes fuel od r in
      let h := c_hdr (r_cfg r) in
      Some (add_from (fun n hp out r =>
        if kd (n_key n) <=? d then
          if key_within (n_key n) (h_min h) (h_max h) b then add_all_of cd n hp out r
          else if key_intersects (n_key n) (h_min h) (h_max h) b then add_some_of cd b n hp out r
          else (r, Ok (hp, out))
        else (r, Ok (hp, out))) l hp out r)
  | Throw => Some (r, Throw)
  | UB => Some (r, UB)
  end.

(* ---- ValidateSpatialBounds (copc_reader.cpp:326-409) ---- *)
(* the verbose pass counts into an int *)
Definition add_int (a b : Z) : outcome Z := if i32 (a + b) then Ok (a + b) else UB.
(* a loop over points: None = a point failed the test and the call is not verbose; otherwise the
   counter and whether all points passed *)
Fixpoint check_points (verbose : bool) (ok : point -> bool) (ps : list point) (total : Z) : outcome (option (Z * bool)) :=
  match ps with
  | [] => Ok (Some (total, true))
  | p :: l =>
      if ok p then check_points verbose ok l total
      else if negb verbose then Ok None
      else let! t := add_int total 1 in let! x := check_points verbose ok l t in
           Ok (match x with Some (t, _) => Some (t, false) | None => None end)
  end.
(* lines 373-417; the two counters and the result so far *)
Fixpoint validate_nodes (cd : codec) (verbose : bool) (l : list node) (t1 t2 : Z) (valid : bool) (r : reader) : reader * outcome bool :=
  match l with
  | [] => (r, Ok valid)
  | n :: l' =>
      let h := c_hdr (r_cfg r) in
      let nb := box_of_key (n_key n) (h_min h) (h_max h) in
      match header_bounds (h_min h) (h_max h) with
      | Throw => (r, Throw)
      | UB => (r, UB)
      | Ok hb =>
          if negb (box_intersects nb hb) then
            if negb verbose then (r, Ok false)
            else match add_int t1 (e_count (n_entry n)) with
                 | Ok t1 => validate_nodes cd verbose l' t1 t2 false r
                 | Throw => (r, Throw) | UB => (r, UB)
                 end
          else
            match get_points_node cd [] n r with
            | (r, Throw) => (r, Throw)
            | (r, UB) => (r, UB)
            | (r, Ok (hp, c)) =>
                match (let! ps := mapM (hget hp) (c_pts c) in
                       let! x := (if box_within nb hb then Ok (Some (t1, true)) else check_points verbose (fun p => point_within p hb) ps t1) in
                       match x with
                       | None => Ok None
                       | Some (t1, v1) =>
                           let! y := check_points verbose (fun p => point_within p nb) ps t2 in
                           Ok (match y with None => None | Some (t2, v2) => Some (t1, t2, v1 && v2) end)
                       end) with
                | Throw => (r, Throw)
                | UB => (r, UB)
                | Ok None => (r, Ok false)
                | Ok (Some (t1, t2, v)) => validate_nodes cd verbose l' t1 t2 (valid && v) r
                end
            end
      end
  end.
Definition validate_spatial_bounds (cd : codec) (fuel : nat) (od : rorders) (verbose : bool) (r : reader) : call bool :=
  call! l, r := get_all_nodes fuel od r in Some (validate_nodes cd verbose l 0 0 true r).

(* ---- opening a file ---- *)
(* std::map<uint64_t, VlrHeader>::insert: keeps the records sorted by offset, ignores duplicates *)
Definition vlr_map := list (Z * vlr_header).
Fixpoint vins (off : Z) (v : vlr_header) (m : vlr_map) : vlr_map :=
  match m with
  | [] => [(off, v)]
  | (o, w) :: r => if off <? o then (off, v) :: m else if off =? o then m else (o, w) :: vins off v r
  end.
Fixpoint vget (off : Z) (m : vlr_map) : option vlr_header :=
  match m with [] => None | (o, v) :: r => if o =? off then Some v else vget off r end.
(* base_reader.cpp:42-49 and 55-62.  A header that cannot be read is left zero-filled by lazperf; the
   model says nothing about files whose records do not fit in them (UB here). *)
Fixpoint read_vlr_headers (dec : bytes -> option (vlr_header * bytes)) (head : Z) (n : nat) (pos : Z) (f : bytes) (m : vlr_map) : outcome vlr_map :=
  match n with
  | O => Ok m
  | S n' =>
      if (pos <? 0) || (Z.of_nat (length f) <? pos) then UB
      else match dec (skipn (Z.to_nat pos) f) with
           | None => UB
           | Some (v, _) => read_vlr_headers dec head n' (pos + head + v_len v) f (vins pos v m)
           end
  end.
(* base_reader.cpp:34-65 *)
Definition read_all_vlrs (l : header14) (f : bytes) : outcome vlr_map :=
  let! m := read_vlr_headers dec_vlr_header VLR_HEADER_SIZE (Z.to_nat (l_vlrs l)) (l_hsize l) f [] in
  read_vlr_headers dec_evlr_header EVLR_HEADER_SIZE (Z.to_nat (l_evcnt l)) (l_evoff l) f m.
(* base_reader.cpp:88-97: 0 when there is none *)
Definition str_eqb (a b : bytes) : bool := if list_eq_dec Z.eq_dec a b then true else false.
Fixpoint fetch_vlr (m : vlr_map) (user : bytes) (id : Z) : Z :=
  match m with
  | [] => 0
  | (o, v) :: r => if str_eqb (v_user v) user && (v_rec v =? id) then o else fetch_vlr r user id
  end.
(* static_cast<int>(vlrs[offset].data_length) *)
Definition len_at (off : Z) (m : vlr_map) : Z := match vget off m with Some v => to_s 32 (v_len v) | None => 0 end.
(* lazperf::wkt_vlr::create: a buffer of byteSize characters (a negative size throws) *)
Definition dec_wkt (size : Z) (b : bytes) : outcome bytes :=
  if size <? 0 then Throw
  else match take_bytes (Z.to_nat size) b with Some (w, _) => Ok w | None => UB end.
(* base_reader.cpp:66-75: the record is taken to be an EVLR wherever it was found *)
Definition read_wkt (m : vlr_map) (f : bytes) : outcome bytes :=
  let off := fetch_vlr m s_las_proj 2112 in
  if off =? 0 then Ok [] else dec_wkt (len_at off m) (skipn (Z.to_nat (off + EVLR_HEADER_SIZE)) f).
(* base_reader.cpp:77-86 *)
Definition read_ebs (m : vlr_map) (f : bytes) : outcome (list ebfield) :=
  let off := fetch_vlr m s_las_spec 4 in
  if off =? 0 then Ok []
  else match dec_eb_vlr (len_at off m) (skipn (Z.to_nat (off + VLR_HEADER_SIZE)) f) with Some (l, _) => Ok l | None => UB end.
(* base_reader.cpp:17-32; the good() check is on a stream that was never read.  lazperf opens the file
   first (external: read_header14) *)
Record base_reader := mkBR { br_h14 : header14; br_vlrs : vlr_map; br_cfg : laz_config }.
Definition init_reader (f : bytes) : outcome base_reader :=
  let! l := read_header14 f in
  let! h := from_lazperf l in
  let! m := read_all_vlrs l f in
  let! wkt := read_wkt m f in
  let! ebs := read_ebs m f in
  Ok (mkBR l m (mkLaz h wkt ebs)).

(* copc_reader.cpp:31-42 *)
Definition read_info (m : vlr_map) (f : bytes) : outcome copc_info :=
  let off := fetch_vlr m s_copc 1 in
  if off =? 0 then Throw
  else if negb (off =? INFO_VLR_OFFSET) then Throw
  else match dec_info (skipn (Z.to_nat (off + VLR_HEADER_SIZE)) f) with Some (i, _) => Ok i | None => UB end.
Definition read_pairs (off : Z) (m : vlr_map) (f : bytes) : outcome pairs :=
  match dec_pairs (len_at off m) (skipn (Z.to_nat (off + VLR_HEADER_SIZE)) f) with Some (p, _) => Ok p | None => UB end.
(* copc_reader.cpp:44-68; without an extents VLR the extents are CopcExtents(format) (extents.hpp:57) *)
Definition read_extents (l : header14) (m : vlr_map) (ebs : list ebfield) (f : bytes) : outcome extents :=
  let off := fetch_vlr m s_copc 10000 in
  let off2 := fetch_vlr m s_rock 10001 in
  if off =? 0 then new_extents (l_fmt l) 0 false
  else
    let! v := read_pairs off m f in
    let! x := extents_of_vlr v (l_fmt l) (to_u 16 (Z.of_nat (length ebs))) (negb (off2 =? 0)) in
    if off2 =? 0 then Ok x else let! v := read_pairs off2 m f in set_extended x v.
(* copc_reader.cpp:17-29, hierarchy.hpp:25-30 (int64_t offset, int32_t size) *)
Definition open_reader (isfile : bool) (f : bytes) : outcome reader :=
  let! b := init_reader f in
  let m := br_vlrs b in
  let z := br_cfg b in
  if (fetch_vlr m s_copc 1 =? 0) || (fetch_vlr m s_copc 1000 =? 0) then Throw
  else
    let! i := read_info m f in
    let! x := read_extents (br_h14 b) m (z_ebs z) f in
    let! c := config_of (z_hdr z) i x (z_wkt z) (z_ebs z) in
    Ok (mkR f isfile false c [new_rpage root_key (to_u 64 (to_s 64 (i_root_off i))) (to_s 32 (i_root_size i))] [(root_key, 0%nat)] []).

(* ---- sequences of queries on one Reader ---- *)
Inductive query :=
| QFind (k : key) | QPoints (k : key) | QPointsOf (n : node) | QData (k : key) | QDataOf (n : node)
| QCompressed (k : key) | QCompressedOf (n : node)
| QChildren (k : key) | QAllNodes | QPages | QAllPoints (res : f64) | QDepth (res : f64) | QAtRes (res : f64) | QWithinRes (res : f64)
| QNodesWithin (b : box) (res : f64) | QNodesIntersect (b : box) (res : f64) | QPointsWithin (b : box) (res : f64) | QValidate (verbose : bool).
Definition forget {A} (x : call A) : call unit :=
  match x with
  | None => None
  | Some (r, Ok _) => Some (r, Ok tt)
  | Some (r, Throw) => Some (r, Throw)
  | Some (r, UB) => Some (r, UB)
  end.
Definition ask (cd : codec) (od : rorders) (fuel : nat) (q : query) (r : reader) : call unit :=
  match q with
  | QFind k => forget (find_node fuel k r)
  | QPoints k => forget (get_points cd fuel [] k r)
  | QPointsOf n => forget (Some (get_points_node cd [] n r))
  | QData k => forget (get_point_data cd fuel k r)
  | QDataOf n => forget (Some (get_point_data_node cd n r))
  | QCompressed k => forget (get_compressed fuel k r)
  | QCompressedOf n => forget (Some (get_compressed_node n r))
  | QChildren k => forget (get_all_children_of_page fuel od k r)
  | QAllNodes => forget (get_all_nodes fuel od r)
  | QPages => forget (get_page_list fuel od r)
  | QAllPoints res => forget (get_all_points cd fuel od [] res r)
  | QDepth res => forget (get_depth_at_resolution fuel od res r)
  | QAtRes res => forget (get_nodes_at_resolution fuel od res r)
  | QWithinRes res => forget (get_nodes_within_resolution fuel od res r)
  | QNodesWithin b res => forget (get_nodes_within_box b fuel od res r)
  | QNodesIntersect b res => forget (get_nodes_intersect_box b fuel od res r)
  | QPointsWithin b res => forget (get_points_within_box cd b fuel od [] res r)
  | QValidate v => forget (validate_spatial_bounds cd fuel od v r)
  end.
(* the program catches exceptions and goes on *)
Fixpoint ask_all (cd : codec) (od : rorders) (fuel : nat) (qs : list query) (r : reader) : option reader :=
  match qs with
  | [] => Some r
  | q :: l => match ask cd od fuel q r with
              | Some (r', Ok _) | Some (r', Throw) => ask_all cd od fuel l r'
              | _ => None
              end
  end.
