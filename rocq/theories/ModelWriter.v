(* ModelWriter.v - writing LAZ and COPC files.
   Source: cpp/src/io/laz_base_writer.cpp, cpp/include/copc-lib/io/laz_base_writer.hpp,
   cpp/src/io/copc_writer_internal.cpp, cpp/src/io/copc_writer_public.cpp,
   cpp/include/copc-lib/laz/compressor.hpp, cpp/include/copc-lib/hierarchy/internal/hierarchy.hpp,
   cpp/src/io/laz_writer.cpp *)
From Verif Require Import Base ModelFloat ModelKey ModelGeom ModelEntry ModelPoint ModelPoints ModelHeader ModelVlr ModelExtents ModelConfig
  ModelStream.

(* ---- BaseWriter ---- *)
(* laz_base_writer.hpp:49-55 the data members; chunks_ are (point count, end position) *)
Record bwriter := mkBW { b_out : ostream; b_open : bool; b_chunks : list (Z * Z); b_points : Z; b_evoff : Z; b_evcnt : Z }.
Definition with_out (s : ostream) (b : bwriter) : bwriter := mkBW s (b_open b) (b_chunks b) (b_points b) (b_evoff b) (b_evcnt b).
Definition emit (x : bytes) (b : bwriter) : bwriter := with_out (put x (b_out b)) b.

(* laz_base_writer.cpp:11-25 *)
Definition base_offset (h : las_header) (ebs : list ebfield) : outcome Z :=
  let eb_size := eb_vlr_size ebs in
  let eb_size := if 0 <? eb_size then eb_size + VLR_HEADER_SIZE else eb_size in
  let! eb := h_eb_size h in
  Ok (HEADER_SIZE + eb_size + (laz_vlr_size (h_fmt h) eb + VLR_HEADER_SIZE)).
(* laz_base_writer.hpp:35 *)
Definition first_chunk_offset (poff : Z) : Z := poff + 8.

(* compressor.hpp:22-45: the bytes appended to the stream and the point count.  Both checks come
   before the compressor's first output.  A record size that wrapped to 0 divides by zero. *)
Definition compress_bytes (cd : codec) (fmt eb : Z) (data : bytes) : outcome (bytes * Z) :=
  let! size := point_byte_size fmt eb in
  let n := Z.of_nat (length data) in
  if size =? 0 then UB
  else if negb (n mod size =? 0) then Throw
  else if INT32_MAX <? n then Throw
  else Ok (cd_comp cd fmt eb data, n / size).

(* laz_base_writer.cpp:112-142; returns the offset, byte size and point count of the chunk.
   startpos and endpos are uint64_t, so '<= 0' only catches 0.  The last check (point count above
   INT32_MAX) can never fail: the count is an int32_t. *)
Definition write_chunk (cd : codec) (h : las_header) (data : bytes) (count : Z) (compressed : bool) (b : bwriter)
  : bwriter * outcome (Z * Z * Z) :=
  let start := tell64 (b_out b) in
  if start <=? 0 then (b, Throw) else
  let r := if compressed then Ok (data, count)
           else let! eb := h_eb_size h in compress_bytes cd (h_fmt h) eb data in
  match r with
  | Throw => (b, Throw)
  | UB => (b, UB)
  | Ok (x, n) =>
      let out := put x (b_out b) in
      let points := to_u 64 (b_points b + n) in
      let fin := tell64 out in
      if fin <=? 0 then (mkBW out (b_open b) (b_chunks b) points (b_evoff b) (b_evcnt b), Throw) else
      let b2 := mkBW out (b_open b) (b_chunks b ++ [(to_u 64 n, fin)]) points (b_evoff b) (b_evcnt b) in
      let size := to_u 64 (fin - start) in
      if INT32_MAX <? size then (b2, Throw) else (b2, Ok (start, size, n))
  end.

(* laz_base_writer.cpp:75-81 *)
Fixpoint relative_chunks (prev : Z) (l : list (Z * Z)) : list (Z * Z) :=
  match l with
  | [] => []
  | (n, off) :: r => (n, to_u 64 (off - prev)) :: relative_chunks off r
  end.
(* laz_base_writer.cpp:66-98 *)
Definition write_chunk_table (cd : codec) (poff : Z) (b : bwriter) : bwriter * outcome unit :=
  let b := with_out (seek_end (b_out b)) b in
  let table_offset := tell64 (b_out b) in
  let rel := relative_chunks (first_chunk_offset poff) (b_chunks b) in
  let b := mkBW (put (enc_u32 0) (b_out b)) (b_open b) rel (b_points b) (b_evoff b) (b_evcnt b) in
  let n := Z.of_nat (length rel) in
  if UINT32_MAX <? n then (b, Throw) else
  let b := emit (enc_u32 n ++ cd_table cd rel) b in
  let b := with_out (seek_to (Z.to_nat poff) (b_out b)) b in
  (emit (enc_u64 table_offset) b, Ok tt).

(* laz_base_writer.cpp:100-110 *)
Definition write_wkt (wkt : bytes) (b : bwriter) : bwriter :=
  match wkt with
  | [] => b
  | _ => emit (enc_evlr_header (wkt_evlr_header wkt) ++ wkt)
           (mkBW (b_out b) (b_open b) (b_chunks b) (b_points b) (b_evoff b) (to_u 32 (b_evcnt b + 1)))
  end.

(* laz_base_writer.cpp:27-34 *)
Definition write_las_header (h : las_header) (poff : Z) (ext : bool) (b : bwriter) : bwriter * outcome unit :=
  match (let! eb := h_eb_size h in to_lazperf h poff (b_points b) (b_evoff b) (b_evcnt b) (negb (eb =? 0)) ext) with
  | Ok l => (emit (enc_header14 l) (with_out (seek_to 0 (b_out b)) b), Ok tt)
  | Throw => (b, Throw)
  | UB => (b, UB)
  end.
(* laz_base_writer.cpp:36-52 *)
Definition laz_and_eb_vlrs (h : las_header) (ebs : list ebfield) (eb : Z) : bytes :=
  (if 0 <? eb then enc_vlr_header (eb_vlr_header ebs) ++ enc_eb_vlr ebs else []) ++
  enc_vlr_header (laz_vlr_header (h_fmt h) eb) ++ enc_laz_vlr (h_fmt h) eb.

(* sequencing of steps that may throw half way *)
Definition then_ {S A B} (x : S * outcome A) (f : S -> A -> S * outcome B) : S * outcome B :=
  match x with (s, Ok a) => f s a | (s, Throw) => (s, Throw) | (s, UB) => (s, UB) end.
Notation "'do' ( s , a ) := x 'in' f" := (then_ x (fun s a => f)) (at level 200, s name, a name, x at level 100, f at level 200).

(* laz_base_writer.cpp:55-64; tellp() of a failed stream is -1, which the comparison with a size_t
   converts to 2^64-1 (the explicit int64_t of the COPC version is converted the same way) *)
Definition base_write_header (h : las_header) (ebs : list ebfield) (b : bwriter) : bwriter * outcome unit :=
  match base_offset h ebs, h_eb_size h with
  | Ok poff, Ok eb =>
      do (b, _u) := write_las_header h poff false b in
      let b := emit (laz_and_eb_vlrs h ebs eb) b in
      if poff <? tell64 (b_out b) then (b, Throw) else (b, Ok tt)
  | UB, _ | _, UB => (b, UB)
  | _, _ => (b, Throw)
  end.
(* laz_base_writer.cpp:144-160 *)
Definition base_close (cd : codec) (z : laz_config) (b : bwriter) : bwriter * outcome unit :=
  if negb (b_open b) then (b, Ok tt) else
  match base_offset (z_hdr z) (z_ebs z) with
  | Throw => (b, Throw)
  | UB => (b, UB)
  | Ok poff =>
    do (b, _u) := write_chunk_table cd poff b in
    let b := with_out (seek_end (b_out b)) b in
    let b := mkBW (b_out b) (b_open b) (b_chunks b) (b_points b) (tell64 (b_out b)) (b_evcnt b) in
    let b := write_wkt (z_wkt z) b in
    do (b, _u) := base_write_header (z_hdr z) (z_ebs z) b in
    (mkBW (b_out b) false (b_chunks b) (b_points b) (b_evoff b) (b_evcnt b), Ok tt)
  end.

(* ---- COPC writer ---- *)
(* copc_writer_internal.cpp:18-34 *)
Definition copc_offset (c : config) : outcome Z :=
  let! b := base_offset (c_hdr c) (c_ebs c) in
  let! x := extents_byte_size (h_fmt (c_hdr c)) (Z.of_nat (length (c_ebs c))) in
  let x := x + VLR_HEADER_SIZE in
  let x := if xs_ext (c_exts c) then x * 2 else x in
  Ok (b + (VLR_HEADER_SIZE + INFO_SIZE) + x).

(* hierarchy/internal/page.hpp:14-23 and hierarchy/page.hpp:14-28: offset and size (-1 before Close), nodes,
   sub-pages (a set of pointers: the keys of pages of the same map) *)
Record wpage := mkWP { wp_off : Z; wp_size : Z; wp_nodes : kmap node; wp_subs : list key }.
Definition new_wpage : wpage := mkWP (to_u 64 (-1)) (-1) [] [].
(* Writer (copc_writer.hpp:57-59) with its WriterInternal and Hierarchy (hierarchy.hpp:46-47).  Node
   objects are shared by loaded_nodes_ and the pages but never modified, so they are values here. *)
Record writer := mkW { w_base : bwriter; w_cfg : config; w_loaded : kmap node; w_pages : kmap wpage }.
Definition with_base (b : bwriter) (w : writer) : writer := mkW b (w_cfg w) (w_loaded w) (w_pages w).

(* copc_writer_public.cpp:11-64 and copc_writer_internal.cpp:36-43, hierarchy.hpp:17-23: a Writer on
   an empty stream; std::fill_n reserves the header space *)
Definition open_writer (cap : option nat) (c : config) (v : overrides) : outcome writer :=
  let! c := init_writer c v in
  let! poff := copc_offset c in
  let s := put (zeros (Z.to_nat (first_chunk_offset poff))) (empty_out cap) in
  Ok (mkW (mkBW s true [] 0 0 0) c [] [(root_key, new_wpage)]).

(* copc_writer_public.cpp:75-100 *)
Definition do_add_node (cd : codec) (k : key) (data : bytes) (count : Z) (compressed : bool) (page : key) (w : writer)
  : writer * outcome node :=
  if negb (key_valid page) || negb (key_valid k) then (w, Throw)
  else if negb (child_of k page) then (w, Throw)
  else
    match write_chunk cd (c_hdr (w_cfg w)) data count compressed (w_base w) with
    | (b, Throw) => (with_base b w, Throw)
    | (b, UB) => (with_base b w, UB)
    | (b, Ok (off, size, n)) =>
        let nd := mkNode (mkEntry k off size n) page in
        let pages := if mhas page (w_pages w) then w_pages w else mset page new_wpage (w_pages w) in
        let p := match mget page pages with Some p => p | None => new_wpage end in
        (mkW b (w_cfg w) (mset k nd (w_loaded w))
           (mset page (mkWP (wp_off p) (wp_size p) (mset k nd (wp_nodes p)) (wp_subs p)) pages), Ok nd)
    end.

(* copc_writer_public.cpp:114-124; size_t % int with a zero record length divides by zero *)
Definition add_node (cd : codec) (k : key) (data : bytes) (page : key) (w : writer) : writer * outcome node :=
  let size := h_reclen (c_hdr (w_cfg w)) in
  match data with
  | [] => (w, Throw)
  | _ =>
    if size =? 0 then (w, UB)
    else if negb (Z.of_nat (length data) mod size =? 0) then (w, Throw)
    else do_add_node cd k data 0 false page w
  end.
(* copc_writer_public.cpp:102-112 *)
Definition add_node_points (cd : codec) (k : key) (hp : ModelPoints.heap) (c : points) (page : key) (w : writer) : writer * outcome node :=
  let h := c_hdr (w_cfg w) in
  match c_pts c with
  | [] => (w, Throw)
  | _ =>
    if negb (c_fmt c =? h_fmt h) || negb (c_reclen c =? h_reclen h) then (w, Throw)
    else match points_pack hp c (h_scale h) (h_offset h) with
         | Ok data => add_node cd k data page w
         | Throw => (w, Throw)
         | UB => (w, UB)
         end
  end.
(* copc_writer_public.cpp:126-133 *)
Definition add_node_compressed (cd : codec) (k : key) (data : bytes) (count : Z) (page : key) (w : writer) : writer * outcome node :=
  if count =? 0 then (w, Throw) else do_add_node cd k data count true page w.

(* copc_writer_public.cpp:135-171; dereferencing the null pointer that operator[] inserts for a page
   that was removed is undefined *)
Definition change_node_page (k page : key) (w : writer) : writer * outcome unit :=
  if negb (key_valid k) then (w, Throw)
  else if negb (key_valid page) then (w, Throw)
  else match mget k (w_loaded w) with
  | None => (w, Throw)
  | Some nd =>
    if negb (child_of k page) then (w, Throw)
    else if key_eqb (n_page nd) page then (w, Ok tt)
    else
      let pages := if mhas page (w_pages w) then w_pages w else mset page new_wpage (w_pages w) in
      let p := match mget page pages with Some p => p | None => new_wpage end in
      let pages := mset page (mkWP (wp_off p) (wp_size p) (mset k nd (wp_nodes p)) (wp_subs p)) pages in
      match mget (n_page nd) pages with
      | None => (mkW (w_base w) (w_cfg w) (w_loaded w) pages, UB)
      | Some q =>
          let q' := mkWP (wp_off q) (wp_size q) (mdel k (wp_nodes q)) (wp_subs q) in
          let pages := mset (n_page nd) q' pages in
          let pages := if negb (key_eqb (n_page nd) root_key) && match wp_nodes q' with [] => true | _ => false end
                       then mdel (n_page nd) pages else pages in
          (mkW (w_base w) (w_cfg w) (w_loaded w) pages, Ok tt)
      end
  end.

(* copc_base_io.cpp:9-32 on a writer: all pages are loaded, so nothing is ever read *)
Definition writer_find_node (k : key) (w : writer) : node :=
  match mget k (w_loaded w) with Some n => n | None => invalid_node end.

(* changes through CopcConfig(): the public members and string setters of the header (the format,
   record length, scale and offset have no setter), the COPC info, and extents *)
Definition edit_header (old new : las_header) : outcome las_header :=
  let! h := set_guid (h_guid new) old in
  let! h := set_system_identifier (h_sys new) h in
  let! h := set_generating_software (h_gen new) h in
  Ok (mkHdr (h_src new) (h_enc new) (h_day new) (h_year new) (h_max new) (h_min new) (h_pbr new) (h_scale old) (h_offset old)
        (h_fmt old) (h_reclen old) (h_pcount old) (h_poff old) (h_vlrs old) (h_evoff old) (h_evcnt old)
        (h_guid h) (h_sys h) (h_gen h) (h_copc old)).
Definition with_cfg (c : config) (w : writer) : writer := mkW (w_base w) c (w_loaded w) (w_pages w).

(* the calls a program makes on a Writer before Close *)
Inductive wop :=
| WAdd (k : key) (data : bytes) (page : key)
| WAddPoints (k : key) (hp : ModelPoints.heap) (c : points) (page : key)
| WAddCompressed (k : key) (data : bytes) (count : Z) (page : key)
| WMove (k page : key)
| WSetHeader (h : las_header)
| WSetInfo (i : copc_info)
| WSetExtent (slot : nat) (e : extent).
Definition some_node (x : writer * outcome node) : writer * outcome (option node) :=
  match x with (w, Ok n) => (w, Ok (Some n)) | (w, Throw) => (w, Throw) | (w, UB) => (w, UB) end.
Definition wstep (cd : codec) (op : wop) (w : writer) : writer * outcome (option node) :=
  let c := w_cfg w in
  match op with
  | WAdd k data page => some_node (add_node cd k data page w)
  | WAddPoints k hp pts page => some_node (add_node_points cd k hp pts page w)
  | WAddCompressed k data count page => some_node (add_node_compressed cd k data count page w)
  | WMove k page => match change_node_page k page w with (w, Ok _) => (w, Ok None) | (w, Throw) => (w, Throw) | (w, UB) => (w, UB) end
  | WSetHeader h => match edit_header (c_hdr c) h with
                    | Ok h => (with_cfg (mkCfg h (c_wkt c) (c_ebs c) (c_info c) (c_exts c)) w, Ok None)
                    | Throw => (w, Throw) | UB => (w, UB) end
  | WSetInfo i => (with_cfg (mkCfg (c_hdr c) (c_wkt c) (c_ebs c) i (c_exts c)) w, Ok None)
  | WSetExtent slot e =>
      match set_nth slot e (xs_items (c_exts c)) with
      | Ok l => (with_cfg (mkCfg (c_hdr c) (c_wkt c) (c_ebs c) (c_info c) (mkExts (xs_fmt (c_exts c)) (xs_ext (c_exts c)) l)) w, Ok None)
      | Throw => (w, Throw) | UB => (w, UB)
      end
  end.
(* a sequence of calls and what each returned; nothing is said after undefined behaviour *)
Fixpoint wrun (cd : codec) (ops : list wop) (w : writer) : writer * list (wop * outcome (option node)) :=
  match ops with
  | [] => (w, [])
  | op :: r =>
      match wstep cd op w with
      | (w, UB) => (w, [(op, UB)])
      | (w, res) => let '(w', l) := wrun cd r w in (w', (op, res) :: l)
      end
  end.

(* copc_writer_internal.cpp:156-162: the while loop, on fuel (depth + 2 iterations always suffice) *)
Fixpoint parent_page (fuel : nat) (pages : kmap wpage) (k : key) : outcome key :=
  match fuel with
  | O => UB
  | S f =>
      if mhas k pages then Ok k
      else let p := get_parent k in if key_valid p then parent_page f pages p else Throw
  end.
(* std::set::insert *)
Definition set_add (k : key) (l : list key) : list key := if existsb (key_eqb k) l then l else l ++ [k].
Definition add_sub (p k : key) (pages : kmap wpage) : kmap wpage :=
  match mget p pages with
  | None => pages
  | Some q => mset p (mkWP (wp_off q) (wp_size q) (wp_nodes q) (set_add k (wp_subs q))) pages
  end.
(* copc_writer_internal.cpp:149-166 *)
Fixpoint compute_hierarchy (todo : list key) (pages : kmap wpage) : outcome (kmap wpage) :=
  match todo with
  | [] => Ok pages
  | k :: r =>
      if key_eqb k root_key then compute_hierarchy r pages
      else let! p := parent_page (S (S (Z.to_nat (kd k)))) pages (get_parent k) in
           compute_hierarchy r (add_sub p k pages)
  end.

(* copc_writer_internal.cpp:119-147 *)
Definition write_page (od : orders) (k : key) (w : writer) : writer * outcome unit :=
  match mget k (w_pages w) with
  | None => (w, UB)
  | Some p =>
      let size := 32 * Z.of_nat (length (wp_nodes p)) + 32 * Z.of_nat (length (wp_subs p)) in
      let b := with_out (seek_end (b_out (w_base w))) (w_base w) in
      let b := emit (enc_evlr_header (mkVlrH true 0 s_copc 1000 size (od_desc od k))) b in
      let off := tell64 (b_out b) in
      let set q := mkW b (w_cfg w) (w_loaded w) (mset k q (w_pages w)) in
      if INT32_MAX <? size then (set (mkWP off (wp_size p) (wp_nodes p) (wp_subs p)), Throw) else
      let w := set (mkWP off size (wp_nodes p) (wp_subs p)) in
      let c := w_cfg w in
      let i := c_info c in
      let w := if key_eqb k root_key
               then with_cfg (mkCfg (c_hdr c) (c_wkt c) (c_ebs c) (mkInfo (i_cx i) (i_cy i) (i_cz i) (i_half i) (i_spacing i) off size) (c_exts c)) w
               else w in
      let sub s := match mget s (w_pages w) with
                   | Some q => entry_pack (mkEntry s (wp_off q) (wp_size q) (-1))
                   | None => [] end in
      (with_base (emit (flat_map (fun n => entry_pack (n_entry n)) (od_nodes od k (map snd (wp_nodes p))) ++
                        flat_map sub (od_subs od k (wp_subs p))) (w_base w)) w, Ok tt)
  end.

(* run a step for every element of a list, stopping at an exception *)
Fixpoint each {S A} (f : A -> S -> S * outcome unit) (l : list A) (s : S) : S * outcome unit :=
  match l with
  | [] => (s, Ok tt)
  | a :: r => do (s, _u) := f a s in each f r s
  end.
(* copc_writer_internal.cpp:169-183: post-order recursion, on fuel (sub-pages lie deeper, so the
   greatest page depth bounds the recursion: lemma write_tree_spec shows the fuel never runs out) *)
Fixpoint write_page_tree (fuel : nat) (od : orders) (k : key) (w : writer) : writer * outcome unit :=
  match fuel with
  | O => (w, UB)
  | S f =>
      match mget k (w_pages w) with
      | None => (w, Ok tt)
      | Some p => do (w, _u) := each (write_page_tree f od) (od_subs od k (wp_subs p)) w in write_page od k w
      end
  end.
Definition max_page_depth (pages : kmap wpage) : Z := fold_right (fun p a => Z.max (kd (fst p)) a) 0 pages.

(* copc_writer_internal.cpp:71-107 *)
Definition copc_vlrs (c : config) : outcome bytes :=
  let h := c_hdr c in
  let x := c_exts c in
  let! gps := dim_get DGpsTime x in
  let! _ := new_extent2 (vx (h_min h)) (vx (h_max h)) in
  let! _ := new_extent2 (vy (h_min h)) (vy (h_max h)) in
  let! _ := new_extent2 (vz (h_min h)) (vz (h_max h)) in
  let! eb := h_eb_size h in
  Ok (enc_vlr_header info_vlr_header ++ enc_info (c_info c) (ex_min gps) (ex_max gps) ++
      enc_vlr_header (extents_vlr_header (extents_to_vlr x)) ++ enc_pairs (extents_to_vlr x) ++
      (if xs_ext x then enc_vlr_header (extended_vlr_header (extents_to_extended x)) ++ enc_pairs (extents_to_extended x) else []) ++
      laz_and_eb_vlrs h (c_ebs c) eb).
(* what has been written of them when copc_vlrs throws: the constructors of the three extents for the
   extents VLR are the only ones that can, after the info VLR *)
Definition copc_vlrs_sent (c : config) : bytes :=
  match dim_get DGpsTime (c_exts c) with
  | Ok gps => enc_vlr_header info_vlr_header ++ enc_info (c_info c) (ex_min gps) (ex_max gps)
  | _ => []
  end.
Definition copc_write_header (poff : Z) (w : writer) : writer * outcome unit :=
  let c := w_cfg w in
  match write_las_header (c_hdr c) poff (xs_ext (c_exts c)) (w_base w) with
  | (b, Ok _) =>
      match copc_vlrs c with
      | Ok v => let b := emit v b in if poff <? tell64 (b_out b) then (with_base b w, Throw) else (with_base b w, Ok tt)
      | Throw => (with_base (emit (copc_vlrs_sent c) b) w, Throw)
      | UB => (with_base b w, UB)
      end
  | (b, Throw) => (with_base b w, Throw)
  | (b, UB) => (with_base b w, UB)
  end.

(* copc_writer_internal.cpp:45-68 and copc_writer_public.cpp:66-70; 'pages' iterates over
   seen_pages_ in some order, which does not matter for the sets it builds *)
Definition close (cd : codec) (od : orders) (w : writer) : writer * outcome unit :=
  if negb (b_open (w_base w)) then (w, Ok tt) else
  match copc_offset (w_cfg w) with
  | Throw => (w, Throw)
  | UB => (w, UB)
  | Ok poff =>
    match write_chunk_table cd poff (w_base w) with
    | (b, Throw) => (with_base b w, Throw)
    | (b, UB) => (with_base b w, UB)
    | (b, Ok _) =>
      let b := with_out (seek_end (b_out b)) b in
      let b := mkBW (b_out b) (b_open b) (b_chunks b) (b_points b) (tell64 (b_out b))
                 (to_u 32 (b_evcnt b + Z.of_nat (length (w_pages w)))) in
      let w := with_base b w in
      match compute_hierarchy (map fst (w_pages w)) (w_pages w) with
      | Throw => (w, Throw)
      | UB => (w, UB)
      | Ok pages =>
        let w := mkW (w_base w) (w_cfg w) (w_loaded w) pages in
        do (w, _u) := write_page_tree (S (Z.to_nat (max_page_depth pages))) od root_key w in
        let w := with_base (write_wkt (c_wkt (w_cfg w)) (w_base w)) w in
        do (w, _u) := copc_write_header poff w in
        let b := w_base w in
        (with_base (mkBW (b_out b) false (b_chunks b) (b_points b) (b_evoff b) (b_evcnt b)) w, Ok tt)
      end
    end
  end.

(* ---- LAZ writer (laz_writer.cpp) ---- *)
Record laz_writer := mkLW { lw_base : bwriter; lw_cfg : laz_config }.
(* laz_writer.cpp:8-14: reserves the header space *)
Definition open_laz_writer (cap : option nat) (z : laz_config) : outcome laz_writer :=
  let! poff := base_offset (z_hdr z) (z_ebs z) in
  Ok (mkLW (mkBW (put (zeros (Z.to_nat (first_chunk_offset poff))) (empty_out cap)) true [] 0 0 0) z).
(* the calls on a LazWriter before Close *)
Inductive lop :=
| LWrite (hp : ModelPoints.heap) (c : points)
| LWriteCompressed (data : bytes) (count : Z).
Definition chunk_written (z : laz_config) (x : bwriter * outcome (Z * Z * Z)) : laz_writer * outcome unit :=
  match x with (b, Ok _) => (mkLW b z, Ok tt) | (b, Throw) => (mkLW b z, Throw) | (b, UB) => (mkLW b z, UB) end.
Definition lstep (cd : codec) (op : lop) (w : laz_writer) : laz_writer * outcome unit :=
  let h := z_hdr (lw_cfg w) in
  match op with
  (* laz_writer.cpp:17-27 *)
  | LWrite hp c =>
      match c_pts c with
      | [] => (w, Ok tt)
      | _ =>
        if negb (c_fmt c =? h_fmt h) || negb (c_reclen c =? h_reclen h) then (w, Throw)
        else match points_pack hp c (h_scale h) (h_offset h) with
             | Ok data => chunk_written (lw_cfg w) (write_chunk cd h data 0 false (lw_base w))
             | Throw => (w, Throw)
             | UB => (w, UB)
             end
      end
  (* laz_writer.cpp:30-36 *)
  | LWriteCompressed data count =>
      if count =? 0 then (w, Throw)
      else chunk_written (lw_cfg w) (write_chunk cd h data count true (lw_base w))
  end.
Fixpoint lrun (cd : codec) (ops : list lop) (w : laz_writer) : laz_writer * list (lop * outcome unit) :=
  match ops with
  | [] => (w, [])
  | op :: r =>
      match lstep cd op w with
      | (w, UB) => (w, [(op, UB)])
      | (w, res) => let '(w', l) := lrun cd r w in (w', (op, res) :: l)
      end
  end.
Definition close_laz (cd : codec) (w : laz_writer) : laz_writer * outcome unit :=
  match base_close cd (lw_cfg w) (lw_base w) with (b, r) => (mkLW b (lw_cfg w), r) end.
(* laz_writer.hpp:37-38 *)
Definition laz_point_count (w : laz_writer) : Z := b_points (lw_base w).
Definition laz_chunk_count (w : laz_writer) : Z := Z.of_nat (length (b_chunks (lw_base w))).
