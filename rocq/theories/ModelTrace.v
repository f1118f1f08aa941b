(* ModelTrace.v - the sequence of writes and seeks that the writers send to their stream, and the
   contents the stream has at every moment in between.
   Source: cpp/src/io/laz_base_writer.cpp, cpp/src/io/copc_writer_internal.cpp,
   cpp/src/io/copc_writer_public.cpp, cpp/src/io/laz_writer.cpp.
   The functions below list the stream operations of the functions of ModelWriter with the same name;
   theorems C75_trace and C75_laz_trace show that executing the list gives the stream of ModelWriter. *)
From Verif Require Import Base ModelFloat ModelKey ModelGeom ModelEntry ModelPoint ModelPoints ModelHeader ModelVlr ModelExtents ModelConfig
  ModelStream ModelWriter.

Inductive sop := SPut (b : bytes) | SEnd | SSeek (p : nat).
Definition do_sop (o : sop) (s : ostream) : ostream :=
  match o with SPut b => put b s | SEnd => seek_end s | SSeek p => seek_to p s end.
Fixpoint play (l : list sop) (s : ostream) : ostream := match l with [] => s | o :: r => play r (do_sop o s) end.
(* the contents of the stream when the program is killed at some point of the sequence: bytes reach
   the stream in the order they are written, and a write can be cut anywhere *)
Fixpoint cut_short (l : list sop) (s : ostream) (f : bytes) : Prop :=
  match l with
  | [] => f = o_data s
  | o :: r => (exists n, f = o_data (match o with SPut b => put (firstn n b) s | _ => s end)) \/ cut_short r (do_sop o s) f
  end.

(* laz_base_writer.cpp:112-142 *)
Definition t_write_chunk (cd : codec) (h : las_header) (data : bytes) (count : Z) (compressed : bool) (b : bwriter) : list sop :=
  if tell64 (b_out b) <=? 0 then [] else
  match (if compressed then Ok (data, count) else let! eb := h_eb_size h in compress_bytes cd (h_fmt h) eb data) with
  | Ok (x, _) => [SPut x]
  | _ => []
  end.
(* laz_base_writer.cpp:66-98 *)
Definition t_chunk_table (cd : codec) (poff : Z) (b : bwriter) : list sop :=
  let rel := relative_chunks (first_chunk_offset poff) (b_chunks b) in
  let n := Z.of_nat (length rel) in
  [SEnd; SPut (enc_u32 0)] ++
  (if UINT32_MAX <? n then []
   else [SPut (enc_u32 n); SPut (cd_table cd rel); SSeek (Z.to_nat poff); SPut (enc_u64 (tell64 (seek_end (b_out b))))]).
(* laz_base_writer.cpp:100-110 *)
Definition t_wkt (wkt : bytes) : list sop :=
  match wkt with [] => [] | _ => [SPut (enc_evlr_header (wkt_evlr_header wkt)); SPut wkt] end.
(* laz_base_writer.cpp:27-34 *)
Definition t_las_header (h : las_header) (poff : Z) (ext : bool) (b : bwriter) : list sop :=
  match (let! eb := h_eb_size h in to_lazperf h poff (b_points b) (b_evoff b) (b_evcnt b) (negb (eb =? 0)) ext) with
  | Ok l => [SSeek 0; SPut (enc_header14 l)]
  | _ => []
  end.
(* laz_base_writer.cpp:55-64 *)
Definition t_base_header (h : las_header) (ebs : list ebfield) (b : bwriter) : list sop :=
  match base_offset h ebs, h_eb_size h with
  | Ok poff, Ok eb =>
      t_las_header h poff false b ++
      match write_las_header h poff false b with (_, Ok _) => [SPut (laz_and_eb_vlrs h ebs eb)] | _ => [] end
  | _, _ => []
  end.
(* laz_base_writer.cpp:144-160: the operations before WriteHeader, the writer then, and those of WriteHeader *)
Definition t_base_body (cd : codec) (z : laz_config) (b : bwriter) : list sop :=
  if negb (b_open b) then [] else
  match base_offset (z_hdr z) (z_ebs z) with
  | Ok poff =>
      t_chunk_table cd poff b ++
      match write_chunk_table cd poff b with (_, Ok _) => SEnd :: t_wkt (z_wkt z) | _ => [] end
  | _ => []
  end.
Definition base_before_header (cd : codec) (z : laz_config) (b : bwriter) : option bwriter :=
  if negb (b_open b) then None else
  match base_offset (z_hdr z) (z_ebs z) with
  | Ok poff =>
      match write_chunk_table cd poff b with
      | (b, Ok _) =>
          let b := with_out (seek_end (b_out b)) b in
          Some (write_wkt (z_wkt z) (mkBW (b_out b) (b_open b) (b_chunks b) (b_points b) (tell64 (b_out b)) (b_evcnt b)))
      | _ => None
      end
  | _ => None
  end.
Definition t_base_tail (cd : codec) (z : laz_config) (b : bwriter) : list sop :=
  match base_before_header cd z b with Some b => t_base_header (z_hdr z) (z_ebs z) b | None => [] end.

(* copc_writer_public.cpp:75-171: only AddNode writes *)
Definition t_do_add_node (cd : codec) (k : key) (data : bytes) (count : Z) (compressed : bool) (page : key) (w : writer) : list sop :=
  if negb (key_valid page) || negb (key_valid k) then []
  else if negb (child_of k page) then []
  else t_write_chunk cd (c_hdr (w_cfg w)) data count compressed (w_base w).
Definition t_add_node (cd : codec) (k : key) (data : bytes) (page : key) (w : writer) : list sop :=
  let size := h_reclen (c_hdr (w_cfg w)) in
  match data with
  | [] => []
  | _ =>
    if size =? 0 then []
    else if negb (Z.of_nat (length data) mod size =? 0) then []
    else t_do_add_node cd k data 0 false page w
  end.
Definition t_step (cd : codec) (op : wop) (w : writer) : list sop :=
  match op with
  | WAdd k data page => t_add_node cd k data page w
  | WAddPoints k hp c page =>
      let h := c_hdr (w_cfg w) in
      match c_pts c with
      | [] => []
      | _ =>
        if negb (c_fmt c =? h_fmt h) || negb (c_reclen c =? h_reclen h) then []
        else match points_pack hp c (h_scale h) (h_offset h) with Ok data => t_add_node cd k data page w | _ => [] end
      end
  | WAddCompressed k data count page => if count =? 0 then [] else t_do_add_node cd k data count true page w
  | _ => []
  end.
Fixpoint t_run (cd : codec) (ops : list wop) (w : writer) : list sop :=
  match ops with
  | [] => []
  | op :: r => t_step cd op w ++ match wstep cd op w with (_, UB) => [] | (w, _) => t_run cd r w end
  end.

(* copc_writer_internal.cpp:119-147 *)
Definition t_write_page (od : orders) (k : key) (w : writer) : list sop :=
  match mget k (w_pages w) with
  | None => []
  | Some p =>
      let size := 32 * Z.of_nat (length (wp_nodes p)) + 32 * Z.of_nat (length (wp_subs p)) in
      let head := enc_evlr_header (mkVlrH true 0 s_copc 1000 size (od_desc od k)) in
      [SEnd; SPut head] ++
      (if INT32_MAX <? size then []
       else
         let pages := mset k (mkWP (tell64 (put head (seek_end (b_out (w_base w))))) size (wp_nodes p) (wp_subs p)) (w_pages w) in
         let sub s := match mget s pages with Some q => entry_pack (mkEntry s (wp_off q) (wp_size q) (-1)) | None => [] end in
         map (fun n => SPut (entry_pack (n_entry n))) (od_nodes od k (map snd (wp_nodes p))) ++
         map (fun s => SPut (sub s)) (od_subs od k (wp_subs p)))
  end.
(* copc_writer_internal.cpp:169-183 *)
Fixpoint t_each {A} (f : A -> writer -> writer * outcome unit) (t : A -> writer -> list sop) (l : list A) (w : writer) : list sop :=
  match l with
  | [] => []
  | a :: r => t a w ++ match f a w with (w, Ok _) => t_each f t r w | _ => [] end
  end.
Fixpoint t_page_tree (fuel : nat) (od : orders) (k : key) (w : writer) : list sop :=
  match fuel with
  | O => []
  | S f =>
      match mget k (w_pages w) with
      | None => []
      | Some p =>
          t_each (write_page_tree f od) (t_page_tree f od) (od_subs od k (wp_subs p)) w ++
          match each (write_page_tree f od) (od_subs od k (wp_subs p)) w with (w, Ok _) => t_write_page od k w | _ => [] end
      end
  end.
(* copc_writer_internal.cpp:71-107 *)
Definition t_copc_header (poff : Z) (w : writer) : list sop :=
  let c := w_cfg w in
  let h := c_hdr c in
  let x := c_exts c in
  t_las_header h poff (xs_ext x) (w_base w) ++
  match write_las_header h poff (xs_ext x) (w_base w) with
  | (_, Ok _) =>
      match dim_get DGpsTime x with
      | Ok gps =>
          [SPut (enc_vlr_header info_vlr_header); SPut (enc_info (c_info c) (ex_min gps) (ex_max gps))] ++
          match copc_vlrs c, h_eb_size h with
          | Ok _, Ok eb =>
              [SPut (enc_vlr_header (extents_vlr_header (extents_to_vlr x))); SPut (enc_pairs (extents_to_vlr x))] ++
              (if xs_ext x then [SPut (enc_vlr_header (extended_vlr_header (extents_to_extended x))); SPut (enc_pairs (extents_to_extended x))] else []) ++
              [SPut (laz_and_eb_vlrs h (c_ebs c) eb)]
          | _, _ => []
          end
      | _ => []
      end
  | _ => []
  end.
(* copc_writer_internal.cpp:45-68: the operations before WriteHeader, the writer then, and those of WriteHeader *)
Definition after_table (b : bwriter) (w : writer) : writer :=
  let b := with_out (seek_end (b_out b)) b in
  with_base (mkBW (b_out b) (b_open b) (b_chunks b) (b_points b) (tell64 (b_out b)) (to_u 32 (b_evcnt b + Z.of_nat (length (w_pages w))))) w.
Definition t_body (cd : codec) (od : orders) (w : writer) : list sop :=
  if negb (b_open (w_base w)) then [] else
  match copc_offset (w_cfg w) with
  | Ok poff =>
      t_chunk_table cd poff (w_base w) ++
      match write_chunk_table cd poff (w_base w) with
      | (b, Ok _) =>
          let w := after_table b w in
          SEnd ::
          match compute_hierarchy (map fst (w_pages w)) (w_pages w) with
          | Ok pages =>
              let w := mkW (w_base w) (w_cfg w) (w_loaded w) pages in
              let fuel := S (Z.to_nat (max_page_depth pages)) in
              t_page_tree fuel od root_key w ++
              match write_page_tree fuel od root_key w with (w, Ok _) => t_wkt (c_wkt (w_cfg w)) | _ => [] end
          | _ => []
          end
      | _ => []
      end
  | _ => []
  end.
Definition before_header (cd : codec) (od : orders) (w : writer) : option (Z * writer) :=
  if negb (b_open (w_base w)) then None else
  match copc_offset (w_cfg w) with
  | Ok poff =>
      match write_chunk_table cd poff (w_base w) with
      | (b, Ok _) =>
          let w := after_table b w in
          match compute_hierarchy (map fst (w_pages w)) (w_pages w) with
          | Ok pages =>
              match write_page_tree (S (Z.to_nat (max_page_depth pages))) od root_key (mkW (w_base w) (w_cfg w) (w_loaded w) pages) with
              | (w, Ok _) => Some (poff, with_base (write_wkt (c_wkt (w_cfg w)) (w_base w)) w)
              | _ => None
              end
          | _ => None
          end
      | _ => None
      end
  | _ => None
  end.
Definition t_tail (cd : codec) (od : orders) (w : writer) : list sop :=
  match before_header cd od w with Some (poff, w) => t_copc_header poff w | None => [] end.

(* copc_writer_internal.cpp:42 and laz_writer.cpp:13 *)
Definition t_reserve (poff : outcome Z) : list sop :=
  match poff with Ok p => [SPut (zeros (Z.to_nat (first_chunk_offset p)))] | _ => [] end.
(* everything a Writer sends to its stream: the constructor (copc_writer_internal.cpp:36-43), the
   calls, Close *)
Definition t_session (cd : codec) (od : orders) (w0 : writer) (ops : list wop) : list sop :=
  let w := fst (wrun cd ops w0) in
  t_reserve (copc_offset (w_cfg w0)) ++ t_run cd ops w0 ++ t_body cd od w ++ t_tail cd od w.

(* LazWriter: laz_writer.cpp:8-36 *)
Definition t_laz_step (cd : codec) (op : lop) (w : laz_writer) : list sop :=
  let h := z_hdr (lw_cfg w) in
  match op with
  | LWrite hp c =>
      match c_pts c with
      | [] => []
      | _ =>
        if negb (c_fmt c =? h_fmt h) || negb (c_reclen c =? h_reclen h) then []
        else match points_pack hp c (h_scale h) (h_offset h) with Ok data => t_write_chunk cd h data 0 false (lw_base w) | _ => [] end
      end
  | LWriteCompressed data count => if count =? 0 then [] else t_write_chunk cd h data count true (lw_base w)
  end.
Fixpoint t_laz_run (cd : codec) (ops : list lop) (w : laz_writer) : list sop :=
  match ops with
  | [] => []
  | op :: r => t_laz_step cd op w ++ match lstep cd op w with (_, UB) => [] | (w, _) => t_laz_run cd r w end
  end.
Definition t_laz_session (cd : codec) (w0 : laz_writer) (ops : list lop) : list sop :=
  let w := fst (lrun cd ops w0) in
  t_reserve (base_offset (z_hdr (lw_cfg w0)) (z_ebs (lw_cfg w0))) ++ t_laz_run cd ops w0 ++ t_base_body cd (lw_cfg w) (lw_base w) ++ t_base_tail cd (lw_cfg w) (lw_base w).
