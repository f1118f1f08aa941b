(* ModelVlr.v - variable length records.
   Source: cpp/include/copc-lib/las/vlr.hpp, cpp/src/las/vlr.cpp, cpp/src/copc/info.cpp.
   lazperf's vlr_header, evlr_header, eb_vlr, wkt_vlr, laz_vlr and copc_info_vlr (not in /repo) are
   modelled by the LAS 1.4 / COPC 1.0 layouts they document. *)
From Verif Require Import Base ModelFloat ModelHeader.

(* lazperf string fields: written padded with NULs, read with the trailing NULs stripped *)
Definition put_str (n : nat) (s : bytes) : bytes := firstn n s ++ zeros (n - length s).
Fixpoint trim_nul (s : bytes) : bytes :=
  match s with
  | [] => []
  | c :: r => match trim_nul r with [] => if c =? 0 then [] else [c] | t => c :: t end
  end.

(* vlr.hpp:22-34 VlrHeader (evlr_flag says which of the two on-disk forms it came from) *)
Record vlr_header := mkVlrH { v_evlr : bool; v_res : Z; v_user : bytes; v_rec : Z; v_len : Z; v_desc : bytes }.

(* vlr.hpp:16-17 *)
Definition VLR_HEADER_SIZE : Z := 54.
Definition EVLR_HEADER_SIZE : Z := 60.

(* 54-byte VLR header; the length field is 16 bits *)
Definition enc_vlr_header (v : vlr_header) : bytes :=
  enc_u16 (v_res v) ++ put_str 16 (v_user v) ++ enc_u16 (v_rec v) ++ enc_u16 (v_len v) ++ put_str 32 (v_desc v).
(* 60-byte EVLR header; the length field is 64 bits *)
Definition enc_evlr_header (v : vlr_header) : bytes :=
  enc_u16 (v_res v) ++ put_str 16 (v_user v) ++ enc_u16 (v_rec v) ++ enc_u64 (v_len v) ++ put_str 32 (v_desc v).
Definition dec_vlr_header (b : bytes) : option (vlr_header * bytes) :=
  let? (res, b) := dec_u 2 b in let? (user, b) := take_bytes 16 b in let? (rid, b) := dec_u 2 b in
  let? (len, b) := dec_u 2 b in let? (desc, b) := take_bytes 32 b in
  Some (mkVlrH false res (trim_nul user) rid len (trim_nul desc), b).
Definition dec_evlr_header (b : bytes) : option (vlr_header * bytes) :=
  let? (res, b) := dec_u 2 b in let? (user, b) := take_bytes 16 b in let? (rid, b) := dec_u 2 b in
  let? (len, b) := dec_u 8 b in let? (desc, b) := take_bytes 32 b in
  Some (mkVlrH true res (trim_nul user) rid len (trim_nul desc), b).

(* ASCII constants *)
Definition s_copc : bytes := [99; 111; 112; 99].
Definition s_rock : bytes := [114; 111; 99; 107; 95; 114; 111; 98; 111; 116; 105; 99].
Definition s_las_spec : bytes := [76; 65; 83; 70; 95; 83; 112; 101; 99].
Definition s_las_proj : bytes := [76; 65; 83; 70; 95; 80; 114; 111; 106; 101; 99; 116; 105; 111; 110].
Definition s_laszip : bytes := [108; 97; 115; 122; 105; 112; 32; 101; 110; 99; 111; 100; 101; 100].
(* descriptions carry no information the reader uses; they are modelled by their text *)
Definition s_extents : bytes := [67; 79; 80; 67; 32; 101; 120; 116; 101; 110; 116; 115].
Definition s_extended : bytes := [67; 79; 80; 67; 32; 101; 120; 116; 101; 110; 100; 101; 100; 32; 115; 116; 97; 116; 115].

(* ---- extra bytes ---- *)
(* lazperf::eb_vlr::ebfield: 192 bytes; the numeric triples are kept as their 24 raw bytes *)
Record ebfield := mkEb { eb_res : Z; eb_type : Z; eb_options : Z; eb_name : bytes; eb_unused : Z;
  eb_nodata : bytes; eb_min : bytes; eb_max : bytes; eb_scale : bytes; eb_offset : bytes; eb_desc : bytes }.
Definition enc_eb (e : ebfield) : bytes :=
  enc_u16 (eb_res e) ++ enc_u8 (eb_type e) ++ enc_u8 (eb_options e) ++ put_str 32 (eb_name e) ++ enc_u32 (eb_unused e) ++
  eb_nodata e ++ eb_min e ++ eb_max e ++ eb_scale e ++ eb_offset e ++ put_str 32 (eb_desc e).
Definition dec_eb (b : bytes) : option (ebfield * bytes) :=
  let? (res, b) := dec_u 2 b in let? (ty, b) := dec_u 1 b in let? (opt, b) := dec_u 1 b in
  let? (name, b) := take_bytes 32 b in let? (unused, b) := dec_u 4 b in
  let? (nd, b) := take_bytes 24 b in let? (mn, b) := take_bytes 24 b in let? (mx, b) := take_bytes 24 b in
  let? (sc, b) := take_bytes 24 b in let? (off, b) := take_bytes 24 b in let? (desc, b) := take_bytes 32 b in
  Some (mkEb res ty opt (trim_nul name) unused nd mn mx sc off (trim_nul desc), b).
Definition eb_vlr_size (items : list ebfield) : Z := 192 * Z.of_nat (length items).
(* lazperf eb_vlr::header: the length is cast to uint16 *)
Definition eb_vlr_header (items : list ebfield) : vlr_header :=
  mkVlrH false 0 s_las_spec 4 (to_u 16 (eb_vlr_size items)) [].
Definition enc_eb_vlr (items : list ebfield) : bytes := flat_map enc_eb items.
(* lazperf eb_vlr::create(in, byteSize) *)
Definition dec_eb_vlr (byte_size : Z) (b : bytes) : option (list ebfield * bytes) :=
  dec_many (Z.to_nat (byte_size / 192)) dec_eb b.

(* vlr.cpp:7-8 *)
Definition EXTRA_BYTE_DATA_TYPE : list Z :=
  [0; 1; 1; 2; 2; 4; 4; 8; 8; 4; 8; 2; 2; 4; 4; 8; 8; 16; 16; 8; 16; 3; 3; 6; 6; 12; 12; 24; 24; 12; 24].
(* vlr.cpp:10-21; indexing past the 31-entry table is undefined *)
Fixpoint num_bytes_from_eb (items : list ebfield) : outcome Z :=
  match items with
  | [] => Ok 0
  | e :: r =>
      let! n := (if eb_type e =? 0 then Ok (eb_options e)
                 else match nth_error EXTRA_BYTE_DATA_TYPE (Z.to_nat (eb_type e)) with Some n => Ok n | None => UB end) in
      let! m := num_bytes_from_eb r in
      Ok (n + m)
  end.

(* ---- WKT: lazperf::wkt_vlr as an EVLR ---- *)
Definition wkt_evlr_header (wkt : bytes) : vlr_header := mkVlrH true 0 s_las_proj 2112 (Z.of_nat (length wkt)) [].

(* ---- LAZ VLR (lazperf::laz_vlr): 34 bytes plus 6 per item ---- *)
Definition laz_items (fmt eb : Z) : list (Z * Z) :=
  (10, 30) :: (if fmt =? 7 then [(11, 6)] else if fmt =? 8 then [(12, 8)] else []) ++ (if 0 <? eb then [(14, eb)] else []).
Definition enc_laz_vlr (fmt eb : Z) : bytes :=
  enc_u16 3 ++ enc_u16 0 ++ enc_u8 3 ++ enc_u8 4 ++ enc_u16 3 ++ enc_u32 0 ++ enc_u32 UINT32_MAX ++
  enc_u64 (-1) ++ enc_u64 (-1) ++ enc_u16 (Z.of_nat (length (laz_items fmt eb))) ++
  flat_map (fun it => enc_u16 (fst it) ++ enc_u16 (snd it) ++ enc_u16 3) (laz_items fmt eb).
Definition laz_vlr_size (fmt eb : Z) : Z := 34 + 6 * Z.of_nat (length (laz_items fmt eb)).
Definition laz_vlr_header (fmt eb : Z) : vlr_header := mkVlrH false 0 s_laszip 22204 (to_u 16 (laz_vlr_size fmt eb)) [].

(* ---- COPC info: copc/info.hpp:30-36 ---- *)
Record copc_info := mkInfo { i_cx : f64; i_cy : f64; i_cz : f64; i_half : f64; i_spacing : f64; i_root_off : Z; i_root_size : Z }.
Definition default_info : copc_info := mkInfo f0 f0 f0 f0 f0 0 0.
Definition wf_info (i : copc_info) : Prop := 0 <= i_root_off i < 2 ^ 64 /\ 0 <= i_root_size i < 2 ^ 64.
(* info.hpp:14-15 *)
Definition INFO_VLR_OFFSET : Z := 375.
Definition INFO_SIZE : Z := 160.
Definition info_vlr_header : vlr_header := mkVlrH false 0 s_copc 1 INFO_SIZE [].
(* info.cpp:18-33 ToLazPerf and lazperf::copc_info_vlr::write: 160 bytes with 11 reserved words *)
Definition enc_info (i : copc_info) (gps_min gps_max : f64) : bytes :=
  enc_f64 (i_cx i) ++ enc_f64 (i_cy i) ++ enc_f64 (i_cz i) ++ enc_f64 (i_half i) ++ enc_f64 (i_spacing i) ++
  enc_u64 (i_root_off i) ++ enc_u64 (i_root_size i) ++ enc_f64 gps_min ++ enc_f64 gps_max ++ zeros 88.
(* lazperf::copc_info_vlr::create and info.cpp:7-16 *)
Definition dec_info (b : bytes) : option (copc_info * bytes) :=
  let? (cx, b) := dec_f64 b in let? (cy, b) := dec_f64 b in let? (cz, b) := dec_f64 b in
  let? (half, b) := dec_f64 b in let? (sp, b) := dec_f64 b in
  let? (off, b) := dec_u 8 b in let? (size, b) := dec_u 8 b in
  let? (_, b) := dec_f64 b in let? (_, b) := dec_f64 b in let? (_, b) := take_bytes 88 b in
  Some (mkInfo cx cy cz half sp off size, b).
