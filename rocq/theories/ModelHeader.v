(* ModelHeader.v - the LAS 1.4 header block.
   Source: cpp/include/copc-lib/las/header.hpp, cpp/src/las/header.cpp.
   lazperf's header14 (not in /repo) is modelled by the LAS 1.4 layout it documents. *)
From Verif Require Import Base ModelFloat ModelGeom ModelPoint.

(* header.hpp:128-163 fields of LasHeader; strings are byte lists *)
Record las_header := mkHdr {
  h_src : Z; h_enc : Z; h_day : Z; h_year : Z; h_max : vec3; h_min : vec3; h_pbr : list Z;
  h_scale : vec3; h_offset : vec3; h_fmt : Z; h_reclen : Z;
  h_pcount : Z; h_poff : Z; h_vlrs : Z; h_evoff : Z; h_evcnt : Z;
  h_guid : bytes; h_sys : bytes; h_gen : bytes; h_copc : bool }.

(* C++ field types: uint16 ids and dates, 15 uint64 counts, int8 format, uint16 record length, ... *)
Definition wf_hdr (h : las_header) : Prop :=
  0 <= h_src h < 65536 /\ 0 <= h_enc h < 65536 /\ 0 <= h_day h < 65536 /\ 0 <= h_year h < 65536 /\
  length (h_pbr h) = 15%nat /\ Forall (fun v => 0 <= v < 2 ^ 64) (h_pbr h) /\
  -128 <= h_fmt h < 128 /\ 0 <= h_reclen h < 65536 /\
  0 <= h_pcount h < 2 ^ 64 /\ 0 <= h_poff h < 2 ^ 32 /\ 0 <= h_vlrs h < 2 ^ 32 /\
  0 <= h_evoff h < 2 ^ 64 /\ 0 <= h_evcnt h < 2 ^ 32 /\
  wf_bytes (h_guid h) /\ wf_bytes (h_sys h) /\ wf_bytes (h_gen h).

(* header.hpp:30-33 constructor from format, record length, scale, offset, copc flag; the other
   fields take their in-class initialisers *)
Definition zero_vec : vec3 := mkVec f0 f0 f0.
Definition new_header (fmt reclen : Z) (s o : vec3) (copc : bool) : las_header :=
  mkHdr 0 0 0 0 zero_vec zero_vec (repeat 0 15) s o fmt reclen 0 0 0 0 0 [] [] [] copc.

(* header.cpp:17-25 copy with format, record length, scale and offset replaced *)
Definition header_with (h : las_header) (fmt reclen : Z) (s o : vec3) : las_header :=
  mkHdr (h_src h) (h_enc h) (h_day h) (h_year h) (h_max h) (h_min h) (h_pbr h) s o fmt reclen
        (h_pcount h) (h_poff h) (h_vlrs h) (h_evoff h) (h_evcnt h) (h_guid h) (h_sys h) (h_gen h) (h_copc h).
(* header.cpp:27 copy with another copc flag *)
Definition header_with_copc (h : las_header) (c : bool) : las_header :=
  mkHdr (h_src h) (h_enc h) (h_day h) (h_year h) (h_max h) (h_min h) (h_pbr h) (h_scale h) (h_offset h) (h_fmt h) (h_reclen h)
        (h_pcount h) (h_poff h) (h_vlrs h) (h_evoff h) (h_evcnt h) (h_guid h) (h_sys h) (h_gen h) c.

(* header.hpp:75-97 setters of the identification strings *)
Definition with_strings (g s n : bytes) (h : las_header) : las_header :=
  mkHdr (h_src h) (h_enc h) (h_day h) (h_year h) (h_max h) (h_min h) (h_pbr h) (h_scale h) (h_offset h) (h_fmt h) (h_reclen h)
        (h_pcount h) (h_poff h) (h_vlrs h) (h_evoff h) (h_evcnt h) g s n (h_copc h).
Definition set_guid (g : bytes) (h : las_header) : outcome las_header :=
  if (16 <? length g)%nat then Throw else Ok (with_strings g (h_sys h) (h_gen h) h).
Definition set_system_identifier (s : bytes) (h : las_header) : outcome las_header :=
  if (32 <? length s)%nat then Throw else Ok (with_strings (h_guid h) s (h_gen h) h).
Definition set_generating_software (s : bytes) (h : las_header) : outcome las_header :=
  if (32 <? length s)%nat then Throw else Ok (with_strings (h_guid h) (h_sys h) s h).

(* header.cpp:51 *)
Definition h_eb_size (h : las_header) : outcome Z := eb_byte_size (h_fmt h) (h_reclen h).

(* ---- lazperf::header14 ---- *)
Record header14 := mkH14 {
  l_src : Z; l_enc : Z; l_guid : bytes; l_major : Z; l_minor : Z; l_sys : bytes; l_gen : bytes;
  l_day : Z; l_year : Z; l_hsize : Z; l_poff : Z; l_vlrs : Z; l_fmt : Z; l_reclen : Z; l_pcount : Z; l_pbr5 : list Z;
  l_scale : vec3; l_offset : vec3; l_max : vec3; l_min : vec3; l_wave : Z; l_evoff : Z; l_evcnt : Z; l_pc14 : Z; l_pbr14 : list Z }.

(* C string helpers: text before the first NUL *)
Fixpoint before_nul (s : bytes) : bytes :=
  match s with [] => [] | c :: r => if c =? 0 then [] else c :: before_nul r end.
(* strncpy(dst, s.c_str(), n): at most n characters of the C string, rest of the field zero *)
Definition strncpy (n : nat) (s : bytes) : bytes :=
  let t := firstn n (before_nul s) in t ++ zeros (n - length t).
(* std::string = char array: characters up to the NUL; without one the read leaves the array *)
Definition cstr (field : bytes) : outcome bytes :=
  if existsb (Z.eqb 0) field then Ok (before_nul field) else UB.

Definition HEADER_SIZE : Z := 375.

(* header.cpp:98-160 *)
Definition to_lazperf (h : las_header) (point_offset point_count evlr_offset evlr_count : Z) (eb_flag ext_flag : bool)
  : outcome header14 :=
  let vlrs := 1 in
  let vlrs := if eb_flag then vlrs + 1 else vlrs in
  let vlrs := if h_copc h then vlrs + 2 else vlrs in
  let! vlrs := (if ext_flag then (if h_copc h then Ok (vlrs + 1) else Throw) else Ok vlrs) in
  Ok (mkH14 (h_src h) (Z.lor (h_enc h) 16) (strncpy 16 (h_guid h)) 1 4 (strncpy 32 (h_sys h)) (strncpy 32 (h_gen h))
        (h_day h) (h_year h) HEADER_SIZE (to_u 32 point_offset) vlrs
        (Z.lor (to_u 8 (h_fmt h)) 128) (h_reclen h)
        (if UINT32_MAX <? point_count then 0 else point_count) (repeat 0 5)
        (h_scale h) (h_offset h) (h_max h) (h_min h) 0 evlr_offset evlr_count point_count (h_pbr h)).

(* LAS 1.4 public header block, 375 bytes *)
Definition enc_vec (v : vec3) : bytes := enc_f64 (vx v) ++ enc_f64 (vy v) ++ enc_f64 (vz v).
Definition enc_minmax (mx mn : vec3) : bytes :=
  enc_f64 (vx mx) ++ enc_f64 (vx mn) ++ enc_f64 (vy mx) ++ enc_f64 (vy mn) ++ enc_f64 (vz mx) ++ enc_f64 (vz mn).
Definition LASF : bytes := [76; 65; 83; 70].
Definition enc_header14 (l : header14) : bytes :=
  LASF ++ enc_u16 (l_src l) ++ enc_u16 (l_enc l) ++ l_guid l ++ enc_u8 (l_major l) ++ enc_u8 (l_minor l) ++
  l_sys l ++ l_gen l ++ enc_u16 (l_day l) ++ enc_u16 (l_year l) ++ enc_u16 (l_hsize l) ++ enc_u32 (l_poff l) ++
  enc_u32 (l_vlrs l) ++ enc_u8 (l_fmt l) ++ enc_u16 (l_reclen l) ++ enc_u32 (l_pcount l) ++ flat_map enc_u32 (l_pbr5 l) ++
  enc_vec (l_scale l) ++ enc_vec (l_offset l) ++ enc_minmax (l_max l) (l_min l) ++
  enc_u64 (l_wave l) ++ enc_u64 (l_evoff l) ++ enc_u32 (l_evcnt l) ++ enc_u64 (l_pc14 l) ++ flat_map enc_u64 (l_pbr14 l).

Definition dec_vec (b : bytes) : option (vec3 * bytes) :=
  let? (x, b) := dec_f64 b in let? (y, b) := dec_f64 b in let? (z, b) := dec_f64 b in Some (mkVec x y z, b).
Fixpoint dec_many {A} (n : nat) (d : bytes -> option (A * bytes)) (b : bytes) : option (list A * bytes) :=
  match n with
  | O => Some ([], b)
  | S n' => let? (v, b) := d b in let? (vs, b) := dec_many n' d b in Some (v :: vs, b)
  end.
(* None: the stream ran out *)
Definition dec_header14 (b : bytes) : option (bytes * header14 * bytes) :=
  let? (magic, b) := take_bytes 4 b in
  let? (src, b) := dec_u 2 b in let? (enc, b) := dec_u 2 b in let? (guid, b) := take_bytes 16 b in
  let? (major, b) := dec_u 1 b in let? (minor, b) := dec_u 1 b in
  let? (sys, b) := take_bytes 32 b in let? (gen, b) := take_bytes 32 b in
  let? (day, b) := dec_u 2 b in let? (year, b) := dec_u 2 b in let? (hsize, b) := dec_u 2 b in
  let? (poff, b) := dec_u 4 b in let? (vlrs, b) := dec_u 4 b in let? (fmt, b) := dec_u 1 b in
  let? (reclen, b) := dec_u 2 b in let? (pcount, b) := dec_u 4 b in let? (pbr5, b) := dec_many 5 (dec_u 4) b in
  let? (scale, b) := dec_vec b in let? (off, b) := dec_vec b in
  let? (maxx, b) := dec_f64 b in let? (minx, b) := dec_f64 b in
  let? (maxy, b) := dec_f64 b in let? (miny, b) := dec_f64 b in
  let? (maxz, b) := dec_f64 b in let? (minz, b) := dec_f64 b in
  let? (wave, b) := dec_u 8 b in let? (evoff, b) := dec_u 8 b in let? (evcnt, b) := dec_u 4 b in
  let? (pc14, b) := dec_u 8 b in let? (pbr14, b) := dec_many 15 (dec_u 8) b in
  Some (magic, mkH14 src enc guid major minor sys gen day year hsize poff vlrs fmt reclen pcount pbr5 scale off
    (mkVec maxx maxy maxz) (mkVec minx miny minz) wave evoff evcnt pc14 pbr14, b).

(* header.cpp:53-97; the result keeps the default copc_flag_{true}. *)
Definition from_lazperf (l : header14) : outcome las_header :=
  let! _ := require (negb (Z.land (l_enc l) 16 =? 0)) in
  let! guid := cstr (l_guid l) in
  let! _ := require ((l_major l =? 1) && (l_minor l =? 4)) in
  let! sys := cstr (l_sys l) in
  let! gen := cstr (l_gen l) in
  let! _ := require (l_hsize l =? HEADER_SIZE) in
  let! _ := require ((6 <=? l_fmt l) && (l_fmt l <=? 8)) in
  Ok (mkHdr (l_src l) (l_enc l) (l_day l) (l_year l) (l_max l) (l_min l) (l_pbr14 l) (l_scale l) (l_offset l)
        (l_fmt l) (l_reclen l) (l_pc14 l) (l_poff l) (l_vlrs l) (l_evoff l) (l_evcnt l) guid sys gen true).

(* lazperf's reader: rejects a bad signature or short file, requires the 'compressed' bit and
   strips the two top bits of the format (external library, assumed) *)
Definition read_header14 (file : bytes) : outcome header14 :=
  match dec_header14 file with
  | None => Throw
  | Some (magic, l, _) =>
      if negb (if list_eq_dec Z.eq_dec magic LASF then true else false) then Throw
      else if Z.land (l_fmt l) 128 =? 0 then Throw
      else Ok (mkH14 (l_src l) (l_enc l) (l_guid l) (l_major l) (l_minor l) (l_sys l) (l_gen l) (l_day l) (l_year l)
                 (l_hsize l) (l_poff l) (l_vlrs l) (Z.land (l_fmt l) 63) (l_reclen l) (l_pcount l) (l_pbr5 l)
                 (l_scale l) (l_offset l) (l_max l) (l_min l) (l_wave l) (l_evoff l) (l_evcnt l) (l_pc14 l) (l_pbr14 l))
  end.

(* base_reader.cpp:17-24: what a reader reports for a file starting with these bytes *)
Definition read_las_header (file : bytes) : outcome las_header :=
  let! l := read_header14 file in from_lazperf l.
