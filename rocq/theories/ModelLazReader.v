(* ModelLazReader.v - LazReader.
   Source: cpp/src/io/laz_reader.cpp, cpp/include/copc-lib/io/laz_reader.hpp, cpp/src/io/base_reader.cpp *)
From Verif Require Import Base ModelFloat ModelKey ModelGeom ModelEntry ModelPoint ModelPoints ModelHeader ModelVlr ModelExtents ModelConfig
  ModelStream ModelWriter ModelReader.

(* laz_reader.hpp:9-14 and base_reader.hpp: the stream's bytes and las_config_; the first use of a reader
   is modelled (lazperf's decompressor keeps its place between calls) *)
Record laz_reader := mkLR { lr_file : bytes; lr_cfg : laz_config }.
Definition open_laz_reader (f : bytes) : outcome laz_reader := let! b := init_reader f in Ok (mkLR f (br_cfg b)).

(* lazperf (external), when it opens the file: the chunk table as (point count, byte size) *)
Definition lazperf_chunks (cd : codec) (h : las_header) (f : bytes) : outcome (list (Z * Z)) :=
  match dec_u 8 (skipn (Z.to_nat (h_poff h)) f) with
  | None => Throw
  | Some (t, _) =>
      match dec_u 4 (skipn (Z.to_nat t) f) with
      | None => Throw
      | Some (version, b) =>
          if negb (version =? 0) then Throw
          else match dec_u 4 b with
               | None => Throw
               | Some (n, b) => match cd_untable cd n b with Some l => Ok l | None => Throw end
               end
      end
  end.
(* lazperf (external) generic_file::readPoint, called left times: a new decompressor starts where the
   previous one stopped, whenever the points of a chunk are used up; past the last chunk its chunk
   pointer leaves the table.  used fmt eb n s is the number of bytes of s that decompressing n records takes. *)
Fixpoint read_chunks (cd : codec) (used : Z -> Z -> Z -> bytes -> nat) (fmt eb : Z) (counts : list Z) (left : Z) (s : bytes) : outcome bytes :=
  if left <=? 0 then Ok []
  else match counts with
       | [] => UB
       | c :: r =>
           if c <=? 0 then UB
           else let n := Z.min c left in
                match cd_decomp cd fmt eb n s with
                | None => Throw
                | Some data => let! rest := read_chunks cd used fmt eb r (left - n) (skipn (used fmt eb n s) s) in Ok (data ++ rest)
                end
       end.
(* laz_reader.cpp:5-21: every record goes through char buff[255]; the stream is positioned after the
   chunk table offset before the first record *)
Definition laz_point_data (cd : codec) (used : Z -> Z -> Z -> bytes -> nat) (r : laz_reader) : outcome bytes :=
  let h := z_hdr (lr_cfg r) in
  let! eb := h_eb_size h in
  let! base := base_size (h_fmt h) in
  if h_pcount h <=? 0 then Ok []
  else if 255 <? base + eb then UB
  else let! cs := lazperf_chunks cd h (lr_file r) in
       read_chunks cd used (h_fmt h) eb (map fst cs) (h_pcount h) (skipn (Z.to_nat (h_poff h + 8)) (lr_file r)).
(* laz_reader.cpp:23-31 *)
Definition laz_points (cd : codec) (used : Z -> Z -> Z -> bytes -> nat) (hp : ModelPoints.heap) (r : laz_reader) : outcome (ModelPoints.heap * points) :=
  let! data := laz_point_data cd used r in
  match data with
  | [] => let! c := empty_points (z_hdr (lr_cfg r)) in Ok (hp, c)
  | _ => unpack_with hp data (z_hdr (lr_cfg r))
  end.
