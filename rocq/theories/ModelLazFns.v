(* ModelLazFns.v - laz::Compressor::CompressBytes and laz::Decompressor::DecompressBytes on byte vectors.
   Source: cpp/include/copc-lib/laz/compressor.hpp, cpp/include/copc-lib/laz/decompressor.hpp *)
From Verif Require Import Base ModelFloat ModelKey ModelGeom ModelEntry ModelPoint ModelPoints ModelHeader ModelVlr ModelExtents ModelConfig ModelStream ModelWriter.

(* compressor.hpp:52-59 *)
Definition compress_vector (cd : codec) (data : bytes) (fmt eb : Z) : outcome bytes :=
  let! (b, _) := compress_bytes cd fmt eb data in Ok b.
(* compressor.hpp:61-64 *)
Definition compress_with (cd : codec) (data : bytes) (h : las_header) : outcome bytes :=
  let! eb := h_eb_size h in compress_vector cd data (h_fmt h) eb.
(* decompressor.hpp:48-53 with 23-43: a stream over the vector, every record (base size and eb bytes) decompressed into char buff[255];
   lazperf throws when the input runs out *)
Definition decompress_vector (cd : codec) (data : bytes) (fmt eb count : Z) : outcome bytes :=
  let! base := base_size fmt in
  if count <=? 0 then Ok []
  else if 255 <? base + eb then UB
  else match cd_decomp cd fmt eb count data with Some b => Ok b | None => Throw end.
(* decompressor.hpp:55-59 *)
Definition decompress_with (cd : codec) (data : bytes) (h : las_header) (count : Z) : outcome bytes :=
  let! eb := h_eb_size h in decompress_vector cd data (h_fmt h) eb count.
