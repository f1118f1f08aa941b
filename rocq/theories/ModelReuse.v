(* ModelReuse.v - writers on a stream that already has contents.
   Source: cpp/src/io/copc_writer_public.cpp:11-64, cpp/src/io/copc_writer_internal.cpp:36-43, cpp/src/io/laz_writer.cpp:8-14: the constructors
   take a std::ostream& and write from wherever it stands; nothing empties or rewinds it.  open_writer and
   open_laz_writer (ModelWriter) are these on an empty stream. *)
From Verif Require Import Base ModelFloat ModelKey ModelGeom ModelEntry ModelPoint ModelPoints ModelHeader ModelVlr ModelExtents ModelConfig
  ModelStream ModelWriter.

(* Writer(stream, config, ...): copc_writer_public.cpp:11-64 and copc_writer_internal.cpp:36-43 *)
Definition open_writer_on (s : ostream) (c : config) (v : overrides) : outcome writer :=
  let! c := init_writer c v in
  let! poff := copc_offset c in
  Ok (mkW (mkBW (put (zeros (Z.to_nat (first_chunk_offset poff))) s) true [] 0 0 0) c [] [(root_key, new_wpage)]).
(* LazWriter(stream, config): laz_writer.cpp:8-14 *)
Definition open_laz_writer_on (s : ostream) (z : laz_config) : outcome laz_writer :=
  let! poff := base_offset (z_hdr z) (z_ebs z) in
  Ok (mkLW (mkBW (put (zeros (Z.to_nat (first_chunk_offset poff))) s) true [] 0 0 0) z).
(* an unbounded stream with contents d, standing at position p *)
Definition holding (d : bytes) (p : nat) : ostream := mkOut d p false None.
