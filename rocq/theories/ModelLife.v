(* ModelLife.v - constructing writers.
   Source: cpp/src/io/copc_writer_public.cpp:11-64 (InitWriter), cpp/src/io/copc_writer_internal.cpp:36-43,
   cpp/src/io/laz_writer.cpp:8-14, cpp/include/copc-lib/io/laz_base_writer.hpp:26-44 (BaseWriter and its destructor),
   cpp/src/io/laz_base_writer.cpp:144-174, cpp/include/copc-lib/io/copc_writer.hpp:77-95, cpp/include/copc-lib/io/laz_writer.hpp:41-57. *)
From Verif Require Import Base ModelFloat ModelKey ModelGeom ModelEntry ModelPoint ModelPoints ModelHeader ModelVlr ModelExtents ModelConfig
  ModelStream ModelWriter ModelLazReader.

(* what can come of a constructor: an object, an exception, std::terminate, undefined behaviour *)
Inductive construction (A : Type) := Built (a : A) | Refused | Terminated | Undefined.
Arguments Built {A} a. Arguments Refused {A}. Arguments Terminated {A}. Arguments Undefined {A}.
(* laz_base_writer.hpp:44: when the body of a derived constructor throws, the BaseWriter that was already made is
   destroyed; ~BaseWriter calls BaseWriter::Close (not the override: the derived object is gone), and an exception
   that leaves this destructor ends the program *)
Definition unwind {A} (cd : codec) (cap : option nat) (z : laz_config) : construction A :=
  match base_close cd z (mkBW (empty_out cap) true [] 0 0 0) with
  | (_, Ok _) => Refused
  | (_, Throw) => Terminated
  | (_, UB) => Undefined
  end.
(* Writer(stream, config, overrides...): copc_writer_public.cpp:11-64; make_unique<WriterInternal>:
   copc_writer_internal.cpp:36-43, whose body asks for FirstChunkOffset *)
Definition construct_writer (cd : codec) (cap : option nat) (c : config) (v : overrides) : construction writer :=
  match init_writer c v with
  | Throw => Refused
  | UB => Undefined
  | Ok c0 =>
      match copc_offset c0 with
      | Ok poff => Built (mkW (mkBW (put (zeros (Z.to_nat (first_chunk_offset poff))) (empty_out cap)) true [] 0 0 0) c0 [] [(root_key, new_wpage)])
      | Throw => unwind cd cap (mkLaz (c_hdr c0) (c_wkt c0) (c_ebs c0))
      | UB => Undefined
      end
  end.
(* LazWriter(stream, config): laz_writer.cpp:8-14 *)
Definition construct_laz_writer (cd : codec) (cap : option nat) (z : laz_config) : construction laz_writer :=
  match base_offset (z_hdr z) (z_ebs z) with
  | Ok poff => Built (mkLW (mkBW (put (zeros (Z.to_nat (first_chunk_offset poff))) (empty_out cap)) true [] 0 0 0) z)
  | Throw => unwind cd cap z
  | UB => Undefined
  end.
(* FileWriter and LazFileWriter: BaseFileWriter (laz_base_writer.cpp:162-168) opens the path with ios::out, which makes
   the file or empties it, and throws if it cannot; then the constructor above.  The first component is the file on
   disk afterwards (None: there is none); what a Built writer has sent to its stream may still be in the buffer
   (ModelFile), and its stream is new_file there. *)
Definition on_path {A} (can_open : bool) (old : option bytes) (x : construction A) : option bytes * construction A :=
  if can_open then (Some [], x) else (old, Refused).
Definition construct_file_writer (cd : codec) (can_open : bool) (old : option bytes) (c : config) (v : overrides) : option bytes * construction writer :=
  on_path can_open old (construct_writer cd None c v).
Definition construct_laz_file_writer (cd : codec) (can_open : bool) (old : option bytes) (z : laz_config) : option bytes * construction laz_writer :=
  on_path can_open old (construct_laz_writer cd None z).
