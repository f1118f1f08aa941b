(* ModelExport.v - writing the nodes of a COPC file into a LAZ file.
   Source: cpp/src/io/copc_reader.cpp:94-146 GetPoints(node) and GetPointDataCompressed(node), cpp/src/io/laz_writer.cpp:17-36
   WritePoints and WritePointsCompressed, and the use of a Reader's configuration for a LazWriter in
   test/mp_transform_test.py:129-132 and python/bindings.cpp:579-580. *)
From Verif Require Import Base ModelFloat ModelKey ModelGeom ModelEntry ModelPoint ModelPoints ModelHeader ModelVlr ModelExtents ModelConfig
  ModelStream ModelWriter ModelReader.

(* the configuration of LazWriter(out, reader.CopcConfig()): CopcConfig is a LazConfig (copc/copc_config.hpp:17), and
   LazConfigWriter(const LazConfig &) copies it without the COPC flag (las/laz_config.hpp:56-59) *)
Definition laz_of_copc (c : config) : laz_config := laz_writer_config (mkLaz (c_hdr c) (c_wkt c) (c_ebs c)).
(* for (node : l) laz_writer.WritePointsCompressed(reader.GetPointDataCompressed(node), node.point_count): an exception
   ends the loop *)
Fixpoint export_nodes (cd : codec) (l : list node) (r : reader) (w : laz_writer) : reader * laz_writer * outcome unit :=
  match l with
  | [] => (r, w, Ok tt)
  | n :: l =>
      match get_compressed_node n r with
      | (r, Ok data) =>
          match lstep cd (LWriteCompressed data (e_count (n_entry n))) w with
          | (w, Ok _) => export_nodes cd l r w
          | (w, Throw) => (r, w, Throw)
          | (w, UB) => (r, w, UB)
          end
      | (r, Throw) => (r, w, Throw)
      | (r, UB) => (r, w, UB)
      end
  end.
(* for (node : l) laz_writer.WritePoints(reader.GetPoints(node)); hp is the program's point objects *)
Fixpoint export_points (cd : codec) (l : list node) (hp : ModelPoints.heap) (r : reader) (w : laz_writer) : reader * laz_writer * outcome unit :=
  match l with
  | [] => (r, w, Ok tt)
  | n :: l =>
      match get_points_node cd hp n r with
      | (r, Ok (hp, c)) =>
          match lstep cd (LWrite hp c) w with
          | (w, Ok _) => export_points cd l hp r w
          | (w, Throw) => (r, w, Throw)
          | (w, UB) => (r, w, UB)
          end
      | (r, Throw) => (r, w, Throw)
      | (r, UB) => (r, w, UB)
      end
  end.
