(* ModelCopy.v - copying nodes from a Reader to a Writer without decompressing them.
   Source: the loop of example/example-writer.cpp:31-55 (and README.md), whose calls are
   cpp/src/io/copc_reader.cpp:135-146 GetPointDataCompressed(node) and
   cpp/src/io/copc_writer_public.cpp:126-133 AddNodeCompressed. *)
From Verif Require Import Base ModelFloat ModelKey ModelGeom ModelEntry ModelPoint ModelPoints ModelHeader ModelVlr ModelExtents ModelConfig
  ModelStream ModelWriter ModelReader.

(* for (node : l) writer.AddNodeCompressed(node.key, reader.GetPointDataCompressed(node), node.point_count, page(node)):
   example-writer.cpp:37-43, where page(node) is node.page_key; an exception ends the loop *)
Fixpoint copy_nodes (cd : codec) (page : node -> key) (l : list node) (r : reader) (w : writer) : reader * writer * outcome unit :=
  match l with
  | [] => (r, w, Ok tt)
  | n :: l =>
      match get_compressed_node n r with
      | (r, Ok data) =>
          match add_node_compressed cd (n_key n) data (e_count (n_entry n)) (page n) w with
          | (w, Ok _) => copy_nodes cd page l r w
          | (w, Throw) => (r, w, Throw)
          | (w, UB) => (r, w, UB)
          end
      | (r, Throw) => (r, w, Throw)
      | (r, UB) => (r, w, UB)
      end
  end.
(* example-writer.cpp:44-54: the same with GetPointData, Compressor::CompressBytes (laz/compressor.hpp:61-64) with the
   Writer's header, and AddNodeCompressed *)
Fixpoint recompress_nodes (cd : codec) (page : node -> key) (l : list node) (r : reader) (w : writer) : reader * writer * outcome unit :=
  match l with
  | [] => (r, w, Ok tt)
  | n :: l =>
      match get_point_data_node cd n r with
      | (r, Ok data) =>
          match (let! eb := h_eb_size (c_hdr (w_cfg w)) in compress_bytes cd (h_fmt (c_hdr (w_cfg w))) eb data) with
          | Ok (x, _) =>
              match add_node_compressed cd (n_key n) x (e_count (n_entry n)) (page n) w with
              | (w, Ok _) => recompress_nodes cd page l r w
              | (w, Throw) => (r, w, Throw)
              | (w, UB) => (r, w, UB)
              end
          | Throw => (r, w, Throw)
          | UB => (r, w, UB)
          end
      | (r, Throw) => (r, w, Throw)
      | (r, UB) => (r, w, UB)
      end
  end.
