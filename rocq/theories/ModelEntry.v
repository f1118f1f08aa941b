(* ModelEntry.v - hierarchy entries and nodes.
   Source: cpp/include/copc-lib/hierarchy/entry.hpp, node.hpp *)
From Verif Require Import Base ModelKey.

(* entry.hpp:69-72 *)
Record entry := mkEntry { e_key : key; e_offset : Z; e_size : Z; e_count : Z }.

(* the C++ field types: uint64 offset, int32 size and count *)
Definition wf_entry (e : entry) : bool :=
  wf_key (e_key e) && u64 (e_offset e) && i32 (e_size e) && i32 (e_count e).

(* entry.hpp:19 default constructor; offset(-1) is 2^64-1 in a uint64 *)
Definition invalid_entry : entry := mkEntry invalid_key 18446744073709551615 (-1) (-1).

(* entry.hpp:23 ('offset >= 0' is always true of a uint64) *)
Definition entry_valid (e : entry) : bool := (0 <=? e_offset e) && (0 <=? e_size e) && key_valid (e_key e).
(* entry.hpp:24 *)
Definition entry_is_page (e : entry) : bool := entry_valid e && (e_count e =? -1).

(* entry.hpp:76-79 IsEqual, used by Node::operator== (node.hpp:20) *)
Definition entry_eqb (a b : entry) : bool :=
  (e_offset a =? e_offset b) && (e_size a =? e_size b) && (e_count a =? e_count b) && key_eqb (e_key a) (e_key b).

(* entry.hpp:39-49 Pack *)
Definition entry_pack (e : entry) : bytes :=
  enc_i32 (kd (e_key e)) ++ enc_i32 (kx (e_key e)) ++ enc_i32 (ky (e_key e)) ++ enc_i32 (kz (e_key e)) ++
  enc_u64 (e_offset e) ++ enc_i32 (e_size e) ++ enc_i32 (e_count e).

(* entry.hpp:51-67 Unpack; None = the stream ran out *)
Definition entry_unpack (b : bytes) : option (entry * bytes) :=
  let? (d, b) := dec_s 4 b in
  let? (x, b) := dec_s 4 b in
  let? (y, b) := dec_s 4 b in
  let? (z, b) := dec_s 4 b in
  let? (off, b) := dec_u 8 b in
  let? (size, b) := dec_s 4 b in
  let? (count, b) := dec_s 4 b in
  Some (mkEntry (mkKey d x y z) off size count, b).

(* entry.hpp:17 *)
Definition ENTRY_SIZE : nat := 32.

(* node.hpp:14-22: an entry plus the key of the page holding it *)
Record node := mkNode { n_entry : entry; n_page : key }.
Definition n_key (n : node) := e_key (n_entry n).
(* node.hpp:18 default node: invalid entry, invalid page key *)
Definition invalid_node : node := mkNode invalid_entry invalid_key.
Definition node_valid (n : node) : bool := entry_valid (n_entry n).
