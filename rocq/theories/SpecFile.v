(* SpecFile.v - reading fields of a file by position (LAS 1.4 R15) *)
From Verif Require Import Base ModelStream ModelWriter SpecWriter.

(* the unsigned little-endian number stored in n bytes at a position *)
Definition num_at (off n : Z) (f : bytes) : Z := le_dec (bytes_at off n f).
(* LAS 1.4 table 3, public header block *)
Definition las_point_offset (f : bytes) : Z := num_at 96 4 f.
Definition las_vlr_count (f : bytes) : Z := num_at 100 4 f.
Definition las_legacy_count (f : bytes) : Z := num_at 107 4 f.
Definition las_evlr_offset (f : bytes) : Z := num_at 235 8 f.
Definition las_evlr_count (f : bytes) : Z := num_at 243 4 f.
Definition las_point_count (f : bytes) : Z := num_at 247 8 f.
(* position reached after n records: a header of hdr bytes with the length of the data that follows
   it in k bytes at 20, then the data (tables 5 and 6: VLRs have hdr 54, k 2; EVLRs hdr 60, k 8) *)
Fixpoint follow (hdr k : Z) (n : nat) (off : Z) (f : bytes) : Z :=
  match n with
  | O => off
  | S m => follow hdr k m (off + hdr + num_at (off + 20) k f) f
  end.
(* the number of the chunk table (LAZ): 8 bytes at the start of the point data *)
Definition laz_table_offset (f : bytes) : Z := num_at (las_point_offset f) 8 f.
(* COPC 1.0, info VLR (its data starts at byte 429 of the file): offset and size of the root page *)
Definition copc_root_offset (f : bytes) : Z := num_at 469 8 f.
Definition copc_root_size (f : bytes) : Z := num_at 477 8 f.
