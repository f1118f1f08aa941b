(* SpecAgain.v - copies of copies: files that can be copied, and what a copy keeps *)
From Verif Require Import Base ModelFloat ModelKey ModelGeom ModelEntry ModelPoint ModelHeader ModelVlr ModelExtents ModelConfig ModelStream ModelWriter ModelReader ModelCopy
  SpecWriter SpecHier SpecReader SpecData SpecRound SpecCopy.
From Verif Require SpecConfig.
Open Scope Z_scope.
(* a file, a Reader on it, and the points of its nodes: the Reader's configuration is one that a Writer takes, and every
   node has points, all of whose bytes are in the file *)
Definition sound (cd : codec) (f : bytes) (hs : list page_info) (r : reader) (P : node -> list point) : Prop :=
  copc_pages f hs /\ Z.of_nat (length f) < 2 ^ 63 /\ reader_on f r /\ ready (r_cfg r) /\ storable (r_cfg r) /\ h_reclen (c_hdr (r_cfg r)) <= 255 /\ readable cd (c_hdr (r_cfg r)) f hs P /\
  forall n, stored_nodes hs n -> 0 < e_count (n_entry n) /\ whole_chunk f n /\ exists data, chunk_records cd (c_hdr (r_cfg r)) f n data.
(* the two files have the same nodes' keys, each with the same points *)
Definition same_points (hs : list page_info) (P : node -> list point) (hs' : list page_info) (P' : node -> list point) : Prop :=
  (forall m, stored_nodes hs' m -> exists n, stored_nodes hs n /\ n_key n = n_key m /\ P n = P' m) /\ (forall n, stored_nodes hs n -> exists m, stored_nodes hs' m /\ n_key m = n_key n /\ P' m = P n).
(* the settings of two configurations: the WKT bit of the encoding and, without the flag, the statistics of the extents may differ *)
Definition alike (c c' : config) : Prop :=
  c_wkt c' = c_wkt c /\ c_ebs c' = c_ebs c /\ same_cube (c_info c) (c_info c') /\
  xs_fmt (c_exts c') = xs_fmt (c_exts c) /\ xs_ext (c_exts c') = xs_ext (c_exts c) /\ map SpecConfig.plain (xs_items (c_exts c')) = map SpecConfig.plain (xs_items (c_exts c)) /\ (xs_ext (c_exts c) = true -> xs_items (c_exts c') = xs_items (c_exts c)) /\
  let h := c_hdr c in let h' := c_hdr c' in h_src h' = h_src h /\ Z.lor (h_enc h') 16 = Z.lor (h_enc h) 16 /\ h_day h' = h_day h /\ h_year h' = h_year h /\
  h_max h' = h_max h /\ h_min h' = h_min h /\ h_pbr h' = h_pbr h /\ h_scale h' = h_scale h /\ h_offset h' = h_offset h /\ h_fmt h' = h_fmt h /\ h_reclen h' = h_reclen h /\ h_guid h' = h_guid h /\ h_sys h' = h_sys h /\ h_gen h' = h_gen h.
(* f is an n-th copy of f0: each copy was made of all the nodes of the one before, through a Reader and with its configuration *)
Inductive generation (cd : codec) (f0 : bytes) (r0 : reader) : nat -> bytes -> reader -> Prop :=
| first_file : generation cd f0 r0 0 f0 r0
| next_copy n f r hs page l w r2 : generation cd f0 r0 n f r -> copies_from f hs r page l -> (forall m, stored_nodes hs m -> In m l) -> Z.of_nat (length l) < 2 ^ 32 - 2 ->
    copying copy_nodes cd page l r (r_cfg r) no_overrides (r_cfg r) w -> reader_on (file w) r2 -> generation cd f0 r0 (S n) (file w) r2.
