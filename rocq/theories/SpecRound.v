(* SpecRound.v - vocabulary for reading back what a Writer wrote *)
From Verif Require Import Base ModelFloat ModelKey ModelGeom ModelEntry ModelPoint ModelPoints ModelHeader ModelVlr ModelExtents ModelConfig
  ModelStream ModelWriter ModelReader SpecKey SpecPoint SpecConfig SpecHeader SpecWriter SpecHier SpecFile SpecReader SpecData.

(* a configuration that the fields of a file can hold: at most 341 extra-byte descriptors (a VLR holds 65535
   bytes), descriptors that describe at least one byte between them, texts that fit, ordered extents, a WKT below 2^31 bytes *)
Definition storable (c : config) : Prop :=
  (length (c_ebs c) <= 341)%nat /\ (c_ebs c = [] \/ 0 < eb_total (c_ebs c)) /\ Forall wf_eb_text (c_ebs c) /\
  Forall extent_ok (xs_items (c_exts c)) /\
  id_string 16 (h_guid (c_hdr c)) /\ id_string 32 (h_sys (c_hdr c)) /\ id_string 32 (h_gen (c_hdr c)) /\
  Z.of_nat (length (c_wkt c)) < 2 ^ 31.
(* the LAS header fields that a user sets; the WKT bit of the global encoding is always set in a file *)
Definition same_settings (h h' : las_header) : Prop :=
  h_src h' = h_src h /\ h_enc h' = Z.lor (h_enc h) 16 /\ h_day h' = h_day h /\ h_year h' = h_year h /\
  h_max h' = h_max h /\ h_min h' = h_min h /\ h_pbr h' = h_pbr h /\ h_scale h' = h_scale h /\ h_offset h' = h_offset h /\
  h_fmt h' = h_fmt h /\ h_reclen h' = h_reclen h /\ h_guid h' = h_guid h /\ h_sys h' = h_sys h /\ h_gen h' = h_gen h /\ h_copc h' = h_copc h.
(* the header fields that the library computes are those of the file *)
Definition describes (f : bytes) (h : las_header) : Prop :=
  h_pcount h = las_point_count f /\ h_poff h = las_point_offset f /\ h_vlrs h = las_vlr_count f /\ h_evoff h = las_evlr_offset f /\ h_evcnt h = las_evlr_count f.
(* extents as a file holds them: mean and variance only for extended statistics *)
Definition same_extents (x x' : extents) : Prop :=
  xs_fmt x' = xs_fmt x /\ xs_ext x' = xs_ext x /\ xs_items x' = (if xs_ext x then xs_items x else map plain (xs_items x)).
(* a reader's configuration c' is the writer's configuration c *)
Definition reports (c c' : config) : Prop :=
  c_wkt c' = c_wkt c /\ c_ebs c' = c_ebs c /\ c_info c' = c_info c /\ same_extents (c_exts c) (c_exts c') /\ same_settings (c_hdr c) (c_hdr c').

(* the records that an accepted call stores: the array given; the points given, packed; an array that
   compresses to the chunk given *)
Definition stores_records (cd : codec) (h : las_header) (op : wop) (data : bytes) : Prop :=
  match op with
  | WAdd _ records _ => data = records
  | WAddPoints _ hp c _ => points_pack hp c (h_scale h) (h_offset h) = Ok data
  | WAddCompressed _ x n _ => x = cd_comp cd (h_fmt h) (h_reclen h - las_base (h_fmt h)) data /\ Z.of_nat (length data) = n * h_reclen h
  | _ => False
  end.
(* what a point looks like when it comes back from a file: its attributes, and its coordinates rounded
   to the header's scale and offset *)
Definition comes_back (s o : vec3) (p q : point) : Prop :=
  same_attributes p q /\ exists x y z,
    remove_scale_i32 (p_x p) (vx s) (vx o) = Ok x /\ remove_scale_i32 (p_y p) (vy s) (vy o) = Ok y /\ remove_scale_i32 (p_z p) (vz s) (vz o) = Ok z /\
    p_x q = apply_scale_i x (vx s) (vx o) /\ p_y q = apply_scale_i y (vy s) (vy o) /\ p_z q = apply_scale_i z (vz s) (vz o).
(* the file of a complete session, small enough for signed 64-bit offsets, whose node placement is settled *)
Definition written (cd : codec) (c0 : config) (ops : list wop) (l : log) (w : writer) : Prop :=
  (exists od c v, complete_session cd od c v c0 ops l w) /\ settled l /\ Forall positive ops /\ Z.of_nat (length (file w)) < 2 ^ 63.
