(* SpecValid.v - vocabulary for files whose points lie in their voxels *)
From Verif Require Import Base ModelFloat ModelKey ModelGeom ModelEntry ModelPoint ModelPoints ModelHeader ModelVlr ModelExtents ModelConfig
  ModelStream ModelWriter ModelReader SpecKey SpecPoint SpecPoints SpecConfig SpecHeader SpecWriter SpecHier SpecFile SpecReader SpecData SpecRound.

(* every accepted AddNode call stored records *)
Definition records_added (cd : codec) (c0 : config) (l : log) : Prop :=
  forall op n, In (op, Ok (Some n)) l -> exists data, stores_records cd (c_hdr c0) op data /\ wf_bytes data.
(* ps are the points of the records of the AddNode call for key k that counts, the last one *)
Definition kept_points (cd : codec) (c0 : config) (l : log) (k : key) (ps : list point) : Prop :=
  exists n p op data, view_of l k = Some (n, p) /\ In (op, Ok (Some n)) l /\ stores_records cd (c_hdr c0) op data /\ wf_bytes data /\ decodes_to (c_hdr c0) data ps.
(* the points lie in the voxel of key k and within the header's bounds, which the voxel meets *)
Definition in_place (h : las_header) (hb : box) (k : key) (ps : list point) : Prop :=
  box_intersects (box_of_key k (h_min h) (h_max h)) hb = true /\
  Forall (fun p => point_within p (box_of_key k (h_min h) (h_max h)) = true /\ point_within p hb = true) ps.
(* every accepted AddNode call was given a Points object whose points have its format and length *)
Definition points_added (l : log) : Prop :=
  forall op n, In (op, Ok (Some n)) l -> exists k hp c page, op = WAddPoints k hp c page /\ Forall wf_point hp /\ uniform hp c.
(* the AddNode call that counts for key k was given the points ps *)
Definition given_points (l : log) (k : key) (ps : list point) : Prop :=
  exists n p hp c page, view_of l k = Some (n, p) /\ In (WAddPoints k hp c page, Ok (Some n)) l /\ mapM (hget hp) (c_pts c) = Ok ps.
(* a coordinate that rounding to the scale and offset leaves alone *)
Definition on_grid (s o : vec3) (p : point) : Prop := forall q, comes_back s o p q -> p_x q = p_x p /\ p_y q = p_y p /\ p_z q = p_z p.
