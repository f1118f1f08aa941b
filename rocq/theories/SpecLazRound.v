(* SpecLazRound.v - vocabulary for reading back what a LazWriter wrote *)
From Verif Require Import Base ModelFloat ModelKey ModelGeom ModelEntry ModelPoint ModelPoints ModelHeader ModelVlr ModelExtents ModelConfig
  ModelStream ModelWriter ModelReader ModelLazReader SpecKey SpecPoint SpecConfig SpecHeader SpecWriter SpecFile SpecPoints SpecData SpecLaz SpecRound.

(* decompressing the records of a chunk takes exactly the bytes that compressing them gave *)
Definition exact (cd : codec) (used : Z -> Z -> Z -> bytes -> nat) : Prop :=
  forall fmt eb n data rest, 6 <= fmt <= 8 -> 0 <= eb -> 0 < n -> Z.of_nat (length data) = n * rec_size fmt eb ->
    used fmt eb n (cd_comp cd fmt eb data ++ rest) = length (cd_comp cd fmt eb data).
(* a configuration that the fields of a file can hold *)
Definition laz_storable (z : laz_config) : Prop :=
  (length (z_ebs z) <= 341)%nat /\ (z_ebs z = [] \/ 0 < eb_total (z_ebs z)) /\ Forall wf_eb_text (z_ebs z) /\
  id_string 16 (h_guid (z_hdr z)) /\ id_string 32 (h_sys (z_hdr z)) /\ id_string 32 (h_gen (z_hdr z)) /\ Z.of_nat (length (z_wkt z)) < 2 ^ 31.
(* the calls that were accepted, in order *)
Definition accepted (l : laz_log) : list lop := flat_map (fun x => match x with (op, Ok _) => [op] | _ => [] end) l.
(* the records that an accepted call stores *)
Definition laz_stores (cd : codec) (h : las_header) (op : lop) (data : bytes) : Prop :=
  match op with
  | LWrite hp c => points_pack hp c (h_scale h) (h_offset h) = Ok data
  | LWriteCompressed x n => x = cd_comp cd (h_fmt h) (h_reclen h - las_base (h_fmt h)) data /\ Z.of_nat (length data) = n * h_reclen h /\ 0 < n < 2 ^ 31
  end.
(* the points that an accepted WritePoints call was given: well formed, and of the collection's format *)
Definition laz_given (op : lop) (ps : list point) : Prop :=
  match op with
  | LWrite hp c => mapM (hget hp) (c_pts c) = Ok ps /\ Forall wf_point hp /\ SpecPoints.uniform hp c
  | LWriteCompressed _ _ => False
  end.
(* the LAS header fields that a user sets *)
Definition laz_settings (h h' : las_header) : Prop :=
  h_src h' = h_src h /\ h_enc h' = Z.lor (h_enc h) 16 /\ h_day h' = h_day h /\ h_year h' = h_year h /\
  h_max h' = h_max h /\ h_min h' = h_min h /\ h_pbr h' = h_pbr h /\ h_scale h' = h_scale h /\ h_offset h' = h_offset h /\
  h_fmt h' = h_fmt h /\ h_reclen h' = h_reclen h /\ h_guid h' = h_guid h /\ h_sys h' = h_sys h /\ h_gen h' = h_gen h.
