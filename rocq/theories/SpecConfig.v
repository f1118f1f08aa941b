(* SpecConfig.v - vocabulary for extents and configurations *)
From Verif Require Import Base ModelFloat ModelGeom ModelPoint ModelHeader ModelVlr ModelExtents ModelConfig SpecPoint.

(* the dimensions a LAS point format has *)
Definition has_dim (fmt : Z) (d : dim) : Prop :=
  match d with
  | DRed | DGreen | DBlue => fmt = 7 \/ fmt = 8
  | DNir => fmt = 8
  | _ => True
  end.
(* number of base dimensions *)
Definition las_dims (fmt : Z) : Z := if fmt =? 6 then 14 else if fmt =? 7 then 17 else 18.

(* extents of format 6-8 with n extra-byte items *)
Definition shaped (x : extents) (n : Z) : Prop :=
  6 <= xs_fmt x <= 8 /\ 0 <= n < 65536 /\ Z.of_nat (length (xs_items x)) = las_dims (xs_fmt x) + n.

Definition extent_ok (e : extent) : Prop := fgt (ex_min e) (ex_max e) = false /\ flt (ex_var e) f0 = false.

(* LAS 1.4 R15 table 24: size of an extra-byte field by data type (0 = undocumented: options bytes) *)
Definition las_eb_size (e : ebfield) : Z :=
  let one t := match t with 1 | 2 => 1 | 3 | 4 => 2 | 5 | 6 | 9 => 4 | 7 | 8 | 10 => 8 | _ => 0 end in
  let t := eb_type e in
  if t =? 0 then eb_options e
  else if t <=? 10 then one t
  else if t <=? 20 then 2 * one (t - 10)
  else 3 * one (t - 20).
(* field types: bytes *)
Definition wf_eb (e : ebfield) : Prop :=
  0 <= eb_res e < 65536 /\ 0 <= eb_type e < 256 /\ 0 <= eb_options e < 256 /\ 0 <= eb_unused e < 2 ^ 32 /\
  length (eb_nodata e) = 24%nat /\ length (eb_min e) = 24%nat /\ length (eb_max e) = 24%nat /\
  length (eb_scale e) = 24%nat /\ length (eb_offset e) = 24%nat.
(* a text that a NUL-padded field of n bytes can hold *)
Definition padded_text (n : nat) (s : bytes) : Prop := (length s <= n)%nat /\ last s 1 <> 0.
Definition wf_eb_text (e : ebfield) : Prop := padded_text 32 (eb_name e) /\ padded_text 32 (eb_desc e).
Definition eb_total (items : list ebfield) : Z := fold_right (fun e a => las_eb_size e + a) 0 items.

(* two headers agree on everything except format, record length, scale, offset and the copc flag *)
Definition same_identity (a b : las_header) : Prop :=
  h_src a = h_src b /\ h_enc a = h_enc b /\ h_day a = h_day b /\ h_year a = h_year b /\ h_max a = h_max b /\ h_min a = h_min b /\
  h_pbr a = h_pbr b /\ h_pcount a = h_pcount b /\ h_poff a = h_poff b /\ h_vlrs a = h_vlrs b /\ h_evoff a = h_evoff b /\
  h_evcnt a = h_evcnt b /\ h_guid a = h_guid b /\ h_sys a = h_sys b /\ h_gen a = h_gen b.
(* a configuration as the constructors build it *)
Definition good_config (c : config) : Prop :=
  h_copc (c_hdr c) = true /\ 6 <= h_fmt (c_hdr c) <= 8 /\ xs_fmt (c_exts c) = h_fmt (c_hdr c) /\
  shaped (c_exts c) (Z.of_nat (length (c_ebs c))) /\ Forall extent_ok (xs_items (c_exts c)) /\
  Forall (fun e => 0 <= eb_type e <= 30) (c_ebs c) /\ h_reclen (c_hdr c) = las_base (h_fmt (c_hdr c)) + eb_total (c_ebs c).
(* extents y hold x's values in the dimensions both formats have and defaults elsewhere *)
Definition carried (x : extents) (n : Z) (y : extents) (m : Z) : Prop :=
  shaped y m /\
  (forall d, has_dim (xs_fmt y) d -> has_dim (xs_fmt x) d -> dim_get d y = dim_get d x) /\
  (forall d, has_dim (xs_fmt y) d -> ~ has_dim (xs_fmt x) d -> dim_get d y = Ok default_extent) /\
  eb_extents y = (if m =? n then eb_extents x else Ok (repeat default_extent (Z.to_nat m))).

(* which configuration an operation changes through its pointers *)
Definition target (op : cfg_op) : option nat :=
  match op with
  | CNew _ _ _ _ _ _ | CCopy _ | CWriter _ _ => None
  | CSetHdr i _ | CSetInfo i _ | CSetExtent i _ _ | CSetSlot i _ _ _ => Some i
  end.
(* installing an extent object of one configuration in another one is an explicit request to share *)
Definition no_sharing (op : cfg_op) : Prop := match op with CSetSlot i _ j _ => i = j | _ => True end.
(* before the program creates anything *)
Definition empty_world : world := mkWorld (mkHeap [] [] [] []) [].
(* an extent without its statistics *)
Definition plain (e : extent) : extent := mkExt (ex_min e) (ex_max e) f0 f1.
