(* ModelAccess.v - accessors of the per-dimension extents, and of the header's GPS time bit.
   Source: cpp/include/copc-lib/copc/extents.hpp, cpp/src/las/header.cpp.  Slots hold values here (a null shared
   pointer handed to a setter is not modelled; sharing is ModelConfig.v's subject). *)
From Verif Require Import Base ModelFloat ModelPoint ModelHeader ModelVlr ModelExtents.

Definition put_slot (n : nat) (e : extent) (x : extents) : outcome extents :=
  let! l := set_nth n e (xs_items x) in Ok (mkExts (xs_fmt x) (xs_ext x) l).
(* extents.hpp:141-189 setters *)
Definition dim_set (d : dim) (e : extent) (x : extents) : outcome extents :=
  match d with
  | DX => put_slot 0 e x | DY => put_slot 1 e x | DZ => put_slot 2 e x
  | DIntensity => put_slot 3 e x | DReturnNumber => put_slot 4 e x | DNumberOfReturns => put_slot 5 e x
  | DScannerChannel => put_slot 6 e x | DScanDirection => put_slot 7 e x | DEdgeOfFlight => put_slot 8 e x
  | DClassification => put_slot 9 e x | DUserData => put_slot 10 e x | DScanAngle => put_slot 11 e x
  | DPointSource => put_slot 12 e x | DGpsTime => put_slot 13 e x
  | DRed => if 6 <? xs_fmt x then put_slot 14 e x else Throw
  | DGreen => if 6 <? xs_fmt x then put_slot 15 e x else Throw
  | DBlue => if 6 <? xs_fmt x then put_slot 16 e x else Throw
  | DNir => if xs_fmt x =? 8 then put_slot 17 e x else Throw
  end.
(* extents.hpp:191-196: the size is compared with size_t minus int, which is unsigned *)
Definition set_eb_extents (l : list extent) (x : extents) : outcome extents :=
  let! b := num_extents (xs_fmt x) 0 in
  if negb (Z.of_nat (length l) =? to_u 64 (Z.of_nat (length (xs_items x)) - b)) then Throw
  else let! r := copy_range (length l) 0 (Z.to_nat b) l (xs_items x) in Ok (mkExts (xs_fmt x) (xs_ext x) r).
(* header.cpp:49 *)
Definition set_gps_time_bit (h : las_header) : las_header :=
  mkHdr (h_src h) (Z.lor (h_enc h) 1) (h_day h) (h_year h) (h_max h) (h_min h) (h_pbr h) (h_scale h) (h_offset h) (h_fmt h) (h_reclen h)
        (h_pcount h) (h_poff h) (h_vlrs h) (h_evoff h) (h_evcnt h) (h_guid h) (h_sys h) (h_gen h) (h_copc h).
