(* ModelPoint.v - las::Point and the scaling helpers.
   Source: cpp/include/copc-lib/las/point.hpp, utils.hpp, cpp/src/las/point.cpp, utils.cpp,
   cpp/include/copc-lib/utils.hpp *)
From Verif Require Import Base ModelFloat ModelKey ModelGeom.

(* ---- las/utils.cpp ---- *)
(* utils.cpp:6-19 *)
Definition base_size (fmt : Z) : outcome Z :=
  if fmt =? 6 then Ok 30 else if fmt =? 7 then Ok 36 else if fmt =? 8 then Ok 38 else Throw.
(* utils.cpp:21-34 *)
Definition base_dims (fmt : Z) : outcome Z :=
  if fmt =? 6 then Ok 14 else if fmt =? 7 then Ok 17 else if fmt =? 8 then Ok 18 else Throw.
(* utils.cpp:36-48; the parameter is uint8_t, the argument int8_t *)
Definition format_has_rgb (fmt : Z) : outcome bool :=
  let f := to_u 8 fmt in
  if f =? 6 then Ok false else if (f =? 7) || (f =? 8) then Ok true else Throw.
(* utils.cpp:50-62 *)
Definition format_has_nir (fmt : Z) : outcome bool :=
  let f := to_u 8 fmt in
  if (f =? 6) || (f =? 7) then Ok false else if f =? 8 then Ok true else Throw.
(* utils.cpp:64-67: uint32 minus int, narrowed to uint16 *)
Definition eb_byte_size (fmt reclen : Z) : outcome Z :=
  let! b := base_size fmt in Ok (to_u 16 (reclen - b)).
(* utils.cpp:69-72: narrowed to uint16 *)
Definition point_byte_size (fmt eb : Z) : outcome Z :=
  let! b := base_size fmt in Ok (to_u 16 (b + eb)).

(* las/utils.hpp:17 ApplyScale<int32_t> *)
Definition apply_scale_i (v : Z) (scale offset : f64) : f64 := fadd (fmul (f64_of_Z v) scale) offset.
(* las/utils.hpp:17 ApplyScale<double> *)
Definition apply_scale_f (v scale offset : f64) : f64 := fadd (fmul v scale) offset.
(* las/utils.hpp:18-28 RemoveScale<int32_t>; the cast is undefined when the value is NaN *)
Definition remove_scale_i32 (v scale offset : f64) : outcome Z :=
  let val := fround (fdiv (fsub v offset) scale) in
  if flt val (f64_of_Z INT32_MIN) || fgt val (f64_of_Z INT32_MAX) then Throw
  else f64_to_int 32 val.

(* utils.hpp (copc):9 AreClose *)
Definition are_close (a b eps : f64) : bool := flt (fabs (fsub a b)) eps.
(* the literal 0.000001 *)
Definition eps_1em6 : f64 := f64_lit 4722366482869645 (-72).

(* ---- las::Point (point.hpp:230-252) ---- *)
Record point := mkPoint {
  p_fmt : Z; p_reclen : Z;
  p_x : f64; p_y : f64; p_z : f64;
  p_intensity : Z; p_returns : Z; p_flags : Z; p_class : Z; p_angle : Z; p_user : Z; p_src : Z;
  p_gps : f64;
  p_red : Z; p_green : Z; p_blue : Z; p_nir : Z;
  p_has_rgb : bool; p_has_nir : bool;
  p_eb : bytes }.

(* assignments to one field *)
Definition with_fmt (v : Z) (p : point) : point :=
  mkPoint v (p_reclen p) (p_x p) (p_y p) (p_z p) (p_intensity p) (p_returns p) (p_flags p) (p_class p) (p_angle p) (p_user p) (p_src p) (p_gps p) (p_red p) (p_green p) (p_blue p) (p_nir p) (p_has_rgb p) (p_has_nir p) (p_eb p).
Definition with_reclen (v : Z) (p : point) : point :=
  mkPoint (p_fmt p) v (p_x p) (p_y p) (p_z p) (p_intensity p) (p_returns p) (p_flags p) (p_class p) (p_angle p) (p_user p) (p_src p) (p_gps p) (p_red p) (p_green p) (p_blue p) (p_nir p) (p_has_rgb p) (p_has_nir p) (p_eb p).
Definition with_x (v : f64) (p : point) : point :=
  mkPoint (p_fmt p) (p_reclen p) v (p_y p) (p_z p) (p_intensity p) (p_returns p) (p_flags p) (p_class p) (p_angle p) (p_user p) (p_src p) (p_gps p) (p_red p) (p_green p) (p_blue p) (p_nir p) (p_has_rgb p) (p_has_nir p) (p_eb p).
Definition with_y (v : f64) (p : point) : point :=
  mkPoint (p_fmt p) (p_reclen p) (p_x p) v (p_z p) (p_intensity p) (p_returns p) (p_flags p) (p_class p) (p_angle p) (p_user p) (p_src p) (p_gps p) (p_red p) (p_green p) (p_blue p) (p_nir p) (p_has_rgb p) (p_has_nir p) (p_eb p).
Definition with_z (v : f64) (p : point) : point :=
  mkPoint (p_fmt p) (p_reclen p) (p_x p) (p_y p) v (p_intensity p) (p_returns p) (p_flags p) (p_class p) (p_angle p) (p_user p) (p_src p) (p_gps p) (p_red p) (p_green p) (p_blue p) (p_nir p) (p_has_rgb p) (p_has_nir p) (p_eb p).
Definition with_intensity (v : Z) (p : point) : point :=
  mkPoint (p_fmt p) (p_reclen p) (p_x p) (p_y p) (p_z p) v (p_returns p) (p_flags p) (p_class p) (p_angle p) (p_user p) (p_src p) (p_gps p) (p_red p) (p_green p) (p_blue p) (p_nir p) (p_has_rgb p) (p_has_nir p) (p_eb p).
Definition with_returns (v : Z) (p : point) : point :=
  mkPoint (p_fmt p) (p_reclen p) (p_x p) (p_y p) (p_z p) (p_intensity p) v (p_flags p) (p_class p) (p_angle p) (p_user p) (p_src p) (p_gps p) (p_red p) (p_green p) (p_blue p) (p_nir p) (p_has_rgb p) (p_has_nir p) (p_eb p).
Definition with_flags (v : Z) (p : point) : point :=
  mkPoint (p_fmt p) (p_reclen p) (p_x p) (p_y p) (p_z p) (p_intensity p) (p_returns p) v (p_class p) (p_angle p) (p_user p) (p_src p) (p_gps p) (p_red p) (p_green p) (p_blue p) (p_nir p) (p_has_rgb p) (p_has_nir p) (p_eb p).
Definition with_class (v : Z) (p : point) : point :=
  mkPoint (p_fmt p) (p_reclen p) (p_x p) (p_y p) (p_z p) (p_intensity p) (p_returns p) (p_flags p) v (p_angle p) (p_user p) (p_src p) (p_gps p) (p_red p) (p_green p) (p_blue p) (p_nir p) (p_has_rgb p) (p_has_nir p) (p_eb p).
Definition with_angle (v : Z) (p : point) : point :=
  mkPoint (p_fmt p) (p_reclen p) (p_x p) (p_y p) (p_z p) (p_intensity p) (p_returns p) (p_flags p) (p_class p) v (p_user p) (p_src p) (p_gps p) (p_red p) (p_green p) (p_blue p) (p_nir p) (p_has_rgb p) (p_has_nir p) (p_eb p).
Definition with_user (v : Z) (p : point) : point :=
  mkPoint (p_fmt p) (p_reclen p) (p_x p) (p_y p) (p_z p) (p_intensity p) (p_returns p) (p_flags p) (p_class p) (p_angle p) v (p_src p) (p_gps p) (p_red p) (p_green p) (p_blue p) (p_nir p) (p_has_rgb p) (p_has_nir p) (p_eb p).
Definition with_src (v : Z) (p : point) : point :=
  mkPoint (p_fmt p) (p_reclen p) (p_x p) (p_y p) (p_z p) (p_intensity p) (p_returns p) (p_flags p) (p_class p) (p_angle p) (p_user p) v (p_gps p) (p_red p) (p_green p) (p_blue p) (p_nir p) (p_has_rgb p) (p_has_nir p) (p_eb p).
Definition with_gps (v : f64) (p : point) : point :=
  mkPoint (p_fmt p) (p_reclen p) (p_x p) (p_y p) (p_z p) (p_intensity p) (p_returns p) (p_flags p) (p_class p) (p_angle p) (p_user p) (p_src p) v (p_red p) (p_green p) (p_blue p) (p_nir p) (p_has_rgb p) (p_has_nir p) (p_eb p).
Definition with_red (v : Z) (p : point) : point :=
  mkPoint (p_fmt p) (p_reclen p) (p_x p) (p_y p) (p_z p) (p_intensity p) (p_returns p) (p_flags p) (p_class p) (p_angle p) (p_user p) (p_src p) (p_gps p) v (p_green p) (p_blue p) (p_nir p) (p_has_rgb p) (p_has_nir p) (p_eb p).
Definition with_green (v : Z) (p : point) : point :=
  mkPoint (p_fmt p) (p_reclen p) (p_x p) (p_y p) (p_z p) (p_intensity p) (p_returns p) (p_flags p) (p_class p) (p_angle p) (p_user p) (p_src p) (p_gps p) (p_red p) v (p_blue p) (p_nir p) (p_has_rgb p) (p_has_nir p) (p_eb p).
Definition with_blue (v : Z) (p : point) : point :=
  mkPoint (p_fmt p) (p_reclen p) (p_x p) (p_y p) (p_z p) (p_intensity p) (p_returns p) (p_flags p) (p_class p) (p_angle p) (p_user p) (p_src p) (p_gps p) (p_red p) (p_green p) v (p_nir p) (p_has_rgb p) (p_has_nir p) (p_eb p).
Definition with_nir (v : Z) (p : point) : point :=
  mkPoint (p_fmt p) (p_reclen p) (p_x p) (p_y p) (p_z p) (p_intensity p) (p_returns p) (p_flags p) (p_class p) (p_angle p) (p_user p) (p_src p) (p_gps p) (p_red p) (p_green p) (p_blue p) v (p_has_rgb p) (p_has_nir p) (p_eb p).
Definition with_has_rgb (v : bool) (p : point) : point :=
  mkPoint (p_fmt p) (p_reclen p) (p_x p) (p_y p) (p_z p) (p_intensity p) (p_returns p) (p_flags p) (p_class p) (p_angle p) (p_user p) (p_src p) (p_gps p) (p_red p) (p_green p) (p_blue p) (p_nir p) v (p_has_nir p) (p_eb p).
Definition with_has_nir (v : bool) (p : point) : point :=
  mkPoint (p_fmt p) (p_reclen p) (p_x p) (p_y p) (p_z p) (p_intensity p) (p_returns p) (p_flags p) (p_class p) (p_angle p) (p_user p) (p_src p) (p_gps p) (p_red p) (p_green p) (p_blue p) (p_nir p) (p_has_rgb p) v (p_eb p).
Definition with_eb (v : bytes) (p : point) : point :=
  mkPoint (p_fmt p) (p_reclen p) (p_x p) (p_y p) (p_z p) (p_intensity p) (p_returns p) (p_flags p) (p_class p) (p_angle p) (p_user p) (p_src p) (p_gps p) (p_red p) (p_green p) (p_blue p) (p_nir p) (p_has_rgb p) (p_has_nir p) v.

(* several assignments at once: all dimensions common to formats 6-8, and the colours *)
Definition fill_common (x y z : f64) (intensity returns flags cls angle user src : Z) (gps : f64) (p : point) : point :=
  mkPoint (p_fmt p) (p_reclen p) x y z intensity returns flags cls angle user src gps
    (p_red p) (p_green p) (p_blue p) (p_nir p) (p_has_rgb p) (p_has_nir p) (p_eb p).
Definition fill_rgb (r g b : Z) (p : point) : point :=
  mkPoint (p_fmt p) (p_reclen p) (p_x p) (p_y p) (p_z p) (p_intensity p) (p_returns p) (p_flags p) (p_class p)
    (p_angle p) (p_user p) (p_src p) (p_gps p) r g b (p_nir p) (p_has_rgb p) (p_has_nir p) (p_eb p).

(* point.cpp:6-17 constructor; all fields zero, eb extra bytes zero *)
Definition new_point (fmt eb : Z) : outcome point :=
  if (fmt <? 6) || (8 <? fmt) then Throw
  else
    let! b := base_size fmt in
    let! rgb := format_has_rgb fmt in
    let! nir := format_has_nir fmt in
    Ok (mkPoint fmt (to_u 32 (b + eb)) f0 f0 f0 0 0 0 0 0 0 0 f0 0 0 0 0 rgb nir (zeros (Z.to_nat eb))).

(* point.cpp:50 *)
Definition point_eb_size (p : point) : outcome Z := eb_byte_size (p_fmt p) (p_reclen p).

(* point.hpp:131-168 colour accessors: throw when the format has no RGB *)
Definition get_red (p : point) : outcome Z := if p_has_rgb p then Ok (p_red p) else Throw.
Definition get_green (p : point) : outcome Z := if p_has_rgb p then Ok (p_green p) else Throw.
Definition get_blue (p : point) : outcome Z := if p_has_rgb p then Ok (p_blue p) else Throw.
Definition set_red (v : Z) (p : point) : outcome point := if p_has_rgb p then Ok (with_red v p) else Throw.
Definition set_green (v : Z) (p : point) : outcome point := if p_has_rgb p then Ok (with_green v p) else Throw.
Definition set_blue (v : Z) (p : point) : outcome point := if p_has_rgb p then Ok (with_blue v p) else Throw.
(* point.hpp:110-129 Rgb *)
Definition set_rgb (r g b : Z) (p : point) : outcome point :=
  if p_has_rgb p then Ok (fill_rgb r g b p) else Throw.
Definition set_rgb_vec (l : list Z) (p : point) : outcome point :=
  if p_has_rgb p then match l with [r; g; b] => Ok (fill_rgb r g b p) | _ => Throw end
  else Throw.
(* point.hpp:174-185 *)
Definition get_nir (p : point) : outcome Z := if p_has_nir p then Ok (p_nir p) else Throw.
Definition set_nir (v : Z) (p : point) : outcome point := if p_has_nir p then Ok (with_nir v p) else Throw.
(* point.hpp:188-194 *)
Definition set_extra_bytes (l : bytes) (p : point) : outcome point :=
  let! n := point_eb_size p in
  if Z.of_nat (length l) =? n then Ok (with_eb l p) else Throw.

(* point.cpp:21-48 copy constructor *)
Definition copy_point (o : point) : outcome point :=
  let! n := point_eb_size o in
  let! p := new_point (p_fmt o) n in
  let p := fill_common (p_x o) (p_y o) (p_z o) (p_intensity o) (p_returns o) (p_flags o) (p_class o)
             (p_angle o) (p_user o) (p_src o) (p_gps o) p in
  let! p := (if p_has_rgb o then
               let! r := get_red o in let! g := get_green o in let! b := get_blue o in
               Ok (fill_rgb r g b p)
             else Ok p) in
  let p := if p_has_nir p then with_nir (p_nir o) p else p in
  Ok (with_eb (p_eb o) p).

(* ---- bit fields (point.hpp:38-55, 79-106); all bytes are uint8_t ---- *)
Definition ret_number (p : point) : Z := Z.land (p_returns p) 15.
Definition set_ret_number (v : Z) (p : point) : outcome point :=
  if 15 <? v then Throw else Ok (with_returns (to_u 8 (Z.lor v (Z.land (p_returns p) 240))) p).
Definition num_returns (p : point) : Z := Z.shiftr (p_returns p) 4.
Definition set_num_returns (v : Z) (p : point) : outcome point :=
  if 15 <? v then Throw else Ok (with_returns (to_u 8 (Z.lor (Z.shiftl v 4) (Z.land (p_returns p) 15))) p).

Definition synthetic (p : point) : Z := Z.land (p_flags p) 1.
Definition set_synthetic (v : Z) (p : point) : outcome point :=
  Ok (with_flags (to_u 8 (Z.lor (Z.land (p_flags p) 254) v)) p).
Definition key_point (p : point) : Z := Z.land (Z.shiftr (p_flags p) 1) 1.
Definition set_key_point (v : Z) (p : point) : outcome point :=
  Ok (with_flags (to_u 8 (Z.lor (Z.land (p_flags p) 253) (Z.shiftl v 1))) p).
Definition withheld (p : point) : Z := Z.land (Z.shiftr (p_flags p) 2) 1.
Definition set_withheld (v : Z) (p : point) : outcome point :=
  Ok (with_flags (to_u 8 (Z.lor (Z.land (p_flags p) 251) (Z.shiftl v 2))) p).
Definition overlap (p : point) : Z := Z.land (Z.shiftr (p_flags p) 3) 1.
Definition set_overlap (v : Z) (p : point) : outcome point :=
  Ok (with_flags (to_u 8 (Z.lor (Z.land (p_flags p) 247) (Z.shiftl v 3))) p).
Definition scanner_channel (p : point) : Z := Z.land (Z.shiftr (p_flags p) 4) 3.
Definition set_scanner_channel (v : Z) (p : point) : outcome point :=
  if 3 <? v then Throw
  else Ok (with_flags (to_u 8 (Z.lor (Z.land (p_flags p) 207) (Z.shiftl v 4))) p).
Definition scan_direction (p : point) : Z := Z.land (Z.shiftr (p_flags p) 6) 1.
Definition set_scan_direction (v : Z) (p : point) : outcome point :=
  Ok (with_flags (to_u 8 (Z.lor (Z.land (p_flags p) 191) (Z.shiftl v 6))) p).
(* point.hpp:102-106 'flags_ >> 7' converted to bool *)
Definition edge_of_flight (p : point) : Z := if Z.shiftr (p_flags p) 7 =? 0 then 0 else 1.
Definition set_edge_of_flight (v : Z) (p : point) : outcome point :=
  Ok (with_flags (to_u 8 (Z.lor (Z.land (p_flags p) 127) (Z.shiftl v 7))) p).

(* ---- scan angle (point.hpp:57-69) ---- *)
Definition scan_angle_degrees (a : Z) : f32 := f32_mul f32_0_006 (f32_of_Z a).
Definition angle_of_degrees (d : f32) : outcome Z := f32_to_int 16 (f32_div d f32_0_006).

(* point.cpp:52-76 operator== *)
Definition point_eqb (a b : point) : outcome bool :=
  if negb (p_fmt a =? p_fmt b) || negb (p_reclen a =? p_reclen b) then Ok false
  else if negb (are_close (p_x a) (p_x b) eps_1em6) || negb (are_close (p_y a) (p_y b) eps_1em6)
       || negb (are_close (p_z a) (p_z b) eps_1em6) || negb (p_intensity a =? p_intensity b) then Ok false
  else if negb (p_returns a =? p_returns b) then Ok false
  else if negb (p_flags a =? p_flags b) then Ok false
  else if negb (p_class a =? p_class b) then Ok false
  else if negb (p_angle a =? p_angle b) || negb (p_user a =? p_user b) || negb (p_src a =? p_src b) then Ok false
  else if negb (if list_eq_dec Z.eq_dec (p_eb a) (p_eb b) then true else false) then Ok false
  else if negb (feq (p_gps a) (p_gps b)) then Ok false
  else
    let! rgb_diff :=
      (if p_has_rgb a then
         let! r := get_red b in
         if negb (p_red a =? r) then Ok true else
         let! g := get_green b in
         if negb (p_green a =? g) then Ok true else
         let! bl := get_blue b in
         Ok (negb (p_blue a =? bl))
       else Ok false) in
    if rgb_diff then Ok false
    else
      let! nir_diff := (if p_has_nir a then let! n := get_nir b in Ok (negb (p_nir a =? n)) else Ok false) in
      Ok (negb nir_diff).

(* point.cpp:78 Within *)
Definition point_within (p : point) (b : box) : bool := box_contains_pt b (mkVec (p_x p) (p_y p) (p_z p)).

(* point.cpp:80-112 Unpack.  Reading past the end of the stream leaves the variable
   indeterminate: UB. *)
Definition rd {A B} (m : option (A * bytes)) (f : A -> bytes -> outcome B) : outcome B :=
  match m with Some (a, b) => f a b | None => UB end.

Definition point_unpack (b : bytes) (fmt : Z) (scale offset : vec3) (eb : Z) : outcome (point * bytes) :=
  let! p := new_point fmt eb in
  rd (dec_s 4 b) (fun x b =>
  rd (dec_s 4 b) (fun y b =>
  rd (dec_s 4 b) (fun z b =>
  rd (dec_u 2 b) (fun intensity b =>
  rd (dec_u 1 b) (fun returns b =>
  rd (dec_u 1 b) (fun flags b =>
  rd (dec_u 1 b) (fun cls b =>
  rd (dec_u 1 b) (fun user b =>
  rd (dec_s 2 b) (fun angle b =>
  rd (dec_u 2 b) (fun src b =>
  rd (dec_f64 b) (fun gps b =>
  let p := fill_common (apply_scale_i x (vx scale) (vx offset)) (apply_scale_i y (vy scale) (vy offset))
             (apply_scale_i z (vz scale) (vz offset)) intensity returns flags cls angle user src gps p in
  let! (p, b) :=
    (if p_has_rgb p then
       rd (dec_u 2 b) (fun r b => rd (dec_u 2 b) (fun g b => rd (dec_u 2 b) (fun bl b =>
         Ok (fill_rgb r g bl p, b))))
     else Ok (p, b)) in
  let! (p, b) :=
    (if p_has_nir p then rd (dec_u 2 b) (fun n b => Ok (with_nir n p, b)) else Ok (p, b)) in
  (* loop over the extra bytes, one uint8 each *)
  rd (take_bytes (Z.to_nat eb) b) (fun ebs b => Ok (with_eb ebs p, b))))))))))))).

(* point.cpp:114-140 Pack; the arguments are evaluated in order, the first coordinate
   that does not fit throws *)
Definition point_pack (p : point) (scale offset : vec3) : outcome bytes :=
  let! x := remove_scale_i32 (p_x p) (vx scale) (vx offset) in
  let! y := remove_scale_i32 (p_y p) (vy scale) (vy offset) in
  let! z := remove_scale_i32 (p_z p) (vz scale) (vz offset) in
  Ok (enc_i32 x ++ enc_i32 y ++ enc_i32 z ++ enc_u16 (p_intensity p) ++
      enc_u8 (p_returns p) ++ enc_u8 (p_flags p) ++ enc_u8 (p_class p) ++ enc_u8 (p_user p) ++
      enc_i16 (p_angle p) ++ enc_u16 (p_src p) ++ enc_f64 (p_gps p) ++
      (if p_has_rgb p then enc_u16 (p_red p) ++ enc_u16 (p_green p) ++ enc_u16 (p_blue p) else []) ++
      (if p_has_nir p then enc_u16 (p_nir p) else []) ++
      p_eb p).

(* point.cpp:142-151 ToPointFormat *)
Definition to_point_format (fmt : Z) (p : point) : outcome point :=
  if (fmt <? 6) || (8 <? fmt) then Throw
  else
    let! rgb := format_has_rgb fmt in
    let! nir := format_has_nir fmt in
    let! b := base_size fmt in
    Ok (with_fmt fmt (with_reclen (to_u 32 (b + Z.of_nat (length (p_eb p))))
       (with_has_rgb rgb (with_has_nir nir p)))).

#[global] Arguments apply_scale_i : simpl never.
#[global] Arguments remove_scale_i32 : simpl never.

(* las/header.hpp:110 LasHeader::ApplyScale(Vector3) *)
Definition hdr_apply_scale (scale offset v : vec3) : vec3 := vadd (vmul v scale) offset.
(* las/header.hpp:111 LasHeader::ApplyInverseScale(Vector3): v / scale - offset *)
Definition hdr_apply_inverse_scale (scale offset v : vec3) : vec3 := vsub (vdiv v scale) offset.
(* las/header.hpp:115-126 LasHeader::RemoveScaleX/Y/Z: no range check before the cast *)
Definition hdr_remove_scale (v scale offset : f64) : outcome Z :=
  f64_to_int 32 (fround (fdiv (fsub v offset) scale)).
