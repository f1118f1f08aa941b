(* ModelGeom.v - Vector3 and Box.
   Source: cpp/include/copc-lib/geometry/vector3.hpp, box.hpp, cpp/src/geometry/box.cpp *)
From Verif Require Import Base ModelFloat ModelKey.

(* vector3.hpp:54-56 *)
Record vec3 := mkVec { vx : f64; vy : f64; vz : f64 }.

(* vector3.hpp:19-26 constructor from a list *)
Definition vec3_of_list (l : list f64) : outcome vec3 :=
  match l with [x; y; z] => Ok (mkVec x y z) | _ => Throw end.

(* vector3.hpp:28-36 component-wise operators *)
Definition vmap2 (f : f64 -> f64 -> f64) (a b : vec3) : vec3 :=
  mkVec (f (vx a) (vx b)) (f (vy a) (vy b)) (f (vz a) (vz b)).
Definition vmul := vmap2 fmul.
Definition vdiv := vmap2 fdiv.
Definition vadd := vmap2 fadd.
Definition vsub := vmap2 fsub.

(* vector3.hpp:51 operator== *)
Definition vec3_eqb (a b : vec3) : bool := feq (vx a) (vx b) && feq (vy a) (vy b) && feq (vz a) (vz b).

(* box.hpp:51-56 *)
Record box := mkBox { x_min : f64; y_min : f64; z_min : f64; x_max : f64; y_max : f64; z_max : f64 }.

(* box.cpp:9-14 three-dimensional constructor: throws when some max < min *)
Definition box3 (x0 y0 z0 x1 y1 z1 : f64) : outcome box :=
  if flt x1 x0 || flt y1 y0 || flt z1 z0 then Throw else Ok (mkBox x0 y0 z0 x1 y1 z1).

(* box.cpp:17-20 two-dimensional constructor: z spans the whole double range *)
Definition box2 (x0 y0 x1 y1 : f64) : outcome box :=
  box3 x0 y0 (fopp fmaxval) x1 y1 fmaxval.

(* box.cpp:23 *)
Definition box_of_vecs (mn mx : vec3) : outcome box :=
  box3 (vx mn) (vy mn) (vz mn) (vx mx) (vy mx) (vz mx).

(* box.cpp:26-52 *)
Definition box_of_list (l : list f64) : outcome box :=
  match l with
  | [x0; y0; x1; y1] =>
      let b := mkBox x0 y0 (fopp fmaxval) x1 y1 fmaxval in
      if flt (x_max b) (x_min b) || flt (y_max b) (y_min b) || flt (z_max b) (z_min b) then Throw else Ok b
  | [x0; y0; z0; x1; y1; z1] =>
      let b := mkBox x0 y0 z0 x1 y1 z1 in
      if flt (x_max b) (x_min b) || flt (y_max b) (y_min b) || flt (z_max b) (z_min b) then Throw else Ok b
  | _ => Throw
  end.

(* std::max<double>(a, b): returns a unless a < b *)
Definition fmax (a b : f64) : f64 := if flt a b then b else a.

(* header.hpp:100 Span: std::max({max.x - min.x, max.y - min.y, max.z - min.z}) *)
Definition span (mn mx : vec3) : f64 :=
  fmax (fmax (fsub (vx mx) (vx mn)) (fsub (vy mx) (vy mn))) (fsub (vz mx) (vz mn)).

(* box.cpp:55-67 constructor from a key and a header; only the header's min and max
   are used, so they are the parameters here.  No ordering check in this one. *)
Definition box_of_key (k : key) (mn mx : vec3) : box :=
  let step := fdiv (span mn mx) (fpow2 (kd k)) in
  let x0 := fadd (fmul step (f64_of_Z (kx k))) (vx mn) in
  let y0 := fadd (fmul step (f64_of_Z (ky k))) (vy mn) in
  let z0 := fadd (fmul step (f64_of_Z (kz k))) (vz mn) in
  mkBox x0 y0 z0 (fadd x0 step) (fadd y0 step) (fadd z0 step).

(* box.cpp:69-74 *)
Definition max_box : outcome box :=
  box3 (fopp fmaxval) (fopp fmaxval) (fopp fmaxval) fmaxval fmaxval fmaxval.

(* box.cpp:76-80 *)
Definition box_intersects (a o : box) : bool :=
  fge (x_max a) (x_min o) && fle (x_min a) (x_max o) && fge (y_max a) (y_min o) && fle (y_min a) (y_max o) &&
  fge (z_max a) (z_min o) && fle (z_min a) (z_max o).
(* box.cpp:81-85 *)
Definition box_contains (a o : box) : bool :=
  fge (x_max a) (x_max o) && fle (x_min a) (x_min o) && fge (y_max a) (y_max o) && fle (y_min a) (y_min o) &&
  fge (z_max a) (z_max o) && fle (z_min a) (z_min o).
(* box.cpp:86-89 *)
Definition box_contains_pt (a : box) (v : vec3) : bool :=
  fge (x_max a) (vx v) && fle (x_min a) (vx v) && fge (y_max a) (vy v) && fle (y_min a) (vy v) &&
  fge (z_max a) (vz v) && fle (z_min a) (vz v).
(* box.cpp:90 *)
Definition box_within (a o : box) : bool := box_contains o a.

(* key.cpp:101-114 spatial predicates of a key *)
Definition key_intersects (k : key) (mn mx : vec3) (b : box) : bool := box_intersects (box_of_key k mn mx) b.
Definition key_contains (k : key) (mn mx : vec3) (b : box) : bool := box_contains (box_of_key k mn mx) b.
Definition key_contains_pt (k : key) (mn mx : vec3) (v : vec3) : bool := box_contains_pt (box_of_key k mn mx) v.
Definition key_within (k : key) (mn mx : vec3) (b : box) : bool := box_within (box_of_key k mn mx) b.
Definition key_crosses (k : key) (mn mx : vec3) (b : box) : bool :=
  box_intersects (box_of_key k mn mx) b && negb (box_within (box_of_key k mn mx) b).

(* las/header.cpp:31-47 CheckAndUpdateBounds, on the header's min and max and the point's
   coordinates *)
Definition update_bounds (mm : vec3 * vec3) (p : vec3) : vec3 * vec3 :=
  let (mn, mx) := mm in
  (mkVec (if flt (vx p) (vx mn) then vx p else vx mn)
         (if flt (vy p) (vy mn) then vy p else vy mn)
         (if flt (vz p) (vz mn) then vz p else vz mn),
   mkVec (if fgt (vx p) (vx mx) then vx p else vx mx)
         (if fgt (vy p) (vy mx) then vy p else vy mx)
         (if fgt (vz p) (vz mx) then vz p else vz mx)).

(* las/header.cpp:29 LasHeader::Bounds *)
Definition header_bounds (mn mx : vec3) : outcome box := box_of_vecs mn mx.
