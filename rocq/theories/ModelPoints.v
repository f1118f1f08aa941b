(* ModelPoints.v - las::Points: a container of shared_ptr<Point>.
   Source: cpp/src/las/points.cpp, cpp/include/copc-lib/las/points.hpp
   Points are shared, mutable objects: a heap of points, and containers of addresses. *)
From Verif Require Import Base ModelFloat ModelKey ModelGeom ModelPoint.

(* the objects behind std::shared_ptr<Point>; an address is an index *)
Definition heap := list point.
(* dereferencing a shared_ptr; an address that was never allocated models a null pointer *)
Definition hget (h : heap) (a : nat) : outcome point :=
  match nth_error h a with Some p => Ok p | None => UB end.
Fixpoint hset (h : heap) (a : nat) (p : point) : heap :=
  match h, a with
  | [], _ => []
  | _ :: h', O => p :: h'
  | q :: h', S a' => q :: hset h' a' p
  end.

(* points.hpp:231-233 *)
Record points := mkPoints { c_fmt : Z; c_reclen : Z; c_pts : list nat }.

(* points.cpp:10-16 (PointByteSize throws for formats other than 6-8, and wraps at 2^16) *)
Definition new_points (fmt eb : Z) : outcome points :=
  if (fmt <? 0) || (10 <? fmt) then Throw
  else let! n := point_byte_size fmt eb in Ok (mkPoints fmt n []).

(* points.hpp:29 *)
Definition points_eb (c : points) : outcome Z := eb_byte_size (c_fmt c) (c_reclen c).

(* does the point at address a have the container's format and record length *)
Definition fits (h : heap) (c : points) (a : nat) : outcome bool :=
  let! p := hget h a in Ok ((p_fmt p =? c_fmt c) && (p_reclen p =? c_reclen c)).
(* points.cpp:61-65 loop over the vector; throws at the first mismatch *)
Fixpoint all_fit (h : heap) (c : points) (l : list nat) : outcome unit :=
  match l with
  | [] => Ok tt
  | a :: l' => let! b := fits h c a in if b then all_fit h c l' else Throw
  end.

(* points.cpp:42-48 *)
Definition add_point (h : heap) (c : points) (a : nat) : outcome points :=
  let! b := fits h c a in
  if b then Ok (mkPoints (c_fmt c) (c_reclen c) (c_pts c ++ [a])) else Throw.
(* points.cpp:50-57 *)
Definition add_points (c d : points) : outcome points :=
  if negb (c_fmt d =? c_fmt c) || negb (c_reclen d =? c_reclen c) then Throw
  else Ok (mkPoints (c_fmt c) (c_reclen c) (c_pts c ++ c_pts d)).
(* points.cpp:59-68 *)
Definition add_points_vec (h : heap) (c : points) (l : list nat) : outcome points :=
  let! _ := all_fit h c l in Ok (mkPoints (c_fmt c) (c_reclen c) (c_pts c ++ l)).
(* points.cpp:20-29 *)
Definition points_of_vec (h : heap) (l : list nat) : outcome points :=
  match l with
  | [] => Throw
  | a :: _ => let! p := hget h a in add_points_vec h (mkPoints (p_fmt p) (p_reclen p) []) l
  end.

(* a loop 'for (auto &point : points_) point->f()' *)
Fixpoint for_each (f : point -> outcome point) (l : list nat) (h : heap) : outcome heap :=
  match l with
  | [] => Ok h
  | a :: l' => let! p := hget h a in let! q := f p in for_each f l' (hset h a q)
  end.

(* points.cpp:31-40; the extra byte count is an unsigned int, then narrowed to uint16 *)
Definition points_to_format (fmt : Z) (h : heap) (c : points) : outcome (heap * points) :=
  if (fmt <? 6) || (8 <? fmt) then Throw
  else
    let! h' := for_each (to_point_format fmt) (c_pts c) h in
    let! b := base_size (c_fmt c) in
    let eb := to_u 16 (to_u 32 (c_reclen c - b)) in
    let! n := point_byte_size fmt eb in
    Ok (h', mkPoints fmt n (c_pts c)).

(* points.hpp:49 *)
Definition create_point (h : heap) (c : points) : outcome (heap * nat) :=
  let! e := points_eb c in
  let! p := new_point (c_fmt c) e in Ok (h ++ [p], length h).

(* points.cpp:91-95: the loop of Unpack *)
Fixpoint unpack_loop (n : nat) (b : bytes) (fmt : Z) (scale offset : vec3) (eb : Z) (h : heap) (c : points)
  : outcome (heap * points) :=
  match n with
  | O => Ok (h, c)
  | S n' =>
      let! (p, b) := point_unpack b fmt scale offset eb in
      let! c := add_point (h ++ [p]) c (length h) in
      unpack_loop n' b fmt scale offset eb (h ++ [p]) c
  end.
(* points.cpp:75-98.  A record length that wrapped to 0 divides by zero; the loop counter
   is an int, so more than INT32_MAX points overflow it. *)
Definition points_unpack (h : heap) (data : bytes) (fmt eb : Z) (scale offset : vec3) : outcome (heap * points) :=
  let! reclen := point_byte_size fmt eb in
  if reclen =? 0 then UB
  else if negb (Z.of_nat (length data) mod reclen =? 0) then Throw
  else
    let count := Z.of_nat (length data) / reclen in
    let! c := new_points fmt eb in
    if INT32_MAX <? count then UB
    else unpack_loop (Z.to_nat count) data fmt scale offset eb h c.

(* points.cpp:105-109 (and 112-119, which returns the same bytes as a vector) *)
Definition points_pack (h : heap) (c : points) (scale offset : vec3) : outcome bytes :=
  let! bs := mapM (fun a => let! p := hget h a in point_pack p scale offset) (c_pts c) in
  Ok (concat bs).

(* ---- array getters and setters (points.hpp:69-203) ---- *)
Inductive fdim := DX | DY | DZ.
Inductive zdim := DClass | DSrc | DRed | DGreen | DBlue.
Definition fdim_get (d : fdim) (p : point) : f64 := match d with DX => p_x p | DY => p_y p | DZ => p_z p end.
Definition fdim_set (d : fdim) (v : f64) (p : point) : point :=
  match d with DX => with_x v p | DY => with_y v p | DZ => with_z v p end.
(* one element of the array read: PointSourceId goes through a vector<uint8_t> (points.hpp:137-144) *)
Definition zdim_get (d : zdim) (p : point) : outcome Z :=
  match d with
  | DClass => Ok (p_class p)
  | DSrc => Ok (to_u 8 (p_src p))
  | DRed => get_red p | DGreen => get_green p | DBlue => get_blue p
  end.
Definition zdim_set (d : zdim) (v : Z) (p : point) : outcome point :=
  match d with
  | DClass => Ok (with_class v p)
  | DSrc => Ok (with_src v p)
  | DRed => set_red v p | DGreen => set_green v p | DBlue => set_blue v p
  end.

Definition array_get_f (d : fdim) (h : heap) (c : points) : outcome (list f64) :=
  mapM (fun a => let! p := hget h a in Ok (fdim_get d p)) (c_pts c).
Definition array_get_z (d : zdim) (h : heap) (c : points) : outcome (list Z) :=
  mapM (fun a => let! p := hget h a in zdim_get d p) (c_pts c).

Fixpoint array_set_loop {V} (f : V -> point -> outcome point) (l : list (nat * V)) (h : heap) : outcome heap :=
  match l with
  | [] => Ok h
  | (a, v) :: l' => let! p := hget h a in let! q := f v p in array_set_loop f l' (hset h a q)
  end.
Definition array_set {V} (f : V -> point -> outcome point) (vs : list V) (h : heap) (c : points) : outcome heap :=
  if negb (length vs =? length (c_pts c))%nat then Throw
  else array_set_loop f (combine (c_pts c) vs) h.
Definition array_set_f (d : fdim) := array_set (fun v p => Ok (fdim_set d v p)).
Definition array_set_z (d : zdim) := array_set (zdim_set d).

(* points.hpp:206-214 *)
Definition points_within (h : heap) (c : points) (b : box) : outcome bool :=
  let! ps := mapM (hget h) (c_pts c) in Ok (forallb (fun p => point_within p b) ps).
(* points.hpp:217-228 *)
Fixpoint get_within (h : heap) (l : list nat) (b : box) : outcome (list nat) :=
  match l with
  | [] => Ok []
  | a :: l' => let! p := hget h a in let! r := get_within h l' b in
               Ok (if point_within p b then a :: r else r)
  end.
