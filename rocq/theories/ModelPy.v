(* ModelPy.v - the Python sequence protocol of copclib.Points.
   Source: python/bindings.cpp:283-380.  What Python itself does before the bindings run is modelled by its
   documented behaviour: slice.compute is PySlice_GetIndicesEx. *)
From Verif Require Import Base ModelFloat ModelKey ModelGeom ModelPoint ModelPoints.

(* bindings.cpp:283-290 (i is a ptrdiff_t, n a size_t) *)
Definition wrap_i (i n : Z) : outcome Z :=
  let i := if i <? 0 then i + n else i in
  if (i <? 0) || (n <=? i) then Throw else Ok i.

(* points.hpp:36-41: operator[] of the underlying vector; out of range is undefined *)
Definition vec_get (l : list nat) (i : Z) : outcome nat :=
  if i <? 0 then UB else match nth_error l (Z.to_nat i) with Some a => Ok a | None => UB end.
Fixpoint vec_put (l : list nat) (i a : nat) : list nat :=
  match l, i with [], _ => [] | _ :: l', O => a :: l' | x :: l', S i' => x :: vec_put l' i' a end.
Definition vec_set (l : list nat) (i : Z) (a : nat) : outcome (list nat) :=
  if (i <? 0) || (Z.of_nat (length l) <=? i) then UB else Ok (vec_put l (Z.to_nat i) a).
Definition with_pts (l : list nat) (c : points) : points := mkPoints (c_fmt c) (c_reclen c) l.

(* bindings.cpp:330-334 *)
Definition py_get (c : points) (i : Z) : outcome nat :=
  let! i := wrap_i i (Z.of_nat (length (c_pts c))) in vec_get (c_pts c) i.
(* bindings.cpp:335-339; None is passed as a null pointer *)
Definition py_set (c : points) (i : Z) (a : nat) : outcome points :=
  let! i := wrap_i i (Z.of_nat (length (c_pts c))) in let! l := vec_set (c_pts c) i a in Ok (with_pts l c).
(* bindings.cpp:342-344: the iterator walks the vector from begin() to end() *)
Definition py_iter (c : points) : list nat := c_pts c.
(* bindings.cpp:345-346: std::find over shared pointers, which compare as addresses *)
Definition py_contains (c : points) (a : nat) : bool := existsb (Nat.eqb a) (c_pts c).

(* bindings.cpp:351, 370: slice.compute, that is CPython's PySlice_Unpack and PySlice_AdjustIndices.
   An omitted bound is the extreme ssize_t; a zero step raises ValueError.  Arguments beyond the range
   of ssize_t, which CPython clips first, are not modelled. *)
Definition SSIZE_MAX : Z := 2 ^ 63 - 1.
Definition SSIZE_MIN : Z := - 2 ^ 63.
Definition slice_bound (n step v : Z) : Z :=
  if v <? 0 then (if v + n <? 0 then (if step <? 0 then -1 else 0) else v + n)
  else if n <=? v then (if step <? 0 then n - 1 else n) else v.
Definition slice_compute (n : Z) (start stop step : option Z) : outcome (Z * Z * Z) :=
  let k := match step with Some k => k | None => 1 end in
  if k =? 0 then Throw
  else
    let i := slice_bound n k (match start with Some v => v | None => if k <? 0 then SSIZE_MAX else 0 end) in
    let j := slice_bound n k (match stop with Some v => v | None => if k <? 0 then SSIZE_MIN else SSIZE_MAX end) in
    let len := if k <? 0 then (if j <? i then (i - j - 1) / (- k) + 1 else 0)
               else (if i <? j then (j - i - 1) / k + 1 else 0) in
    Ok (to_u 64 i, to_u 64 k, len).

(* bindings.cpp:357-361: start and step are size_t and wrap *)
Fixpoint slice_read (l : list nat) (m : nat) (start step : Z) : outcome (list nat) :=
  match m with
  | O => Ok []
  | S m' => let! a := vec_get l start in let! r := slice_read l m' (to_u 64 (start + step)) step in Ok (a :: r)
  end.
(* bindings.cpp:348-365 *)
Definition py_get_slice (h : heap) (c : points) (start stop step : option Z) : outcome points :=
  let! s := slice_compute (Z.of_nat (length (c_pts c))) start stop step in
  match s with (i, k, len) => let! l := slice_read (c_pts c) (Z.to_nat len) i k in points_of_vec h l end.

(* bindings.cpp:375-379.  value = None: the value is the container itself (one object, read as it is written) *)
Fixpoint slice_write (l : list nat) (value : option (list nat)) (m : nat) (i : Z) (start step : Z) : outcome (list nat) :=
  match m with
  | O => Ok l
  | S m' => let! a := vec_get (match value with Some v => v | None => l end) i in
            let! l' := vec_set l start a in
            slice_write l' value m' (i + 1) (to_u 64 (start + step)) step
  end.
(* bindings.cpp:366-380 *)
Definition py_set_slice (c : points) (start stop step : option Z) (value : option points) : outcome points :=
  let! s := slice_compute (Z.of_nat (length (c_pts c))) start stop step in
  match s with (i, k, len) =>
    let v := match value with Some d => Some (c_pts d) | None => None end in
    if negb (len =? Z.of_nat (length (match v with Some l => l | None => c_pts c end))) then Throw
    else let! l := slice_write (c_pts c) v (Z.to_nat len) 0 i k in Ok (with_pts l c)
  end.
