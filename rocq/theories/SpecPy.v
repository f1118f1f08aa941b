(* SpecPy.v - Python's rules for indices and slices (Python language reference, "common sequence operations") *)
From Verif Require Import Base.

(* the position meant by index i of a sequence of n items *)
Definition position (n i : Z) : Z := if i <? 0 then n + i else i.
(* the first position of a slice and the one it stops before: negative values count from the end, values
   outside are clamped, an omitted value is the end that the sign of the step selects *)
Definition slice_first (n k : Z) (start : option Z) : Z :=
  match start with
  | Some v => if 0 <? k then Z.max 0 (Z.min n (position n v)) else Z.max (-1) (Z.min (n - 1) (position n v))
  | None => if 0 <? k then 0 else n - 1
  end.
Definition slice_stop (n k : Z) (stop : option Z) : Z :=
  match stop with
  | Some v => if 0 <? k then Z.max 0 (Z.min n (position n v)) else Z.max (-1) (Z.min (n - 1) (position n v))
  | None => if 0 <? k then n else -1
  end.
(* step m of the slice is taken *)
Definition taken (n : Z) (start stop step : option Z) (m : Z) : Prop :=
  let k := match step with Some k => k | None => 1 end in
  let i := slice_first n k start in let j := slice_stop n k stop in
  0 <= m /\ (0 < k -> i + m * k < j) /\ (k < 0 -> j < i + m * k).
(* and the position it takes *)
Definition taken_at (n : Z) (start step : option Z) (m : Z) : Z :=
  let k := match step with Some k => k | None => 1 end in slice_first n k start + m * k.
(* arguments that fit CPython's ssize_t, and a step that is not zero *)
Definition ssize (v : option Z) : Prop := match v with Some x => - 2 ^ 63 < x < 2 ^ 63 | None => True end.
Definition nonzero (step : option Z) : Prop := step <> Some 0.
