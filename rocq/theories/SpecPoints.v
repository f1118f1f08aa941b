(* SpecPoints.v - vocabulary for the Points container properties *)
From Verif Require Import Base ModelFloat ModelGeom ModelPoint SpecPoint ModelPoints.

(* every element has the container's format id and record length *)
Definition uniform (h : heap) (c : points) : Prop :=
  forall a, In a (c_pts c) ->
    exists p, nth_error h a = Some p /\ p_fmt p = c_fmt c /\ p_reclen p = c_reclen c.

(* program state: the point objects, and the Points objects built so far *)
Record pstate := mkPS { st_heap : heap; st_conts : list points }.

(* API calls; containers and points are named by index *)
Inductive pop :=
| PNewPoint (fmt eb : Z)                        (* Point ctor *)
| PMutate (a : nat) (o : point_op)              (* a Point setter through a shared pointer *)
| PNew (fmt eb : Z)                             (* Points(format, eb) *)
| PNewVec (l : list nat)                        (* Points(vector) *)
| PCreate (c : nat)                             (* CreatePoint *)
| PAdd (c a : nat)                              (* AddPoint *)
| PAddPoints (c d : nat)                        (* AddPoints(Points) *)
| PAddVec (c : nat) (l : list nat)              (* AddPoints(vector) *)
| PFormat (c : nat) (fmt : Z)                   (* ToPointFormat *)
| PUnpack (data : bytes) (fmt eb : Z) (scale offset : vec3)  (* Points::Unpack *)
| PSetF (d : fdim) (c : nat) (vs : list f64)
| PSetZ (d : zdim) (c : nat) (vs : list Z).

Definition get_cont (s : pstate) (c : nat) : outcome points :=
  match nth_error (st_conts s) c with Some x => Ok x | None => UB end.
Fixpoint set_nth {A} (l : list A) (n : nat) (x : A) : list A :=
  match l, n with [], _ => [] | _ :: l', O => x :: l' | y :: l', S n' => y :: set_nth l' n' x end.

Definition pstep (o : pop) (s : pstate) : outcome pstate :=
  let h := st_heap s in let cs := st_conts s in
  match o with
  | PNewPoint fmt eb => let! p := new_point fmt eb in Ok (mkPS (h ++ [p]) cs)
  | PMutate a po => let! p := hget h a in let! q := point_step po p in Ok (mkPS (hset h a q) cs)
  | PNew fmt eb => let! c := new_points fmt eb in Ok (mkPS h (cs ++ [c]))
  | PNewVec l => let! c := points_of_vec h l in Ok (mkPS h (cs ++ [c]))
  | PCreate i => let! c := get_cont s i in let! (h', _) := create_point h c in Ok (mkPS h' cs)
  | PAdd i a => let! c := get_cont s i in let! c' := add_point h c a in Ok (mkPS h (set_nth cs i c'))
  | PAddPoints i j => let! c := get_cont s i in let! d := get_cont s j in
                      let! c' := add_points c d in Ok (mkPS h (set_nth cs i c'))
  | PAddVec i l => let! c := get_cont s i in let! c' := add_points_vec h c l in Ok (mkPS h (set_nth cs i c'))
  | PFormat i fmt => let! c := get_cont s i in let! (h', c') := points_to_format fmt h c in
                     Ok (mkPS h' (set_nth cs i c'))
  | PUnpack data fmt eb sc of => let! (h', c) := points_unpack h data fmt eb sc of in Ok (mkPS h' (cs ++ [c]))
  | PSetF d i vs => let! c := get_cont s i in let! h' := array_set_f d vs h c in Ok (mkPS h' cs)
  | PSetZ d i vs => let! c := get_cont s i in let! h' := array_set_z d vs h c in Ok (mkPS h' cs)
  end.

(* argument types *)
Definition pop_wf (o : pop) : Prop :=
  match o with
  | PNewPoint _ eb | PNew _ eb => 0 <= eb <= 65535
  | PMutate _ po => op_wf po
  | PUnpack data _ eb _ _ => wf_bytes data /\ 0 <= eb <= 65535
  | PSetZ DClass _ vs | PSetZ DSrc _ vs => Forall (fun v => 0 <= v < 256) vs
  | PSetZ _ _ vs => Forall (fun v => 0 <= v < 65536) vs
  | _ => True
  end.

(* the calls that can break uniformity: converting the format of a point object that some
   (other) container holds, or making records longer than a uint16 can say *)
Definition shares (s : pstate) (i j : nat) : Prop :=
  i <> j /\ exists c d a, nth_error (st_conts s) i = Some c /\ nth_error (st_conts s) j = Some d /\
    In a (c_pts c) /\ In a (c_pts d).
Definition held (s : pstate) (a : nat) : Prop :=
  exists c, In c (st_conts s) /\ In a (c_pts c).
Definition safe_format_change (s : pstate) (o : pop) : Prop :=
  match o with
  | PMutate a (OFormat _) => ~ held s a
  | PFormat i fmt => (forall j, ~ shares s i j) /\
      forall c, nth_error (st_conts s) i = Some c -> c_pts c <> [] ->
        las_base fmt + (c_reclen c - las_base (c_fmt c)) <= 65535
  | _ => True
  end.

(* histories; a call that throws leaves the state as it was *)
Inductive preach : pstate -> Prop :=
| preach_init : preach (mkPS [] [])
| preach_ok s o s' : preach s -> pop_wf o -> safe_format_change s o -> pstep o s = Ok s' -> preach s'
| preach_throw s o : preach s -> pop_wf o -> pstep o s = Throw -> preach s.

(* the region of C09, per axis *)
From Coq Require Import Reals.
From Flocq Require Import Core IEEE754.BinarySingleNaN IEEE754.Binary.
From Verif Require Import ProofFloat.
Definition exact_axis (s o : f64) : Prop :=
  ffinite s = true /\ ffinite o = true /\ (bpow radix2 (-900) <= Rabs (R64 s))%R /\
  (Rabs (R64 s) <= bpow radix2 900)%R /\ (Rabs (R64 o) <= IZR (2 ^ 51) * Rabs (R64 s))%R.
Definition exact_region (s o : vec3) : Prop :=
  exact_axis (vx s) (vx o) /\ exact_axis (vy s) (vy o) /\ exact_axis (vz s) (vz o).
Open Scope Z_scope.
