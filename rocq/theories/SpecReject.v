(* SpecReject.v - calls that a Writer must refuse *)
From Verif Require Import Base ModelFloat ModelKey ModelGeom ModelEntry ModelPoint ModelPoints ModelHeader ModelVlr ModelExtents ModelConfig
  ModelStream ModelWriter SpecKey SpecPoint SpecConfig SpecWriter.

(* k is the cell p or lies inside it *)
Definition inside (k p : key) : Prop :=
  kd p <= kd k /\ kx p = kx k / 2 ^ (kd k - kd p) /\ ky p = ky k / 2 ^ (kd k - kd p) /\ kz p = kz k / 2 ^ (kd k - kd p).
Definition bad_keys (k p : key) : Prop := ~ valid k \/ ~ valid p \/ ~ inside k p.
(* some accepted call of the log added a node under k *)
Definition added (k : key) (l : log) : Prop := exists op n p, In (op, Ok (Some n)) l /\ add_keys op = Some (k, p).
(* a call that is wrong for a Writer with header h after the calls of l *)
Definition bad_call (h : las_header) (l : log) (op : wop) : Prop :=
  match op with
  | WAdd k data p => data = [] \/ Z.of_nat (length data) mod h_reclen h <> 0 \/ bad_keys k p
  | WAddPoints k hp c p => c_pts c = [] \/ c_fmt c <> h_fmt h \/ c_reclen c <> h_reclen h \/ (points_pack hp c (h_scale h) (h_offset h) <> UB /\ bad_keys k p)
  | WAddCompressed k data n p => n = 0 \/ bad_keys k p
  | WMove k p => bad_keys k p \/ ~ added k l
  | _ => False
  end.
