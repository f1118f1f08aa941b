(* SpecPoint.v - vocabulary for the point properties *)
From Verif Require Import Base ModelFloat ModelGeom ModelPoint.

(* LAS 1.4 point data record formats 6, 7, 8: base sizes *)
Definition las_base (fmt : Z) : Z := if fmt =? 6 then 30 else if fmt =? 7 then 36 else 38.

(* the values a point object can hold: C++ field types, and the class invariant *)
Definition wf_point (p : point) : Prop :=
  (6 <= p_fmt p <= 8) /\
  p_reclen p = las_base (p_fmt p) + Z.of_nat (length (p_eb p)) /\
  Z.of_nat (length (p_eb p)) <= 65535 /\
  0 <= p_intensity p < 65536 /\ 0 <= p_returns p < 256 /\ 0 <= p_flags p < 256 /\
  0 <= p_class p < 256 /\ 0 <= p_user p < 256 /\ -32768 <= p_angle p < 32768 /\
  0 <= p_src p < 65536 /\
  0 <= p_red p < 65536 /\ 0 <= p_green p < 65536 /\ 0 <= p_blue p < 65536 /\ 0 <= p_nir p < 65536 /\
  wf_bytes (p_eb p) /\
  p_has_rgb p = (7 <=? p_fmt p) /\ p_has_nir p = (p_fmt p =? 8).

(* the public mutators of a point *)
Inductive point_op :=
| OX (v : f64) | OY (v : f64) | OZ (v : f64) | OIntensity (v : Z) | OReturnsBits (v : Z) | OFlagsBits (v : Z)
| OClass (v : Z) | OUser (v : Z) | OAngle (v : Z) | OSrc (v : Z) | OGps (v : f64)
| OBit (f : nat) (v : Z)                  (* one of the nine bit-field setters *)
| ORgb (r g b : Z) | ORed (v : Z) | OGreen (v : Z) | OBlue (v : Z) | ONir (v : Z) | OEb (l : bytes)
| OFormat (fmt : Z).

(* the nine bit-field accessors *)
Inductive acc := ReturnNumber | NumberOfReturns | Synthetic | KeyPoint | Withheld | Overlap
  | ScannerChannel | ScanDirectionFlag | EdgeOfFlightLineFlag.
Definition acc_get (f : acc) (p : point) : Z :=
  match f with
  | ReturnNumber => ret_number p | NumberOfReturns => num_returns p
  | Synthetic => synthetic p | KeyPoint => key_point p | Withheld => withheld p | Overlap => overlap p
  | ScannerChannel => scanner_channel p | ScanDirectionFlag => scan_direction p
  | EdgeOfFlightLineFlag => edge_of_flight p
  end.
Definition acc_set (f : acc) (v : Z) (p : point) : outcome point :=
  match f with
  | ReturnNumber => set_ret_number v p | NumberOfReturns => set_num_returns v p
  | Synthetic => set_synthetic v p | KeyPoint => set_key_point v p | Withheld => set_withheld v p
  | Overlap => set_overlap v p | ScannerChannel => set_scanner_channel v p
  | ScanDirectionFlag => set_scan_direction v p | EdgeOfFlightLineFlag => set_edge_of_flight v p
  end.
(* C++ argument type: uint8_t for the first two and the channel, bool (0/1) otherwise *)
Definition acc_arg (f : acc) (v : Z) : Prop :=
  match f with ReturnNumber | NumberOfReturns | ScannerChannel => 0 <= v <= 255 | _ => 0 <= v <= 1 end.
(* largest value the LAS field can hold *)
Definition acc_max (f : acc) : Z :=
  match f with ReturnNumber | NumberOfReturns => 15 | ScannerChannel => 3 | _ => 1 end.
Definition acc_of_nat (n : nat) : acc :=
  match n with
  | 0 => ReturnNumber | 1 => NumberOfReturns | 2 => Synthetic | 3 => KeyPoint | 4 => Withheld | 5 => Overlap
  | 6 => ScannerChannel | 7 => ScanDirectionFlag | _ => EdgeOfFlightLineFlag
  end%nat.

(* the arguments have their C++ types *)
Definition op_wf (o : point_op) : Prop :=
  match o with
  | OX _ | OY _ | OZ _ | OGps _ => True
  | OIntensity v | OSrc v | ORed v | OGreen v | OBlue v | ONir v => 0 <= v < 65536
  | OReturnsBits v | OFlagsBits v | OClass v | OUser v => 0 <= v < 256
  | OAngle v => -32768 <= v < 32768
  | OBit f v => acc_arg (acc_of_nat f) v
  | ORgb r g b => 0 <= r < 65536 /\ 0 <= g < 65536 /\ 0 <= b < 65536
  | OEb l => wf_bytes l
  | OFormat _ => True
  end.

Definition point_step (o : point_op) (p : point) : outcome point :=
  match o with
  | OX v => Ok (with_x v p) | OY v => Ok (with_y v p) | OZ v => Ok (with_z v p)
  | OIntensity v => Ok (with_intensity v p) | OReturnsBits v => Ok (with_returns v p)
  | OFlagsBits v => Ok (with_flags v p) | OClass v => Ok (with_class v p) | OUser v => Ok (with_user v p)
  | OAngle v => Ok (with_angle v p) | OSrc v => Ok (with_src v p) | OGps v => Ok (with_gps v p)
  | OBit f v => acc_set (acc_of_nat f) v p
  | ORgb r g b => set_rgb r g b p | ORed v => set_red v p | OGreen v => set_green v p | OBlue v => set_blue v p
  | ONir v => set_nir v p | OEb l => set_extra_bytes l p | OFormat f => to_point_format f p
  end.

(* a history; a rejected (throwing) call leaves the point as it was *)
Fixpoint point_run (ops : list point_op) (p : point) : point :=
  match ops with
  | [] => p
  | o :: ops' => point_run ops' (match point_step o p with Ok p' => p' | _ => p end)
  end.

(* everything but the coordinates *)
Definition same_attributes (p q : point) : Prop :=
  p_fmt p = p_fmt q /\ p_reclen p = p_reclen q /\ p_intensity p = p_intensity q /\
  p_returns p = p_returns q /\ p_flags p = p_flags q /\ p_class p = p_class q /\ p_angle p = p_angle q /\
  p_user p = p_user q /\ p_src p = p_src q /\ p_gps p = p_gps q /\
  (p_has_rgb p = true -> p_red p = p_red q /\ p_green p = p_green q /\ p_blue p = p_blue q) /\
  (p_has_nir p = true -> p_nir p = p_nir q) /\
  p_has_rgb p = p_has_rgb q /\ p_has_nir p = p_has_nir q /\ p_eb p = p_eb q.

Definition slice (b : bytes) (off len : nat) : bytes := firstn len (skipn off b).
