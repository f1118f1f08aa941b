(* ModelConfig.v - file configurations, by value and with their shared pointers.
   Source: cpp/include/copc-lib/las/laz_config.hpp, cpp/src/las/laz_config.cpp,
   cpp/include/copc-lib/copc/copc_config.hpp, cpp/src/copc/copc_config.cpp,
   cpp/src/io/copc_writer_public.cpp (InitWriter), cpp/src/io/laz_writer.cpp (constructor) *)
From Verif Require Import Base ModelFloat ModelGeom ModelPoint ModelHeader ModelVlr ModelExtents.

(* laz_config.hpp:44-46 header_, wkt_, eb_vlr_ *)
Record laz_config := mkLaz { z_hdr : las_header; z_wkt : bytes; z_ebs : list ebfield }.
(* copc_config.hpp:41-42 adds copc_info_ and copc_extents_ *)
Record config := mkCfg { c_hdr : las_header; c_wkt : bytes; c_ebs : list ebfield; c_info : copc_info; c_exts : extents }.

(* laz_config.cpp:10-20; the int sum is narrowed to the uint16 record length *)
Definition new_laz_config (fmt : Z) (s o : vec3) (wkt : bytes) (ebs : list ebfield) (copc : bool) : outcome laz_config :=
  if (fmt <? 6) || (8 <? fmt) then Throw
  else
    let! b := base_size fmt in
    let! n := num_bytes_from_eb ebs in
    Ok (mkLaz (new_header fmt (to_u 16 (b + n)) s o copc) wkt ebs).

(* copc_config.cpp:7-14 *)
Definition new_config (fmt : Z) (s o : vec3) (wkt : bytes) (ebs : list ebfield) (ext : bool) : outcome config :=
  let! z := new_laz_config fmt s o wkt ebs true in
  let! x := new_extents fmt (Z.of_nat (length ebs)) ext in
  Ok (mkCfg (z_hdr z) wkt ebs default_info x).

(* copc_config.hpp:22-26 constructor from elements: sets the copc flag, copies the extents *)
Definition config_of (h : las_header) (i : copc_info) (x : extents) (wkt : bytes) (ebs : list ebfield) : outcome config :=
  let! x := copy_extents x in Ok (mkCfg (header_with_copc h true) wkt ebs i x).
(* copc_config.hpp:53-57 copy constructor; CopcExtents() const copies once more (copc_config.hpp:60-64) *)
Definition copy_config (c : config) : outcome config :=
  let! x := copy_extents (c_exts c) in config_of (c_hdr c) (c_info c) x (c_wkt c) (c_ebs c).

(* laz_config.hpp:56-59 LazConfigWriter(const LazConfig&) *)
Definition laz_writer_config (z : laz_config) : laz_config := mkLaz (header_with_copc (z_hdr z) false) (z_wkt z) (z_ebs z).

(* optional overrides of the Writer constructor *)
Record overrides := mkOv { ov_fmt : option Z; ov_scale : option vec3; ov_offset : option vec3; ov_wkt : option bytes;
  ov_ebs : option (list ebfield); ov_ext : option bool }.
Definition no_overrides : overrides := mkOv None None None None None None.
Definition ov {A} (o : option A) (d : A) : A := match o with Some a => a | None => d end.
Definition is_some {A} (o : option A) : bool := match o with Some _ => true | None => false end.
Definition any_override (v : overrides) : bool :=
  is_some (ov_fmt v) || is_some (ov_scale v) || is_some (ov_offset v) || is_some (ov_wkt v) || is_some (ov_ebs v) || is_some (ov_ext v).

(* copc_writer_public.cpp:11-64; every CopcExtents() const call makes a checked copy *)
Definition init_writer (c : config) (v : overrides) : outcome config :=
  if any_override v then
    let fmt := ov (ov_fmt v) (h_fmt (c_hdr c)) in
    let scale := ov (ov_scale v) (h_scale (c_hdr c)) in
    let offset := ov (ov_offset v) (h_offset (c_hdr c)) in
    let wkt := ov (ov_wkt v) (c_wkt c) in
    let ebs := ov (ov_ebs v) (c_ebs c) in
    let! x := copy_extents (c_exts c) in
    let ext := ov (ov_ext v) (xs_ext x) in
    let! b := base_size fmt in
    let! n := num_bytes_from_eb ebs in
    let h := header_with (c_hdr c) fmt (to_u 16 (b + n)) scale offset in
    let! x := copy_extents (c_exts c) in
    let! x := reslot_extents x fmt (Z.of_nat (length ebs)) ext in
    let! c' := config_of h (c_info c) x wkt ebs in
    copy_config c'
  else copy_config c.

(* ---- the same objects with their shared pointers ---- *)
(* a CopcExtents object: slots are shared_ptr<CopcExtent> *)
Record xobj := mkXobj { xo_fmt : Z; xo_ext : bool; xo_slots : list nat }.
Record heap := mkHeap { hp_h : list las_header; hp_i : list copc_info; hp_c : list extent; hp_x : list xobj }.
(* a CopcConfigWriter: three shared_ptr members and two immutable ones (no setter exists for them) *)
Record cfgp := mkCfgp { cp_h : nat; cp_i : nat; cp_x : nat; cp_wkt : bytes; cp_ebs : list ebfield }.

Fixpoint deref_cells (cs : list extent) (slots : list nat) : option (list extent) :=
  match slots with
  | [] => Some []
  | s :: r => let? e := nth_error cs s in let? es := deref_cells cs r in Some (e :: es)
  end.
Definition deref_x (hp : heap) (x : nat) : option extents :=
  let? o := nth_error (hp_x hp) x in
  let? es := deref_cells (hp_c hp) (xo_slots o) in
  Some (mkExts (xo_fmt o) (xo_ext o) es).
(* what the const getters of the configuration return *)
Definition deref (hp : heap) (p : cfgp) : option config :=
  let? h := nth_error (hp_h hp) (cp_h p) in
  let? i := nth_error (hp_i hp) (cp_i p) in
  let? x := deref_x hp (cp_x p) in
  Some (mkCfg h (cp_wkt p) (cp_ebs p) i x).

(* make_shared of every part; CopcExtents' constructors allocate one extent per slot *)
Definition alloc_x (hp : heap) (x : extents) : heap * nat :=
  let n := length (hp_c hp) in
  (mkHeap (hp_h hp) (hp_i hp) (hp_c hp ++ xs_items x)
     (hp_x hp ++ [mkXobj (xs_fmt x) (xs_ext x) (seq n (length (xs_items x)))]), length (hp_x hp)).
Definition alloc_cfg (hp : heap) (c : config) : heap * cfgp :=
  let '(hp1, x) := alloc_x hp (c_exts c) in
  (mkHeap (hp_h hp1 ++ [c_hdr c]) (hp_i hp1 ++ [c_info c]) (hp_c hp1) (hp_x hp1),
   mkCfgp (length (hp_h hp1)) (length (hp_i hp1)) x (c_wkt c) (c_ebs c)).

Definition upd {A} (n : nat) (v : A) (l : list A) : list A := firstn n l ++ match skipn n l with [] => [] | _ :: r => v :: r end.

(* the objects a program holds: configurations and the configurations of its writers *)
Record world := mkWorld { wd_heap : heap; wd_cfgs : list cfgp }.

(* what a program can do to configurations through the public API *)
Inductive cfg_op :=
| CNew (fmt : Z) (s o : vec3) (wkt : bytes) (ebs : list ebfield) (ext : bool)   (* CopcConfigWriter(...) *)
| CCopy (i : nat)                                     (* copy constructor *)
| CWriter (i : nat) (v : overrides)                   (* Writer(stream, config i, overrides): index of its CopcConfig() *)
| CSetHdr (i : nat) (h : las_header)                  (* any change through the LasHeader() pointer of i *)
| CSetInfo (i : nat) (v : copc_info)                  (* any change through the CopcInfo() pointer of i *)
| CSetExtent (i slot : nat) (e : extent)              (* any change through an extent pointer of i *)
| CSetSlot (i slot j slot' : nat).                    (* CopcExtents setter of i given an extent pointer of j *)

Definition lift {A} (o : option A) : outcome A := match o with Some a => Ok a | None => UB end.
Definition push_cfg (w : world) (c : config) : world :=
  let '(hp, p) := alloc_cfg (wd_heap w) c in mkWorld hp (wd_cfgs w ++ [p]).
Definition value (w : world) (i : nat) : option config :=
  let? p := nth_error (wd_cfgs w) i in deref (wd_heap w) p.

Definition cfg_step (w : world) (op : cfg_op) : outcome world :=
  let hp := wd_heap w in
  match op with
  | CNew fmt s o wkt ebs ext => let! c := new_config fmt s o wkt ebs ext in Ok (push_cfg w c)
  | CCopy i => let! c := lift (value w i) in let! c := copy_config c in Ok (push_cfg w c)
  | CWriter i v => let! c := lift (value w i) in let! c := init_writer c v in Ok (push_cfg w c)
  | CSetHdr i h =>
      let! p := lift (nth_error (wd_cfgs w) i) in
      Ok (mkWorld (mkHeap (upd (cp_h p) h (hp_h hp)) (hp_i hp) (hp_c hp) (hp_x hp)) (wd_cfgs w))
  | CSetInfo i v =>
      let! p := lift (nth_error (wd_cfgs w) i) in
      Ok (mkWorld (mkHeap (hp_h hp) (upd (cp_i p) v (hp_i hp)) (hp_c hp) (hp_x hp)) (wd_cfgs w))
  | CSetExtent i slot e =>
      let! p := lift (nth_error (wd_cfgs w) i) in
      let! o := lift (nth_error (hp_x hp) (cp_x p)) in
      let! a := lift (nth_error (xo_slots o) slot) in
      Ok (mkWorld (mkHeap (hp_h hp) (hp_i hp) (upd a e (hp_c hp)) (hp_x hp)) (wd_cfgs w))
  | CSetSlot i slot j slot' =>
      let! p := lift (nth_error (wd_cfgs w) i) in
      let! q := lift (nth_error (wd_cfgs w) j) in
      let! o := lift (nth_error (hp_x hp) (cp_x p)) in
      let! o' := lift (nth_error (hp_x hp) (cp_x q)) in
      let! a := lift (nth_error (xo_slots o') slot') in
      let! _ := lift (nth_error (xo_slots o) slot) in
      Ok (mkWorld (mkHeap (hp_h hp) (hp_i hp) (hp_c hp)
            (upd (cp_x p) (mkXobj (xo_fmt o) (xo_ext o) (upd slot a (xo_slots o))) (hp_x hp))) (wd_cfgs w))
  end.
(* a call that throws changes nothing *)
Fixpoint cfg_run (w : world) (ops : list cfg_op) : world :=
  match ops with
  | [] => w
  | op :: r => cfg_run (match cfg_step w op with Ok w' => w' | _ => w end) r
  end.

(* extents.cpp:71-103 on pointers: the new object shares the copied extents with the old one *)
Definition reslot_x (hp : heap) (x : nat) (fmt neb : Z) (ext : bool) : outcome (heap * nat) :=
  let! o := lift (nth_error (hp_x hp) x) in
  let! fresh := new_extents fmt neb ext in
  let '(hp1, n) := alloc_x hp fresh in
  let! d := lift (nth_error (hp_x hp1) n) in
  let! l := copy_range 14 0 0 (xo_slots o) (xo_slots d) in
  let! l := (if (6 <? fmt) && (6 <? xo_fmt o) then copy_range 3 14 14 (xo_slots o) l else Ok l) in
  let! l := (if (fmt =? 8) && (xo_fmt o =? 8) then copy_range 1 17 17 (xo_slots o) l else Ok l) in
  let! ob := base_dims (xo_fmt o) in
  let! b := base_dims fmt in
  let neb := to_u 16 neb in
  let! l := (if neb =? to_u 64 (Z.of_nat (length (xo_slots o)) - ob)
             then copy_range (Z.to_nat neb) (Z.to_nat ob) (Z.to_nat b) (xo_slots o) l else Ok l) in
  Ok (mkHeap (hp_h hp1) (hp_i hp1) (hp_c hp1) (upd n (mkXobj fmt ext l) (hp_x hp1)), n).

(* LazConfigWriter has no copy constructor of its own: the implicit one copies the pointers.
   laz_writer.cpp:8-14 therefore keeps the caller's header object. *)
Record lazp := mkLazp { lp_h : nat; lp_wkt : bytes; lp_ebs : list ebfield }.
Definition deref_laz (hs : list las_header) (p : lazp) : option laz_config :=
  let? h := nth_error hs (lp_h p) in Some (mkLaz h (lp_wkt p) (lp_ebs p)).
Definition laz_writer_copy (p : lazp) : lazp := p.
