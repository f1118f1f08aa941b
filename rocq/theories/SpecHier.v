(* SpecHier.v - what a hierarchy stored in a file is (COPC 1.0) *)
From Coq Require Import Permutation.
From Verif Require Import Base ModelKey ModelEntry ModelStream ModelWriter SpecKey SpecWriter.

(* a page as stored in a file: its key, where its entries are, and the entries *)
Record page_info := mkPI { pi_key : key; pi_off : Z; pi_size : Z; pi_ents : list entry }.
Definition find_page (k : key) (l : list page_info) : option page_info := find (fun i => key_eqb (pi_key i) k) l.
(* COPC: a point count of -1 marks an entry that refers to another page *)
Definition is_sub (e : entry) : bool := e_count e =? -1.
Definition all_entries (hs : list page_info) : list entry := flat_map pi_ents hs.
Definition node_entries (hs : list page_info) : list entry := filter (fun e => negb (is_sub e)) (all_entries hs).
Definition sub_entries (hs : list page_info) : list entry := filter is_sub (all_entries hs).

(* f stores the pages hs, the root page being the size bytes at off: every page is stored where it
   says; entries lie within their page's cell; no node is stored twice; every page but the root is
   referred to exactly once, from the page that most tightly encloses it *)
Record stored_hierarchy (f : bytes) (off size : Z) (hs : list page_info) : Prop := {
  sh_keys : NoDup (map pi_key hs);
  sh_root : exists r, In r hs /\ pi_key r = root_key /\ pi_off r = off /\ pi_size r = size;
  sh_page : forall i, In i hs -> 0 <= pi_off i /\ pi_size i = 32 * Z.of_nat (length (pi_ents i)) /\ pi_size i <= INT32_MAX /\
    pi_off i + pi_size i <= Z.of_nat (length f) /\ bytes_at (pi_off i) (pi_size i) f = flat_map entry_pack (pi_ents i);
  sh_entry : forall i e, In i hs -> In e (pi_ents i) -> wf_entry e = true /\ entry_valid e = true /\ child_of (e_key e) (pi_key i) = true;
  sh_nodes : NoDup (map e_key (node_entries hs));
  sh_subs : NoDup (map e_key (sub_entries hs));
  sh_sub : forall i e, In i hs -> In e (pi_ents i) -> is_sub e = true -> e_key e <> pi_key i /\
    exists j, In j hs /\ pi_key j = e_key e /\ pi_off j = e_offset e /\ pi_size j = e_size e /\
      (forall q, In q hs -> child_of (e_key e) (pi_key q) = true -> pi_key q = e_key e \/ kd (pi_key q) <= kd (pi_key i));
  sh_up : forall j, In j hs -> pi_key j <> root_key -> exists e, In e (sub_entries hs) /\ e_key e = pi_key j }.

(* the nodes of a stored hierarchy and the pages they are in are those of v *)
Definition stores_view (hs : list page_info) (v : view) : Prop :=
  (forall k n p, v k = Some (n, p) -> exists i, In i hs /\ pi_key i = p /\ In (n_entry n) (pi_ents i) /\ e_key (n_entry n) = k) /\
  (forall i e, In i hs -> In e (pi_ents i) -> is_sub e = false -> exists n, v (e_key e) = Some (n, pi_key i) /\ n_entry n = e).
(* the pages of a view: the root and every page holding a node *)
Definition page_of_view (v : view) (p : key) : Prop := p = root_key \/ exists k n, v k = Some (n, p).
(* node n is stored under k, in page p and nowhere else *)
Definition stored_only_in (hs : list page_info) (k : key) (n : node) (p : key) : Prop :=
  (exists i, In i hs /\ pi_key i = p /\ In (n_entry n) (pi_ents i)) /\ e_key (n_entry n) = k /\ is_sub (n_entry n) = false /\
  forall i e, In i hs -> In e (pi_ents i) -> is_sub e = false -> e_key e = k -> pi_key i = p /\ e = n_entry n.
(* an entry is stored in the size bytes at off *)
Definition has_entry (f : bytes) (off size : Z) (e : entry) : Prop :=
  exists i, 0 <= i /\ 32 * i + 32 <= size /\ bytes_at (off + 32 * i) 32 f = entry_pack e.
