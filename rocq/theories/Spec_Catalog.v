(** * Specification of the catalogue of a file *)

From Coq Require Import List NArith Bool String.
From Verif Require Import PyBase H5 Findings Core Validate Spec_Run.
Import ListNotations.

(** ** Files *)
Definition members (f : h5file) (o : nat) : dict link :=
  match nth_error f o with
  | Some ob => match ob_kind ob with KGroup links => links | _ => [] end
  | None => []
  end.

Definition is_group (f : h5file) (o : nat) : Prop :=
  exists ob links, nth_error f o = Some ob /\ ob_kind ob = KGroup links.

Definition attributes (f : h5file) (o : nat) : dict pyval :=
  match nth_error f o with Some ob => ob_attrs ob | None => [] end.

(** a link name as HDF5 has them: not empty, no slash, not "." *)
Definition link_name (n : pystr) : Prop := n <> [] /\ ~ In 47%N n /\ n <> [46%N].

(** only hard and soft links, properly named *)
Definition plain_file (f : h5file) : Prop :=
  forall o n l, In (n, l) (members f o) -> link_name n /\ forall file path, l <> LExt file path.

(** names of members and of attributes are distinct, as in every HDF5 file *)
Definition distinct_names (f : h5file) : Prop :=
  forall o, NoDup (map fst (members f o)) /\ NoDup (map fst (attributes f o)).

(** no link name contains '@' *)
Definition no_at_names (f : h5file) : Prop := forall o n l, In (n, l) (members f o) -> ~ In 64%N n.

(** following the names [p] from object [a] leads to object [b] *)
Inductive leads (f : h5file) : nat -> list pystr -> nat -> Prop :=
| le_here : forall a, leads f a [] a
| le_hard : forall a n p o b, dget n (members f a) = Some (LHard o) -> o < List.length f -> leads f o p b -> leads f a (n :: p) b
| le_soft : forall a n p text o b, dget n (members f a) = Some (LSoft text) ->
    leads f (if is_abs text then 0 else a) (path_comps text) o -> leads f o p b -> leads f a (n :: p) b.

(** "/", "/a", "/a/b" ... *)
Definition path_text (p : list pystr) : pystr :=
  match p with [] => [47%N] | _ => List.concat (map (fun n => 47%N :: n) p) end.

(** ** Class paths *)
Definition non_nexus : pystr := py "non-NeXus content".

(** the object's NX_class is text starting with NX *)
Definition nexus_class (E : env) (attrs : dict pyval) (s : pystr) : Prop :=
  exists v t, dget (py "NX_class") attrs = Some v /\ decode_byte_string E v = Ok (VStr s) /\ s = 78%N :: 88%N :: t.

Definition ends_with_slash (s : pystr) : Prop := exists d, s = d ++ [47%N].

(** class path of a member [n] that is object [o] ([grp]: it is a group with
    attributes [attrs]) of a group with class path [pcp] *)
Inductive child_class (E : env) (grp : Prop) (attrs : dict pyval) (n pcp : pystr) : pystr -> Prop :=
| cc_inherit : pcp = non_nexus -> child_class E grp attrs n pcp non_nexus
| cc_group : forall cls, pcp <> non_nexus -> ~ ends_with_slash pcp -> grp -> nexus_class E attrs cls ->
    child_class E grp attrs n pcp (pcp ++ 47%N :: cls)
| cc_other : pcp <> non_nexus -> ~ ends_with_slash pcp -> grp -> (forall cls, ~ nexus_class E attrs cls) ->
    child_class E grp attrs n pcp non_nexus
| cc_field : pcp <> non_nexus -> ~ ends_with_slash pcp -> ~ grp -> child_class E grp attrs n pcp (pcp ++ 47%N :: n)
(* a class path ending in a slash, e.g. from NX_class "NXfoo/", is passed on *)
| cc_slash : pcp <> non_nexus -> ends_with_slash pcp -> child_class E grp attrs n pcp pcp.

Inductive class_path (E : env) (f : h5file) : list pystr -> pystr -> Prop :=
| cp_root : class_path E f [] []
| cp_member : forall p pcp n o cp, class_path E f p pcp -> leads f 0 (p ++ [n]) o ->
    child_class E (is_group f o) (attributes f o) n pcp cp -> class_path E f (p ++ [n]) cp.

(** ** Members by lookup, any links *)
(** [h] is a member of [g] called [n] *)
Definition member (w : world) (g : handle) (n : pystr) (h : handle) : Prop :=
  In n (dkeys (links_of w g)) /\ getitem w g n = Ok h.

(** a chain of [k] memberships, starting at a group *)
Inductive chain (w : world) : nat -> handle -> handle -> Prop :=
| ch_nil : forall h, chain w 0 h h
| ch_cons : forall k g n h h', member w g n h -> chain w k h h' -> chain w (S k) g h'.

Definition reachable (w : world) (file : pystr) (h : handle) : Prop := exists k, chain w k (open_root file) h.

(** an attribute value that is text once decoded, or a list of texts *)
Definition texts (E : env) (v : pyval) : Prop :=
  (exists s, decode_byte_string E v = Ok (VStr s)) \/ (exists l, decode_byte_string E v = Ok (VList l)).

(** ** Items of a validator *)
(** item number [p] of [v] stands for the open object [g]: it is its item, or (the
    last) one of the items of its attributes when [g] is not NeXus *)
Definition stands_for (items : list vitem) (p : nat) (pit : vitem) (g : handle) : Prop :=
  nth_error items p = Some pit /\
  (it_obj pit = ONode g \/
   exists q qit val, nth_error items q = Some qit /\ it_obj qit = ONode g /\ it_cp qit = non_nexus
     /\ it_obj pit = OVal val /\ it_parent pit = Some q).

(** the class path of an item, from the item it was found in *)
Inductive item_class (E : env) (w : world) (items : list vitem) (it : vitem) : Prop :=
| ic_root : forall file, it_parent it = None -> it_obj it = ONode (open_root file) -> it_cp it = [] -> it_addr it = Some [47%N] ->
    item_class E w items it
| ic_object : forall p pit g n h name, it_parent it = Some p -> stands_for items p pit g -> it_obj it = ONode h -> member w g n h ->
    it_addr it = Some (h_name h) -> last_component (h_name h) name -> h_name h <> [47%N] ->
    child_class E (isHdf5Group w h = true) (attrs_of w h) name (it_cp pit) (it_cp it) -> item_class E w items it
(* an external link to the root of another file: such an object is called "/" *)
| ic_other_root : forall p pit g n h, it_parent it = Some p -> stands_for items p pit g -> it_obj it = ONode h -> member w g n h ->
    it_addr it = Some [47%N] -> h_name h = [47%N] -> it_cp it = [] -> item_class E w items it
| ic_attribute : forall p pit h k val, it_parent it = Some p -> nth_error items p = Some pit -> it_obj pit = ONode h ->
    In (k, val) (attrs_of w h) -> it_obj it = OVal val -> it_name it = Some k -> it_cp pit <> non_nexus ->
    it_cp it = it_cp pit ++ 64%N :: k -> it_addr it = Some (h_name h ++ 64%N :: k) -> item_class E w items it
| ic_other_attribute : forall p pit h k val, it_parent it = Some p -> nth_error items p = Some pit -> it_obj pit = ONode h ->
    In (k, val) (attrs_of w h) -> it_obj it = OVal val -> it_name it = Some k -> it_cp pit = non_nexus ->
    it_cp it = non_nexus -> it_addr it = None -> item_class E w items it.

(** the file got catalogued: validate() returned, or recorded something *)
Definition catalogued (v : validator) (r : res unit) : Prop := r = Ok tt \/ st_find (v_st v) <> [].

Definition kept_name : pystr -> Prop := fun c => c = [] \/ (exists t, c = py "/NX" ++ t) \/ c = non_nexus.

(** ** When cataloguing completes *)
(** every member of every reachable group can be opened: no dangling links *)
Definition all_open (w : world) (file : pystr) : Prop :=
  forall g n, reachable w file g -> In n (dkeys (links_of w g)) -> exists h, getitem w g n = Ok h.

(** no chain of groups below the root is as long as [limit]; in particular there is no cycle *)
Definition shallow (w : world) (file : pystr) (limit : nat) : Prop :=
  0 < limit /\ forall k h, chain w k (open_root file) h -> isHdf5Group w h = true -> k < limit.

(** @NX_class and @target of reachable objects are text (or lists of texts) *)
Definition described (E : env) (w : world) (file : pystr) : Prop :=
  forall h k v, reachable w file h -> In (k, v) (attrs_of w h) -> k = py "NX_class" \/ k = py "target" -> texts E v.

(** there are arbitrarily long chains of members, as with a link to a group it is in *)
Definition endless (w : world) (file : pystr) : Prop := forall k, exists h, chain w k (open_root file) h.

(** all links are hard, and [rank] decreases along them: the groups form no cycle *)
Definition hard_ranked (f : h5file) (rank : nat -> nat) : Prop :=
  forall o n l, In (n, l) (members f o) -> link_name n /\ exists o', l = LHard o' /\ o' < List.length f /\ rank o' < rank o.
